(** ls and tree. *)
From Verif Require Import Base CodecModel PathModel PathSpec PathProofs FsModel FsSpec FsReachSpec FsViewSpec FsAbortSpec FsView1 FsCopyModel FsCopyTree ToolModel ToolSpec ToolProofs1 ToolProofs2.
Local Open Scope list_scope.
Local Open Scope Z_scope.

Definition pre (l : list string) (r : option (view * list string * ended)) : option (view * list string * ended) :=
  match r with Some (a, ss, e) => Some (a, l ++ ss, e) | None => None end.
Lemma pre_nil r : pre [] r = r.
Proof. destruct r as [[[? ?] ?]|]; reflexivity. Qed.
Lemma pre_pre l m r : pre l (pre m r) = pre (l ++ m) r.
Proof. destruct r as [[[? ?] ?]|]; [cbn; rewrite app_assoc; reflexivity|reflexivity]. Qed.
Lemma say_pre a c s p : aprog a c (Say s p) = pre [s] (aprog a c p).
Proof. cbn [aprog]. destruct (aprog a c p) as [[[? ?] ?]|]; reflexivity. Qed.

Definition dots (f : string) : bool := String.eqb f "." || String.eqb f "..".
(** The names of a list of records that are not dots *)
Definition names (l : list (string * Z)) : list string := filter (fun f => dots f = false) (l.*1).
Definition outs (o : string -> list string) (l : list (string * Z)) : list string := concat (map o (names l)).

Lemma names_app l m : names (l ++ m) = names l ++ names m.
Proof. unfold names. rewrite fmap_app. apply filter_app. Qed.
Lemma outs_app o l m : outs o (l ++ m) = outs o l ++ outs o m.
Proof. unfold outs. rewrite names_app, map_app, concat_app. reflexivity. Qed.
Lemma names_listing a q i f : f ∈ names (map_to_list (listing a q i)) <-> f <> "." /\ f <> ".." /\ is_Some (vw_at a !! (q ++ [f])).
Proof.
  rewrite <- listing_named. unfold names, named. rewrite elem_of_list_filter. split.
  - intros [H1 H2]. apply orb_false_iff in H1 as [H1 H3]. apply String.eqb_neq in H1, H3. split; [exact H1|split; [exact H3|exact H2]].
  - intros (H1 & H2 & H3). split; [|exact H3]. apply orb_false_iff. split; apply String.eqb_neq; assumption.
Qed.
Lemma names_nodup a q i : NoDup (names (map_to_list (listing a q i))).
Proof. apply NoDup_filter, NoDup_fst_map_to_list. Qed.

(** What one buffer takes *)
Lemma records_take l : forall u n, (forall e, e ∈ l -> record_len (fst e) <= n) -> 0 <= u -> exists k, records l u n = (take k l, u + sum_len (take k l)) /\ (u = 0 -> l <> [] -> (0 < k)%nat) /\ (k <= length l)%nat /\ (u <= n -> u + sum_len (take k l) <= n).
Proof.
  induction l as [|e l IH]; intros u n He Hu; cbn [records].
  - exists 0%nat. split; [unfold sum_len; cbn; f_equal; lia|]. split; [congruence|]. split; [cbn; lia|]. unfold sum_len. cbn. lia.
  - destruct (Z.ltb_spec n (u + record_len (fst e))) as [Hlt|Hge].
    + exists 0%nat. split; [unfold sum_len; cbn; f_equal; lia|]. split; [|split; [cbn; lia|unfold sum_len; cbn; lia]].
      intros -> _. pose proof (He e (elem_of_list_here _ _)). lia.
    + pose proof (record_pos (fst e)). destruct (IH (u + record_len (fst e)) n) as (k & E & _ & Hk & Hle); [intros e' H'; apply He; right; exact H'|lia|].
      exists (S k). rewrite E. cbn [take]. change (sum_len (e :: take k l)) with (record_len (fst e) + sum_len (take k l)).
      split; [f_equal; lia|]. split; [lia|]. split; [cbn; lia|]. intros _. specialize (Hle Hge). lia.
Qed.

Section S.
Context (c : Z).

Section visit.
Context (a : view) (pr : aproc) (q : list string) (path : string) (i : Z) (V : string -> bool -> prog -> prog) (o : string -> list string) (fd : Z).
Context (Hne : path <> "") (Hq : where_is (q_cwd pr) path = q) (Hp : vw_proc a !! c = Some pr) (Hi : vw_at a !! q = Some i) (Hd : is_adir a i = true).
Context (Hfn : q_tab pr !! fd = None) (Hfd : 0 <= fd < 1024).
Context (Htrue : forall f j, vw_at a !! (q ++ [f]) = Some j -> says_truth a j).
Context (Hlen : forall f j, vw_at a !! (q ++ [f]) = Some j -> record_len f <= 65536).
Context (HV : forall pos f j k, good (opened c a pr fd i pos) -> vw_at a !! (q ++ [f]) = Some j ->
  aprog (opened c a pr fd i pos) c (V (down path f) (is_adir a j) k) = pre (o f) (aprog (opened c a pr fd i pos) c k)).

Lemma entries_print pos k : good (opened c a pr fd i pos) -> forall l, (forall f, f ∈ names l -> is_Some (vw_at a !! (q ++ [f]))) ->
  aprog (opened c a pr fd i pos) c (entries path V l k) = pre (outs o l) (aprog (opened c a pr fd i pos) c k).
Proof.
  intros Hg l. induction l as [|[f x] r IHl]; intros Hl.
  - cbn [entries]. symmetry. apply pre_nil.
  - cbn [entries]. fold (dots f). unfold outs. unfold names in Hl |- *. cbn [fmap list_fmap fst] in Hl |- *. destruct (dots f) eqn:Ed.
    + rewrite filter_cons_False in Hl |- * by (rewrite Ed; discriminate). apply IHl. exact Hl.
    + rewrite filter_cons_True in Hl |- * by exact Ed. destruct (Hl f (elem_of_list_here _ _)) as [j Hj].
      destruct (good_at _ _ _ Hg Hj) as [Hcan [ob Ho]].
      assert (Hgn : good_name f) by (apply Forall_app in Hcan as [_ Hcan]; exact (proj1 (Forall_singleton _ _) Hcan)).
      destruct (down_norm (q_cwd pr) path f Hne Hgn) as [Hne' Hq']. rewrite <- !where_is_eq, Hq in Hq'.
      edestruct (do_stat c (opened c a pr fd i pos) (AProc (q_cwd pr) (<[fd := DFile i pos 0]> (q_tab pr))) (down path f) j ob) as (n0 & s0 & d0 & Es);
        [apply opened_proc|cbn [q_cwd]; rewrite Hq'; exact Hj|exact Ho|]. rewrite Es. cbv beta iota.
      pose proof (Htrue _ _ Hj) as Ht. unfold says_truth in Ht. change (vw_obj (opened c a pr fd i pos)) with (vw_obj a) in Ho. rewrite Ho in Ht.
      change (is_dir (o_mode ob)) with (says_dir (o_mode ob)). rewrite Ht, (HV pos f j _ Hg Hj), IHl.
      * rewrite pre_pre. reflexivity.
      * intros g Hgl. apply Hl. right. exact Hgl.
Qed.

Lemma rounds_print : forall n pos k, good (opened c a pr fd i pos) -> 0 <= pos <= Z.of_nat (size (listing a q i)) -> Z.of_nat (size (listing a q i)) - pos < Z.of_nat n ->
  good a /\ aprog (opened c a pr fd i pos) c (rounds n path V fd k) = pre (outs o (drop (Z.to_nat pos) (map_to_list (listing a q i)))) (aprog a c k).
Proof.
  set (l := map_to_list (listing a q i)).
  assert (Hll : Z.of_nat (length l) = Z.of_nat (size (listing a q i))) by (unfold l; f_equal).
  assert (Hln : forall f, f ∈ names l -> is_Some (vw_at a !! (q ++ [f]))) by (intros f Hf; apply names_listing in Hf; tauto).
  induction n as [|n IH]; intros pos k Hg Hpos Hn; [lia|]. cbn [rounds].
  match goal with |- context [Call (Getdents fd 65536) ?kk] => pose proof (do_getdents c a pr fd q i pos kk Hg Hi Hd) as G end. cbv zeta in G. fold l in G.
  destruct (records_take (drop (Z.to_nat pos) l) 0 65536) as (m & Er & Hm0 & Hm1 & Hm2); [|lia|].
  { intros [f x] He. assert (He' : (f, x) ∈ l) by (rewrite <- (take_drop (Z.to_nat pos) l); apply elem_of_app; right; exact He).
    unfold l in He'. apply elem_of_map_to_list in He'. rewrite listing_look in He'. cbn [fst].
    destruct (String.eqb_spec f ".") as [->|]; [unfold record_len; cbn; lia|]. destruct (String.eqb_spec f "..") as [->|]; [unfold record_len; cbn; lia|]. eauto. }
  rewrite Er in G. cbn [fst snd] in G. rewrite small_i32 in G by (pose proof (sum_nonneg (take m (drop (Z.to_nat pos) l))); specialize (Hm2 ltac:(lia)); lia).
  change (0 + sum_len (take m (drop (Z.to_nat pos) l))) with (sum_len (take m (drop (Z.to_nat pos) l))) in G.
  assert (Hlt : length (take m (drop (Z.to_nat pos) l)) = m) by (rewrite take_length; lia).
  rewrite drop_length in Hm1.
  replace (Z.min (pos + zlen (take m (drop (Z.to_nat pos) l))) (Z.of_nat (size (listing a q i)))) with (pos + Z.of_nat m) in G by (unfold zlen; rewrite Hlt; lia).
  destruct G as [Hg' E]. rewrite E. cbv beta iota. clear E.
  destruct (Z.eqb_spec (sum_len (take m (drop (Z.to_nat pos) l))) 0) as [E0|E0].
  - assert (Hnil : drop (Z.to_nat pos) l = []).
    { destruct (drop (Z.to_nat pos) l) as [|e r] eqn:Edr; [reflexivity|]. exfalso. assert (Hm : (0 < m)%nat) by (apply Hm0; [reflexivity|discriminate]).
      destruct m as [|m]; [lia|]. cbn [take] in E0. change (sum_len (e :: take m r)) with (record_len (fst e) + sum_len (take m r)) in E0.
      pose proof (record_pos (fst e)). pose proof (sum_nonneg (take m r)). lia. }
    rewrite Hnil. destruct (do_close c a pr fd i (pos + Z.of_nat m) (fun _ => k) Hg' Hp Hfn Hfd) as [Hga E]. split; [exact Hga|]. rewrite E. symmetry. apply pre_nil.
  - assert (Hm : (0 < m)%nat) by (destruct m as [|m]; [exfalso; apply E0; reflexivity|lia]).
    destruct (IH (pos + Z.of_nat m) k Hg' ltac:(lia) ltac:(lia)) as [Hga E]. split; [exact Hga|].
    rewrite (entries_print _ _ Hg').
    + rewrite E, pre_pre, <- outs_app. f_equal. f_equal. replace (Z.to_nat (pos + Z.of_nat m)) with (Z.to_nat pos + m)%nat by lia. rewrite <- drop_drop. apply take_drop.
    + intros f Hf. apply Hln. rewrite <- (take_drop (Z.to_nat pos) l), names_app. apply elem_of_app. right.
      rewrite <- (take_drop m (drop (Z.to_nat pos) l)), names_app. apply elem_of_app. left. exact Hf.
Qed.
End visit.

(** A visitor that prints [o f] for each child [f] *)
Lemma visit_prints a pr q path i V o n : good a -> path <> "" -> where_is (q_cwd pr) path = q -> vw_proc a !! c = Some pr -> vw_at a !! q = Some i -> is_adir a i = true ->
  Z.of_nat (size (q_tab pr)) < 1024 -> (forall f j, vw_at a !! (q ++ [f]) = Some j -> says_truth a j) -> (forall f j, vw_at a !! (q ++ [f]) = Some j -> record_len f <= 65536) ->
  (size (listing a q i) < n)%nat ->
  (forall fd pos f j k, q_tab pr !! fd = None -> good (opened c a pr fd i pos) -> vw_at a !! (q ++ [f]) = Some j ->
    aprog (opened c a pr fd i pos) c (V (down path f) (is_adir a j) k) = pre (o f) (aprog (opened c a pr fd i pos) c k)) ->
  forall k, aprog a c (visit n path V k) = pre (outs o (map_to_list (listing a q i))) (aprog a c k).
Proof.
  intros Hg Hne Hq Hp Hi Hd Hsz Ht Hlen Hn HV k. destruct (do_open c a pr path q i Hg Hp Hne Hq Hi Hsz) as (fd & Hfn & Hfd & Hg2 & E2).
  unfold visit. rewrite E2. destruct (Z.ltb_spec fd 0) as [|_]; [lia|].
  apply (rounds_print a pr q path i V o fd Hne Hq Hp Hi Hd Hfn Hfd Ht Hlen (fun pos f j k' => HV fd pos f j k' Hfn) n 0 k Hg2); lia.
Qed.

(** ** ls *)
Lemma concat_single {A B} (f : A -> B) l : concat (map (fun x => [f x]) l) = map f l.
Proof. induction l as [|x l IH]; [reflexivity|]. cbn. rewrite IH. reflexivity. Qed.

Lemma ls_ok a pr q path i n : good a -> path <> "" -> where_is (q_cwd pr) path = q -> vw_proc a !! c = Some pr -> vw_at a !! q = Some i -> is_adir a i = true -> says_truth a i ->
  Z.of_nat (size (q_tab pr)) < 1024 -> (forall f j, vw_at a !! (q ++ [f]) = Some j -> says_truth a j) -> (forall f j, vw_at a !! (q ++ [f]) = Some j -> record_len f <= 65536) ->
  (size (listing a q i) < n)%nat ->
  forall k, aprog a c (ls n path k) = pre (map (ls_word a q path) (names (map_to_list (listing a q i))) ++ [String (Ascii.ascii_of_nat 10) ""]) (aprog a c k).
Proof.
  intros Hg Hne Hq Hp Hi Hd Hti Hsz Ht Hlen Hn k. destruct (good_at _ _ _ Hg Hi) as [_ [o Ho]]. unfold ls.
  edestruct (do_stat c a pr path i o) as (n0 & s0 & d0 & Es); [exact Hp|rewrite Hq; exact Hi|exact Ho|]. rewrite Es. cbv beta iota zeta.
  unfold says_truth in Hti. rewrite Ho, Hd in Hti. change (is_dir (o_mode o)) with (says_dir (o_mode o)). rewrite Hti. cbv iota.
  rewrite (visit_prints a pr q path i _ (fun f => [ls_word a q path f]) n Hg Hne Hq Hp Hi Hd Hsz Ht Hlen Hn).
  - rewrite say_pre, pre_pre. unfold outs. rewrite concat_single. reflexivity.
  - intros fd pos f j k' _ _ Hj. rewrite say_pre. unfold ls_word. rewrite Hj. reflexivity.
Qed.
Lemma ls_file a pr q path i n : good a -> where_is (q_cwd pr) path = q -> vw_proc a !! c = Some pr -> vw_at a !! q = Some i -> is_adir a i = false -> says_truth a i ->
  forall k, aprog a c (ls n path k) = pre [path +:+ " "; String (Ascii.ascii_of_nat 10) ""] (aprog a c k).
Proof.
  intros Hg Hq Hp Hi Hd Hti k. destruct (good_at _ _ _ Hg Hi) as [_ [o Ho]]. unfold ls.
  edestruct (do_stat c a pr path i o) as (n0 & s0 & d0 & Es); [exact Hp|rewrite Hq; exact Hi|exact Ho|]. rewrite Es. cbv beta iota zeta.
  unfold says_truth in Hti. rewrite Ho, Hd in Hti. change (is_dir (o_mode o)) with (says_dir (o_mode o)). rewrite Hti. cbv iota.
  rewrite !say_pre, pre_pre. reflexivity.
Qed.

(** ** tree *)
Definition fits (a : view) (pr : aproc) (q : list string) (m b : nat) : Prop :=
  tool_ok a pr q /\ small_names a q /\ shallow a q m /\ forall p i, vw_at a !! p = Some i -> within q p -> is_adir a i = true -> (size (listing a p i) <= b)%nat.

Lemma fits_child a pr pr' q f j m b : vw_at a !! (q ++ [f]) = Some j -> fits a pr q m b -> (size (q_tab pr') <= S (size (q_tab pr)))%nat -> fits a pr' (q ++ [f]) (m - 1) b.
Proof.
  intros Hj ([Hm Hd] & Hs & Hsh & Hb) Hsz.
  assert (K : forall p, within (q ++ [f]) p -> within q p) by (intros p Hp; exact (proj1 (within_below _ _ _ Hp))).
  assert (L : forall p, within (q ++ [f]) p -> (length q + 1 <= length p)%nat) by (intros p [r ->]; rewrite !app_length; cbn; lia).
  split; [constructor|split; [|split]].
  - intros p i Hi Hp. eauto.
  - intros p i Hi Hp Hdir. pose proof (Hd p i Hi (K _ Hp) Hdir). pose proof (L _ Hp). rewrite app_length. cbn [length]. lia.
  - intros p i g Hi Hp. exact (Hs p i g Hi (K _ Hp)).
  - intros p i Hi Hp. pose proof (Hsh p i Hi (K _ Hp)). pose proof (L _ Hp). rewrite app_length. cbn [length]. lia.
  - intros p i Hi Hp. eauto.
Qed.
Lemma fits_opened a pr pr' fd i pos q m b : fits a pr q m b -> fits (opened c a pr' fd i pos) pr q m b.
Proof. intros ([X1 X2] & X3 & X4 & X5). split; [constructor; [exact X1|exact X2]|split; [exact X3|split; [exact X4|exact X5]]]. Qed.

(** What [tree] prints, computed with fuel *)
Fixpoint draw (n : nat) (a : view) (q : list string) (path : string) (level : nat) : list string :=
  match n with
  | O => []
  | S n' =>
      match vw_at a !! q with
      | Some i => if is_adir a i then outs (fun f => tree_line level (down path f) :: draw n' a (q ++ [f]) (down path f) (S level)) (map_to_list (listing a q i)) else []
      | None => []
      end
  end.
Lemma draw_opened n a pr fd i pos : forall q path level, draw n (opened c a pr fd i pos) q path level = draw n a q path level.
Proof.
  induction n as [|n IH]; intros q path level; [reflexivity|]. cbn [draw]. change (vw_at (opened c a pr fd i pos)) with (vw_at a).
  destruct (vw_at a !! q) as [j|]; [|reflexivity]. change (is_adir (opened c a pr fd i pos) j) with (is_adir a j). destruct (is_adir a j); [|reflexivity].
  change (listing (opened c a pr fd i pos) q j) with (listing a q j). unfold outs. f_equal. apply map_ext. intros f. rewrite IH. reflexivity.
Qed.

Lemma tree_ok n : forall a pr q path i m b level, good a -> path <> "" -> where_is (q_cwd pr) path = q -> vw_proc a !! c = Some pr -> vw_at a !! q = Some i ->
  fits a pr q m b -> (m + b + 1 <= n)%nat -> forall k, aprog a c (tree n path level k) = pre (draw n a q path level) (aprog a c k).
Proof.
  induction n as [|n IH]; intros a pr q path i m b level Hg Hne Hq Hp Hi Hf Hn k; [lia|].
  destruct (good_at _ _ _ Hg Hi) as [_ [o Ho]]. cbn [tree draw]. rewrite Hi.
  edestruct (do_stat c a pr path i o) as (n0 & s0 & d0 & Es); [exact Hp|rewrite Hq; exact Hi|exact Ho|]. rewrite Es. cbv beta iota zeta. clear Es.
  pose proof Hf as (Hok & Hsn & Hsh & Hb).
  pose proof (ok_mode _ _ _ Hok _ _ Hi (reflexivity _)) as Ht. unfold says_truth in Ht. rewrite Ho in Ht.
  change (is_dir (o_mode o)) with (says_dir (o_mode o)). rewrite Ht. destruct (is_adir a i) eqn:Ed; cbn [negb]; [|symmetry; apply pre_nil].
  assert (Hm : (1 <= m)%nat) by (pose proof (Hsh q i Hi (reflexivity _)); lia).
  apply (visit_prints a pr q path i _ (fun f => tree_line level (down path f) :: draw n a (q ++ [f]) (down path f) (S level)) n Hg Hne Hq Hp Hi Ed).
  - pose proof (ok_deep _ _ _ Hok q i Hi (reflexivity _) Ed). lia.
  - intros f j Hj. apply (ok_mode _ _ _ Hok _ _ Hj). exists [f]. reflexivity.
  - intros f j Hj. exact (Z.lt_le_incl _ _ (Hsn q j f Hj (reflexivity _))).
  - pose proof (Hb q i Hi (reflexivity _) Ed). lia.
  - intros fd pos f j k' Hfn Hgo Hj. rewrite say_pre. match goal with |- _ = pre (_ :: ?x) ?y => transitivity (pre [tree_line level (down path f)] (pre x y)); [|apply pre_pre] end. apply (f_equal (pre [tree_line level (down path f)])).
    destruct (good_at _ _ _ Hg Hj) as [Hcan _].
    assert (Hgn : good_name f) by (apply Forall_app in Hcan as [_ Hcan]; exact (proj1 (Forall_singleton _ _) Hcan)).
    destruct (down_norm (q_cwd pr) path f Hne Hgn) as [Hne' Hq']. rewrite <- !where_is_eq, Hq in Hq'.
    destruct (is_adir a j) eqn:Edj.
    + set (pr3 := AProc (q_cwd pr) (<[fd := DFile i pos 0]> (q_tab pr))).
      assert (Hch : fits (opened c a pr fd i pos) pr3 (q ++ [f]) (m - 1) b).
      { apply fits_opened. apply (fits_child a pr pr3 q f j m b Hj Hf). unfold pr3. cbn [q_tab]. rewrite map_size_insert_None by exact Hfn. lia. }
      rewrite (IH (opened c a pr fd i pos) pr3 (q ++ [f]) (down path f) j (m - 1)%nat b (S level) Hgo Hne' Hq' (opened_proc _ _ _ _ _ _) Hj Hch ltac:(lia)).
      rewrite draw_opened. reflexivity.
    + destruct n as [|n]; cbn [draw]; [symmetry; apply pre_nil|]. rewrite Hj, Edj. symmetry. apply pre_nil.
Qed.
End S.
