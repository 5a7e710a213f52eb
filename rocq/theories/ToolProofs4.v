(** The commands run by the code itself. *)
From Verif Require Import Base CodecModel PathModel PathSpec PathProofs FsModel FsSpec FsReachSpec FsViewSpec FsAbortSpec FsView1 FsCopyModel FsCopyTree ToolModel ToolSpec ToolProofs1 ToolProofs2 ToolProofs3.
Local Open Scope list_scope.
Local Open Scope Z_scope.

(** ** Bounds *)
Lemma shallow_ex a q : exists m, shallow a q m.
Proof.
  exists (S (list_max ((length ∘ fst) <$> map_to_list (vw_at a)))). intros p i Hi _.
  assert (H : (length p <= list_max ((length ∘ fst) <$> map_to_list (vw_at a)))%nat); [|lia].
  pose proof (proj1 (list_max_le _ _) (Nat.le_refl (list_max ((length ∘ fst) <$> map_to_list (vw_at a))))) as F. rewrite List.Forall_forall in F. apply F.
  apply elem_of_list_In, elem_of_list_fmap. exists (p, i). split; [reflexivity|]. apply elem_of_map_to_list. exact Hi.
Qed.
Lemma size_list_to_map (l : list (string * Z)) : (size (list_to_map l : gmap string Z) <= length l)%nat.
Proof.
  induction l as [|[f x] l IH]; cbn [list_to_map foldr]; [rewrite map_size_empty; cbn; lia|]. cbn [fst snd length uncurry].
  rewrite map_size_insert. destruct ((list_to_map l : gmap string Z) !! f); cbn; lia.
Qed.
Lemma omap_le {A B} (f : A -> option B) l : (length (omap f l) <= length l)%nat.
Proof. induction l as [|x l IH]; cbn; [lia|]. destruct (f x); cbn; lia. Qed.
Lemma insert_le (m : gmap string Z) f x : (size (<[f := x]> m) <= S (size m))%nat.
Proof. rewrite map_size_insert. destruct (m !! f); cbn; lia. Qed.
Lemma listing_size a p i : (size (listing a p i) <= size (vw_at a) + 2)%nat.
Proof.
  unfold listing. set (m := list_to_map (omap (name_below p) (map_to_list (vw_at a))) : gmap string Z). set (x := default 0 (vw_at a !! removelast p)).
  pose proof (insert_le (<[".." := x]> m) "." i) as H1. pose proof (insert_le m ".." x) as H2.
  pose proof (size_list_to_map (omap (name_below p) (map_to_list (vw_at a)))) as H3. fold m in H3. pose proof (omap_le (name_below p) (map_to_list (vw_at a))) as H4.
  change (length (map_to_list (vw_at a))) with (size (vw_at a)) in H4. lia.
Qed.

(** ** deltree *)
Lemma deltree_run w a c pr path q i d : reach false w -> shows w a -> vw_proc a !! c = Some pr -> path <> "" -> where_is (q_cwd pr) path = q -> vw_at a !! q = Some i ->
  up_dir a q = Some d -> may_write a d = true -> tool_ok a pr q -> small_dirs a q ->
  exists n0, forall n, (n0 <= n)%nat -> exists w' a', wprog w c (deltree n path Stop) = Done (w', [], Finished) /\ shows w' a' /\ reach false w' /\ without (within q) (within q) a a'.
Proof.
  intros Hr Hs Hp Hne Hq Hi Hu Hw Hok Hsm. destruct (shallow_ex a q) as [m Hm]. exists (m + 2)%nat. intros n Hn.
  destruct (deltree_ok c n q path a pr m i d) as (a' & W & _ & E); try assumption; [exists w; auto|split; [exact Hok|split; [exact Hsm|exact Hm]]|].
  destruct (prog_sim c (deltree n path Stop) w a a' [] Finished Hr Hs) as (w' & E' & Hs' & Hr'); [rewrite E; reflexivity|]. eauto 6.
Qed.
Lemma format_run w a c pr path i : reach false w -> shows w a -> vw_proc a !! c = Some pr -> path <> "" -> where_is (q_cwd pr) path = [] -> vw_at a !! [] = Some i -> is_adir a i = true ->
  tool_ok a pr [] -> small_dirs a [] ->
  exists n0, forall n, (n0 <= n)%nat -> exists w' a', wprog w c (deltree n path Stop) = Done (w', [], Finished) /\ shows w' a' /\ reach false w' /\ without (below []) (within []) a a'.
Proof.
  intros Hr Hs Hp Hne Hq Hi Hd Hok Hsm. destruct (shallow_ex a []) as [m Hm]. exists (m + 2)%nat. intros n Hn.
  destruct (format_ok c n path a pr m i) as (a' & W & _ & E); try assumption; [exists w; auto|split; [exact Hok|split; [exact Hsm|exact Hm]]|].
  destruct (prog_sim c (deltree n path Stop) w a a' [] Finished Hr Hs) as (w' & E' & Hs' & Hr'); [rewrite E; reflexivity|]. eauto 6.
Qed.

(** ** ls *)
Lemma names_ok a q i : good a -> names_in a q (names (map_to_list (listing a q i))).
Proof.
  intros Hg. split; [apply names_nodup|]. intros f. rewrite names_listing. split; [tauto|]. intros [j Hj]. destruct (good_at _ _ _ Hg Hj) as [Hcan _].
  apply Forall_app in Hcan as [_ Hcan]. destruct (proj1 (Forall_singleton _ _) Hcan) as (_ & H1 & H2 & _). eauto.
Qed.
Lemma ls_run w a c pr path q i : reach false w -> shows w a -> vw_proc a !! c = Some pr -> path <> "" -> where_is (q_cwd pr) path = q -> vw_at a !! q = Some i -> is_adir a i = true ->
  tool_ok a pr q -> small_names a q ->
  exists n0, forall n, (n0 <= n)%nat -> exists w' l, wprog w c (ls n path Stop) = Done (w', map (ls_word a q path) l ++ [newline], Finished) /\ shows w' a /\ reach false w' /\ names_in a q l.
Proof.
  intros Hr Hs Hp Hne Hq Hi Hd Hok Hsm. exists (S (size (listing a q i))). intros n Hn. assert (Hg : good a) by (exists w; auto).
  pose proof (ls_ok c a pr q path i n Hg Hne Hq Hp Hi Hd (ok_mode _ _ _ Hok _ _ Hi (reflexivity _))) as E.
  specialize (E ltac:(pose proof (ok_deep _ _ _ Hok q i Hi (reflexivity _) Hd); lia)).
  specialize (E (fun f j Hj => ok_mode _ _ _ Hok _ _ Hj (prefix_app_r _ _ [f] (reflexivity q))) (fun f j Hj => Z.lt_le_incl _ _ (Hsm q j f Hj (reflexivity _))) Hn Stop).
  cbn [aprog pre] in E. rewrite app_nil_r in E.
  destruct (prog_sim c (ls n path Stop) w a _ _ _ Hr Hs E) as (w' & E' & Hs' & Hr'). exists w', (names (map_to_list (listing a q i))).
  split; [exact E'|]. split; [exact Hs'|]. split; [exact Hr'|]. apply names_ok. exact Hg.
Qed.

Lemma ls_file_run w a c pr path q i n : reach false w -> shows w a -> vw_proc a !! c = Some pr -> where_is (q_cwd pr) path = q -> vw_at a !! q = Some i -> is_adir a i = false -> says_truth a i ->
  exists w', wprog w c (ls n path Stop) = Done (w', [path +:+ " "; newline], Finished) /\ shows w' a /\ reach false w'.
Proof.
  intros Hr Hs Hp Hq Hi Hd Ht. assert (Hg : good a) by (exists w; auto).
  pose proof (ls_file c a pr q path i n Hg Hq Hp Hi Hd Ht Stop) as E. cbn [aprog pre app] in E.
  destruct (prog_sim c (ls n path Stop) w a _ _ _ Hr Hs E) as (w' & E' & Hs' & Hr'). exists w'. auto.
Qed.
Lemma do_stat_none a c pr p k : vw_proc a !! c = Some pr -> vw_at a !! where_is (q_cwd pr) p = None ->
  exists e, aprog a c (Call (Stat p) k) = aprog a c (k (Ret e)).
Proof.
  intros Hp Hi. eexists _. apply do_call; [unfold allowed; rewrite Hp; reflexivity|unfold aborts; rewrite Hp; reflexivity|].
  unfold aexec. rewrite Hp. cbv zeta. unfold at_path. rewrite Hi. reflexivity.
Qed.
Lemma ls_none_run w a c pr path n : reach false w -> shows w a -> vw_proc a !! c = Some pr -> vw_at a !! where_is (q_cwd pr) path = None ->
  exists w', wprog w c (ls n path Stop) = Done (w', [], Finished) /\ shows w' a /\ reach false w'.
Proof.
  intros Hr Hs Hp Hi.
  assert (E : aprog a c (ls n path Stop) = Some (a, [], Finished)).
  { unfold ls. edestruct do_stat_none as [e Ee]; [exact Hp|exact Hi|]. rewrite Ee. reflexivity. }
  destruct (prog_sim c (ls n path Stop) w a _ _ _ Hr Hs E) as (w' & E' & Hs' & Hr'). exists w'. auto.
Qed.
Lemma tree_none_run w a c pr path n level : reach false w -> shows w a -> vw_proc a !! c = Some pr -> vw_at a !! where_is (q_cwd pr) path = None ->
  exists w', wprog w c (tree (S n) path level Stop) = Done (w', [], Finished) /\ shows w' a /\ reach false w'.
Proof.
  intros Hr Hs Hp Hi.
  assert (E : aprog a c (tree (S n) path level Stop) = Some (a, [], Finished)).
  { cbn [tree]. edestruct do_stat_none as [e Ee]; [exact Hp|exact Hi|]. rewrite Ee. reflexivity. }
  destruct (prog_sim c _ w a _ _ _ Hr Hs E) as (w' & E' & Hs' & Hr'). exists w'. auto.
Qed.
Lemma deltree_none_run w a c pr path n : reach false w -> shows w a -> vw_proc a !! c = Some pr -> vw_at a !! where_is (q_cwd pr) path = None ->
  exists w', wprog w c (deltree (S n) path Stop) = Done (w', [], Finished) /\ shows w' a /\ reach false w'.
Proof.
  intros Hr Hs Hp Hi.
  assert (E : aprog a c (deltree (S n) path Stop) = Some (a, [], Finished)).
  { cbn [deltree]. edestruct do_stat_none as [e Ee]; [exact Hp|exact Hi|]. rewrite Ee. reflexivity. }
  destruct (prog_sim c _ w a _ _ _ Hr Hs E) as (w' & E' & Hs' & Hr'). exists w'. auto.
Qed.
(** What a printed name leads to *)
Lemma printed_leads a pr path r i : good a -> path <> "" -> vw_at a !! (where_is (q_cwd pr) path ++ r) = Some i ->
  where_is (q_cwd pr) (fold_left down r path) = where_is (q_cwd pr) path ++ r.
Proof.
  intros Hg Hne Hi. destruct (good_at _ _ _ Hg Hi) as [Hcan _]. apply Forall_app in Hcan as [_ Hcan]. clear Hi. revert path Hne.
  induction r as [|f r IH]; intros path Hne; cbn [fold_left]; [rewrite app_nil_r; reflexivity|].
  inversion Hcan as [|? ? Hf Hr']; subst. destruct (down_norm (q_cwd pr) path f Hne Hf) as [Hne' Hq']. rewrite <- !where_is_eq in Hq'.
  rewrite (IH Hr' _ Hne'), Hq', <- app_assoc. reflexivity.
Qed.

(** ** tree *)
Lemma tree_line_drawn level f : tree_line level f = drawn level f.
Proof.
  unfold drawn, tree_line. induction level as [|k IH]; [reflexivity|]. cbn [repeat_str repeat app foldr]. rewrite <- IH. cbn [append]. reflexivity.
Qed.
Lemma draw_drawing n : forall a q path level i m, good a -> vw_at a !! q = Some i -> shallow a q m -> (m <= n)%nat -> drawing a q path level (draw n a q path level).
Proof.
  induction n as [|n IH]; intros a q path level i m Hg Hi Hm Hn; [pose proof (Hm q i Hi (reflexivity _)); lia|]. cbn [draw]. rewrite Hi.
  destruct (is_adir a i) eqn:Ed.
  - unfold outs. rewrite (map_ext _ (fun f => drawn level (down path f) :: draw n a (q ++ [f]) (down path f) (S level))) by (intros f; rewrite tree_line_drawn; reflexivity).
    apply (Drawn a q path level (names (map_to_list (listing a q i))) (fun f => draw n a (q ++ [f]) (down path f) (S level))); [apply names_ok; exact Hg|].
    intros f Hf. apply (proj2 (names_ok a q i Hg)) in Hf as [j Hj]. apply (IH a (q ++ [f]) (down path f) (S level) j (m - 1)%nat Hg Hj); [|lia].
    intros p x Hx Hp. pose proof (Hm p x Hx (proj1 (within_below _ _ _ Hp))). destruct Hp as [r ->]. rewrite !app_length in *. cbn [length] in *. lia.
  - apply (Drawn a q path level [] (fun _ => [])); [|intros f Hf; apply elem_of_nil in Hf; destruct Hf]. split; [constructor|]. intros f. split; [intros Hf; apply elem_of_nil in Hf; destruct Hf|].
    intros [j Hj]. destruct (good_up _ _ _ _ Hg Hj) as (i' & Hi' & Hd'). congruence.
Qed.
Lemma tree_run w a c pr path q i level : reach false w -> shows w a -> vw_proc a !! c = Some pr -> path <> "" -> where_is (q_cwd pr) path = q -> vw_at a !! q = Some i ->
  tool_ok a pr q -> small_names a q ->
  exists n0, forall n, (n0 <= n)%nat -> exists w' ss, wprog w c (tree n path level Stop) = Done (w', ss, Finished) /\ shows w' a /\ reach false w' /\ drawing a q path level ss.
Proof.
  intros Hr Hs Hp Hne Hq Hi Hok Hsm. destruct (shallow_ex a q) as [m Hm]. exists (m + (size (vw_at a) + 2) + 1)%nat. intros n Hn. assert (Hg : good a) by (exists w; auto).
  pose proof (tree_ok c n a pr q path i m (size (vw_at a) + 2) level Hg Hne Hq Hp Hi) as E.
  specialize (E ltac:(split; [exact Hok|split; [exact Hsm|split; [exact Hm|intros p j _ _ _; apply listing_size]]]) Hn Stop).
  cbn [aprog pre] in E. rewrite app_nil_r in E.
  destruct (prog_sim c (tree n path level Stop) w a _ _ _ Hr Hs E) as (w' & E' & Hs' & Hr'). exists w', (draw n a q path level).
  split; [exact E'|]. split; [exact Hs'|]. split; [exact Hr'|]. apply (draw_drawing n a q path level i m Hg Hi Hm). lia.
Qed.

(** A drawing has one line for each name *)
Lemma drawing_lines a q path level ss : good a -> drawing a q path level ss ->
  exists L, ss = map (line_for path level) L /\ NoDup L /\ forall r, r ∈ L <-> r <> [] /\ is_Some (vw_at a !! (q ++ r)).
Proof.
  intros Hg D. induction D as [q path level l sub [Hnd Hl] _ IH].
  assert (F : exists Ls : string -> list (list string), forall f, f ∈ l -> sub f = map (line_for (down path f) (S level)) (Ls f) /\ NoDup (Ls f) /\ forall r, r ∈ Ls f <-> r <> [] /\ is_Some (vw_at a !! ((q ++ [f]) ++ r))).
  { clear Hl. induction l as [|f l IHl]; [exists (fun _ => []); intros f Hf; apply elem_of_nil in Hf; destruct Hf|].
    apply NoDup_cons in Hnd as [Hf Hnd]. destruct IHl as [Ls HLs]; [exact Hnd|intros g Hgl; apply IH; right; exact Hgl|].
    destruct (IH f (elem_of_list_here _ _)) as (Lf & HLf). exists (fun g => if String.eqb g f then Lf else Ls g). intros g Hgl. destruct (String.eqb_spec g f) as [->|Hne]; [exact HLf|].
    apply HLs. apply elem_of_cons in Hgl as [->|Hgl]; [congruence|exact Hgl]. }
  destruct F as [Ls HLs]. exists (concat (map (fun f => [f] :: map (cons f) (Ls f)) l)). split; [|split].
  - clear Hl Hnd IH. induction l as [|f l IHl]; [reflexivity|]. cbn [map concat]. rewrite map_app. f_equal; [|apply IHl; intros g Hgl; apply HLs; right; exact Hgl].
    cbn [map]. f_equal.
    + unfold line_for. cbn [length fold_left]. f_equal. lia.
    + destruct (HLs f (elem_of_list_here _ _)) as (E & _ & Hr). rewrite E, map_map. apply map_ext_in. intros r Hin. apply elem_of_list_In in Hin. apply Hr in Hin as [Hne _].
      unfold line_for. cbn [length fold_left]. f_equal. destruct r; [congruence|]. cbn [length]. lia.
  - clear Hl IH. induction l as [|f l IHl]; [constructor|]. apply NoDup_cons in Hnd as [Hf Hnd]. cbn [map concat]. apply NoDup_app. split; [|split].
    + destruct (HLs f (elem_of_list_here _ _)) as (_ & N & Hr). apply NoDup_cons. split.
      * intros Hin. apply elem_of_list_In, in_map_iff in Hin as (r & E & Hin). injection E as ->. apply elem_of_list_In in Hin. apply Hr in Hin as [Hne _]. congruence.
      * change (map (cons f) (Ls f)) with (cons f <$> Ls f). apply NoDup_fmap_2; [intros x y E; congruence|exact N].
    + intros r Hr Hr2.
      assert (E1 : head r = Some f) by (apply elem_of_cons in Hr as [->|Hr]; [reflexivity|apply elem_of_list_In, in_map_iff in Hr as (r' & <- & _); reflexivity]).
      apply elem_of_list_In, in_concat in Hr2 as (x & Hx & Hrx). apply in_map_iff in Hx as (g & <- & Hgl).
      assert (E2 : head r = Some g) by (destruct Hrx as [<-|Hrx]; [reflexivity|apply in_map_iff in Hrx as (r' & <- & _); reflexivity]).
      assert (f = g) by congruence. subst g. apply Hf. apply elem_of_list_In. exact Hgl.
    + apply IHl; [exact Hnd|intros g Hgl; apply HLs; right; exact Hgl].
  - intros r. rewrite elem_of_list_In, in_concat. split.
    + intros (x & Hx & Hrx). apply in_map_iff in Hx as (f & <- & Hfl). apply elem_of_list_In in Hfl. destruct Hrx as [<-|Hrx].
      * split; [discriminate|]. apply Hl. exact Hfl.
      * apply in_map_iff in Hrx as (r' & <- & Hr'). split; [discriminate|]. apply elem_of_list_In in Hr'. apply (HLs f Hfl) in Hr' as [_ H]. rewrite <- app_assoc in H. exact H.
    + intros [Hne [j Hj]]. destruct r as [|f r]; [congruence|].
      assert (Hfl : f ∈ l). { apply Hl. change (f :: r) with ([f] ++ r) in Hj. rewrite app_assoc in Hj. destruct (good_down _ _ _ _ Hg Hj) as (i & Hi & _). eauto. }
      exists ([f] :: map (cons f) (Ls f)). split; [apply in_map_iff; exists f; split; [reflexivity|apply elem_of_list_In; exact Hfl]|].
      destruct r as [|g r]; [left; reflexivity|right]. apply in_map. apply elem_of_list_In. apply (HLs f Hfl). split; [discriminate|]. rewrite <- app_assoc. eauto.
Qed.

(** ** Concrete trees *)
Definition okb (a : view) (pr : aproc) (q : list string) : bool :=
  forallb (fun e : list string * Z =>
    negb (bool_decide (within q (fst e))) ||
    (match vw_obj a !! snd e with Some o => Bool.eqb (says_dir (o_mode o)) (is_adir a (snd e)) | None => true end &&
     (negb (is_adir a (snd e)) || (Z.of_nat (length (fst e) - length q) + Z.of_nat (size (q_tab pr)) <? 1024)))) (map_to_list (vw_at a)).
Lemma okb_ok a pr q : okb a pr q = true -> tool_ok a pr q.
Proof.
  unfold okb. rewrite forallb_forall. intros H.
  assert (K : forall p i, vw_at a !! p = Some i -> within q p -> (match vw_obj a !! i with Some o => Bool.eqb (says_dir (o_mode o)) (is_adir a i) | None => true end &&
     (negb (is_adir a i) || (Z.of_nat (length p - length q) + Z.of_nat (size (q_tab pr)) <? 1024))) = true).
  { intros p i Hi Hp. specialize (H (p, i)). cbn [fst snd] in H. rewrite bool_decide_eq_true_2 in H by exact Hp. apply H. apply elem_of_list_In, elem_of_map_to_list. exact Hi. }
  constructor.
  - intros p i Hi Hp. specialize (K p i Hi Hp). apply andb_true_iff in K as [K _]. unfold says_truth. destruct (vw_obj a !! i); [|exact I]. apply eqb_prop. exact K.
  - intros p i Hi Hp Hd. specialize (K p i Hi Hp). apply andb_true_iff in K as [_ K]. rewrite Hd in K. apply Z.ltb_lt. exact K.
Qed.
Definition smallb (a : view) (q : list string) : bool :=
  forallb (fun e : list string * Z => negb (is_adir a (snd e)) || (total_len (listing a (fst e) (snd e)) <=? 65536)) (map_to_list (vw_at a)).
Lemma smallb_ok a q : smallb a q = true -> small_dirs a q.
Proof.
  unfold smallb. rewrite forallb_forall. intros H p i Hi _ Hd. specialize (H (p, i)). cbn [fst snd] in H. rewrite Hd in H. apply Z.leb_le. apply H.
  apply elem_of_list_In, elem_of_map_to_list. exact Hi.
Qed.
Definition shortb (a : view) : bool := forallb (fun e : list string * Z => forallb (fun f => record_len f <? 65536) (fst e)) (map_to_list (vw_at a)).
Lemma shortb_ok a q : shortb a = true -> small_names a q.
Proof.
  unfold shortb. rewrite forallb_forall. intros H p i f Hi _. specialize (H (p ++ [f], i)). cbn [fst] in H. apply Z.ltb_lt.
  assert (K : forallb (fun g => record_len g <? 65536) (p ++ [f]) = true) by (apply H; apply elem_of_list_In, elem_of_map_to_list; exact Hi).
  rewrite forallb_forall in K. apply K. apply in_app_iff. right. left. reflexivity.
Qed.
