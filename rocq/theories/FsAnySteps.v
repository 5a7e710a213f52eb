(** Every call of every history keeps the invariant of FsAny.v. *)
From Verif Require Import Base PathModel PathSpec PathProofs FsModel FsBoot FsSpec FsWalk Count FsNames FsTr FsInv
  FsSteps FsSteps2 FsFrame FsReachSpec FsReach FsAny.
Local Open Scope list_scope.
Local Open Scope Z_scope.

Opaque all_fds.

Definition dirs (t : gmap Z inode) (i : Z) : option (option Z * Z) :=
  match t !! i with
  | Some x => if isdirk x then Some (i_dict x !! "..", i_link x) else None
  | None => None
  end.

Lemma dirs_dir t i x : t !! i = Some x -> i_kind x = KDir -> dirs t i = Some (i_dict x !! "..", i_link x).
Proof. intros Hx Hk. unfold dirs. rewrite Hx. apply isdirk_true in Hk. rewrite Hk. reflexivity. Qed.
Lemma dirs_nodir t i x : t !! i = Some x -> i_kind x <> KDir -> dirs t i = None.
Proof. intros Hx Hk. unfold dirs. rewrite Hx. destruct (isdirk x) eqn:E; [|reflexivity]. apply isdirk_true in E. contradiction. Qed.
Lemma dirs_inv t i u l : dirs t i = Some (u, l) -> exists x, t !! i = Some x /\ i_kind x = KDir /\ i_dict x !! ".." = u /\ i_link x = l.
Proof.
  unfold dirs. destruct (t !! i) as [x|]; [|discriminate]. destruct (isdirk x) eqn:E; [|discriminate]. intros [= <- <-].
  exists x. apply isdirk_true in E. auto.
Qed.

Record J (t : gmap Z inode) (n : Z) (L : gmap Z Z) : Prop := {
  j_v : jv (names t) (dirs t) n L;
  j_key i x : t !! i = Some x -> 1 <= i < n
}.

Lemma J_touch t n L i x x' : t !! i = Some x -> i_kind x' = i_kind x -> i_dict x' = i_dict x ->
  (i_kind x = KDir -> i_link x' = i_link x) -> J t n L -> J (<[i := x']> t) n L.
Proof.
  intros Hx Hk Hd Hl [Hv Hkey]. constructor.
  - rewrite (names_same _ _ _ x) by assumption. revert Hv. apply jv_same. intros j. destruct (decide (i = j)) as [<-|Hne].
    + unfold dirs. rewrite lookup_insert, Hx. unfold isdirk. rewrite Hk, Hd. destruct (i_kind x) eqn:E; try reflexivity. rewrite Hl by reflexivity. reflexivity.
    + unfold dirs. rewrite lookup_insert_ne by exact Hne. reflexivity.
  - intros j y. rewrite lookup_insert_Some. intros [[<- _]|[_ Hy]]; [exact (Hkey _ _ Hx)|exact (Hkey _ _ Hy)].
Qed.

Lemma J_drop t n L i x : t !! i = Some x -> (i_kind x = KDir -> i_link x = 2) -> J t n L -> J (delete i t) n L.
Proof.
  intros Hx Hl [Hv Hkey].
  assert (Hnd : i_kind x <> KDir).
  { intros Hk. pose proof (v_link _ _ _ _ Hv _ _ _ (dirs_dir _ _ _ Hx Hk)) as X. rewrite (Hl Hk) in X.
    pose proof (kidsN_nonneg (names t) i). pose proof (kidsL_nonneg L i). lia. }
  constructor.
  - rewrite names_del.
    + revert Hv. apply jv_same. intros j. unfold dirs. destruct (decide (i = j)) as [<-|Hne].
      * rewrite lookup_delete, Hx. destruct (isdirk x) eqn:E; [|reflexivity]. apply isdirk_true in E. contradiction.
      * rewrite lookup_delete_ne by exact Hne. reflexivity.
    + intros f. destruct (names t !! (i, f)) eqn:E; [|reflexivity]. exfalso. apply (v_par _ _ _ _ Hv _ _ _ E). exact (dirs_nodir _ _ _ Hx Hnd).
  - intros j y [_ Hy]%lookup_delete_Some. exact (Hkey _ _ Hy).
Qed.

Definition jkeep (w w' : world) : Prop :=
  w_next w' = w_next w /\ forall n L, J (w_ino w) n L -> J (w_ino w') n L.
Definition jw (w : world) : Prop := exists L, J (w_ino w) (w_next w) L.

Lemma jkeep_same w w' : w_ino w' = w_ino w -> w_next w' = w_next w -> jkeep w w'.
Proof. intros E1 E2. split; [exact E2|]. rewrite E1. auto. Qed.
Lemma jkeep_refl w : jkeep w w.
Proof. apply jkeep_same; reflexivity. Qed.
Lemma jkeep_trans a b c : jkeep a b -> jkeep b c -> jkeep a c.
Proof. intros [E1 H1] [E2 H2]. split; [congruence|auto]. Qed.
Lemma jkeep_jw w w' : jkeep w w' -> jw w -> jw w'.
Proof. intros [E H] [L HL]. exists L. rewrite E. auto. Qed.
Lemma jkeep_touch w w' i x x' : w_ino w !! i = Some x -> w_ino w' = <[i := x']> (w_ino w) -> w_next w' = w_next w ->
  i_kind x' = i_kind x -> i_dict x' = i_dict x -> (i_kind x = KDir -> i_link x' = i_link x) -> jkeep w w'.
Proof. intros Hx E1 E2 Hk Hd Hl. split; [exact E2|]. rewrite E1. intros n L. apply (J_touch _ _ _ _ x); assumption. Qed.
Lemma jkeep_drop w w' i x : w_ino w !! i = Some x -> w_ino w' = delete i (w_ino w) -> w_next w' = w_next w ->
  (i_kind x = KDir -> i_link x = 2) -> jkeep w w'.
Proof. intros Hx E1 E2 Hl. split; [exact E2|]. rewrite E1. intros n L. apply (J_drop _ _ _ _ x); assumption. Qed.

Lemma named_alive t L d : named t d -> alive (names t) L d.
Proof. intros [->|Hk]; [left; reflexivity|right; left; exact Hk]. Qed.

Lemma names_of t par p f : t !! par = Some p -> dotb f = false -> names t !! (par, f) = i_dict p !! f.
Proof. intros Hp Hd. rewrite names_lookup, Hd, Hp. reflexivity. Qed.

Lemma dotb_dots f : dotb f = false -> f <> "..".
Proof. intros H. apply dotb_false in H. tauto. Qed.

(** A new object *)
Lemma J_new t n L par p f x :
  J t n L -> t !! par = Some p -> i_kind p = KDir -> i_dict p !! f = None -> dotb f = false -> named t par ->
  (i_kind x = KDir -> i_link x = 3 /\ i_dict x = new_dict n par) -> (i_kind x <> KDir -> i_dict x = ∅) ->
  J (<[n := x]> (<[par := par_add f n p]> t)) (n + 1) L.
Proof.
  intros [Hv Hkey] Hp Hk Hf Hd Hnm Hx1 Hx2.
  pose proof (Hkey _ _ Hp) as Hr.
  assert (Hn : t !! n = None). { destruct (t !! n) eqn:E; [|reflexivity]. apply Hkey in E. lia. }
  assert (Hpn : par <> n) by lia.
  assert (Hn1 : <[par := par_add f n p]> t !! n = None) by (rewrite lookup_insert_ne by exact Hpn; exact Hn).
  assert (Hdd : i_kind x = KDir -> i_dict x !! ".." = Some par).
  { intros Hkx. destruct (Hx1 Hkx) as [_ ->]. apply new_dict_dotdot. }
  constructor.
  - rewrite names_new; [|exact Hn1|].
    + rewrite (names_add _ _ p _ f n) by (assumption || reflexivity).
      apply (jv_add (names t) (dirs t) _ n (n + 1) L par f n (i_dict p !! "..") (i_link p)); try assumption; try lia.
      * exact (dirs_dir _ _ _ Hp Hk).
      * exact (named_alive _ _ _ Hnm).
      * rewrite (names_of _ _ _ _ Hp Hd). exact Hf.
      * intros E. destruct (v_root _ _ _ _ Hv) as [l0 E0]. rewrite <- E in E0. unfold dirs in E0. rewrite Hn in E0. discriminate E0.
      * unfold dirs. rewrite Hn. reflexivity.
      * unfold dirs. rewrite lookup_insert. destruct (isdirk x) eqn:E; [|left; reflexivity]. apply isdirk_true in E. right.
        rewrite (Hdd E). destruct (Hx1 E) as [-> _]. auto.
      * unfold dirs. rewrite lookup_insert_ne by congruence. rewrite lookup_insert. unfold par_add, isdirk. cbn [i_kind i_link i_dict set_link set_dict]. rewrite Hk.
        rewrite lookup_insert_ne by exact (dotb_dots _ Hd). reflexivity.
      * intros j H1 H2. unfold dirs. rewrite !lookup_insert_ne by congruence. reflexivity.
    + intros g j Hg. destruct (decide (i_kind x = KDir)) as [E|E].
      * destruct (Hx1 E) as [_ Ex]. rewrite Ex in Hg. exact (new_dict_dots _ _ _ _ Hg).
      * rewrite (Hx2 E), lookup_empty in Hg. discriminate Hg.
  - intros j y. rewrite !lookup_insert_Some. intros [[<- _]|[_ [[<- _]|[_ Hy]]]]; [lia|lia|]. apply Hkey in Hy. lia.
Qed.

(** One more name of an object that is no directory *)
Lemma J_link t n L i x x' par p f :
  J t n L -> t !! i = Some x -> i_kind x <> KDir -> i_kind x' = i_kind x -> i_dict x' = i_dict x ->
  t !! par = Some p -> i_kind p = KDir -> i_dict p !! f = None -> dotb f = false -> named t par ->
  J (<[par := par_add f i p]> (<[i := x']> t)) n L.
Proof.
  intros HJ Hx Hxk Hk' Hd' Hp Hk Hf Hd Hnm.
  assert (Hpi : par <> i) by congruence.
  destruct (J_touch _ _ _ _ _ x' Hx Hk' Hd' ltac:(intros; contradiction) HJ) as [Hv Hkey].
  assert (Hp' : <[i := x']> t !! par = Some p) by (rewrite lookup_insert_ne by congruence; exact Hp).
  assert (Hnn : names (<[i := x']> t) = names t) by (apply (names_same _ _ _ x); assumption).
  assert (Hdi : dirs (<[i := x']> t) i = None) by (apply (dirs_nodir _ _ x'); [apply lookup_insert|congruence]).
  assert (Hir := Hkey i x' (lookup_insert _ _ _)).
  constructor.
  - rewrite (names_add _ _ p _ f i) by (assumption || reflexivity).
    apply (jv_add _ (dirs (<[i := x']> t)) _ n n L par f i (i_dict p !! "..") (i_link p)); try assumption; try lia.
    + exact (dirs_dir _ _ _ Hp' Hk).
    + rewrite Hnn. exact (named_alive _ _ _ Hnm).
    + rewrite (names_of _ _ _ _ Hp' Hd). exact Hf.
    + intros E. destruct (v_root _ _ _ _ Hv) as [l0 E0]. rewrite <- E in E0. rewrite Hdi in E0. discriminate E0.
    + left. unfold dirs. rewrite lookup_insert_ne by exact Hpi. exact Hdi.
    + unfold dirs. rewrite lookup_insert. unfold par_add, isdirk. cbn [i_kind i_link i_dict set_link set_dict]. rewrite Hk.
      rewrite lookup_insert_ne by exact (dotb_dots _ Hd). reflexivity.
    + intros j H1 H2. unfold dirs. rewrite (lookup_insert_ne _ par) by congruence. reflexivity.
  - intros j y. rewrite lookup_insert_Some. intros [[<- _]|[_ Hy]]; [exact (Hkey _ _ Hp')|exact (Hkey _ _ Hy)].
Qed.

(** One name less *)
Lemma J_unname t n L i par p f :
  J t n L -> t !! par = Some p -> i_kind p = KDir -> i_dict p !! f = Some i -> dotb f = false ->
  (forall x, t !! i = Some x -> i_kind x = KDir -> i_link x <= 3) ->
  J (<[par := par_rem f p]> t) n L.
Proof.
  intros [Hv Hkey] Hp Hk Hf Hd Hx.
  assert (Hn : names t !! (par, f) = Some i) by (rewrite (names_of _ _ _ _ Hp Hd); exact Hf).
  assert (Hdi : dirs t i = None \/ exists v l, dirs t i = Some (v, l) /\ l <= 3).
  { destruct (dirs t i) as [[v l]|] eqn:E; [|left; reflexivity]. right. exists v, l. split; [reflexivity|].
    apply dirs_inv in E as (x & Ex & Ek & _ & <-). exact (Hx _ Ex Ek). }
  assert (Hpi : par <> i).
  { intros ->. destruct (v_up _ _ _ _ Hv _ _ _ _ _ (dirs_dir _ _ _ Hp Hk) Hn). lia. }
  constructor.
  - rewrite (names_rem _ _ p _ f) by (assumption || reflexivity).
    apply (jv_rem _ (dirs t) _ n L par f i (i_dict p !! "..") (i_link p)); try assumption.
    + exact (dirs_dir _ _ _ Hp Hk).
    + left. unfold dirs. rewrite lookup_insert_ne by exact Hpi. reflexivity.
    + unfold dirs. rewrite lookup_insert. unfold par_rem, isdirk. cbn [i_kind i_link i_dict set_link set_dict]. rewrite Hk.
      rewrite lookup_delete_ne by exact (dotb_dots _ Hd). reflexivity.
    + intros j H1 H2. unfold dirs. rewrite lookup_insert_ne by congruence. reflexivity.
  - intros j y. rewrite lookup_insert_Some. intros [[<- _]|[_ Hy]]; [exact (Hkey _ _ Hp)|exact (Hkey _ _ Hy)].
Qed.

(** The same with the object gone *)
Lemma J_unname_del t n L i x par p f :
  J t n L -> t !! par = Some p -> i_kind p = KDir -> i_dict p !! f = Some i -> dotb f = false ->
  t !! i = Some x -> (i_kind x = KDir -> i_link x <= 3) ->
  J (delete i (<[par := par_rem f p]> t)) n L.
Proof.
  intros [Hv Hkey] Hp Hk Hf Hd Hx Hxl.
  assert (Hn : names t !! (par, f) = Some i) by (rewrite (names_of _ _ _ _ Hp Hd); exact Hf).
  assert (Hpi : par <> i).
  { intros ->. destruct (v_up _ _ _ _ Hv _ _ _ _ _ (dirs_dir _ _ _ Hp Hk) Hn). lia. }
  assert (Hdi : dirs t i = None \/ exists v l, dirs t i = Some (v, l) /\ l <= 3).
  { destruct (dirs t i) as [[v l]|] eqn:E; [|left; reflexivity]. right. exists v, l. split; [reflexivity|].
    apply dirs_inv in E as (x0 & Ex & Ek & _ & <-). assert (x0 = x) by congruence. subst x0. exact (Hxl Ek). }
  assert (Hno : forall g, names t !! (i, g) = None).
  { destruct Hdi as [E|(v & l & E & Hl)].
    - intros g. destruct (names t !! (i, g)) eqn:Eg; [|reflexivity]. exfalso. exact (v_par _ _ _ _ Hv _ _ _ Eg E).
    - apply kidsN_zero. pose proof (v_link _ _ _ _ Hv _ _ _ E). pose proof (kidsL_nonneg L i). lia. }
  constructor.
  - rewrite names_del.
    + rewrite (names_rem _ _ p _ f) by (assumption || reflexivity).
      apply (jv_rem _ (dirs t) _ n L par f i (i_dict p !! "..") (i_link p)); try assumption.
      * exact (dirs_dir _ _ _ Hp Hk).
      * right. unfold dirs. rewrite lookup_delete. reflexivity.
      * unfold dirs. rewrite lookup_delete_ne, lookup_insert by congruence. unfold par_rem, isdirk. cbn [i_kind i_link i_dict set_link set_dict]. rewrite Hk.
        rewrite lookup_delete_ne by exact (dotb_dots _ Hd). reflexivity.
      * intros j H1 H2. unfold dirs. rewrite lookup_delete_ne, lookup_insert_ne by congruence. reflexivity.
    + intros g. rewrite (names_rem _ _ p _ f) by (assumption || reflexivity). rewrite lookup_delete_ne by congruence. exact (Hno g).
  - intros j y [_ Hy]%lookup_delete_Some. revert Hy. rewrite lookup_insert_Some. intros [[<- _]|[_ Hy]]; [exact (Hkey _ _ Hp)|exact (Hkey _ _ Hy)].
Qed.

(** A name of a directory becomes another name there *)
Lemma J_rename t n L i par p fo fn :
  J t n L -> t !! par = Some p -> i_kind p = KDir -> i_dict p !! fo = Some i -> dotb fo = false -> dotb fn = false ->
  exists L', J (<[par := set_dict (delete fo (<[fn := i]> (i_dict p))) p]> t) n L'.
Proof.
  intros [Hv Hkey] Hp Hk Hf Hdo Hdn.
  set (p' := set_dict (delete fo (<[fn := i]> (i_dict p))) p).
  assert (Hn : names t !! (par, fo) = Some i) by (rewrite (names_of _ _ _ _ Hp Hdo); exact Hf).
  assert (HD : forall j, dirs (<[par := p']> t) j = dirs t j).
  { intros j. unfold dirs. destruct (decide (par = j)) as [<-|Hne]; [|rewrite lookup_insert_ne by exact Hne; reflexivity].
    rewrite lookup_insert, Hp. unfold p', isdirk. cbn [i_kind i_link i_dict set_dict]. rewrite Hk.
    rewrite lookup_delete_ne, lookup_insert_ne by (exact (dotb_dots _ Hdo) || exact (dotb_dots _ Hdn)). reflexivity. }
  assert (Hkeys : forall j y, <[par := p']> t !! j = Some y -> 1 <= j < n).
  { intros j y. rewrite lookup_insert_Some. intros [[<- _]|[_ Hy]]; [exact (Hkey _ _ Hp)|exact (Hkey _ _ Hy)]. }
  assert (HN : names (<[par := p']> t) = delete (par, fo) (<[(par, fn) := i]> (names t))).
  { set (p1 := set_dict (<[fn := i]> (i_dict p)) p).
    rewrite <- (names_add t par p p1 fn i Hp Hdn eq_refl).
    rewrite <- (names_rem (<[par := p1]> t) par p1 p' fo (lookup_insert _ _ _) eq_refl). rewrite insert_insert. reflexivity. }
  assert (Hgo : exists L', jv (delete (par, fo) (<[(par, fn) := i]> (names t))) (dirs t) n L').
  { destruct (decide (fo = fn)) as [<-|Hne].
    - rewrite delete_insert_delete. exact (jv_lose _ _ _ _ _ _ _ Hv Hn).
    - destruct (names t !! (par, fn)) as [j|] eqn:E.
      + destruct (jv_lose _ _ _ _ _ _ _ Hv E) as [L' HL']. exists L'. rewrite <- (insert_delete_insert (names t)).
        apply jv_move; [exact HL'| |apply lookup_delete]. rewrite lookup_delete_ne by congruence. exact Hn.
      + exists L. exact (jv_move _ _ _ _ _ _ _ _ Hv Hn E). }
  destruct Hgo as [L' HL']. exists L'. constructor; [|exact Hkeys]. rewrite HN. revert HL'. apply jv_same. exact HD.
Qed.

(** ** The calls *)
Ltac stay := first [apply jkeep_refl | apply jkeep_same; reflexivity].

Lemma open_fobj_ino i n w : w_ino (open_fobj i n w) = w_ino w.
Proof. unfold open_fobj. destruct (w_fobj w !! i); reflexivity. Qed.
Lemma open_fobj_next i n w : w_next (open_fobj i n w) = w_next w.
Proof. unfold open_fobj. destruct (w_fobj w !! i); reflexivity. Qed.

Lemma open_any w c cwd p fl m w' r :
  canonical cwd -> open_syscall w c cwd p fl m = Done (w', r) -> jw w -> jw w'.
Proof.
  intros Hc H. unfold open_syscall in H.
  destruct (String.eqb p ""); [brk H; auto|].
  destruct (next_fd w c 0) as [fd|]; [|brk H; auto].
  pose proof (normpath_canonical cwd p Hc) as Hcp.
  destruct (metawalkandparent (w_ino w) (normpath cwd p)) as [[[i|] [par|]]|] eqn:Hw; cbn [obind] in H; try discriminate H.
  1,2: apply jkeep_jw; destruct (_ =? _) eqn:E0 in H; [brk H; stay|]; destruct (get_ino w i) as [x|] eqn:Hx; cbn [obind] in H; [|discriminate H];
    apply get_ino_done in Hx; destruct (i_kind x) eqn:Hk;
    [ destruct (Z.land fl O_TRUNC =? O_TRUNC) eqn:Et;
      [ unfold remove_host in H; wcbn1 H; destruct (d_host (w_disk w) !! i) as [b|] eqn:Eh; [|discriminate H];
        wcbn1 H; injection H as <- <-; unfold open_fobj; wcbn; rewrite lookup_delete;
        (apply (jkeep_touch _ _ i x (set_ref (i_ref x + 1) (set_size 0 x))); [exact Hx|cbn; rewrite ?insert_insert; reflexivity|reflexivity..])
      | cbn [obind] in H; injection H as <- <-; rewrite set_size_id; unfold open_fobj; destruct (w_fobj w !! i);
        (apply (jkeep_touch _ _ i x (set_ref (i_ref x + 1) x)); [exact Hx|reflexivity..]) ]
    | injection H as <- <-; apply (jkeep_touch _ _ i x (set_ref (i_ref x + 1) x)); [exact Hx|reflexivity..]
    | injection H as <- <-; apply (jkeep_touch _ _ i x (set_ref (i_ref x + 1) x)); [exact Hx|reflexivity..]
    | injection H as <- <-; stay ].
  - destruct (walk_par _ _ _ _ Hcp Hw) as (f & q & Hf & Hq & Hqk & Hqf & Hdot & Hnm). rewrite Hf in H.
    destruct (negb (hasbit fl O_CREAT)); [brk H; auto|].
    destruct (Z.land S_IFCHR fl =? S_IFCHR); [brk H; auto|].
    destruct (negb (sane_mode m)); [brk H; auto|].
    unfold add_child, get_ino in H. rewrite Hq in H. cbn [obind] in H. injection H as <- <-.
    intros [L HL]. exists L.
    cbn [put_fd with_fds w_ino w_next]. rewrite open_fobj_ino, open_fobj_next. cbn [log_meta emit put_ino with_ino with_next w_ino w_next].
    apply J_new; try assumption; intros E; [discriminate E|reflexivity].
  - injection H as <- <-. auto.
Qed.

Lemma mkdir_any w cwd p m w' r :
  canonical cwd -> mkdir_syscall w cwd p m = Done (w', r) -> jw w -> jw w'.
Proof.
  intros Hc H. unfold mkdir_syscall in H. destruct (String.eqb p ""); [brk H; auto|].
  pose proof (normpath_canonical cwd p Hc) as Hcp.
  destruct (metawalkandparent (w_ino w) (normpath cwd p)) as [[[i|] [par|]]|] eqn:Hw; cbn [obind] in H; try discriminate H;
    try (brk H; auto; fail).
  destruct (walk_par _ _ _ _ Hcp Hw) as (f & q & Hf & Hq & Hqk & Hqf & Hdot & Hnm). rewrite Hf in H.
  destruct (negb (sane_mode m)); [brk H; auto|].
  unfold add_child, get_ino in H. rewrite Hq in H. cbn [obind] in H. injection H as <- <-. intros [L HL]. exists L.
  cbn [log_meta emit put_ino with_ino with_next w_ino w_next].
  apply J_new; try assumption; intros E; [split; reflexivity|destruct E; reflexivity].
Qed.

Lemma mknod_any w cwd p m d w' r :
  canonical cwd -> mknod_syscall w cwd p m d = Done (w', r) -> jw w -> jw w'.
Proof.
  intros Hc H. unfold mknod_syscall in H. destruct (String.eqb p ""); [brk H; auto|].
  pose proof (normpath_canonical cwd p Hc) as Hcp.
  destruct (metawalkandparent (w_ino w) (normpath cwd p)) as [[[i|] [par|]]|] eqn:Hw; cbn [obind] in H; try discriminate H;
    try (brk H; auto; fail).
  destruct (walk_par _ _ _ _ Hcp Hw) as (f & q & Hf & Hq & Hqk & Hqf & Hdot & Hnm). rewrite Hf in H.
  destruct (negb (sane_mode m)); [brk H; auto|].
  destruct (Z.land m S_IFCHR =? 0); [brk H; auto|].
  unfold add_child, get_ino in H. rewrite Hq in H. cbn [obind] in H. injection H as <- <-. intros [L HL]. exists L.
  cbn [log_meta emit put_ino with_ino with_next w_ino w_next].
  apply J_new; try assumption; intros E; [discriminate E|reflexivity].
Qed.

Lemma link_any w cwd a b w' r :
  canonical cwd -> link_syscall w cwd a b = Done (w', r) -> jw w -> jw w'.
Proof.
  intros Hc H. unfold link_syscall in H.
  destruct (String.eqb a ""); [brk H; auto|]. destruct (String.eqb b ""); [brk H; auto|].
  pose proof (normpath_canonical cwd b Hc) as Hcb.
  destruct (file_name (normpath cwd b)) as [f|] eqn:Hfb; [|discriminate H].
  destruct (metawalk (w_ino w) (normpath cwd a)) as [[i|]|] eqn:Hma; cbn [obind] in H; try discriminate H; [|brk H; auto].
  destruct (get_ino w i) as [x|] eqn:Hx; cbn [obind] in H; [|discriminate H]. apply get_ino_done in Hx.
  destruct (decide (i_kind x = KDir)) as [Hk|Hk].
  { rewrite Hk in H. brk H. auto. }
  assert (H' : obind (metawalkandparent (<[i := set_link (i_link x + 1) x]> (w_ino w)) (normpath cwd b)) (fun r0 =>
      match r0 with
      | (None, None) => Done (put_ino i x (put_ino i (set_link (i_link x + 1) x) w), err ENOENT)
      | (Some _, _) => Done (put_ino i x (put_ino i (set_link (i_link x + 1) x) w), err EEXIST)
      | (None, Some par) =>
          obind (get_ino (put_ino i (set_link (i_link x + 1) x) w) par) (fun p =>
          Done (log_meta i (log_meta par (put_ino par (set_link (i_link p + 1) (set_dict (<[f := i]> (i_dict p)) p)) (put_ino i (set_link (i_link x + 1) x) w))), 0))
      end) = Done (w', r)).
  { destruct (i_kind x); try congruence; exact H. }
  clear H. rename H' into H.
  assert (Hrev : jkeep w (put_ino i x (put_ino i (set_link (i_link x + 1) x) w))).
  { apply jkeep_same; [|reflexivity]. cbn [put_ino with_ino w_ino]. rewrite insert_insert. apply insert_id. exact Hx. }
  destruct (metawalkandparent _ (normpath cwd b)) as [[[j|] [par|]]|] eqn:Hw; cbn [obind] in H; try discriminate H;
    try (injection H as <- <-; exact (jkeep_jw _ _ Hrev)).
  destruct (walk_par _ _ _ _ Hcb Hw) as (f' & q & Hf & Hq & Hqk & Hqf & Hdot & Hnm).
  assert (f' = f) by congruence. subst f'.
  assert (Hne : par <> i).
  { intros ->. rewrite lookup_insert in Hq. injection Hq as <-. cbn in Hqk. congruence. }
  unfold get_ino in H. cbn [put_ino with_ino w_ino] in H. rewrite Hq in H. cbn [obind] in H. injection H as <- <-.
  rewrite lookup_insert_ne in Hq by congruence. intros [L HL]. exists L.
  cbn [log_meta emit put_ino with_ino with_next w_ino w_next].
  apply (J_link _ _ _ i x); auto.
  destruct Hnm as [->|[k Hk']]; [left; reflexivity|]. right. exists k.
  rewrite (names_same _ i _ x) in Hk' by (assumption || reflexivity). exact Hk'.
Qed.

Lemma unlink_any w cwd p w' r :
  canonical cwd -> unlink_syscall w cwd p = Done (w', r) -> jw w -> jw w'.
Proof.
  intros Hc H. unfold unlink_syscall in H. destruct (String.eqb p ""); [brk H; auto|].
  pose proof (normpath_canonical cwd p Hc) as Hcp.
  destruct (metawalkandparent (w_ino w) (normpath cwd p)) as [[[i|] [par|]]|] eqn:Hw; cbn [obind] in H; try discriminate H;
    try (brk H; auto; fail).
  destruct (walk_par _ _ _ _ Hcp Hw) as (f & q & Hf & Hq & Hqk & Hqf & Hdot & Hnm).
  destruct (get_ino w i) as [x|] eqn:Hx; cbn [obind] in H; [|discriminate H]. apply get_ino_done in Hx.
  destruct (decide (i_kind x = KDir)) as [Hk|Hk].
  { rewrite Hk in H. brk H. auto. }
  assert (Hne : par <> i) by congruence.
  destruct (dec (i_link x)) as [l|] eqn:Hl; [|destruct (i_kind x); cbn [obind] in H; congruence].
  unfold remove_from_parent, get_ino in H. cbn [obind] in H. cbn [put_ino with_ino w_ino] in H.
  rewrite lookup_insert_ne in H by congruence. rewrite Hq in H. cbn [obind] in H. rewrite Hqk, Hf, Hqf in H.
  assert (Ht : jkeep w (put_ino i (set_link l x) w)).
  { apply (jkeep_touch _ _ i x (set_link l x)); try reflexivity; [exact Hx|]. intros E. contradiction. }
  destruct (no_write_bits (i_mode q)) eqn:Eb.
  { destruct (i_kind x); try contradiction; cbn [obind] in H;
      change (negb (err EPERM =? 0)) with true in H; cbv iota in H; injection H as <- _; exact (jkeep_jw _ _ Ht). }
  destruct (dec (i_link q)) as [lq|] eqn:Hlq; [|destruct (i_kind x); cbn in H; congruence].
  apply dec_done in Hlq as [-> _].
  intros [L HL]. apply Ht in HL. cbn [put_ino with_ino w_ino] in HL.
  assert (Hq' : <[i := set_link l x]> (w_ino w) !! par = Some q) by (rewrite lookup_insert_ne by congruence; exact Hq).
  assert (HA : J (<[par := par_rem f q]> (<[i := set_link l x]> (w_ino w))) (w_next w) L).
  { apply (J_unname _ _ _ i); try assumption. intros y. rewrite lookup_insert. intros [= <-] E. cbn in E. contradiction. }
  assert (HB : J (delete i (<[par := par_rem f q]> (<[i := set_link l x]> (w_ino w)))) (w_next w) L).
  { apply (J_unname_del _ _ _ i (set_link l x)); try assumption; [apply lookup_insert|]. intros E. cbn in E. contradiction. }
  exists L. unfold par_rem in HA, HB.
  destruct (i_kind x) as [| |ma mi|] eqn:Ek; try congruence; cbn [obind] in H; cbn [Z.eqb negb] in H;
    destruct ((l =? 0) && (i_ref x =? 0)) eqn:Eg; cbn [obind] in H.
  - unfold remove_host in H. wcbn1 H. destruct (d_host (w_disk w) !! i); [|discriminate H]. wcbn1 H. injection H as <- <-. exact HB.
  - injection H as <- <-. exact HA.
  - injection H as <- <-. exact HB.
  - injection H as <- <-. exact HA.
  - injection H as <- <-. exact HB.
  - injection H as <- <-. exact HA.
Qed.

Lemma rmdir_any w cwd p w' r :
  canonical cwd -> rmdir_syscall w cwd p = Done (w', r) -> jw w -> jw w'.
Proof.
  intros Hc H. unfold rmdir_syscall in H. destruct (String.eqb p ""); [brk H; auto|].
  pose proof (normpath_canonical cwd p Hc) as Hcp.
  destruct (metawalkandparent (w_ino w) (normpath cwd p)) as [[[i|] [par|]]|] eqn:Hw; cbn [obind] in H; try discriminate H;
    try (brk H; auto; fail).
  destruct (walk_par _ _ _ _ Hcp Hw) as (f & q & Hf & Hq & Hqk & Hqf & Hdot & Hnm).
  destruct (get_ino w par) as [q'|] eqn:Hq'; cbn [obind] in H; [|discriminate H]. apply get_ino_done in Hq'.
  assert (q' = q) by congruence. subst q'. clear Hq'.
  destruct (no_write_bits (i_mode q)) eqn:Eb; [brk H; auto|].
  destruct (get_ino w i) as [x|] eqn:Hx; cbn [obind] in H; [|discriminate H]. apply get_ino_done in Hx.
  destruct (i_kind x) eqn:Ek; try (brk H; auto; fail).
  destruct (3 <? i_link x) eqn:El; [brk H; auto|].
  destruct (negb (is_dir (i_mode x))); [discriminate H|].
  destruct (no_write_bits (i_mode x)); [brk H; auto|].
  intros [L HL]. exists L.
  assert (Hin : names (w_ino w) !! (par, f) = Some i) by (rewrite names_lookup, Hdot, Hq; exact Hqf).
  assert (Hne : par <> i). { destruct (v_up _ _ _ _ (j_v _ _ _ HL) _ _ _ _ _ (dirs_dir _ _ _ Hx Ek) Hin) as [_ ?]. lia. }
  assert (HA : J (<[par := par_rem f q]> (w_ino w)) (w_next w) L).
  { apply (J_unname _ _ _ i); try assumption. intros y Hy _. assert (y = x) by congruence. subst y. lia. }
  assert (HB : J (delete i (<[par := par_rem f q]> (w_ino w))) (w_next w) L).
  { apply (J_unname_del _ _ _ i x); try assumption. lia. }
  unfold par_rem in HA, HB. unfold remove_from_parent, get_ino in H.
  destruct (i_ref x =? 0) eqn:Er; wcbn1 H; rewrite ?lookup_insert_ne in H by congruence;
    rewrite Hq in H; cbn [obind] in H; rewrite Hqk, Eb, Hf, Hqf in H;
    destruct (dec (i_link q)) as [lq|] eqn:Hlq; cbn [obind] in H; try discriminate H;
    apply dec_done in Hlq as [-> _]; cbn [Z.eqb negb] in H; injection H as <- <-; wcbn.
  - rewrite (insert_commute (w_ino w)) by congruence. rewrite delete_insert_delete. exact HB.
  - exact HA.
Qed.

Lemma rename_any w cwd a b w' r :
  canonical cwd -> rename_syscall w cwd a b = Done (w', r) -> jw w -> jw w'.
Proof.
  intros Hc H. unfold rename_syscall in H.
  destruct (String.eqb a ""); [brk H; auto|]. destruct (String.eqb b ""); [brk H; auto|].
  pose proof (normpath_canonical cwd a Hc) as Hca. pose proof (normpath_canonical cwd b Hc) as Hcb.
  destruct (metawalkandparent (w_ino w) (normpath cwd a)) as [[[i|] [par|]]|] eqn:Hw; cbn [obind] in H; try discriminate H;
    try (brk H; auto; fail).
  destruct (walk_par _ _ _ _ Hca Hw) as (f & q & Hf & Hq & Hqk & Hqf & Hdot & Hnm).
  destruct (metawalkandparent (w_ino w) (normpath cwd b)) as [[j par2]|] eqn:Hw2; cbn [obind snd] in H; [|discriminate H].
  destruct (bool_decide (par2 = Some par)) eqn:Eb; cbn [negb] in H; [|brk H; auto].
  apply bool_decide_eq_true in Eb. subst par2.
  destruct (walk_par _ _ _ _ Hcb Hw2) as (f2 & q2 & Hf2 & Hq2 & _ & Hqf2 & Hdot2 & _).
  unfold get_ino in H. rewrite Hq in H. cbn [obind] in H. rewrite Hf, Hf2 in H. injection H as <- <-.
  intros [L HL]. unfold jw. cbn [log_meta emit put_ino with_ino with_next w_ino w_next].
  exact (J_rename _ _ _ _ _ _ _ _ HL Hq Hqk Hqf Hdot Hdot2).
Qed.

(** *** Calls that leave names and link counts of directories alone *)
Lemma chmod_any w i m w' r : chmod_helper i m w = Done (w', r) -> jkeep w w'.
Proof.
  unfold chmod_helper. intros H. destruct (_ =? m); [|brk H; stay].
  destruct (get_ino w i) as [x|] eqn:Hx; cbn [obind] in H; [|discriminate H]. apply get_ino_done in Hx.
  injection H as <- <-. destruct (i_kind x) eqn:Ek; match goal with |- jkeep _ ?w1 => eapply (jkeep_touch _ _ i x); [exact Hx|reflexivity|reflexivity|..]; reflexivity end.
Qed.

Lemma writeat_any i off bs w w' : writeat i off bs w = Done w' -> w_ino w' = w_ino w /\ w_next w' = w_next w.
Proof. unfold writeat. intros H. destruct (w_fobj w !! i); [|discriminate H]. destruct (_ || _); [discriminate H|]. injection H as <-. auto. Qed.
Lemma zerofill_any i off n w w' : zerofill i off n w = Done w' -> w_ino w' = w_ino w /\ w_next w' = w_next w.
Proof. unfold zerofill. intros H. destruct (w_fobj w !! i); [|discriminate H]. destruct (_ <? _); [discriminate H|]. injection H as <-. auto. Qed.

Lemma file_write_any i pos bs x w w' : w_ino w !! i = Some x -> file_write i pos bs x w = Done w' -> jkeep w w'.
Proof.
  intros Hx H. unfold file_write in H.
  match type of H with obind ?o _ = _ => destruct o as [w1|] eqn:E1; cbn [obind] in H; [|discriminate H] end.
  assert (H1 : w_ino w1 = w_ino w /\ w_next w1 = w_next w).
  { destruct (0 <? pos - i_size x); [exact (zerofill_any _ _ _ _ _ E1)|]. destruct (w_fobj w !! i); [|discriminate E1]. injection E1 as <-. auto. }
  destruct (writeat i pos bs w1) as [w2|] eqn:E2; cbn [obind] in H; [|discriminate H].
  apply writeat_any in E2. destruct H1 as [A1 A2], E2 as [B1 B2].
  match type of H with (if ?b then _ else _) = _ => destruct b end; injection H as <-.
  - apply (jkeep_touch _ _ i x (set_size (pos + Z.of_nat (length bs)) x)); try reflexivity; [exact Hx| |]; cbn [log_meta emit put_ino with_ino with_next w_ino w_next]; congruence.
  - apply jkeep_same; congruence.
Qed.

Lemma truncate_any w i len must w' r : truncate_helper i len must w = Done (w', r) -> jkeep w w'.
Proof.
  unfold truncate_helper. intros H. destruct (len <? 0); [brk H; stay|].
  destruct (get_ino w i) as [x|] eqn:Hx; cbn [obind] in H; [|discriminate H]. apply get_ino_done in Hx.
  destruct (i_kind x) eqn:Ek; try (brk H; stay).
  set (w1 := if match w_fobj w !! i with Some _ => true | None => false end then w else with_fobj (insert i (i_size x)) (emit (PCreate i) w)) in H.
  assert (A : w_ino w1 = w_ino w /\ w_next w1 = w_next w) by (subst w1; destruct (w_fobj w !! i); auto). clearbody w1. destruct A as [A1 A2].
  destruct (_ && must); [discriminate H|].
  match type of H with obind ?o _ = _ => destruct o as [w2|] eqn:E2; cbn [obind] in H; [|discriminate H] end.
  assert (B : w_ino w2 = w_ino w1 /\ w_next w2 = w_next w1).
  { destruct (_ <? len) in E2; [exact (zerofill_any _ _ _ _ _ E2)|]. destruct (w_fobj w1 !! i); [|discriminate E2]. destruct (_ <? _) in E2; [discriminate E2|]. injection E2 as <-. auto. }
  destruct B as [B1 B2]. injection H as <- <-.
  apply (jkeep_touch _ _ i x (set_size len x)); try reflexivity; [exact Hx| |]; destruct (w_fobj w !! i); cbn [log_meta emit put_ino with_ino with_next with_fobj w_ino w_next]; congruence.
Qed.

Lemma read_any w c fd n w' o : read_syscall w c fd n = Done (w', o) -> jkeep w w'.
Proof.
  intros H. unfold read_syscall in H. destruct (fd_slot w c fd) as [s|]; cbn [obind] in H; [|discriminate H].
  destruct s as [[i pos fl|st fl|pid fl|fl]|]; try (brk H; stay).
  - destruct (is_wronly fl); [brk H; stay|]. destruct (get_ino w i) as [x|]; cbn [obind] in H; [|discriminate H].
    destruct (i_kind x); try (brk H; stay).
Qed.

Lemma write_any w c fd bs w' o : write_syscall w c fd bs = Done (w', o) -> jkeep w w'.
Proof.
  intros H. unfold write_syscall in H. destruct (fd_slot w c fd) as [s|]; cbn [obind] in H; [|discriminate H].
  destruct s as [[i pos fl|st fl|pid fl|fl]|]; try (brk H; stay).
  - destruct (is_rdonly fl); [brk H; stay|]. destruct (get_ino w i) as [x|] eqn:Hx; cbn [obind] in H; [|discriminate H]. apply get_ino_done in Hx.
    destruct (i_kind x); try (brk H; stay).
    destruct (file_write i pos bs x w) as [w1|] eqn:Ew; cbn [obind] in H; [|discriminate H].
    injection H as <- <-. eapply jkeep_trans; [exact (file_write_any _ _ _ _ _ _ Hx Ew)|stay].
Qed.

Lemma pwrite_any w c fd bs off w' o : pwrite_syscall w c fd bs off = Done (w', o) -> jkeep w w'.
Proof.
  intros H. unfold pwrite_syscall in H. destruct (fd_slot w c fd) as [s|]; cbn [obind] in H; [|discriminate H].
  destruct s as [[i pos fl|st fl|pid fl|fl]|]; try (brk H; stay).
  destruct (is_rdonly fl); [brk H; stay|]. destruct (get_ino w i) as [x|] eqn:Hx; cbn [obind] in H; [|discriminate H]. apply get_ino_done in Hx.
  destruct (i_kind x); try (brk H; stay).
  destruct (file_write i off bs x w) as [w1|] eqn:Ew; cbn [obind] in H; [|discriminate H].
  injection H as <- <-. exact (file_write_any _ _ _ _ _ _ Hx Ew).
Qed.

Lemma writev_any w c fd iov w' o : writev_syscall w c fd iov = Done (w', o) -> jkeep w w'.
Proof.
  intros H. unfold writev_syscall in H. destruct (fd_slot w c fd) as [s|]; cbn [obind] in H; [|discriminate H].
  destruct s as [[i pos fl|st fl|pid fl|fl]|]; try (brk H; stay).
  - destruct (is_rdonly fl); [brk H; stay|]. destruct (get_ino w i) as [x|] eqn:Hx; cbn [obind] in H; [|discriminate H]. apply get_ino_done in Hx.
    destruct (i_kind x); try (brk H; stay).
    destruct (file_write i pos (concat iov) x w) as [w1|] eqn:Ew; cbn [obind] in H; [|discriminate H].
    injection H as <- <-. eapply jkeep_trans; [exact (file_write_any _ _ _ _ _ _ Hx Ew)|stay].
Qed.

Lemma lseek_any w c fd off wh w' r : lseek_syscall w c fd off wh = Done (w', r) -> jkeep w w'.
Proof.
  intros H. unfold lseek_syscall in H. destruct (fd_slot w c fd) as [s|]; cbn [obind] in H; [|discriminate H].
  destruct s as [[i pos fl|st fl|pid fl|fl]|]; try (brk H; stay).
  destruct (get_ino w i) as [x|]; cbn [obind] in H; [|discriminate H].
  destruct (i_kind x); try (brk H; stay);
    match type of H with obind ?o _ = _ => destruct o as [[e|]|]; cbn [obind] in H; [| |discriminate H] end;
    try (brk H; stay);
    match type of H with (if ?b then _ else _) = _ => destruct b end; injection H as <- <-; stay.
Qed.

Lemma close_desc_any d w w' r : close_desc d w = Done (w', r) -> jkeep w w'.
Proof.
  intros H. unfold close_desc in H. destruct d as [i pos fl|st fl|pid fl|fl]; try (brk H; stay).
  - destruct (get_ino w i) as [x|] eqn:Hx; cbn [obind] in H; [|discriminate H]. apply get_ino_done in Hx.
    destruct (dec (i_ref x)) as [r0|] eqn:Er; cbn [obind] in H; [|discriminate H].
    assert (Ht : forall w1, w_ino w1 = <[i := set_ref r0 x]> (w_ino w) -> w_next w1 = w_next w -> jkeep w w1).
    { intros w1 E1 E2. apply (jkeep_touch _ _ i x (set_ref r0 x)); try reflexivity; assumption. }
    assert (Hd : forall w1, w_ino w1 = delete i (w_ino w) -> w_next w1 = w_next w -> (i_kind x = KDir -> i_link x = 2) -> jkeep w w1).
    { intros w1 E1 E2 E3. apply (jkeep_drop _ _ i x); assumption. }
    destruct (i_kind x) as [| |ma mi|] eqn:Ek; [| | |discriminate H].
    + destruct (r0 =? 0).
      * wcbn1 H. destruct (w_fobj w !! i); [|discriminate H]. destruct (i_link x =? 0).
        -- unfold remove_host in H. wcbn1 H. destruct (d_host (w_disk w) !! i); [|discriminate H].
           wcbn1 H. injection H as <- <-. apply Hd; [cbn; apply delete_insert_delete|reflexivity|discriminate].
        -- wcbn1 H. injection H as <- <-. apply Ht; reflexivity.
      * wcbn1 H. injection H as <- <-. apply Ht; reflexivity.
    + wcbn1 H. destruct (w_fobj w !! i); [injection H as <- <-; apply Ht; reflexivity|]. destruct (_ && _) eqn:E1 in H; wcbn1 H; injection H as <- <-.
      * apply andb_true_iff in E1 as [E1 E2]. apply Hd; [cbn; rewrite ?delete_insert_delete; reflexivity|reflexivity|]. intros _. lia.
      * apply Ht; reflexivity.
    + wcbn1 H. destruct (w_fobj w !! i); [injection H as <- <-; apply Ht; reflexivity|]. destruct (_ && _) eqn:E1 in H; wcbn1 H; injection H as <- <-.
      * apply Hd; [cbn; rewrite ?delete_insert_delete; reflexivity|reflexivity|discriminate].
      * apply Ht; reflexivity.
Qed.

Lemma close_inner_any c fd w w' r : close_inner w c fd = Done (w', r) -> jkeep w w'.
Proof.
  intros H. unfold close_inner in H. destruct (fd_slot w c fd) as [s|]; cbn [obind] in H; [|discriminate H].
  destruct s as [d|]; [exact (close_desc_any _ _ _ _ H)|]. brk H. stay.
Qed.

Lemma close_any w c fd w' r : close_syscall w c fd = Done (w', r) -> jkeep w w'.
Proof.
  intros H. unfold close_syscall in H. destruct (close_inner w c fd) as [[w1 r1]|] eqn:E; cbn [obind] in H; [|discriminate H].
  eapply jkeep_trans; [exact (close_inner_any _ _ _ _ _ E)|]. brk H; stay.
Qed.

Lemma add_ref_any d w w' : add_ref d w = Done (Some w') -> jkeep w w'.
Proof.
  intros H. unfold add_ref in H. destruct d as [i pos fl|st fl|pid fl|fl]; [| | |discriminate H].
  - destruct (get_ino w i) as [x|] eqn:Hx; cbn [obind] in H; [|discriminate H]. apply get_ino_done in Hx.
    assert (w' = put_ino i (set_ref (i_ref x + 1) x) w) as -> by (destruct (i_kind x); congruence).
    apply (jkeep_touch _ _ i x (set_ref (i_ref x + 1) x)); try reflexivity; exact Hx.
  - injection H as <-. stay.
  - destruct (get_pipe w pid) as [p|]; cbn [obind] in H; [|discriminate H]. injection H as <-. stay.
Qed.

Lemma dup2_any w c d newfd from w' r : dup2_helper w c d newfd from = Done (w', r) -> jkeep w w'.
Proof.
  intros H. unfold dup2_helper in H.
  match type of H with obind ?o _ = _ => destruct o as [[[w1 t]|]|] eqn:E1; cbn [obind] in H; [| |discriminate H] end.
  - assert (H1 : jkeep w w1).
    { destruct from.
      - destruct (w_fds w !! (c, newfd)); [|injection E1 as <- _; stay].
        destruct (close_inner w c newfd) as [[w0 r0]|] eqn:E2; cbn [obind fst] in E1; [|discriminate E1]. injection E1 as <- _. exact (close_inner_any _ _ _ _ _ E2).
      - destruct (next_fd w c newfd); [|discriminate E1]. injection E1 as <- _. stay. }
    eapply jkeep_trans; [exact H1|]. destruct (add_ref d w1) as [[w2|]|] eqn:E2; cbn [obind] in H; [| |discriminate H]; injection H as <- <-.
    + eapply jkeep_trans; [exact (add_ref_any _ _ _ E2)|stay].
    + stay.
  - injection H as <- <-. stay.
Qed.

Lemma fcntl_any w c fd cmd arg w' r : fcntl_syscall w c fd cmd arg = Done (w', r) -> jkeep w w'.
Proof.
  intros H. unfold fcntl_syscall in H. destruct (fd_slot w c fd) as [s|]; cbn [obind] in H; [|discriminate H].
  destruct s as [d|]; [|brk H; stay].
  destruct (cmd =? F_GETFD); [brk H; stay|].
  destruct ((cmd =? F_SETFD) && (0 <=? arg)); [injection H as <- <-; stay|].
  destruct (cmd =? F_GETFL); [brk H; stay|].
  destruct ((cmd =? F_SETFL) && (0 <=? arg)); [injection H as <- <-; stay|].
  destruct ((cmd =? F_DUPFD) && (0 <=? arg)); [exact (dup2_any _ _ _ _ _ _ _ H)|].
  brk H; stay.
Qed.

Lemma getdents_any w c fd n w' o : getdents_syscall w c fd n = Done (w', o) -> jkeep w w'.
Proof.
  intros H. unfold getdents_syscall in H. destruct (n <=? _); [brk H; stay|]. destruct (negb _); [brk H; stay|].
  destruct (w_fds w !! (c, fd)) as [[i pos fl|st fl|pid fl|fl]|]; try (brk H; stay).
  destruct (get_ino w i) as [x|]; cbn [obind] in H; [|discriminate H].
  destruct (i_kind x); try (brk H; stay).
Qed.

Lemma fork_fold_any ptab c child l : forall w w', fold_left (fork_fd ptab c child) l (Done w) = Done w' -> jkeep w w' /\ w_cwd w' = w_cwd w.
Proof.
  induction l as [|fd l IH]; intros w w' H; [cbn in H; injection H as <-; split; [stay|reflexivity]|].
  cbn [fold_left] in H. destruct (fork_fd ptab c child (Done w) fd) as [w1|] eqn:E; [|rewrite fork_fd_panic in H; discriminate H].
  destruct (IH _ _ H) as [IH1 IH2]. assert (X : jkeep w w1 /\ w_cwd w1 = w_cwd w).
  { unfold fork_fd in E. cbn [obind] in E. destruct (ptab !! (c, fd)) as [d|]; [|injection E as <-; split; [stay|reflexivity]].
    destruct d as [i pos fl|st fl|pid fl|fl]; cbn [obind] in E.
    - destruct (get_ino w i) as [x|] eqn:Hx; cbn [obind] in E; [|discriminate E]. apply get_ino_done in Hx. injection E as <-. split; [|reflexivity].
      apply (jkeep_touch _ _ i x (set_ref (i_ref x + 1) x)); try reflexivity; exact Hx.
    - injection E as <-. split; [stay|reflexivity].
    - destruct (get_pipe w pid); cbn [obind] in E; [|discriminate E]. injection E as <-. split; [stay|reflexivity].
    - injection E as <-. split; [stay|reflexivity]. }
  destruct X as [X1 X2]. split; [exact (jkeep_trans _ _ _ X1 IH1)|congruence].
Qed.

Lemma fork_any w c cwd child w' r : fork_syscall w c cwd child = Done (w', r) -> jkeep w w' /\ w_cwd w' = <[child := cwd]> (w_cwd w).
Proof.
  intros H. unfold fork_syscall in H. destruct (fold_left _ all_fds _) as [w1|] eqn:E; cbn [obind] in H; [|discriminate H].
  apply fork_fold_any in E as [E1 E2]. cbn [with_fds w_cwd] in E2.
  destruct (metawalk (w_ino w1) cwd) as [[i|]|]; cbn [obind] in H; try discriminate H.
  destruct (get_ino w1 i) as [x|] eqn:Hx; cbn [obind] in H; [|discriminate H]. apply get_ino_done in Hx.
  destruct (i_kind x) eqn:Hk; try discriminate H. destruct (_ || _); [discriminate H|]. injection H as <- <-.
  split; [|cbn [with_cwd put_ino with_ino w_cwd]; congruence].
  eapply jkeep_trans; [|eapply jkeep_trans; [exact E1|]]; [stay|].
  apply (jkeep_touch _ _ i x (set_ref (i_ref x + 1) x)); try reflexivity; exact Hx.
Qed.

Lemma close_desc_cwd d w w' r : close_desc d w = Done (w', r) -> w_cwd w' = w_cwd w.
Proof.
  intros H. unfold close_desc in H. destruct d as [i pos fl|st fl|pid fl|fl]; try (brk H; reflexivity).
  destruct (get_ino w i) as [x|]; cbn [obind] in H; [|discriminate H].
  destruct (dec (i_ref x)) as [r0|]; cbn [obind] in H; [|discriminate H].
  unfold remove_host in H. destruct (i_kind x); wcbn1 H; brk H; try reflexivity.
  - destruct (d_host (w_disk w) !! i) in E2; [|discriminate E2]. injection E2 as <-. reflexivity.
  - destruct (_ && _); reflexivity.
Qed.
Lemma close_cwd w c fd w' r : close_syscall w c fd = Done (w', r) -> w_cwd w' = w_cwd w.
Proof.
  intros H. unfold close_syscall in H. destruct (close_inner w c fd) as [[w1 r1]|] eqn:E; cbn [obind] in H; [|discriminate H].
  assert (X : w_cwd w1 = w_cwd w).
  { unfold close_inner in E. destruct (fd_slot w c fd) as [s|]; cbn [obind] in E; [|discriminate E]. destruct s; [exact (close_desc_cwd _ _ _ _ E)|]. brk E. reflexivity. }
  rewrite <- X. brk H; reflexivity.
Qed.

Lemma close_fold_any c l : forall w w', fold_left (close_fd_in c) l (Done w) = Done w' -> jkeep w w' /\ w_cwd w' = w_cwd w.
Proof.
  induction l as [|fd l IH]; intros w w' H; [cbn in H; injection H as <-; split; [stay|reflexivity]|].
  cbn [fold_left] in H. unfold close_fd_in at 2 in H. cbn [obind] in H.
  destruct (close_syscall w c fd) as [[w1 r]|] eqn:Ec; cbn [obind fst] in H; [|rewrite close_in_panic in H; discriminate H].
  destruct (IH _ _ H) as [IH1 IH2]. split; [exact (jkeep_trans _ _ _ (close_any _ _ _ _ _ Ec) IH1)|]. rewrite IH2. exact (close_cwd _ _ _ _ _ Ec).
Qed.

Lemma exec_any w c cwd child w' r : exec_syscall w c cwd child = Done (w', r) -> jkeep w w' /\ w_cwd w' = <[child := cwd]> (delete c (w_cwd w)).
Proof.
  intros H. unfold exec_syscall in H. destruct (fold_left _ _ _) as [w1|] eqn:E in H; cbn [obind] in H; [|discriminate H].
  apply close_fold_any in E as [E1 E2]. destruct (_ || _); [discriminate H|]. injection H as <- <-.
  split; [eapply jkeep_trans; [exact E1|stay]|]. cbn [with_cwd with_fds w_cwd]. congruence.
Qed.

Lemma exit_any w c st w' r : exit_syscall w c st = Done (w', r) -> jkeep w w' /\ w_cwd w' = delete c (w_cwd w).
Proof.
  intros H. unfold exit_syscall in H. destruct (fold_left _ _ _) as [w1|] eqn:E in H; cbn [obind] in H; [|discriminate H].
  apply close_fold_any in E as [E1 E2]. injection H as <- <-.
  split; [eapply jkeep_trans; [exact E1|stay]|]. cbn [with_cwd with_fds w_cwd]. congruence.
Qed.

Definition cwds (w : world) : Prop := forall c p, w_cwd w !! c = Some p -> canonical p.

Lemma step_cwds w c o w' r : cwds w -> step w c o = Done (w', r) -> cwds w'.
Proof.
  intros Hw H. destruct (calls_proc o) eqn:Ep.
  - unfold step in H. destruct (w_cwd w !! c) as [cwd|] eqn:Hc; [|discriminate H].
    pose proof (Hw _ _ Hc) as Hcan.
    assert (Hch : forall k p w1, canonical p -> w_cwd w1 = <[k := p]> (w_cwd w) -> cwds w1).
    { intros k p w1 Hp E a q. rewrite E, lookup_insert_Some. intros [[_ <-]|[_ Hq]]; [exact Hp|exact (Hw _ _ Hq)]. }
    destruct o; try discriminate Ep; unfold ret in H.
    + peelw H. unfold chdir_syscall in H. brk H; try assumption.
      destruct (i_kind _) in H; brk H; try assumption. eapply Hch; try reflexivity. apply normpath_canonical. assumption.
    + unfold fchdir_syscall in H. destruct (fd_slot w c fd) as [s|]; cbn [obind] in H; [|discriminate H].
      destruct s as [[]|]; try (brk H; assumption).
      destruct (pathname_loop _ _ _ _ _) as [[[]|]|]; try discriminate H; injection H as <- <-; try assumption.
      eapply Hch; try reflexivity. apply normpath_canonical. assumption.
    + peelw H. apply fork_any in H as [_ E]. exact (Hch _ _ _ Hcan E).
    + peelw H. apply exec_any in H as [_ E]. intros a q. rewrite E, lookup_insert_Some. intros [[_ <-]|[_ Hq]]; [exact Hcan|].
      apply lookup_delete_Some in Hq as [_ Hq]. exact (Hw _ _ Hq).
    + peelw H. apply exit_any in H as [_ E]. intros a q. rewrite E. intros [_ Hq]%lookup_delete_Some. exact (Hw _ _ Hq).
  - destruct (step_frame _ _ _ _ _ H Ep) as [F E]. intros a q. rewrite E. apply Hw.
Qed.

Lemma step_any w c o w' r : cwds w -> step w c o = Done (w', r) -> jw w -> jw w'.
Proof.
  intros Hw H. unfold step in H.
  destruct (w_cwd w !! c) as [cwd|] eqn:Hc; [|discriminate H].
  pose proof (Hw _ _ Hc) as Hcan.
  destruct o; unfold ret, same in H.
  - peelw H. exact (open_any _ _ _ _ _ _ _ _ Hcan H).
  - peelw H. exact (open_any _ _ _ _ _ _ _ _ Hcan H).
  - peelw H. exact (mkdir_any _ _ _ _ _ _ Hcan H).
  - peelw H. exact (mknod_any _ _ _ _ _ _ _ Hcan H).
  - peelw H. exact (link_any _ _ _ _ _ _ Hcan H).
  - peelw H. exact (unlink_any _ _ _ _ _ Hcan H).
  - peelw H. exact (rmdir_any _ _ _ _ _ Hcan H).
  - peelw H. exact (rename_any _ _ _ _ _ _ Hcan H).
  - apply jkeep_jw. peelw H. unfold chmod_syscall in H. brk H; [|stay]. exact (chmod_any _ _ _ _ _ H).
  - apply jkeep_jw. peelw H. unfold fchmod_syscall in H. destruct (fd_slot w c fd) as [s|]; cbn [obind] in H; [|discriminate H].
    destruct s as [[]|]; try (brk H; stay). exact (chmod_any _ _ _ _ _ H).
  - apply jkeep_jw. peelw H. unfold truncate_syscall in H. brk H; [|stay]. exact (truncate_any _ _ _ _ _ _ H).
  - apply jkeep_jw. peelw H. unfold ftruncate_syscall in H. destruct (fd_slot w c fd) as [s|]; cbn [obind] in H; [|discriminate H].
    destruct s as [[]|]; try (brk H; stay). destruct (is_rdonly _); [brk H; stay|]. exact (truncate_any _ _ _ _ _ _ H).
  - apply jkeep_jw. brk H; stay.
  - apply jkeep_jw. brk H; stay.
  - apply jkeep_jw. peelw H. brk H; stay.
  - apply jkeep_jw. exact (read_any _ _ _ _ _ _ H).
  - apply jkeep_jw. brk H; stay.
  - apply jkeep_jw. exact (write_any _ _ _ _ _ _ H).
  - apply jkeep_jw. exact (pwrite_any _ _ _ _ _ _ _ H).
  - apply jkeep_jw. exact (writev_any _ _ _ _ _ _ H).
  - apply jkeep_jw. peelw H. exact (lseek_any _ _ _ _ _ _ _ H).
  - apply jkeep_jw. peelw H. brk H; stay.
  - apply jkeep_jw. peelw H. exact (close_any _ _ _ _ _ H).
  - apply jkeep_jw. peelw H. unfold dup_syscall in H. destruct (fd =? 0); [brk H; stay|]. destruct (negb _); [brk H; stay|].
    destruct (w_fds w !! (c, fd)); [|brk H; stay]. exact (dup2_any _ _ _ _ _ _ _ H).
  - apply jkeep_jw. peelw H. unfold dup2_syscall in H. destruct (_ || _) in H; [brk H; stay|].
    destruct (Z.eqb_spec newfd oldfd); [brk H; stay|]. destruct (negb _); [brk H; stay|].
    destruct (w_fds w !! (c, oldfd)) as [d|]; [|brk H; stay]. exact (dup2_any _ _ _ _ _ _ _ H).
  - apply jkeep_jw. peelw H. exact (fcntl_any _ _ _ _ _ _ _ H).
  - apply jkeep_jw. peelw H. unfold chdir_syscall in H. brk H; try stay. destruct (i_kind _) in H; brk H; stay.
  - apply jkeep_jw. unfold fchdir_syscall in H. destruct (fd_slot w c fd) as [s|]; cbn [obind] in H; [|discriminate H].
    destruct s as [[]|]; try (brk H; stay).
    destruct (pathname_loop _ _ _ _ _) as [[[]|]|]; try discriminate H; injection H as <- <-; stay.
  - apply jkeep_jw. injection H as <- <-. stay.
  - apply jkeep_jw. exact (getdents_any _ _ _ _ _ _ H).
  - apply jkeep_jw. unfold pipe2_syscall in H. destruct (next_fd _ c 0) in H; [|injection H as <- <-; stay]. destruct (next_fd _ c 0) in H; injection H as <- <-; stay.
  - apply jkeep_jw. peelw H. unfold epoll_create_syscall in H. destruct (_ <=? 0) in H; [brk H; stay|]. destruct (next_fd w c 0); brk H; stay.
  - apply jkeep_jw. peelw H. apply fork_any in H as [H _]. exact H.
  - apply jkeep_jw. peelw H. apply exec_any in H as [H _]. exact H.
  - apply jkeep_jw. peelw H. apply exit_any in H as [H _]. exact H.
Qed.

Lemma fresh_root_up :
  match w_ino fresh_world !! ROOTINO with Some x => bool_decide (i_dict x !! ".." = Some ROOTINO) | None => false end = true.
Proof. vm_compute. reflexivity. Qed.
Lemma fresh_jw : jw fresh_world.
Proof.
  exists ∅. destruct fresh_chk as (_ & _ & _ & Hroot & Hnext & _).
  constructor; [|intros i x Hi; apply fresh_inos in Hi as [? _]; assumption].
  constructor.
  - pose proof fresh_root_up as Hup. unfold dirs. destruct (w_ino fresh_world !! ROOTINO) as [x|]; [|discriminate Hroot]. rewrite Hroot.
    apply bool_decide_eq_true in Hup. rewrite Hup. eauto.
  - intros i [u l] E. apply dirs_inv in E as (x & Hx & _). apply fresh_inos in Hx as [? _]. assumption.
  - intros [d f] i Hk. apply fresh_names in Hk as (x & Hx & Hr & _). apply fresh_inos in Hx as [? _]. split; [lia|exact Hr].
  - intros i [u l] [d f] k' E H1 H2. apply dirs_inv in E as (x & Hx & Hk & _). apply fresh_names in H1 as (x' & Hx' & _ & _ & _ & H1).
    assert (x' = x) by congruence. subst. destruct (H1 Hk) as [H3 _]. symmetry. exact (H3 _ H2).
  - intros i u l d f E H1. apply dirs_inv in E as (x & Hx & Hk & Hu & _). apply fresh_names in H1 as (x' & Hx' & _ & _ & _ & H1).
    assert (x' = x) by congruence. subst. destruct (H1 Hk) as [_ H3]. exact H3.
  - intros d f i Hk. unfold dirs. rewrite names_lookup in Hk. destruct (dotb f); [discriminate Hk|].
    destruct (w_ino fresh_world !! d) as [x|] eqn:Ex; [|discriminate Hk]. apply fresh_inos in Ex as [_ [(Hx & _)|(_ & Hx & _)]].
    + apply isdirk_true in Hx. rewrite Hx. discriminate.
    + cbn in Hk. rewrite Hx, lookup_empty in Hk. discriminate Hk.
  - intros d f i Hk. apply fresh_names in Hk as (x & _ & _ & _ & Hn & _). exact (named_alive _ _ _ Hn).
  - intros i d Hi. rewrite lookup_empty in Hi. discriminate Hi.
  - intros i u l E. apply dirs_inv in E as (x & Hx & Hk & _ & <-). apply fresh_inos in Hx as [_ [(_ & _ & _ & _ & Hl & _)|((a & b & X) & _)]]; [|congruence].
    unfold nkids in Hl. unfold kidsN. replace (kidsL ∅ i) with 0; [lia|]. symmetry. apply cnt_zero. intros k a Ha. rewrite lookup_empty in Ha. discriminate Ha.
Qed.

Lemma any_inv w : reach_any w -> cwds w /\ jw w.
Proof.
  induction 1 as [|w c o w' r _ [IH1 IH2] Hs].
  - split; [|exact fresh_jw]. intros c p Hc. apply fresh_cwd in Hc as [_ ->]. constructor.
  - split; [exact (step_cwds _ _ _ _ _ IH1 Hs)|exact (step_any _ _ _ _ _ IH1 Hs IH2)].
Qed.

(** ** What follows *)
Lemma any_one_name w i x d f d' f' : reach_any w -> w_ino w !! i = Some x -> i_kind x = KDir ->
  entry (w_ino w) d f i -> entry (w_ino w) d' f' i -> d = d' /\ f = f'.
Proof.
  intros Hr Hx Hk H1 H2. apply names_entry in H1, H2. apply any_inv in Hr as [_ [L [Hv _]]].
  pose proof (v_one _ _ _ _ Hv _ _ _ _ (dirs_dir _ _ _ Hx Hk) H1 H2) as E. injection E as -> ->. auto.
Qed.

Lemma any_up w i d : reach_any w -> inside (w_ino w) d i -> up (w_ino w) i d /\ d < i.
Proof.
  intros Hr (f & x & H1 & Hx & Hk). apply names_entry in H1. apply any_inv in Hr as [_ [L [Hv _]]].
  destruct (v_up _ _ _ _ Hv _ _ _ _ _ (dirs_dir _ _ _ Hx Hk) H1) as [E Hlt]. split; [|exact Hlt]. exists x. auto.
Qed.

(** '..' of the root is the root. *)
Lemma any_root_up w : reach_any w -> up (w_ino w) ROOTINO ROOTINO.
Proof.
  intros Hr. apply any_inv in Hr as [_ [L [Hv _]]]. destruct (v_root _ _ _ _ Hv) as [l E].
  apply dirs_inv in E as (x & Hx & Hk & Hu & _). exists x. auto.
Qed.

Lemma any_acyclic w i : reach_any w -> ~ tc (inside (w_ino w)) i i.
Proof.
  intros Hr H. assert (X : forall a b, tc (inside (w_ino w)) a b -> a < b).
  { induction 1 as [a b Hab|a b c' Hab _ IH]; apply (any_up _ _ _ Hr) in Hab as [_ ?]; lia. }
  apply X in H. lia.
Qed.

Lemma any_up_root w d i : reach_any w -> inside (w_ino w) d i -> rtc (up (w_ino w)) i ROOTINO.
Proof.
  intros Hr (f & x & He & Hx & Hk). apply names_entry in He. pose proof (any_inv _ Hr) as [_ [L [Hv Hkey]]].
  assert (Hind : forall n i, (Z.to_nat i < n)%nat -> dirs (w_ino w) i <> None -> alive (names (w_ino w)) L i -> rtc (up (w_ino w)) i ROOTINO).
  { induction n as [|n IH]; intros j Hlt Hd Ha; [lia|].
    destruct (dirs (w_ino w) j) as [[u l]|] eqn:Ej; [|contradiction]. clear Hd.
    pose proof (v_range _ _ _ _ Hv _ _ Ej) as Hrng.
    destruct (dirs_inv _ _ _ _ Ej) as (y & Hy & Hky & Hu & _).
    destruct Ha as [->|[[[e g] Hg]|[e Hl]]]; [apply rtc_refl| |].
    - destruct (v_up _ _ _ _ Hv _ _ _ _ _ Ej Hg) as [-> Hel].
      apply (rtc_l _ j e); [exists y; auto|].
      pose proof (v_par _ _ _ _ Hv _ _ _ Hg) as Hde. destruct (dirs (w_ino w) e) as [ee|] eqn:Ee; [|contradiction]. pose proof (v_range _ _ _ _ Hv _ _ Ee).
      apply IH; [lia|congruence|exact (v_alive _ _ _ _ Hv _ _ _ Hg)].
    - destruct (v_lost _ _ _ _ Hv _ _ Hl) as ((l' & E) & Hel & Hde & _ & Hae). rewrite Ej in E. injection E as -> _.
      apply (rtc_l _ j e); [exists y; auto|].
      destruct (dirs (w_ino w) e) as [ee|] eqn:Ee; [|contradiction]. pose proof (v_range _ _ _ _ Hv _ _ Ee).
      apply IH; [lia|congruence|exact Hae]. }
  apply (Hind (S (Z.to_nat i)) i); [lia| |right; left; eauto]. rewrite (dirs_dir _ _ _ Hx Hk). discriminate.
Qed.

Lemma any_unique_path w p q i x : reach_any w -> w_ino w !! i = Some x -> i_kind x = KDir ->
  canonical p -> canonical q -> resolves (w_ino w) p i -> resolves (w_ino w) q i -> p = q.
Proof.
  intros Hr. pose proof (any_inv _ Hr) as [_ [L [Hv _]]].
  revert q i x. induction p as [|f p IH] using rev_ind; intros q i x Hx Hk Hp Hq H1 H2.
  - apply resolves_nil in H1. subst i. destruct q as [|g q _] using rev_ind; [reflexivity|].
    exfalso. apply resolves_snoc in H2 as (d & y & _ & Hy & _ & Hg). apply canonical_snoc in Hq as [_ Hq].
    assert (Hnm : names (w_ino w) !! (d, g) = Some ROOTINO) by (rewrite names_lookup, Hq, Hy; exact Hg).
    apply (v_ent _ _ _ _ Hv) in Hnm. tauto.
  - apply resolves_snoc in H1 as (d & y & H1 & Hy & Hky & Hf). apply canonical_snoc in Hp as [Hp Hdf].
    assert (Hnm : names (w_ino w) !! (d, f) = Some i) by (rewrite names_lookup, Hdf, Hy; exact Hf).
    destruct q as [|g q _] using rev_ind.
    + exfalso. apply resolves_nil in H2. subst i. apply (v_ent _ _ _ _ Hv) in Hnm. tauto.
    + apply resolves_snoc in H2 as (d2 & y2 & H2 & Hy2 & Hky2 & Hg). apply canonical_snoc in Hq as [Hq Hdg].
      assert (Hnm2 : names (w_ino w) !! (d2, g) = Some i) by (rewrite names_lookup, Hdg, Hy2; exact Hg).
      pose proof (v_one _ _ _ _ Hv _ _ _ _ (dirs_dir _ _ _ Hx Hk) Hnm Hnm2) as E. injection E as <- <-.
      f_equal. exact (IH _ _ _ Hy Hky Hp Hq H1 H2).
Qed.

(** *** C05: what rmdir removes is empty *)
Lemma any_rmdir w c p w' cwd q i : reach_any w -> w_cwd w !! c = Some cwd -> step w c (Rmdir p) = Done (w', Ret 0) ->
  denotes cwd p q -> resolves (w_ino w) q i -> exists x, w_ino w !! i = Some x /\ i_kind x = KDir /\ empty_dir x.
Proof.
  intros Hr Hc H Hq Hres. apply denotes_normpath in Hq. subst q. pose proof (any_inv _ Hr) as [_ [L [Hv _]]].
  unfold step, ret in H. rewrite Hc in H.
  destruct (rmdir_syscall w cwd p) as [[w1 r1]|] eqn:E; cbn [obind fst snd] in H; [|discriminate H]. injection H as <- ->.
  unfold rmdir_syscall in E. destruct (String.eqb p ""); [discriminate E|].
  destruct (metawalkandparent _ _) as [[[j|] op]|] eqn:Em; cbn [obind] in E; [|discriminate E|discriminate E].
  assert (j = i).
  { eapply resolves_det; [|exact Hres]. apply metawalk_resolves. eapply mwap_metawalk; eauto. }
  subst j. destruct op as [par|]; [|discriminate E].
  destruct (get_ino w par) as [q|]; cbn [obind] in E; [|discriminate E]. destruct (no_write_bits (i_mode q)); [discriminate E|].
  destruct (get_ino w i) as [x|] eqn:Hx; cbn [obind] in E; [|discriminate E]. apply get_ino_done in Hx. exists x. split; [exact Hx|].
  destruct (i_kind x) eqn:Hk; try discriminate E.
  destruct (Z.ltb_spec 3 (i_link x)) as [|Hle]; [discriminate E|]. split; [reflexivity|].
  pose proof (v_link _ _ _ _ Hv _ _ _ (dirs_dir _ _ _ Hx Hk)) as Hd. pose proof (kidsN_nonneg (names (w_ino w)) i). pose proof (kidsL_nonneg L i).
  refine (proj1 (nkids_zero_dict _ _ _ Hx) _). unfold nkids. unfold kidsN in *. lia.
Qed.
