(** File contents. *)
From Verif Require Import Base PathModel PathSpec PathProofs FsModel FsBoot FsSpec FsWalk Count FsNames FsTr FsInv FsInv2
  FsSteps FsSteps2 FsFrame FsReachSpec FsReach FsTree FsNameSpec FsPath FdSpec FsDesc FsOps FsNameProofs FsFail FsPos FsIoSpec.
Local Open Scope list_scope.
Local Open Scope Z_scope.
Opaque all_fds.

(** ** Arrays *)
Lemma nth_lookup0 (l : list Z) k : nth k l 0 = default 0 (l !! k).
Proof. rewrite nth_lookup. destruct (l !! k); reflexivity. Qed.

Lemma nth_app0 (a b : list Z) k : nth k (a ++ b) 0 = if (k <? length a)%nat then nth k a 0 else nth (k - length a) b 0.
Proof. destruct (Nat.ltb_spec k (length a)); [apply app_nth1; assumption|apply app_nth2; lia]. Qed.
Lemma nth_take0 (a : list Z) n k : nth k (take n a) 0 = if (k <? n)%nat then nth k a 0 else 0.
Proof.
  rewrite !nth_lookup0. destruct (Nat.ltb_spec k n); [rewrite lookup_take by assumption; reflexivity|].
  rewrite lookup_take_ge by assumption. reflexivity.
Qed.
Lemma nth_drop0 (a : list Z) n k : nth k (drop n a) 0 = nth (n + k) a 0.
Proof. rewrite !nth_lookup0, lookup_drop. reflexivity. Qed.
Lemma nth_over0 (a : list Z) k : (length a <= k)%nat -> nth k a 0 = 0.
Proof. intros H. apply nth_overflow. assumption. Qed.
Lemma nth_repl0 n k : nth k (replicate n 0) 0 = 0.
Proof. rewrite nth_lookup0. destruct (replicate n 0 !! k) eqn:E; [|reflexivity]. apply lookup_replicate in E as [-> _]. reflexivity. Qed.

Lemma write_at_nth off bs c k : (Z.to_nat off <= length c)%nat ->
  nth k (write_at off bs c) 0 = if (Z.to_nat off <=? k)%nat && (k <? Z.to_nat off + length bs)%nat then nth (k - Z.to_nat off) bs 0 else nth k c 0.
Proof.
  intros H. unfold write_at. destruct bs as [|b0 bs].
  - cbn [length]. destruct (Nat.leb_spec (Z.to_nat off) k); cbn [andb]; [|reflexivity].
    destruct (Nat.ltb_spec k (Z.to_nat off + 0)); [lia|reflexivity].
  - set (bb := b0 :: bs). replace (Z.to_nat off - length c)%nat with 0%nat by lia. cbn [replicate]. rewrite app_nil_r.
    rewrite !nth_app0, nth_take0, nth_drop0, take_length_le by assumption.
    destruct (Nat.ltb_spec k (Z.to_nat off)).
    + destruct (Nat.leb_spec (Z.to_nat off) k); [lia|]. reflexivity.
    + destruct (Nat.leb_spec (Z.to_nat off) k); [|lia]. cbn [andb].
      destruct (Nat.ltb_spec (k - Z.to_nat off) (length bb)); destruct (Nat.ltb_spec k (Z.to_nat off + length bb)); try lia; try reflexivity.
      f_equal. lia.
Qed.

Lemma write_at_len off bs c : (Z.to_nat off <= length c)%nat -> length (write_at off bs c) = Nat.max (length c) (Z.to_nat off + length bs).
Proof.
  intros H. unfold write_at. destruct bs as [|b0 bs]; [cbn; lia|].
  replace (Z.to_nat off - length c)%nat with 0%nat by lia. cbn [replicate]. rewrite app_nil_r, !app_length, take_length, drop_length. lia.
Qed.

(** The two host writes of a write call *)
Definition padded (pos : Z) (l : list Z) : list Z :=
  if 0 <? pos - len l then write_at (len l) (replicate (Z.to_nat (pos - len l)) 0) l else l.

Lemma padded_spec pos l : len (padded pos l) = Z.max (len l) pos /\ forall k, nth k (padded pos l) 0 = nth k l 0.
Proof.
  unfold padded, len. destruct (Z.ltb_spec 0 (pos - Z.of_nat (length l))); [|split; [lia|reflexivity]]. split.
  - rewrite write_at_len, replicate_length by lia. lia.
  - intros k. rewrite write_at_nth by lia. rewrite Nat2Z.id, replicate_length, nth_repl0.
    destruct (Nat.leb_spec (length l) k); cbn [andb]; [|reflexivity]. destruct (_ <? _)%nat; [|reflexivity].
    symmetry. apply nth_over0. assumption.
Qed.

Lemma write_applied pos bs l : 0 <= pos -> applied (AWrite pos bs) l (write_at pos bs (padded pos l)).
Proof.
  intros Hp. destruct (padded_spec pos l) as [H1 H2]. unfold len in H1. split; [assumption|]. split.
  - unfold len. rewrite write_at_len by lia. unfold len in *. lia.
  - intros k Hk. unfold byte_at. rewrite write_at_nth by lia. rewrite H2. unfold len.
    destruct (Z.leb_spec pos k); destruct (Nat.leb_spec (Z.to_nat pos) (Z.to_nat k)); try lia; cbn [andb]; [|reflexivity].
    destruct (Z.ltb_spec k (pos + Z.of_nat (length bs))); destruct (Nat.ltb_spec (Z.to_nat k) (Z.to_nat pos + length bs)); try lia; try reflexivity.
    f_equal. lia.
Qed.

Lemma resize_applied n l : 0 <= n -> applied (AResize n) l (if len l <? n then write_at (len l) (replicate (Z.to_nat (n - len l)) 0) l else take (Z.to_nat n) l).
Proof.
  intros Hn. split; [assumption|]. unfold len, byte_at. destruct (Z.ltb_spec (Z.of_nat (length l)) n).
  - split; [rewrite write_at_len, replicate_length by lia; lia|]. intros k Hk.
    rewrite write_at_nth, Nat2Z.id, replicate_length, nth_repl0 by lia.
    destruct (Nat.leb_spec (length l) (Z.to_nat k)); cbn [andb].
    + rewrite nth_over0 by assumption. destruct (_ <? _)%nat; destruct (k <? n); reflexivity.
    + destruct (Z.ltb_spec k n); [reflexivity|lia].
  - split; [rewrite take_length; lia|]. intros k Hk. rewrite nth_take0.
    destruct (Z.ltb_spec k n); destruct (Nat.ltb_spec (Z.to_nat k) (Z.to_nat n)); try lia; reflexivity.
Qed.

(** ** The host writes *)
Lemma file_write_post w i pos bs x w' l : inv (core_of w) -> w_ino w !! i = Some x -> i_kind x = KFile -> bytes w i = Some l ->
  file_write i pos bs x w = Done w' ->
  0 <= pos /\ d_host (w_disk w') = <[i := write_at pos bs (padded pos l)]> (d_host (w_disk w)).
Proof.
  intros Hi Hx Hk Hl H. destruct (inv_file w i x Hi Hx Hk) as (Hf & b & Hb & Hs). unfold bytes in Hl. assert (b = l) by congruence. subst b.
  unfold file_write in H. unfold padded, len. rewrite Hs.
  match type of H with obind ?q _ = _ => destruct q as [w1|] eqn:E1; cbn [obind] in H; [|discriminate H] end.
  destruct (writeat i pos bs w1) as [w2|] eqn:E2; cbn [obind] in H; [|discriminate H].
  assert (H1 : d_host (w_disk w1) = <[i := if 0 <? pos - i_size x then write_at (i_size x) (replicate (Z.to_nat (pos - i_size x)) 0) l else l]> (d_host (w_disk w))).
  { destruct (0 <? pos - i_size x).
    - unfold zerofill in E1. destruct (w_fobj w !! i) as [fs|]; [|discriminate E1]. destruct (fs <? _) in E1; [discriminate E1|].
      injection E1 as <-. wcbn. apply map_eq. intros j. destruct (decide (i = j)) as [<-|Hne].
      + rewrite lookup_alter, lookup_insert, Hb. reflexivity.
      + rewrite lookup_alter_ne, lookup_insert_ne by assumption. reflexivity.
    - destruct (w_fobj w !! i); [|discriminate E1]. injection E1 as <-. rewrite insert_id by exact Hb. reflexivity. }
  unfold writeat in E2. destruct (w_fobj w1 !! i) as [fs|]; [|discriminate E2].
  destruct ((pos <? 0) || (fs <? pos)) eqn:Er; [discriminate E2|]. split; [lia|].
  assert (H2 : d_host (w_disk w') = d_host (w_disk w2)) by (destruct (_ <? _) in H; injection H as <-; reflexivity).
  rewrite H2. injection E2 as <-. wcbn. rewrite H1. apply map_eq. intros j. destruct (decide (i = j)) as [<-|Hne].
  - rewrite lookup_alter, !lookup_insert. reflexivity.
  - rewrite lookup_alter_ne, !lookup_insert_ne by assumption. reflexivity.
Qed.

Lemma truncate_post w i n must w' r x l : inv (core_of w) -> w_ino w !! i = Some x -> i_kind x = KFile -> bytes w i = Some l -> 0 <= n ->
  truncate_helper i n must w = Done (w', r) ->
  r = 0 /\ d_host (w_disk w') = <[i := if len l <? n then write_at (len l) (replicate (Z.to_nat (n - len l)) 0) l else take (Z.to_nat n) l]> (d_host (w_disk w)).
Proof.
  intros Hi Hx Hk Hl Hn H. destruct (inv_file w i x Hi Hx Hk) as (Hf & b & Hb & Hs). unfold bytes in Hl. assert (b = l) by congruence. subst b.
  unfold truncate_helper in H. unfold len. rewrite Hs. destruct (Z.ltb_spec n 0); [lia|].
  unfold get_ino in H. rewrite Hx in H. cbn [obind] in H. rewrite Hk in H. destruct (_ && must) in H; [discriminate H|].
  match type of H with obind ?q _ = _ => destruct q as [w2|] eqn:E2; cbn [obind] in H; [|discriminate H] end.
  match type of E2 with context [if ?b then w else ?e] => set (w1 := if b then w else e) in * end.
  assert (H1 : d_host (w_disk w1) = d_host (w_disk w)).
  { subst w1. destruct (w_fobj w !! i); [reflexivity|]. wcbn. rewrite Hb. cbn [default from_option]. apply insert_id. exact Hb. }
  assert (H2 : d_host (w_disk w') = d_host (w_disk w2)) by (injection H as <- _; destruct (w_fobj w !! i); reflexivity).
  split; [injection H as _ <-; reflexivity|]. rewrite H2. clear H H2.
  destruct (i_size x <? n).
  - unfold zerofill in E2. destruct (w_fobj w1 !! i) as [fs|]; [|discriminate E2]. destruct (fs <? _) in E2; [discriminate E2|].
    injection E2 as <-. wcbn. rewrite H1. apply map_eq. intros j. destruct (decide (i = j)) as [<-|Hne].
    + rewrite lookup_alter, lookup_insert, Hb. reflexivity.
    + rewrite lookup_alter_ne, lookup_insert_ne by assumption. reflexivity.
  - destruct (w_fobj w1 !! i) as [fs|]; [|discriminate E2]. destruct (fs <? _) in E2; [discriminate E2|].
    injection E2 as <-. wcbn. rewrite H1. apply map_eq. intros j. destruct (decide (i = j)) as [<-|Hne].
    + rewrite lookup_alter, lookup_insert, Hb. reflexivity.
    + rewrite lookup_alter_ne, lookup_insert_ne by assumption. reflexivity.
Qed.

(** ** Calls that do not write *)
Definition hq (w w' : world) : Prop := d_host (w_disk w') = d_host (w_disk w).
Definition hd (w w' : world) : Prop :=
  forall i, (w_ino w !! i = None -> w_ino w' !! i = None) /\ (is_Some (w_ino w' !! i) -> bytes w' i = bytes w i).
Lemma hd_refl w : hd w w.
Proof. split; auto. Qed.
Lemma hd_trans a b c : hd a b -> hd b c -> hd a c.
Proof.
  intros H1 H2 i. destruct (H1 i) as [A1 A2], (H2 i) as [B1 B2]. split; [auto|]. intros Hc. rewrite (B2 Hc). apply A2.
  destruct (w_ino b !! i) eqn:E; [eauto|]. rewrite (B1 eq_refl) in Hc. destruct Hc. discriminate.
Qed.

Lemma dom_insert_some (t : gmap Z inode) i x y j : t !! i = Some x -> t !! j = None -> <[i := y]> t !! j = None.
Proof. intros H Hj. rewrite lookup_insert_ne; [assumption|congruence]. Qed.

Lemma close_desc_hd d w w' r : close_desc d w = Done (w', r) -> hd w w'.
Proof.
  unfold close_desc. intros H. destruct d as [i pos fl|st fl|pid fl|fl].
  - destruct (get_ino w i) as [x|] eqn:Hx; cbn [obind] in H; [|discriminate H]. apply get_ino_done in Hx.
    destruct (dec (i_ref x)) as [r0|]; cbn [obind] in H; [|discriminate H].
    assert (P : forall y, hd w (put_ino i y w)).
    { intros y j. split; [|reflexivity]. intros Hj. cbn. eapply dom_insert_some; eauto. }
    assert (Q : forall y, hd w (del_ino i (put_ino i y w))).
    { intros y j. split; [|reflexivity]. intros Hj. cbn. rewrite lookup_delete_None. right. eapply dom_insert_some; eauto. }
    destruct (i_kind x).
    + destruct (r0 =? 0); [|injection H as <- _; apply P].
      match type of H with (match ?m !! i with Some _ => _ | None => _ end) = _ => destruct (m !! i) end; [|discriminate H].
      destruct (i_link x =? 0); [|injection H as <- _; exact (P _)].
      unfold remove_host in H. destruct (_ !! i) in H; cbn [obind] in H; [|discriminate H]. injection H as <- _.
      intros j. split.
      * intros Hj. cbn. rewrite lookup_delete_None. right. eapply dom_insert_some; eauto.
      * intros Hj. wcbn. unfold bytes. wcbn. destruct (decide (i = j)) as [<-|Hne]; [rewrite lookup_delete in Hj; destruct Hj; discriminate|].
        rewrite lookup_delete_ne by assumption. reflexivity.
    + match type of H with (match ?m !! i with Some _ => _ | None => _ end) = _ => destruct (m !! i) end; [injection H as <- _; apply P|].
      destruct (_ && _) in H; injection H as <- _; [exact (Q _)|exact (P _)].
    + match type of H with (match ?m !! i with Some _ => _ | None => _ end) = _ => destruct (m !! i) end; [injection H as <- _; apply P|].
      injection H as <- _. destruct (_ && _); [exact (Q _)|exact (P _)].
    + discriminate H.
  - injection H as <- _. apply hd_refl.
  - brk H. exact (hd_refl w).
  - injection H as <- _. apply hd_refl.
Qed.

Lemma add_ref_hd d w w' : add_ref d w = Done (Some w') -> hd w w' /\ hq w w'.
Proof.
  unfold add_ref. intros H. destruct d.
  - destruct (get_ino w ino) as [x|] eqn:Hx; cbn [obind] in H; [|discriminate H]. apply get_ino_done in Hx.
    destruct (i_kind x); try discriminate H; injection H as <-; (split; [|reflexivity]; intros j; split; [|reflexivity]; intros Hj; cbn; eapply dom_insert_some; eauto).
  - injection H as <-. split; [apply hd_refl|reflexivity].
  - brk H. split; [exact (hd_refl w)|reflexivity].
  - discriminate H.
Qed.

Lemma close_hd w c fd w' r : close_syscall w c fd = Done (w', r) -> hd w w'.
Proof.
  unfold close_syscall, close_inner. intros H.
  destruct (fd_slot w c fd) as [s|] eqn:Es; cbn [obind] in H; [|discriminate H].
  destruct s as [d|].
  - destruct (close_desc d w) as [[w1 r1]|] eqn:Ec; cbn [obind] in H; [|discriminate H]. apply close_desc_hd in Ec.
    destruct (r1 <? 0); injection H as <- _; exact Ec.
  - cbn in H. injection H as <- _. apply hd_refl.
Qed.

Lemma dup2_helper_hd w c d newfd from w' r : dup2_helper w c d newfd from = Done (w', r) -> hd w w'.
Proof.
  unfold dup2_helper. intros H.
  match type of H with obind ?q _ = _ => destruct q as [q0|] eqn:E1; cbn [obind] in H; [|discriminate H] end.
  destruct q0 as [[w1 fd]|]; [|injection H as <- _; apply hd_refl].
  assert (K : hd w w1).
  { destruct from.
    - destruct (w_fds w !! (c, newfd)).
      + unfold close_inner in E1. destruct (fd_slot w c newfd) as [s|] eqn:Es; cbn [obind] in E1; [|discriminate E1].
        destruct s as [d'|].
        * destruct (close_desc d' w) as [[w2 r2]|] eqn:Ec; cbn [obind fst] in E1; [|discriminate E1].
          injection E1 as <- _. eapply close_desc_hd; eauto.
        * cbn in E1. injection E1 as <- _. apply hd_refl.
      + injection E1 as <- _. apply hd_refl.
    - destruct (next_fd w c newfd); [|discriminate E1]. injection E1 as <- _. apply hd_refl. }
  destruct (add_ref d w1) as [[w2|]|] eqn:E2; cbn [obind] in H; [| |discriminate H].
  - injection H as <- _. apply add_ref_hd in E2 as [E2 _]. exact (hd_trans _ _ _ K E2).
  - injection H as <- _. exact K.
Qed.

Lemma close_fold_hd c l : forall w w', fold_left (close_fd_in c) l (Done w) = Done w' -> hd w w'.
Proof.
  induction l as [|fd l IH]; intros w w' H; cbn [fold_left] in H; [injection H as <-; apply hd_refl|].
  unfold close_fd_in at 2 in H. cbn [obind] in H.
  destruct (close_syscall w c fd) as [[w1 r]|] eqn:E; cbn [obind fst] in H; [|rewrite close_in_panic in H; discriminate H].
  apply close_hd in E. exact (hd_trans _ _ _ E (IH _ _ H)).
Qed.

Lemma fork_fold_hq ptab c child l : forall w w', fold_left (fork_fd ptab c child) l (Done w) = Done w' -> hq w w'.
Proof.
  induction l as [|fd l IH]; intros w w' H; cbn [fold_left] in H; [injection H as <-; reflexivity|].
  unfold fork_fd at 2 in H. cbn [obind] in H.
  match type of H with fold_left _ _ ?q = _ => destruct q as [w1|] eqn:E; [|rewrite fork_fd_panic in H; discriminate H] end.
  assert (hq w w1); [|unfold hq in *; rewrite (IH _ _ H); assumption].
  destruct (ptab !! (c, fd)) as [d|]; [|injection E as <-; reflexivity].
  match type of E with obind ?q _ = _ => destruct q as [w2|] eqn:E2; cbn [obind] in E; [|discriminate E] end.
  injection E as <-. change (hq w w2). destruct d.
  - brk E2. reflexivity.
  - injection E2 as <-. reflexivity.
  - brk E2. reflexivity.
  - injection E2 as <-. reflexivity.
Qed.

(** ** One call *)
Lemma open_not_excl fl : (Z.land fl (Z.lor O_CREAT O_EXCL) =? Z.lor O_CREAT O_EXCL) = false -> ~ exclusive fl.
Proof. unfold exclusive. change (Z.lor O_CREAT O_EXCL) with 192. lia. Qed.

Lemma next_fd_free w c fd : next_fd w c 0 = Some fd -> ~ none_free (w_fds w) c 0.
Proof.
  intros H Hn. apply next_fd_some in H as [H1 H2]. destruct (Hn fd) as [d Hd]; [unfold MAXFD in *; lia|]. congruence.
Qed.

Lemma nofile_bytes w i x : winv w -> w_ino w !! i = Some x -> i_kind x <> KFile -> bytes w i = None.
Proof.
  intros Hw Hx Hk. pose proof (v_d _ (u_inv _ Hw) i) as H. cbn in H. rewrite Hx in H. unfold okdata, isfile in H.
  destruct (i_kind x); try congruence; apply H.
Qed.

(** The truncating branch of open *)
Lemma open_bytes w c cwd p fl m w' r i : winv w -> w_cwd w !! c = Some cwd -> open_syscall w c cwd p fl m = Done (w', r) ->
  is_Some (w_ino w !! i) ->
  (bytes w' i = bytes w i /\
    (p <> "" -> resolves (w_ino w) (normpath cwd p) i -> Z.land fl 512 = 512 -> ~ exclusive fl -> ~ none_free (w_fds w) c 0 -> bytes w i = None)) \/
  (p <> "" /\ resolves (w_ino w) (normpath cwd p) i /\ Z.land fl 512 = 512 /\ ~ exclusive fl /\ ~ none_free (w_fds w) c 0 /\ bytes w' i = Some []).
Proof.
  intros Hw Hc H [xi Hxi]. pose proof (u_inv _ Hw) as Hi. pose proof (u_cwd _ Hw _ _ Hc) as Hcan. unfold open_syscall in H.
  destruct (String.eqb_spec p "") as [Hp|Hp]; [injection H as <- _; left; split; [reflexivity|contradiction]|].
  destruct (next_fd w c 0) as [fd|] eqn:Hfd.
  2: { injection H as <- _. left. split; [reflexivity|]. intros _ _ _ _ Hn. exfalso. apply Hn.
       exact (proj1 (next_fd_none_eq w c 0) Hfd). }
  apply next_fd_free in Hfd as Hfree.
  assert (Hmw : forall o par, metawalkandparent (w_ino w) (normpath cwd p) = Done (o, par) -> forall j, resolves (w_ino w) (normpath cwd p) j <-> o = Some j).
  { intros o par Hm j. assert (E : metawalk (w_ino w) (normpath cwd p) = Done o) by (unfold metawalk; rewrite Hm; reflexivity).
    split.
    - intros Hr. apply (resolves_metawalk _ _ _ (root_some _ Hw)) in Hr. congruence.
    - intros ->. apply metawalk_resolves. exact E. }
  destruct (metawalkandparent _ _) as [[[j|] op]|] eqn:Hm; cbn [obind] in H; [| |discriminate H]; specialize (Hmw _ _ eq_refl).
  - assert (Hrj : resolves (w_ino w) (normpath cwd p) j) by (apply Hmw; reflexivity).
    assert (Hji : resolves (w_ino w) (normpath cwd p) i -> j = i) by (intros Hr; apply Hmw in Hr; congruence).
    destruct (_ =? _) eqn:Eex in H.
    { injection H as <- _. left. split; [reflexivity|]. intros _ _ _ Hn. exfalso. apply Hn. unfold exclusive.
      change (Z.lor O_CREAT O_EXCL) with 192 in Eex. lia. }
    apply open_not_excl in Eex.
    destruct (get_ino w j) as [x|] eqn:Hx; cbn [obind] in H; [|discriminate H]. apply get_ino_done in Hx.
    destruct (i_kind x) eqn:Hk.
    + destruct (inv_file w j x Hi Hx Hk) as (Hf & b & Hb & Hs).
      change O_TRUNC with 512 in H. destruct (Z.eqb_spec (Z.land fl 512) 512) as [Et|Et].
      * match type of H with obind ?q _ = _ => destruct q as [w1|] eqn:E1; cbn [obind] in H; [|discriminate H] end.
        unfold remove_host in E1. wcbn1 E1. rewrite Hb in E1. injection E1 as <-. injection H as <- _.
        destruct (decide (j = i)) as [<-|Hne].
        -- right. do 5 (split; [assumption|]). unfold bytes, open_fobj. wcbn. rewrite lookup_delete. wcbn.
           rewrite lookup_delete, lookup_insert. reflexivity.
        -- left. split; [|intros _ Hr; exfalso; auto]. unfold bytes, open_fobj. wcbn. rewrite lookup_delete. wcbn.
           rewrite lookup_insert_ne, lookup_delete_ne by assumption. reflexivity.
      * cbn [obind] in H. injection H as <- _. left. split; [|intros _ _ ?; contradiction].
        unfold bytes, open_fobj. wcbn. destruct (w_fobj w !! j); [reflexivity|]. wcbn. rewrite Hb. cbn [default from_option].
        rewrite insert_id by exact Hb. reflexivity.
    + injection H as <- _. left. split; [reflexivity|]. intros _ Hr _ _ _. apply Hji in Hr. subst j.
      exact (nofile_bytes _ _ _ Hw Hx ltac:(congruence)).
    + injection H as <- _. left. split; [reflexivity|]. intros _ Hr _ _ _. apply Hji in Hr. subst j.
      exact (nofile_bytes _ _ _ Hw Hx ltac:(congruence)).
    + exfalso. apply (n_sock _ _ (v_n _ Hi) _ _ Hx Hk).
  - assert (Hno : ~ resolves (w_ino w) (normpath cwd p) i) by (intros Hr; apply Hmw in Hr; discriminate).
    assert (K : forall b, w' = w -> b \/ True -> bytes w' i = bytes w i) by (intros ? ->; reflexivity).
    left. split; [|intros _ Hr; contradiction].
    destruct op as [par|]; [|injection H as <- _; reflexivity].
    destruct (negb _); [injection H as <- _; reflexivity|]. destruct (_ =? S_IFCHR); [injection H as <- _; reflexivity|].
    destruct (negb _); [injection H as <- _; reflexivity|]. destruct (file_name _); [|discriminate H].
    unfold add_child in H. destruct (get_ino w par) as [q|]; cbn [obind] in H; [|discriminate H]. injection H as <- _.
    destruct (inv_fresh w Hi) as (F1 & F2 & F3). unfold bytes, open_fobj. wcbn. rewrite F2. wcbn.
    rewrite lookup_insert_ne; [reflexivity|]. intros E. rewrite E in F1. congruence.
Qed.

Lemma rdonly3 fl : is_rdonly fl = (Z.land fl 3 =? 0).
Proof. reflexivity. Qed.

Lemma file_of_bytes w i l : winv w -> bytes w i = Some l -> exists x, w_ino w !! i = Some x /\ i_kind x = KFile /\ i_size x = len l.
Proof.
  intros Hw Hl. pose proof (v_d _ (u_inv _ Hw) i) as H. wcbn. unfold bytes in Hl. unfold okdata, isfile in H.
  destruct (w_ino w !! i) as [x|]; [|destruct H; congruence]. exists x. split; [reflexivity|].
  destruct (i_kind x); try (destruct H; congruence). destruct H as [_ (b & Hb & Hs)]. split; [reflexivity|]. unfold len. congruence.
Qed.

(** A call that does not request a change of [i] does not change its bytes. *)
Lemma step_quiet w c o w' r i : winv w -> step w c o = Done (w', r) -> tame true w c o r ->
  (forall a, ~ changes w c o i a) -> is_Some (w_ino w !! i) -> is_Some (w_ino w' !! i) -> bytes w' i = bytes w i.
Proof.
  intros Hw H Ht Hch Hs Hs'. pose proof (u_inv _ Hw) as Hi. unfold step in H.
  destruct (w_cwd w !! c) as [cwd|] eqn:Hc; [|discriminate H]. pose proof (u_cwd _ Hw _ _ Hc) as Hcan.
  destruct o; unfold ret, FsModel.same in H; cbn [tame] in Ht.
  - peelw H. destruct (open_bytes _ _ _ _ _ _ _ _ i Hw Hc H Hs) as [[E _]|(E1 & E2 & E3 & E4 & E5 & E6)]; [exact E|].
    exfalso. eapply Hch. eapply ch_open; eauto. apply denotes_normpath. reflexivity.
  - peelw H. destruct (open_bytes _ _ _ _ _ _ _ _ i Hw Hc H Hs) as [[E _]|(E1 & E2 & E3 & E4 & E5 & E6)]; [exact E|].
    exfalso. eapply Hch. eapply ch_creat; eauto. apply denotes_normpath. reflexivity.
  - peelw H. unfold mkdir_syscall in H. brk H; try reflexivity. unfold add_child in *. 
    match goal with E : obind _ _ = Done _ |- _ => brk E end. reflexivity.
  - peelw H. unfold mknod_syscall in H. brk H; try reflexivity. unfold add_child in *. 
    match goal with E : obind _ _ = Done _ |- _ => brk E end. reflexivity.
  - peelw H. destruct (Z.ltb_spec z 0).
    + rewrite (link_fails _ _ _ _ _ _ H); [reflexivity|assumption].
    + destruct (link_post _ _ _ _ _ _ Hcan H) as (dir & f & par & q & j & x & _ & _ & _ & _ & _ & _ & _ & _ & _ & E & _); [assumption|].
      unfold bytes. rewrite E. reflexivity.
  - peelw H. destruct (Z.ltb_spec z 0).
    + rewrite (unlink_fails _ _ _ _ _ H); [reflexivity|assumption|congruence].
    + destruct (unlink_post _ _ _ _ _ Hi Hcan H) as (dir & f & par & q & j & x & _ & Hpl & _ & Hj & _ & Hne & E1 & E2 & _); [assumption|].
      unfold bytes. rewrite E2. unfold un_host. rewrite E1 in Hs'. unfold un_ino in Hs'. destruct (un_gone x); [|rewrite andb_false_r; reflexivity].
      destruct (decide (j = i)) as [->|Hji]; [rewrite lookup_delete in Hs'; destruct Hs'; discriminate|].
      destruct (isfile x); cbn [andb]; [|reflexivity]. apply lookup_delete_ne. assumption.
  - peelw H. destruct (Z.ltb_spec z 0).
    + rewrite (rmdir_fails _ _ _ _ _ Hw Hcan H); [reflexivity|assumption].
    + unfold rmdir_syscall in H. destruct (String.eqb path ""); [injection H as <- _; reflexivity|].
      destruct (metawalkandparent _ _) as [[[j|] [par|]]|]; cbn [obind] in H; try (injection H as <- _; reflexivity); try discriminate H.
      destruct (get_ino w par) as [q|]; cbn [obind] in H; [|discriminate H]. destruct (no_write_bits (i_mode q)); [injection H as <- _; reflexivity|].
      destruct (get_ino w j) as [x|]; cbn [obind] in H; [|discriminate H]. destruct (i_kind x); try (injection H as <- _; reflexivity).
      destruct (3 <? i_link x); [injection H as <- _; reflexivity|]. destruct (negb (is_dir _)); [discriminate H|].
      destruct (no_write_bits (i_mode x)); [injection H as <- _; reflexivity|].
      match type of H with obind ?q _ = _ => destruct q as [[w2 r2]|] eqn:E; cbn [obind] in H; [|discriminate H] end.
      assert (K : hq w w2).
      { unfold remove_from_parent in E. destruct (get_ino _ par) as [q1|]; cbn [obind] in E; [|discriminate E]. destruct (i_kind q1); try discriminate E.
        destruct (no_write_bits _); [injection E as <- _; destruct (i_ref x =? 0); reflexivity|].
        destruct (file_name _); [|discriminate E]. destruct (i_dict q1 !! _); [|discriminate E]. destruct (dec _); cbn [obind] in E; [|discriminate E].
        injection E as <- _. destruct (i_ref x =? 0); reflexivity. }
      destruct (negb _); injection H as <- _; [unfold bytes; rewrite K; reflexivity|].
      unfold bytes. destruct (i_ref x =? 0); wcbn; unfold hq in K; rewrite K; reflexivity.
  - peelw H. unfold rename_syscall in H. brk H; reflexivity.
  - peelw H. unfold chmod_syscall, chmod_helper in H. brk H; try reflexivity. destruct (i_kind _); reflexivity.
  - peelw H. unfold fchmod_syscall, chmod_helper in H. destruct (fd_slot w c fd) as [s|]; cbn [obind] in H; [|discriminate H].
    destruct s as [[]|]; brk H; try reflexivity. destruct (i_kind _); reflexivity.
  - peelw H. unfold truncate_syscall in H. destruct (metawalk _ _) as [[j|]|] eqn:Hm; cbn [obind] in H; [|injection H as <- _; reflexivity|discriminate H].
    apply metawalk_resolves in Hm. destruct (Z.ltb_spec len 0) as [Hl|Hl].
    { unfold truncate_helper in H. destruct (Z.ltb_spec len 0); [|lia]. injection H as <- _. reflexivity. }
    destruct (decide (j = i)) as [->|Hne].
    { exfalso. eapply Hch. eapply ch_truncate; eauto. apply denotes_normpath. reflexivity. }
    destruct (w_ino w !! j) as [x|] eqn:Hx.
    2: { unfold truncate_helper, get_ino in H. destruct (len <? 0); [injection H as <- _; reflexivity|]. rewrite Hx in H. discriminate H. }
    destruct (decide (i_kind x = KFile)) as [Hk|Hk].
    + destruct (inv_file w j x Hi Hx Hk) as (_ & b & Hb & _).
      destruct (truncate_post _ _ _ _ _ _ _ _ Hi Hx Hk Hb Hl H) as [_ E]. unfold bytes. rewrite E, lookup_insert_ne by assumption. reflexivity.
    + unfold truncate_helper, get_ino in H. rewrite Hx in H. cbn [obind] in H. destruct (len <? 0); [injection H as <- _; reflexivity|].
      destruct (i_kind x); try congruence; injection H as <- _; reflexivity.
  - peelw H. unfold ftruncate_syscall in H. destruct (fd_slot w c fd) as [s|] eqn:Es; cbn [obind] in H; [|discriminate H]. apply fd_slot_done in Es as [-> _].
    destruct (w_fds w !! (c, fd)) as [[j pos fl| | |]|] eqn:Ed; try (injection H as <- _; reflexivity).
    rewrite rdonly3 in H. destruct (Z.eqb_spec (Z.land fl 3) 0) as [Hfl|Hfl]; [injection H as <- _; reflexivity|].
    destruct (Z.ltb_spec len 0) as [Hl|Hl].
    { unfold truncate_helper in H. destruct (Z.ltb_spec len 0); [|lia]. injection H as <- _. reflexivity. }
    destruct (decide (j = i)) as [->|Hne].
    { exfalso. eapply Hch. eapply ch_ftruncate; eauto. }
    destruct (w_ino w !! j) as [x|] eqn:Hx.
    2: { unfold truncate_helper, get_ino in H. destruct (len <? 0); [injection H as <- _; reflexivity|]. rewrite Hx in H. discriminate H. }
    destruct (decide (i_kind x = KFile)) as [Hk|Hk].
    + destruct (inv_file w j x Hi Hx Hk) as (_ & b & Hb & _).
      destruct (truncate_post _ _ _ _ _ _ _ _ Hi Hx Hk Hb Hl H) as [_ E]. unfold bytes. rewrite E, lookup_insert_ne by assumption. reflexivity.
    + unfold truncate_helper, get_ino in H. rewrite Hx in H. cbn [obind] in H. destruct (len <? 0); [injection H as <- _; reflexivity|].
      destruct (i_kind x); try congruence; injection H as <- _; reflexivity.
  - brk H; reflexivity.
  - brk H; reflexivity.
  - peelw H; brk H; reflexivity.
  - unfold read_syscall in H. destruct (fd_slot w c fd) as [s|]; cbn [obind] in H; [|discriminate H].
    destruct s as [[j pos fl|st fl|pid fl|fl]|]; try (injection H as <- _; reflexivity).
    + destruct (is_wronly _); [injection H as <- _; reflexivity|]. destruct (get_ino w j) as [x|]; cbn [obind] in H; [|discriminate H].
      destruct (i_kind x); try (injection H as <- _; reflexivity); [|discriminate H]. destruct (readat _ _ _ _); cbn [obind] in H; [|discriminate H].
      injection H as <- _. reflexivity.
    + destruct (is_wronly _); [injection H as <- _; reflexivity|]. destruct (get_pipe w pid); cbn [obind] in H; [|discriminate H].
      destruct (pipe_read _ _ _). injection H as <- _. reflexivity.
  - brk H; reflexivity.
  - unfold write_syscall in H. destruct (fd_slot w c fd) as [s|] eqn:Es; cbn [obind] in H; [|discriminate H]. apply fd_slot_done in Es as [-> _].
    destruct (w_fds w !! (c, fd)) as [[j pos fl|st fl|pid fl|fl]|] eqn:Ed; try (injection H as <- _; reflexivity).
    + rewrite rdonly3 in H. destruct (Z.eqb_spec (Z.land fl 3) 0) as [Hfl|Hfl]; [injection H as <- _; reflexivity|].
      destruct (get_ino w j) as [x|] eqn:Hx; cbn [obind] in H; [|discriminate H]. apply get_ino_done in Hx.
      destruct (i_kind x) eqn:Hk; try (injection H as <- _; reflexivity); [|discriminate H].
      destruct (file_write _ _ _ _ _) as [w1|] eqn:E; cbn [obind] in H; [|discriminate H]. injection H as <- _.
      destruct (decide (j = i)) as [->|Hne]; [exfalso; eapply Hch; eapply ch_write; eauto|].
      destruct (inv_file w j x Hi Hx Hk) as (_ & b & Hb & _).
      destruct (file_write_post _ _ _ _ _ _ _ Hi Hx Hk Hb E) as [_ E']. unfold bytes. wcbn. rewrite E', lookup_insert_ne by assumption. reflexivity.
    + destruct (is_rdonly _); [injection H as <- _; reflexivity|]. destruct (get_pipe w pid); cbn [obind] in H; [|discriminate H].
      destruct (pipe_write _ _ _). injection H as <- _. reflexivity.
  - unfold pwrite_syscall in H. destruct (fd_slot w c fd) as [s|] eqn:Es; cbn [obind] in H; [|discriminate H]. apply fd_slot_done in Es as [-> _].
    destruct (w_fds w !! (c, fd)) as [[j pos fl|st fl|pid fl|fl]|] eqn:Ed; try (injection H as <- _; reflexivity).
    rewrite rdonly3 in H. destruct (Z.eqb_spec (Z.land fl 3) 0) as [Hfl|Hfl]; [injection H as <- _; reflexivity|].
    destruct (get_ino w j) as [x|] eqn:Hx; cbn [obind] in H; [|discriminate H]. apply get_ino_done in Hx.
    destruct (i_kind x) eqn:Hk; try (injection H as <- _; reflexivity); [|discriminate H].
    destruct (file_write _ _ _ _ _) as [w1|] eqn:E; cbn [obind] in H; [|discriminate H]. injection H as <- _.
    destruct (decide (j = i)) as [->|Hne]; [exfalso; eapply Hch; eapply ch_pwrite; eauto|].
    destruct (inv_file w j x Hi Hx Hk) as (_ & b & Hb & _).
    destruct (file_write_post _ _ _ _ _ _ _ Hi Hx Hk Hb E) as [_ E']. unfold bytes. wcbn. rewrite E', lookup_insert_ne by assumption. reflexivity.
  - unfold writev_syscall in H. destruct (fd_slot w c fd) as [s|] eqn:Es; cbn [obind] in H; [|discriminate H]. apply fd_slot_done in Es as [-> _].
    destruct (w_fds w !! (c, fd)) as [[j pos fl|st fl|pid fl|fl]|] eqn:Ed; try (injection H as <- _; reflexivity).
    + rewrite rdonly3 in H. destruct (Z.eqb_spec (Z.land fl 3) 0) as [Hfl|Hfl]; [injection H as <- _; reflexivity|].
      destruct (get_ino w j) as [x|] eqn:Hx; cbn [obind] in H; [|discriminate H]. apply get_ino_done in Hx.
      destruct (i_kind x) eqn:Hk; try (injection H as <- _; reflexivity); [|discriminate H].
      destruct (file_write _ _ _ _ _) as [w1|] eqn:E; cbn [obind] in H; [|discriminate H]. injection H as <- _.
      destruct (decide (j = i)) as [->|Hne]; [exfalso; eapply Hch; eapply ch_writev; eauto|].
      destruct (inv_file w j x Hi Hx Hk) as (_ & b & Hb & _).
      destruct (file_write_post _ _ _ _ _ _ _ Hi Hx Hk Hb E) as [_ E']. unfold bytes. wcbn. rewrite E', lookup_insert_ne by assumption. reflexivity.
    + destruct (is_rdonly _); [injection H as <- _; reflexivity|]. destruct (get_pipe w pid); cbn [obind] in H; [|discriminate H].
      destruct (pipe_writev _ _ _ _). injection H as <- _. reflexivity.
  - peelw H. unfold lseek_syscall in H. destruct (fd_slot w c fd) as [s|] eqn:Es; cbn [obind] in H; [|discriminate H].
    destruct s as [[j pos fl|st fl|pid fl|fl]|]; try (injection H as <- _; reflexivity).
    destruct (get_ino w j) as [x|]; cbn [obind] in H; [|discriminate H].
    destruct (i_kind x); try (injection H as <- _; reflexivity); try discriminate H;
      (match type of H with obind ?q _ = _ => destruct q as [[e|]|]; cbn [obind] in H; [| |discriminate H] end;
       [|injection H as <- _; reflexivity]);
      (match type of H with (if ?b then _ else _) = _ => destruct b end; injection H as <- _; reflexivity).
  - peelw H; brk H; reflexivity.
  - peelw H. apply close_hd in H. apply H. exact Hs'.
  - peelw H. unfold dup_syscall in H. destruct (fd =? 0); [injection H as <- _; reflexivity|]. destruct (negb _); [injection H as <- _; reflexivity|].
    destruct (w_fds w !! (c, fd)); [|injection H as <- _; reflexivity]. apply dup2_helper_hd in H. apply H. exact Hs'.
  - peelw H. unfold dup2_syscall in H. destruct (_ || _) in H; [injection H as <- _; reflexivity|]. destruct (newfd =? oldfd); [injection H as <- _; reflexivity|].
    destruct (negb _); [injection H as <- _; reflexivity|].
    destruct (w_fds w !! (c, oldfd)); [|injection H as <- _; reflexivity]. apply dup2_helper_hd in H. apply H. exact Hs'.
  - peelw H. unfold fcntl_syscall in H. destruct (fd_slot w c fd) as [s|] eqn:Es; cbn [obind] in H; [|discriminate H].
    destruct s as [d|]; [|injection H as <- _; reflexivity].
    destruct (cmd =? F_GETFD); [injection H as <- _; reflexivity|].
    destruct (_ && _) in H; [injection H as <- _; reflexivity|].
    destruct (cmd =? F_GETFL); [injection H as <- _; reflexivity|].
    destruct (_ && _) in H; [injection H as <- _; reflexivity|].
    destruct (_ && _) in H; [apply dup2_helper_hd in H; apply H; exact Hs'|].
    destruct (cmd =? F_GETOWN); [injection H as <- _; reflexivity|]. destruct (_ && _) in H; injection H as <- _; reflexivity.
  - peelw H. unfold chdir_syscall in H. destruct (metawalk _ _) as [[j|]|]; cbn [obind] in H; [|injection H as <- _; reflexivity|discriminate H].
    destruct (get_ino w j) as [x|]; cbn [obind] in H; [|discriminate H]. destruct (i_kind x); injection H as <- _; reflexivity.
  - unfold fchdir_syscall in H. destruct (fd_slot w c fd) as [s|]; cbn [obind] in H; [|discriminate H].
    destruct s as [[]|]; try (injection H as <- _; reflexivity).
    destruct (pathname_loop _ _ _ _ _) as [[[]|]|]; try discriminate H; injection H as <- _; reflexivity.
  - injection H as <- _. reflexivity.
  - unfold getdents_syscall in H. destruct (_ <=? _) in H; [injection H as <- _; reflexivity|].
    destruct (negb _); [injection H as <- _; reflexivity|]. destruct (w_fds w !! (c, fd)) as [[]|]; try (injection H as <- _; reflexivity).
    destruct (get_ino w ino) as [x|]; cbn [obind] in H; [|discriminate H]. destruct (i_kind x); try (injection H as <- _; reflexivity).
    destruct (dents_fit _ _ _) as [l n]. injection H as <- _. reflexivity.
  - unfold pipe2_syscall in H. destruct (next_fd _ c 0) as [a|] in H; [|injection H as <- _; reflexivity].
    destruct (next_fd _ c 0) as [b|] in H; injection H as <- _; reflexivity.
  - peelw H. unfold epoll_create_syscall in H. destruct (_ <=? 0) in H; [injection H as <- _; reflexivity|].
    destruct (next_fd w c 0); injection H as <- _; reflexivity.
  - peelw H. unfold fork_syscall in H.
    match type of H with obind ?q _ = _ => destruct q as [w1|] eqn:E; cbn [obind] in H; [|discriminate H] end.
    apply fork_fold_hq in E. unfold hq in E. wcbn1 E.
    destruct (metawalk _ _) as [[j|]|]; cbn [obind] in H; try discriminate H.
    destruct (get_ino w1 j) as [x|]; cbn [obind] in H; [|discriminate H]. destruct (i_kind x); try discriminate H.
    destruct (_ || _) in H; [discriminate H|]. injection H as <- _. unfold bytes. wcbn. rewrite E. reflexivity.
  - peelw H. unfold exec_syscall in H.
    match type of H with obind ?q _ = _ => destruct q as [w1|] eqn:E; cbn [obind] in H; [|discriminate H] end.
    apply close_fold_hd in E. destruct (_ || _) in H; [discriminate H|]. injection H as <- _. apply E. exact Hs'.
  - peelw H. unfold exit_syscall in H.
    match type of H with obind ?q _ = _ => destruct q as [w1|] eqn:E; cbn [obind] in H; [|discriminate H] end.
    apply close_fold_hd in E. injection H as <- _. apply E. exact Hs'.
Qed.

Lemma range_slot w c fd d : winv w -> w_fds w !! (c, fd) = Some d -> fd_slot w c fd = Done (Some d).
Proof.
  intros Hw Hd. pose proof (u_key _ Hw _ _ _ Hd) as [Hr _]. unfold fd_slot, in_fd_range.
  destruct ((0 <=? fd) && (fd <? MAXFD)) eqn:E; [rewrite Hd; reflexivity|]. unfold MAXFD in *. lia.
Qed.
Lemma slot_cwd w c fd d : winv w -> w_fds w !! (c, fd) = Some d -> exists cwd, w_cwd w !! c = Some cwd.
Proof. intros Hw Hd. pose proof (u_key _ Hw _ _ _ Hd) as [_ [x Hx]]. eauto. Qed.

Lemma clear_applied l : applied (AResize 0) l [].
Proof. split; [lia|]. split; [reflexivity|]. intros k Hk. unfold byte_at. rewrite nth_over0 by (cbn; lia). destruct (Z.ltb_spec k 0); [lia|reflexivity]. Qed.

(** A call that requests a change makes that change. *)
Lemma step_changes w c o w' r i a l : winv w -> step w c o = Done (w', r) -> changes w c o i a -> bytes w i = Some l ->
  exists l', bytes w' i = Some l' /\ applied a l l'.
Proof.
  intros Hw H Hch Hl. pose proof (u_inv _ Hw) as Hi. destruct (file_of_bytes _ _ _ Hw Hl) as (x & Hx & Hk & Hs).
  destruct Hch.
  - destruct (slot_cwd _ _ _ _ Hw H0) as [cwd Hc]. unfold step in H. rewrite Hc in H. unfold write_syscall in H.
    rewrite (range_slot _ _ _ _ Hw H0) in H. cbn [obind] in H. rewrite rdonly3 in H. destruct (Z.eqb_spec (Z.land fl 3) 0); [contradiction|].
    unfold get_ino in H. rewrite Hx in H. cbn [obind] in H. rewrite Hk in H.
    destruct (file_write _ _ _ _ _) as [w1|] eqn:E; cbn [obind] in H; [|discriminate H]. injection H as <- _.
    destruct (file_write_post _ _ _ _ _ _ _ Hi Hx Hk Hl E) as [Hp E']. unfold bytes. wcbn. rewrite E', lookup_insert.
    eexists. split; [reflexivity|]. apply write_applied. assumption.
  - destruct (slot_cwd _ _ _ _ Hw H0) as [cwd Hc]. unfold step in H. rewrite Hc in H. unfold writev_syscall in H.
    rewrite (range_slot _ _ _ _ Hw H0) in H. cbn [obind] in H. rewrite rdonly3 in H. destruct (Z.eqb_spec (Z.land fl 3) 0); [contradiction|].
    unfold get_ino in H. rewrite Hx in H. cbn [obind] in H. rewrite Hk in H.
    destruct (file_write _ _ _ _ _) as [w1|] eqn:E; cbn [obind] in H; [|discriminate H]. injection H as <- _.
    destruct (file_write_post _ _ _ _ _ _ _ Hi Hx Hk Hl E) as [Hp E']. unfold bytes. wcbn. rewrite E', lookup_insert.
    eexists. split; [reflexivity|]. apply write_applied. assumption.
  - destruct (slot_cwd _ _ _ _ Hw H0) as [cwd Hc]. unfold step in H. rewrite Hc in H. unfold pwrite_syscall in H.
    rewrite (range_slot _ _ _ _ Hw H0) in H. cbn [obind] in H. rewrite rdonly3 in H. destruct (Z.eqb_spec (Z.land fl 3) 0); [contradiction|].
    unfold get_ino in H. rewrite Hx in H. cbn [obind] in H. rewrite Hk in H.
    destruct (file_write _ _ _ _ _) as [w1|] eqn:E; cbn [obind] in H; [|discriminate H]. injection H as <- _.
    destruct (file_write_post _ _ _ _ _ _ _ Hi Hx Hk Hl E) as [Hp E']. unfold bytes. rewrite E', lookup_insert.
    eexists. split; [reflexivity|]. apply write_applied. assumption.
  - destruct (slot_cwd _ _ _ _ Hw H0) as [cwd Hc]. unfold step in H. rewrite Hc in H. unfold ret in H. peelw H. unfold ftruncate_syscall in H.
    rewrite (range_slot _ _ _ _ Hw H0) in H. cbn [obind] in H. rewrite rdonly3 in H. destruct (Z.eqb_spec (Z.land fl 3) 0); [contradiction|].
    destruct (truncate_post _ _ _ _ _ _ _ _ Hi Hx Hk Hl H2 H) as [_ E']. unfold bytes. rewrite E', lookup_insert.
    eexists. split; [reflexivity|]. apply resize_applied. assumption.
  - unfold step in H. rewrite H0 in H. unfold ret in H. peelw H. apply denotes_normpath in H1. subst q. unfold truncate_syscall in H.
    rewrite (resolves_metawalk _ _ _ (root_some _ Hw) H2) in H. cbn [obind] in H.
    destruct (truncate_post _ _ _ _ _ _ _ _ Hi Hx Hk Hl H3 H) as [_ E']. unfold bytes. rewrite E', lookup_insert.
    eexists. split; [reflexivity|]. apply resize_applied. assumption.
  - unfold step in H. rewrite H0 in H. unfold ret in H. peelw H. apply denotes_normpath in H2. subst q.
    destruct (open_bytes _ _ _ _ _ _ _ _ i Hw H0 H ltac:(eauto)) as [[_ E]|(_ & _ & _ & _ & _ & E)].
    + exfalso. rewrite E in Hl by assumption. discriminate Hl.
    + exists []. split; [exact E|]. apply clear_applied.
  - unfold step in H. rewrite H0 in H. unfold ret in H. peelw H. apply denotes_normpath in H2. subst q. unfold creat_syscall in H.
    destruct (open_bytes _ _ _ _ _ _ _ _ i Hw H0 H ltac:(eauto)) as [[_ E]|(_ & _ & _ & _ & _ & E)].
    + exfalso. rewrite E in Hl; try assumption; [discriminate Hl|reflexivity|]. intros Hx2. vm_compute in Hx2. discriminate Hx2.
    + exists []. split; [exact E|]. apply clear_applied.
Qed.

(** ** C22 *)
Lemma requests_winv i w h acts w' : requests i w h acts w' -> winv w -> winv w'.
Proof. induction 1 as [|w c o a w1 r h l w' Hs Ht _ _ _ IH|w c o w1 r h l w' Hs Ht _ _ _ IH]; intros Hw; [exact Hw| |]; apply IH; eapply step_winv; eauto. Qed.

Lemma requests_refines i w h acts w' l : requests i w h acts w' -> winv w -> bytes w i = Some l ->
  exists l', applied_all acts l l' /\ bytes w' i = Some l'.
Proof.
  intros H. revert l. induction H as [|w c o a w1 r h acts w' Hs Ht Hch He _ IH|w c o w1 r h acts w' Hs Ht Hch He _ IH]; intros l Hw Hl.
  - exists l. split; [constructor|assumption].
  - destruct (step_changes _ _ _ _ _ _ _ _ Hw Hs Hch Hl) as (l1 & Hl1 & Ha).
    destruct (IH l1) as (l' & Hall & Hl'); [eapply step_winv; eauto|assumption|]. exists l'. split; [econstructor; eauto|assumption].
  - assert (bytes w1 i = Some l) as Hl1.
    { rewrite (step_quiet _ _ _ _ _ i Hw Hs Ht Hch); [assumption| |assumption]. destruct (file_of_bytes _ _ _ Hw Hl) as (x & Hx & _). eauto. }
    apply IH; [eapply step_winv; eauto|assumption].
Qed.

Lemma open_fobj_some w i l k pos fl : winv w -> bytes w i = Some l -> w_fds w !! k = Some (FFile i pos fl) -> w_fobj w !! i = Some (len l).
Proof.
  intros Hw Hl Hd. destruct (file_of_bytes _ _ _ Hw Hl) as (x & Hx & Hk & Hs). pose proof (u_inv _ Hw) as Hi.
  destruct (inv_file w i x Hi Hx Hk) as (Hf & _). rewrite Hf, Hs.
  destruct (r_ref _ _ (v_r _ Hi) _ _ Hx) as [H1 _]. destruct H1 as [H1 _]; [congruence|].
  assert (0 < nfds (w_fds w) i).
  { apply cnt_pos. exists k, (FFile i pos fl). split; [assumption|]. unfold onfile. cbn. apply Z.eqb_refl. }
  cbn in H1. destruct (Z.ltb_spec 0 (i_ref x)); [reflexivity|lia].
Qed.

Lemma readat_slice w i l off n k pos fl : winv w -> bytes w i = Some l -> w_fds w !! k = Some (FFile i pos fl) -> 0 <= n -> 0 <= off <= len l ->
  exists bs, readat i off n w = Done bs /\ slice l off n bs.
Proof.
  intros Hw Hl Hd Hn Ho. unfold readat. rewrite (open_fobj_some _ _ _ _ _ _ Hw Hl Hd).
  destruct ((off <? 0) || (len l <? off)) eqn:E; [lia|]. unfold bytes in Hl. rewrite Hl. change (default [] (Some l)) with l.
  eexists. split; [reflexivity|]. unfold slice, len, byte_at in *. rewrite take_length, drop_length. split; [lia|].
  intros j Hj. rewrite nth_take0, nth_drop0. destruct (Nat.ltb_spec (Z.to_nat j) (Z.to_nat n)); [f_equal; lia|lia].
Qed.

Lemma wronly3 fl : is_wronly fl = (Z.land fl 3 =? 1).
Proof. reflexivity. Qed.

Lemma slice_len l off n bs : slice l off n bs -> 0 <= n < 2147483648 -> 0 <= len bs < 2147483648.
Proof. intros [H _]. unfold len in *. lia. Qed.

Lemma bytes_seen w i l : winv w -> bytes w i = Some l -> seen_as w i l.
Proof.
  intros Hw Hl. destruct (file_of_bytes _ _ _ Hw Hl) as (x & Hx & Hk & Hs). constructor.
  - intros c fd pos fl n off Hd Hfl Hn Ho. destruct (slot_cwd _ _ _ _ Hw Hd) as [cwd Hc].
    destruct (readat_slice _ _ _ off n _ _ _ Hw Hl Hd ltac:(lia) Ho) as (bs & E & Hsl). exists bs. split; [assumption|].
    unfold step. rewrite Hc. unfold FsModel.same, pread_syscall. rewrite (range_slot _ _ _ _ Hw Hd). cbn [obind]. rewrite wronly3.
    destruct (Z.eqb_spec (Z.land fl 3) 1); [contradiction|]. unfold get_ino. rewrite Hx. cbn [obind]. rewrite Hk, E. cbn [obind].
    fold (len bs). rewrite to_i32_pos by (eapply slice_len; eauto). reflexivity.
  - intros c fd pos fl Hd. destruct (slot_cwd _ _ _ _ Hw Hd) as [cwd Hc].
    unfold step. rewrite Hc. unfold FsModel.same, fstat_syscall. rewrite (range_slot _ _ _ _ Hw Hd). cbn [obind].
    unfold get_ino. rewrite Hx. cbn [obind]. unfold stat_of. rewrite Hk, Hs. eauto.
  - intros c cwd p q Hc Hden Hr. apply denotes_normpath in Hden. subst q.
    unfold step. rewrite Hc. unfold FsModel.same, stat_syscall. rewrite (resolves_metawalk _ _ _ (root_some _ Hw) Hr). cbn [obind].
    unfold get_ino. rewrite Hx. cbn [obind]. unfold stat_of. rewrite Hk, Hs. eauto.
Qed.

Lemma io_refines w i l h acts w' : reach true w -> bytes w i = Some l -> requests i w h acts w' ->
  exists l', applied_all acts l l' /\ seen_as w' i l'.
Proof.
  intros Hw Hl Hr. apply reach_winv in Hw. destruct (requests_refines _ _ _ _ _ _ Hr Hw Hl) as (l' & Ha & Hl').
  exists l'. split; [assumption|]. apply bytes_seen; [eapply requests_winv; eauto|assumption].
Qed.

(** ** C23 *)
Lemma read_exact w c fd i pos fl l n : reach true w -> w_fds w !! (c, fd) = Some (FFile i pos fl) -> bytes w i = Some l ->
  Z.land fl 3 <> 1 -> 0 <= n < 2147483648 -> pos <= len l ->
  exists bs, slice l pos n bs /\
    step w c (Read fd n) = Done (with_fds (insert (c, fd) (FFile i (pos + len bs) fl)) w, RetData (len bs) bs).
Proof.
  intros Hr Hd Hl Hfl Hn Hp. apply reach_winv in Hr as Hw. apply reach_off in Hr as [_ Ho]. pose proof (Ho _ _ _ _ Hd) as H0.
  destruct (file_of_bytes _ _ _ Hw Hl) as (x & Hx & Hk & Hs). destruct (slot_cwd _ _ _ _ Hw Hd) as [cwd Hc].
  destruct (readat_slice _ _ _ pos n _ _ _ Hw Hl Hd ltac:(lia) ltac:(lia)) as (bs & E & Hsl). exists bs. split; [assumption|].
  unfold step. rewrite Hc. unfold read_syscall. rewrite (range_slot _ _ _ _ Hw Hd). cbn [obind]. rewrite wronly3.
  destruct (Z.eqb_spec (Z.land fl 3) 1); [contradiction|]. unfold get_ino. rewrite Hx. cbn [obind]. rewrite Hk, E. cbn [obind].
  fold (len bs). rewrite to_i32_pos by (eapply slice_len; eauto). reflexivity.
Qed.

(** Writing at the offset of a descriptor *)
Lemma file_write_ok w i pos bs x l k p0 fl : winv w -> w_ino w !! i = Some x -> i_kind x = KFile -> i_size x = len l -> bytes w i = Some l ->
  w_fds w !! k = Some (FFile i p0 fl) -> 0 <= pos -> exists w1, file_write i pos bs x w = Done w1.
Proof.
  intros Hw Hx Hk Hs Hl Hd Hp. pose proof (open_fobj_some _ _ _ _ _ _ Hw Hl Hd) as Hf.
  unfold file_write. rewrite Hs. destruct (Z.ltb_spec 0 (pos - len l)).
  - unfold zerofill. rewrite Hf. rewrite Z.ltb_irrefl. cbn [obind]. unfold writeat. wcbn. rewrite lookup_insert.
    destruct ((pos <? 0) || _) eqn:E; [lia|]. cbn [obind].
    destruct (len l <? pos + _); eexists; reflexivity.
  - rewrite Hf. cbn [obind]. unfold writeat. rewrite Hf. destruct ((pos <? 0) || _) eqn:E; [lia|]. cbn [obind].
    destruct (len l <? pos + _); eexists; reflexivity.
Qed.
Lemma write_exact w c fd i pos fl l bs : reach true w -> w_fds w !! (c, fd) = Some (FFile i pos fl) -> bytes w i = Some l ->
  Z.land fl 3 <> 0 -> len bs < 2147483648 ->
  exists w' l', step w c (Write fd bs) = Done (w', Ret (len bs)) /\
    w_fds w' = <[(c, fd) := FFile i (pos + len bs) fl]> (w_fds w) /\ bytes w' i = Some l' /\ applied (AWrite pos bs) l l'.
Proof.
  intros Hr Hd Hl Hfl Hn. apply reach_winv in Hr as Hw. apply reach_off in Hr as [_ Ho]. pose proof (Ho _ _ _ _ Hd) as H0.
  destruct (file_of_bytes _ _ _ Hw Hl) as (x & Hx & Hk & Hs). destruct (slot_cwd _ _ _ _ Hw Hd) as [cwd Hc].
  destruct (file_write_ok w i pos bs x l _ _ _ Hw Hx Hk Hs Hl Hd ltac:(lia)) as [w1 E].
  assert (Hst : step w c (Write fd bs) = Done (put_fd c fd (FFile i (pos + len bs) fl) w1, Ret (len bs))).
  { unfold step. rewrite Hc. unfold write_syscall. rewrite (range_slot _ _ _ _ Hw Hd). cbn [obind]. rewrite rdonly3.
    destruct (Z.eqb_spec (Z.land fl 3) 0); [contradiction|]. unfold get_ino. rewrite Hx. cbn [obind]. rewrite Hk, E. cbn [obind].
    fold (len bs). rewrite to_i32_pos by (unfold len in *; lia). reflexivity. }
  destruct (step_changes _ _ _ _ _ i _ l Hw Hst (ch_write _ _ _ _ _ _ _ Hd Hfl) Hl) as (l' & Hl' & Ha).
  exists (put_fd c fd (FFile i (pos + len bs) fl) w1), l'. split; [exact Hst|]. split; [|split; assumption].
  apply file_write_kp in E as [E _]. wcbn. rewrite E. reflexivity.
Qed.
Lemma writev_exact w c fd i pos fl l iov : reach true w -> w_fds w !! (c, fd) = Some (FFile i pos fl) -> bytes w i = Some l ->
  Z.land fl 3 <> 0 -> len (concat iov) < 2147483648 ->
  exists w' l', step w c (Writev fd iov) = Done (w', Ret (len (concat iov))) /\
    w_fds w' = <[(c, fd) := FFile i (pos + len (concat iov)) fl]> (w_fds w) /\ bytes w' i = Some l' /\ applied (AWrite pos (concat iov)) l l'.
Proof.
  intros Hr Hd Hl Hfl Hn. apply reach_winv in Hr as Hw. apply reach_off in Hr as [_ Ho]. pose proof (Ho _ _ _ _ Hd) as H0.
  destruct (file_of_bytes _ _ _ Hw Hl) as (x & Hx & Hk & Hs). destruct (slot_cwd _ _ _ _ Hw Hd) as [cwd Hc].
  destruct (file_write_ok w i pos (concat iov) x l _ _ _ Hw Hx Hk Hs Hl Hd ltac:(lia)) as [w1 E].
  assert (Hst : step w c (Writev fd iov) = Done (put_fd c fd (FFile i (pos + len (concat iov)) fl) w1, Ret (len (concat iov)))).
  { unfold step. rewrite Hc. unfold writev_syscall. rewrite (range_slot _ _ _ _ Hw Hd). cbn [obind]. rewrite rdonly3.
    destruct (Z.eqb_spec (Z.land fl 3) 0); [contradiction|]. unfold get_ino. rewrite Hx. cbn [obind]. rewrite Hk, E. cbn [obind].
    fold (len (concat iov)). rewrite to_i32_pos by (unfold len in *; lia). reflexivity. }
  destruct (step_changes _ _ _ _ _ i _ l Hw Hst (ch_writev _ _ _ _ _ _ _ Hd Hfl) Hl) as (l' & Hl' & Ha).
  exists (put_fd c fd (FFile i (pos + len (concat iov)) fl) w1), l'. split; [exact Hst|]. split; [|split; assumption].
  apply file_write_kp in E as [E _]. wcbn. rewrite E. reflexivity.
Qed.
Lemma pwrite_exact w c fd i pos fl l bs off : reach true w -> w_fds w !! (c, fd) = Some (FFile i pos fl) -> bytes w i = Some l ->
  Z.land fl 3 <> 0 -> len bs < 2147483648 -> 0 <= off ->
  exists w' l', step w c (Pwrite fd bs off) = Done (w', Ret (len bs)) /\
    w_fds w' = w_fds w /\ bytes w' i = Some l' /\ applied (AWrite off bs) l l'.
Proof.
  intros Hr Hd Hl Hfl Hn H0. apply reach_winv in Hr as Hw.
  destruct (file_of_bytes _ _ _ Hw Hl) as (x & Hx & Hk & Hs). destruct (slot_cwd _ _ _ _ Hw Hd) as [cwd Hc].
  destruct (file_write_ok w i off bs x l _ _ _ Hw Hx Hk Hs Hl Hd ltac:(lia)) as [w1 E].
  assert (Hst : step w c (Pwrite fd bs off) = Done (w1, Ret (len bs))).
  { unfold step. rewrite Hc. unfold pwrite_syscall. rewrite (range_slot _ _ _ _ Hw Hd). cbn [obind]. rewrite rdonly3.
    destruct (Z.eqb_spec (Z.land fl 3) 0); [contradiction|]. unfold get_ino. rewrite Hx. cbn [obind]. rewrite Hk, E. cbn [obind].
    fold (len bs). rewrite to_i32_pos by (unfold len in *; lia). reflexivity. }
  destruct (step_changes _ _ _ _ _ i _ l Hw Hst (ch_pwrite _ _ _ _ _ _ _ _ Hd Hfl) Hl) as (l' & Hl' & Ha).
  exists w1, l'. split; [exact Hst|]. split; [|split; assumption].
  apply file_write_kp in E as [E _]. exact E.
Qed.

(** ** C24 *)
Lemma lseek_file w c fd i pos fl l off wh : reach true w -> w_fds w !! (c, fd) = Some (FFile i pos fl) -> bytes w i = Some l ->
  match target wh off pos (len l) with
  | None => step w c (Lseek fd off wh) = Done (w, Ret (err EINVAL))
  | Some e => isize_ok e ->
      (e < 0 -> step w c (Lseek fd off wh) = Done (w, Ret (err EINVAL))) /\
      (0 <= e -> step w c (Lseek fd off wh) = Done (with_fds (insert (c, fd) (FFile i e fl)) w, Ret (to_i32 e)))
  end.
Proof.
  intros Hr Hd Hl. apply reach_winv in Hr as Hw. 
  destruct (file_of_bytes _ _ _ Hw Hl) as (x & Hx & Hk & Hs). destruct (slot_cwd _ _ _ _ Hw Hd) as [cwd Hc].
  assert (E : step w c (Lseek fd off wh) = ret (match target wh off pos (len l) with
     | None => Done (w, err EINVAL)
     | Some e => if negb (wh =? 0) && ((e <? - ISIZE_MAX - 1) || (ISIZE_MAX <? e)) then Panic else
        if e <? 0 then Done (w, err EINVAL) else Done (with_fds (insert (c, fd) (FFile i e fl)) w, to_i32 e) end)).
  { unfold step. rewrite Hc. f_equal. unfold lseek_syscall. rewrite (range_slot _ _ _ _ Hw Hd). cbn [obind].
    unfold get_ino. rewrite Hx. cbn [obind]. rewrite Hk, Hs. unfold target. change SEEK_SET with 0. change SEEK_CUR with 1. change SEEK_END with 2.
    destruct (wh =? 0); [reflexivity|]. cbn [negb andb]. unfold add_isize.
    destruct (wh =? 1); [destruct (_ || _); reflexivity|]. destruct (wh =? 2); [destruct (_ || _); reflexivity|reflexivity]. }
  rewrite E. destruct (target wh off pos (len l)) as [e|]; [|reflexivity]. unfold isize_ok. intros He.
  destruct (negb (wh =? 0) && ((e <? - ISIZE_MAX - 1) || (ISIZE_MAX <? e))) eqn:Eo; [exfalso; unfold ISIZE_MAX in Eo; lia|].
  destruct (Z.ltb_spec e 0); split; intros; try lia; reflexivity.
Qed.

Lemma lseek_ok w c fd i pos fl l off wh e : reach true w -> w_fds w !! (c, fd) = Some (FFile i pos fl) -> bytes w i = Some l ->
  target wh off pos (len l) = Some e -> 0 <= e < 2147483648 ->
  step w c (Lseek fd off wh) = Done (with_fds (insert (c, fd) (FFile i e fl)) w, Ret e).
Proof.
  intros Hr Hd Hl Ht He. pose proof (lseek_file _ _ _ _ _ _ _ off wh Hr Hd Hl) as H. rewrite Ht in H.
  destruct H as [_ H]; [unfold isize_ok; lia|]. rewrite H by lia. rewrite to_i32_pos by lia. reflexivity.
Qed.
Lemma lseek_neg w c fd i pos fl l off wh : reach true w -> w_fds w !! (c, fd) = Some (FFile i pos fl) -> bytes w i = Some l ->
  (target wh off pos (len l) = None \/ exists e, target wh off pos (len l) = Some e /\ isize_ok e /\ e < 0) ->
  step w c (Lseek fd off wh) = Done (w, Ret (err EINVAL)).
Proof.
  intros Hr Hd Hl Ht. pose proof (lseek_file _ _ _ _ _ _ _ off wh Hr Hd Hl) as H. destruct Ht as [Ht|(e & Ht & H1 & H2)]; rewrite Ht in H; [exact H|].
  destruct H as [H _]; auto.
Qed.

(** ** C25 *)
Lemma fd_arg_changes w c o i a fd : changes w c o i a -> fd_arg o = Some fd ->
  exists pos fl, w_fds w !! (c, fd) = Some (FFile i pos fl) /\ Z.land fl 3 <> 0.
Proof. intros H E. destruct H; cbn in E; try discriminate E; injection E as <-; eauto. Qed.

Lemma rdonly_quiet w c o w' r fd j pos fl i : reach true w -> step w c o = Done (w', r) -> tame true w c o r ->
  fd_arg o = Some fd -> w_fds w !! (c, fd) = Some (FFile j pos fl) -> Z.land fl 3 = 0 ->
  is_Some (w_ino w !! i) -> is_Some (w_ino w' !! i) -> bytes w' i = bytes w i.
Proof.
  intros Hr H Ht Hfd Hd Hfl Hs Hs'. apply reach_winv in Hr as Hw. eapply step_quiet; eauto. intros a Hch.
  destruct (fd_arg_changes _ _ _ _ _ _ Hch Hfd) as (pos' & fl' & E & Hn). congruence.
Qed.

Lemma wronly_nodata w c o w' r fd j pos fl : reach true w -> step w c o = Done (w', r) ->
  fd_arg o = Some fd -> w_fds w !! (c, fd) = Some (FFile j pos fl) -> Z.land fl 3 = 1 -> forall n bs, r <> RetData n bs.
Proof.
  intros Hr H Hfd Hd Hfl n bs ->. apply reach_winv in Hr as Hw. unfold step in H.
  destruct (w_cwd w !! c) as [cwd|] eqn:Hc; [|discriminate H]. pose proof (range_slot _ _ _ _ Hw Hd) as Hsl.
  destruct o; try discriminate Hfd; cbn in Hfd; injection Hfd as ->; unfold ret, FsModel.same in H;
    try (match type of H with obind ?q _ = _ => destruct q as [[? ?]|]; cbn [obind] in H; [|discriminate H] end; discriminate H).
  - unfold fstat_syscall in H. rewrite Hsl in H. cbn [obind] in H. destruct (get_ino w j); cbn [obind] in H; discriminate H.
  - unfold read_syscall in H. rewrite Hsl in H. cbn [obind] in H. rewrite wronly3, Hfl in H. discriminate H.
  - unfold pread_syscall in H. rewrite Hsl in H. cbn [obind] in H. rewrite wronly3, Hfl in H. discriminate H.
  - unfold write_syscall in H. rewrite Hsl in H. cbn [obind] in H. destruct (is_rdonly fl); [discriminate H|].
    destruct (get_ino w j) as [x|]; cbn [obind] in H; [|discriminate H]. destruct (i_kind x); try discriminate H.
    destruct (file_write _ _ _ _ _); cbn [obind] in H; discriminate H.
  - unfold pwrite_syscall in H. rewrite Hsl in H. cbn [obind] in H. destruct (is_rdonly fl); [discriminate H|].
    destruct (get_ino w j) as [x|]; cbn [obind] in H; [|discriminate H]. destruct (i_kind x); try discriminate H.
    destruct (file_write _ _ _ _ _); cbn [obind] in H; discriminate H.
  - unfold writev_syscall in H. rewrite Hsl in H. cbn [obind] in H. destruct (is_rdonly fl); [discriminate H|].
    destruct (get_ino w j) as [x|]; cbn [obind] in H; [|discriminate H]. destruct (i_kind x); try discriminate H.
    destruct (file_write _ _ _ _ _); cbn [obind] in H; discriminate H.
  - unfold fchdir_syscall in H. rewrite Hsl in H. cbn [obind] in H.
    destruct (pathname_loop _ _ _ _ _) as [[[]|]|]; discriminate H.
  - unfold getdents_syscall in H. destruct (_ <=? _) in H; [discriminate H|]. destruct (negb _); [discriminate H|]. rewrite Hd in H.
    destruct (get_ino w j) as [x|]; cbn [obind] in H; [|discriminate H]. destruct (i_kind x); try discriminate H.
    destruct (dents_fit _ _ _); discriminate H.
Qed.

Lemma initializer_mode i fl s : exists pos fl', file_initializer i fl s = FFile i pos fl' /\ Z.land fl' 3 = Z.land fl 3 /\ pos = if hasbit fl O_APPEND then s else 0.
Proof.
  unfold file_initializer. eexists _, _. split; [reflexivity|]. split; [|reflexivity]. rewrite <- Z.land_assoc. f_equal.
Qed.

Lemma open_mode w c p fl m w' fd : reach true w -> step w c (Open p fl m) = Done (w', Ret fd) -> 0 <= fd ->
  exists i pos fl', w_fds w' !! (c, fd) = Some (FFile i pos fl') /\ Z.land fl' 3 = Z.land fl 3.
Proof.
  intros Hr H Hfd. apply reach_winv in Hr as Hw. unfold step in H. destruct (w_cwd w !! c) as [cwd|] eqn:Hc; [|discriminate H].
  unfold ret in H. peelc H. unfold open_syscall in H. destruct (String.eqb p ""); [negr H|]. destruct (next_fd w c 0) as [k|]; [|negr H].
  destruct (metawalkandparent _ _) as [[[i|] op]|]; cbn [obind] in H; [| |discriminate H].
  - destruct (_ =? _) in H; [negr H|]. destruct (get_ino w i) as [x|] eqn:Hx; cbn [obind] in H; [|discriminate H].
    destruct (i_kind x); try (negr H).
    + match type of H with obind ?q _ = _ => destruct q as [w1|] eqn:E1; cbn [obind] in H; [|discriminate H] end.
      injection H as <- <-. wcbn. rewrite lookup_insert. destruct (initializer_mode i fl (if Z.land fl O_TRUNC =? O_TRUNC then 0 else i_size x)) as (pos & fl' & -> & E & _). eauto.
    + injection H as <- <-. wcbn. rewrite lookup_insert. destruct (initializer_mode i fl (i_size x)) as (pos & fl' & -> & E & _). eauto.
    + injection H as <- <-. wcbn. rewrite lookup_insert. destruct (initializer_mode i fl (i_size x)) as (pos & fl' & -> & E & _). eauto.
  - destruct op as [par|]; [|negr H]. destruct (negb _); [negr H|].
    destruct (_ =? S_IFCHR); [negr H|]. destruct (negb _); [negr H|].
    destruct (file_name _); [|discriminate H]. destruct (add_child _ _ _ _ _) as [w1|] eqn:E; cbn [obind] in H; [|discriminate H].
    injection H as <- <-. wcbn. rewrite lookup_insert. destruct (initializer_mode (w_next w) fl 0) as (pos & fl' & -> & E' & _). eauto.
Qed.

(** ** C26 *)
Lemma append_open w c cwd p q fl m w' fd i l : reach true w -> w_cwd w !! c = Some cwd -> denotes cwd p q -> resolves (w_ino w) q i ->
  bytes w i = Some l -> Z.land fl 1024 <> 0 -> Z.land fl 512 <> 512 -> step w c (Open p fl m) = Done (w', Ret fd) -> 0 <= fd ->
  bytes w' i = Some l /\ exists fl', w_fds w' !! (c, fd) = Some (FFile i (len l) fl') /\ Z.land fl' 3 = Z.land fl 3.
Proof.
  intros Hr Hc Hden Hres Hl Ha Ht H Hfd. apply reach_winv in Hr as Hw. destruct (file_of_bytes _ _ _ Hw Hl) as (x & Hx & Hk & Hs).
  apply denotes_normpath in Hden. subst q. unfold step in H. rewrite Hc in H. unfold ret in H. peelc H. split.
  { destruct (open_bytes _ _ _ _ _ _ _ _ i Hw Hc H ltac:(eauto)) as [[E _]|(_ & _ & E & _)]; [congruence|contradiction]. }
  unfold open_syscall in H. destruct (String.eqb p ""); [negr H|]. destruct (next_fd w c 0) as [k|]; [|negr H].
  pose proof (resolves_metawalk _ _ _ (root_some _ Hw) Hres) as Hm. unfold metawalk in Hm.
  destruct (metawalkandparent _ _) as [[o op]|]; cbn [obind fst] in *; [|discriminate Hm]. injection Hm as ->.
  destruct (_ =? _) in H; [negr H|]. unfold get_ino in H. rewrite Hx in H. cbn [obind] in H. rewrite Hk in H.
  change O_TRUNC with 512 in H. destruct (Z.eqb_spec (Z.land fl 512) 512); [contradiction|]. cbn [obind] in H.
  injection H as <- <-. wcbn. rewrite lookup_insert. destruct (initializer_mode i fl (i_size x)) as (pos & fl' & -> & E & ->).
  unfold hasbit. change O_APPEND with 1024. destruct (Z.eqb_spec (Z.land fl 1024) 0); [contradiction|]. cbn [negb]. rewrite Hs. eauto.
Qed.

(** ** C27 *)
Lemma perms_spec m mode : Z.land mode 511 = mode -> perms m mode (Z.lor (Z.ldiff m 511) mode).
Proof.
  intros H k Hk. rewrite Z.lor_spec, Z.ldiff_spec. change 511 with (Z.ones 9) in *. rewrite Z.testbit_ones_nonneg by lia.
  destruct (Z.ltb_spec k 9); cbn [negb]; [rewrite andb_false_r; reflexivity|]. rewrite andb_true_r.
  rewrite <- H. rewrite Z.land_spec, Z.testbit_ones_nonneg by lia. destruct (Z.ltb_spec k 9); [lia|]. rewrite andb_false_r, orb_false_r. reflexivity.
Qed.

Lemma chmod_do w i mode w' r x : w_ino w !! i = Some x -> chmod_helper i mode w = Done (w', r) ->
  (Z.land mode 511 = mode /\ r = 0 /\ exists m', perms (i_mode x) mode m' /\ w_ino w' = <[i := set_mode m' x]> (w_ino w) /\
     w_fds w' = w_fds w /\ w_cwd w' = w_cwd w /\ w_next w' = w_next w /\ d_host (w_disk w') = d_host (w_disk w) /\ w_pipes w' = w_pipes w) \/
  (Z.land mode 511 <> mode /\ r = err EINVAL /\ w' = w).
Proof.
  intros Hx H. unfold chmod_helper in H. change S_IRWXA with 511 in H. destruct (Z.eqb_spec (Z.land mode 511) mode) as [Hm|Hm].
  - left. split; [assumption|]. unfold get_ino in H. rewrite Hx in H. cbn [obind] in H. injection H as <- <-. split; [reflexivity|].
    eexists. split; [apply perms_spec; assumption|]. destruct (i_kind x); auto 10.
  - right. injection H as <- <-. auto.
Qed.

Lemma chmod_exact w c cwd p q i x mode : reach true w -> w_cwd w !! c = Some cwd -> denotes cwd p q -> resolves (w_ino w) q i ->
  w_ino w !! i = Some x -> 
  (Z.land mode 511 = mode -> exists w' m', step w c (Chmod p mode) = Done (w', Ret 0) /\ perms (i_mode x) mode m' /\ w_ino w' = <[i := set_mode m' x]> (w_ino w) /\
     w_fds w' = w_fds w /\ w_cwd w' = w_cwd w /\ w_next w' = w_next w /\ (forall j, bytes w' j = bytes w j) /\ w_pipes w' = w_pipes w) /\
  (Z.land mode 511 <> mode -> step w c (Chmod p mode) = Done (w, Ret (err EINVAL))).
Proof.
  intros Hr Hc Hden Hres Hx. apply reach_winv in Hr as Hw. apply denotes_normpath in Hden. subst q.
  assert (E : step w c (Chmod p mode) = ret (chmod_helper i mode w)).
  { unfold step. rewrite Hc. f_equal. unfold chmod_syscall. rewrite (resolves_metawalk _ _ _ (root_some _ Hw) Hres). reflexivity. }
  rewrite E. clear E. destruct (chmod_helper i mode w) as [[w' r]|] eqn:E.
  - unfold ret. cbn [obind fst snd]. destruct (chmod_do _ _ _ _ _ _ Hx E) as [(Hm & -> & m' & H1 & H2 & H3 & H4 & H5 & H6 & H7)|(Hm & -> & ->)]; split; intros; try contradiction; [|reflexivity].
    exists w', m'. do 6 (split; [assumption || reflexivity|]). split; [unfold bytes; rewrite H6; reflexivity|assumption].
  - exfalso. unfold chmod_helper, get_ino in E. rewrite Hx in E. destruct (_ =? _) in E; discriminate E.
Qed.

Lemma fchmod_exact w c fd i pos fl x mode : reach true w -> w_fds w !! (c, fd) = Some (FFile i pos fl) ->
  w_ino w !! i = Some x -> 
  (Z.land mode 511 = mode -> exists w' m', step w c (Fchmod fd mode) = Done (w', Ret 0) /\ perms (i_mode x) mode m' /\ w_ino w' = <[i := set_mode m' x]> (w_ino w) /\
     w_fds w' = w_fds w /\ w_cwd w' = w_cwd w /\ w_next w' = w_next w /\ (forall j, bytes w' j = bytes w j) /\ w_pipes w' = w_pipes w) /\
  (Z.land mode 511 <> mode -> step w c (Fchmod fd mode) = Done (w, Ret (err EINVAL))).
Proof.
  intros Hr Hd Hx. apply reach_winv in Hr as Hw. destruct (slot_cwd _ _ _ _ Hw Hd) as [cwd Hc].
  assert (E : step w c (Fchmod fd mode) = ret (chmod_helper i mode w)).
  { unfold step. rewrite Hc. f_equal. unfold fchmod_syscall. rewrite (range_slot _ _ _ _ Hw Hd). reflexivity. }
  rewrite E. clear E. destruct (chmod_helper i mode w) as [[w' r]|] eqn:E.
  - unfold ret. cbn [obind fst snd]. destruct (chmod_do _ _ _ _ _ _ Hx E) as [(Hm & -> & m' & H1 & H2 & H3 & H4 & H5 & H6 & H7)|(Hm & -> & ->)]; split; intros; try contradiction; [|reflexivity].
    exists w', m'. do 6 (split; [assumption || reflexivity|]). split; [unfold bytes; rewrite H6; reflexivity|assumption].
  - exfalso. unfold chmod_helper, get_ino in E. rewrite Hx in E. destruct (_ =? _) in E; discriminate E.
Qed.

Lemma land_pow2_eq m k : 0 <= k -> (Z.land m (2 ^ k) =? 2 ^ k) = Z.testbit m k.
Proof.
  intros Hk. destruct (Z.eqb_spec (Z.land m (2 ^ k)) (2 ^ k)) as [E|E].
  - assert (H : Z.testbit (Z.land m (2 ^ k)) k = true) by (rewrite E; apply Z.pow2_bits_true; lia).
    rewrite Z.land_spec, Z.pow2_bits_true, andb_true_r in H by lia. auto.
  - destruct (Z.testbit m k) eqn:Hb; [|reflexivity]. exfalso. apply E. apply Z.bits_inj'. intros j Hj.
    rewrite Z.land_spec. destruct (Z.eq_dec j k) as [->|Hn]; [rewrite Hb; reflexivity|]. rewrite Z.pow2_bits_false by lia. apply andb_false_r.
Qed.

Lemma land_mask_eq m (a b cc : bool) : (Z.land m (Z.lor (Z.lor (if a then 64 else 0) (if b then 128 else 0)) (if cc then 256 else 0)) =?
    (Z.lor (Z.lor (if a then 64 else 0) (if b then 128 else 0)) (if cc then 256 else 0))) =
  implb a (Z.testbit m 6) && implb b (Z.testbit m 7) && implb cc (Z.testbit m 8).
Proof.
  set (M := Z.lor _ _).
  assert (H : Z.land m M = M <-> (forall k, 0 <= k -> Z.testbit M k = true -> Z.testbit m k = true)).
  { split.
    - intros E k Hk HM. rewrite <- E, Z.land_spec in HM. apply andb_true_iff in HM. apply HM.
    - intros H. apply Z.bits_inj'. intros k Hk. rewrite Z.land_spec. destruct (Z.testbit M k) eqn:E; [rewrite (H k Hk E); reflexivity|apply andb_false_r]. }
  assert (HM : forall k, 0 <= k -> Z.testbit M k = (a && (k =? 6)) || (b && (k =? 7)) || (cc && (k =? 8))).
  { intros k Hk. subst M. change 64 with (2 ^ 6). change 128 with (2 ^ 7). change 256 with (2 ^ 8). rewrite !Z.lor_spec.
    assert (P : forall (q : bool) j, 0 <= j -> Z.testbit (if q then 2 ^ j else 0) k = q && (k =? j)).
    { intros q j Hj. destruct q; [|apply Z.bits_0]. rewrite Z.pow2_bits_eqb by lia. rewrite Z.eqb_sym. reflexivity. }
    rewrite !P by lia. reflexivity. }
  destruct (Z.eqb_spec (Z.land m M) M) as [E|E].
  - symmetry. pose proof (proj1 H E) as H1.
    assert (H6 := H1 6 ltac:(lia)). assert (H7 := H1 7 ltac:(lia)). assert (H8 := H1 8 ltac:(lia)). rewrite HM in H6, H7, H8 by lia.
    destruct a, b, cc; cbn in *; rewrite ?H6, ?H7, ?H8 by reflexivity; reflexivity.
  - symmetry. apply not_true_is_false. intros E2. apply E. apply H. intros k Hk Hb. rewrite HM in Hb by lia.
    apply andb_true_iff in E2 as [E2 E8]. apply andb_true_iff in E2 as [E6 E7].
    rewrite !orb_true_iff, !andb_true_iff in Hb. destruct Hb as [[[-> Ek]|[-> Ek]]|[-> Ek]]; apply Z.eqb_eq in Ek; subst k; assumption.
Qed.

Lemma access_exact w c cwd p q i x amode : reach true w -> w_cwd w !! c = Some cwd -> denotes cwd p q -> resolves (w_ino w) q i ->
  w_ino w !! i = Some x ->
  (owner_may (i_mode x) amode -> step w c (Access p amode) = Done (w, Ret 0)) /\
  (~ owner_may (i_mode x) amode -> step w c (Access p amode) = Done (w, Ret (err EACCES))).
Proof.
  intros Hr Hc Hden Hres Hx. apply reach_winv in Hr as Hw. apply denotes_normpath in Hden. subst q.
  set (ok := implb (Z.testbit amode 0) (Z.testbit (i_mode x) 6) && implb (Z.testbit amode 1) (Z.testbit (i_mode x) 7) && implb (Z.testbit amode 2) (Z.testbit (i_mode x) 8)).
  assert (E : step w c (Access p amode) = Done (w, Ret (if ok then 0 else err EACCES))).
  { unfold step. rewrite Hc. unfold access_syscall. rewrite (resolves_metawalk _ _ _ (root_some _ Hw) Hres). cbn [obind].
    unfold get_ino. rewrite Hx. cbn [obind]. unfold ret. cbn [obind fst snd]. do 4 f_equal.
    change X_OK with (2 ^ 0). change W_OK with (2 ^ 1). change R_OK with (2 ^ 2). rewrite !land_pow2_eq by lia.
    subst ok. rewrite <- land_mask_eq. change S_IXUSR with 64. change S_IWUSR with 128. change S_IRUSR with 256.
    destruct (Z.testbit amode 0), (Z.testbit amode 1), (Z.testbit amode 2); reflexivity. }
  rewrite E. assert (Hok : ok = true <-> owner_may (i_mode x) amode).
  { subst ok. unfold owner_may. rewrite !andb_true_iff. unfold implb.
    destruct (Z.testbit amode 0), (Z.testbit amode 1), (Z.testbit amode 2), (Z.testbit (i_mode x) 6), (Z.testbit (i_mode x) 7), (Z.testbit (i_mode x) 8); intuition. }
  destruct ok; split; intros H; try reflexivity; exfalso; [apply H, Hok; reflexivity|]. apply Hok in H. discriminate H.
Qed.

(** ** C28 *)
Lemma reclen_pos f : 20 <= reclen f.
Proof. unfold reclen, CLIPPED_DIRENT_SIZE. pose proof (Z.div_mod (18 + (Z.of_nat (String.length f) + 2) + 7) 8). pose proof (Z.mod_pos_bound (18 + (Z.of_nat (String.length f) + 2) + 7) 8). lia. Qed.
Lemma reclen_le f n : holds n f -> reclen f <= n.
Proof. unfold holds, reclen, CLIPPED_DIRENT_SIZE. intros H. pose proof (Z.div_mod (18 + (Z.of_nat (String.length f) + 2) + 7) 8). pose proof (Z.mod_pos_bound (18 + (Z.of_nat (String.length f) + 2) + 7) 8). lia. Qed.

Lemma dents_fit_spec es b n l k : dents_fit es b n = (l, k) -> b <= n ->
  (exists r, es = l ++ r) /\ b <= k <= n /\ (k = b <-> l = []) /\ (forall e r, es = e :: r -> b + reclen (fst e) <= n -> l <> []).
Proof.
  revert b l k. induction es as [|e es IH]; intros b l k H Hb; cbn [dents_fit] in H.
  - injection H as <- <-. split; [exists []; reflexivity|]. split; [lia|]. split; [tauto|]. intros e r E. discriminate E.
  - destruct (Z.ltb_spec n (b + reclen e.1)) as [Hlt|Hlt].
    + injection H as <- <-. split; [exists (e :: es); reflexivity|]. split; [lia|]. split; [tauto|]. intros e0 r [= <- <-]. lia.
    + destruct (dents_fit es (b + reclen e.1) n) as [l1 k1] eqn:E. injection H as <- <-.
      destruct (IH _ _ _ E Hlt) as ([r ->] & H2 & H3 & _). pose proof (reclen_pos e.1).
      split; [exists r; reflexivity|]. split; [lia|]. split; [split; [lia|discriminate]|]. discriminate.
Qed.

Lemma getdents_run c fd d fl x ns : i_kind x = KDir -> Forall (fun n => 18 < n < 2147483648) ns -> forall w pos,
  is_Some (w_cwd w !! c) -> 0 <= fd < 1024 -> w_fds w !! (c, fd) = Some (FFile d pos fl) -> w_ino w !! d = Some x -> 0 <= pos <= Z.of_nat (size (i_dict x)) ->
  exists w' outs ls rest, run w (map (fun n => (c, Getdents fd n)) ns) = Some (w', outs) /\ Forall2 lists outs ls /\
    concat ls ++ rest = drop (Z.to_nat pos) (map_to_list (i_dict x)) /\
    (Forall (fun n => forall f j, i_dict x !! f = Some j -> holds n f) ns ->
       forall l1 l2, ls = l1 ++ [] :: l2 -> concat l1 = drop (Z.to_nat pos) (map_to_list (i_dict x))).
Proof.
  intros Hk. induction ns as [|n ns IH]; intros Hns w pos Hc Hfd Hd Hx Hpos.
  - exists w, [], [], (drop (Z.to_nat pos) (map_to_list (i_dict x))). split; [reflexivity|]. split; [constructor|]. split; [reflexivity|].
    intros _ l1 l2 E. destruct l1; discriminate E.
  - inversion Hns as [|? ? Hn Hns']; subst. destruct Hc as [cwd Hc].
    set (es := drop (Z.to_nat pos) (map_to_list (i_dict x))).
    destruct (dents_fit es 0 n) as [l k] eqn:Ef.
    destruct (dents_fit_spec _ _ _ _ _ Ef ltac:(lia)) as ([r Hr] & Hk1 & Hk2 & Hk3).
    assert (Hlen : Z.of_nat (length l) <= Z.of_nat (size (i_dict x)) - pos).
    { assert (length es = (length l + length r)%nat) by (rewrite Hr; apply app_length). unfold es in H. rewrite drop_length in H.
      change (length (map_to_list (i_dict x))) with (size (i_dict x)) in H. lia. }
    assert (Es : step w c (Getdents fd n) = Done (put_fd c fd (FFile d (pos + Z.of_nat (length l)) fl) w, RetDents k l)).
    { unfold step. rewrite Hc. unfold getdents_syscall, CLIPPED_DIRENT_SIZE, in_fd_range, MAXFD. destruct (Z.leb_spec n 18); [lia|].
      destruct ((0 <=? fd) && (fd <? 1024)) eqn:E; [|lia]. cbn [negb]. rewrite Hd. unfold get_ino. rewrite Hx. cbn [obind]. rewrite Hk.
      fold es. rewrite Ef. rewrite Z.min_l by lia. rewrite to_i32_pos by lia. reflexivity. }
    destruct (IH Hns' (put_fd c fd (FFile d (pos + Z.of_nat (length l)) fl) w) (pos + Z.of_nat (length l))) as (w' & outs & ls & rest & H1 & H2 & H3 & H4).
    { wcbn. eauto. } { assumption. } { wcbn. apply lookup_insert. } { exact Hx. } { lia. }
    assert (Hes : drop (Z.to_nat (pos + Z.of_nat (length l))) (map_to_list (i_dict x)) = r).
    { replace (Z.to_nat (pos + Z.of_nat (length l))) with (Z.to_nat pos + length l)%nat by lia. rewrite <- drop_drop. fold es. rewrite Hr. apply drop_app. }
    rewrite Hes in H3, H4. exists w', (RetDents k l :: outs), (l :: ls), rest. split.
    { cbn [map run]. rewrite Es. fold (map (fun n => (c, Getdents fd n)) ns). rewrite H1. reflexivity. }
    split. { constructor; [|assumption]. exists k. split; [reflexivity|]. split; [lia|assumption]. }
    split. { cbn [concat]. rewrite <- app_assoc, H3. symmetry. assumption. }
    intros Hbig l1 l2 El. inversion Hbig as [|? ? Hb1 Hb2]; subst. destruct l1 as [|a l1]; injection El as -> El.
    + cbn [concat]. destruct es as [|e es'] eqn:Ee; [reflexivity|]. exfalso. apply (Hk3 e es' eq_refl); [|reflexivity].
      assert (He : e ∈ map_to_list (i_dict x)).
      { apply (elem_of_subseteq (drop (Z.to_nat pos) (map_to_list (i_dict x)))). { intros y Hy. rewrite <- (take_drop (Z.to_nat pos) (map_to_list (i_dict x))). apply elem_of_app. auto. }
        fold es. rewrite Ee. left. }
      destruct e as [f j]. apply elem_of_map_to_list in He. cbn [fst]. specialize (Hb1 _ _ He). apply reclen_le in Hb1. lia.
    + cbn [concat]. rewrite (H4 Hb2 l1 l2 El). symmetry. assumption.
Qed.

Lemma getdents_listing w c fd d fl x ns :
  reach true w -> w_fds w !! (c, fd) = Some (FFile d 0 fl) -> w_ino w !! d = Some x -> i_kind x = KDir ->
  Forall (fun n => 18 < n < 2147483648) ns ->
  exists w' outs ls, run w (map (fun n => (c, Getdents fd n)) ns) = Some (w', outs) /\ Forall2 lists outs ls /\
    NoDup (concat ls) /\ (forall f j, (f, j) ∈ concat ls -> i_dict x !! f = Some j) /\
    (Forall (fun n => forall f j, i_dict x !! f = Some j -> holds n f) ns ->
       (forall l1 l2, ls = l1 ++ [] :: l2 -> forall f j, i_dict x !! f = Some j -> (f, j) ∈ concat l1) /\
       ((size (i_dict x) < length ns)%nat -> exists l1 l2, ls = l1 ++ [] :: l2)).
Proof.
  intros Hr Hd Hx Hk Hns. apply reach_winv in Hr as Hw. pose proof (u_key _ Hw _ _ _ Hd) as [Hfd Hc].
  destruct (getdents_run c fd d fl x ns Hk Hns w 0) as (w' & outs & ls & rest & H1 & H2 & H3 & H4); try assumption; [lia|].
  change (Z.to_nat 0) with 0%nat in *. rewrite drop_0 in H3, H4.
  exists w', outs, ls. split; [assumption|]. split; [assumption|]. split.
  { pose proof (NoDup_map_to_list (i_dict x)) as Hnd. rewrite <- H3 in Hnd. apply NoDup_app in Hnd. apply Hnd. }
  split. { intros f j Hfj. apply elem_of_map_to_list. rewrite <- H3. apply elem_of_app. auto. }
  intros Hbig. split.
  - intros l1 l2 E f j Hf. rewrite (H4 Hbig l1 l2 E). apply elem_of_map_to_list. assumption.
  - intros Hlen. assert (Hin : ([] : list (string * Z)) ∈ ls).
    { destruct (decide (([] : list (string * Z)) ∈ ls)) as [|Hn]; [assumption|]. exfalso.
      assert (Hge : (length ls <= length (concat ls))%nat).
      { clear - Hn. induction ls as [|l ls IH]; [cbn; lia|]. cbn [concat length]. rewrite app_length.
        apply not_elem_of_cons in Hn as [Hl Hn]. specialize (IH Hn). destruct l; [congruence|cbn; lia]. }
      assert (length ls = length ns).
      { apply Forall2_length in H2. rewrite <- H2. clear - H1. revert w w' outs H1. induction ns as [|n ns IH]; intros w w' outs H1; cbn [map run] in H1.
        - injection H1 as _ <-. reflexivity.
        - destruct (step w c (Getdents fd n)) as [[w1 o]|]; [|discriminate H1].
          destruct (run w1 (map (fun n0 => (c, Getdents fd n0)) ns)) as [[w2 os]|] eqn:E; [|discriminate H1]. injection H1 as _ <-. cbn [length]. f_equal. eapply IH; eauto. }
      assert (length (concat ls) + length rest = size (i_dict x))%nat by (rewrite <- app_length, H3; reflexivity). lia. }
    apply elem_of_list_split in Hin. exact Hin.
Qed.
