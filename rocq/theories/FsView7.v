(** Which calls abort. *)
From Verif Require Import Base CodecModel PathModel PathSpec PathProofs FsModel FsBoot FsSpec FsWalk Count FsNames FsTr FsInv FsInv2
  FsSteps FsSteps2 FsFrame FsReachSpec FsWinv FsTmp FsReach FsTree FsNameSpec FsPath FdSpec FsDesc FsOps FsNameProofs FsIoSpec FsIo FsFail FsViewSpec FsAbortSpec
  FsView1 FsView2 FsView3 FsViewDir FsView4 FsView5.
Local Open Scope list_scope.
Local Open Scope Z_scope.
Opaque all_fds next_fd.

Definition ok {A} (e : outcome A) : bool := match e with Done _ => true | Panic => false end.
Lemma ok_bind {A B} (e : outcome A) (k : A -> outcome B) : ok (obind e k) = match e with Done x => ok (k x) | Panic => false end.
Proof. destruct e; reflexivity. Qed.
Lemma ok_ret e : ok (ret e) = ok e.
Proof. unfold ret. rewrite ok_bind. destruct e; reflexivity. Qed.
Lemma ok_same w e : ok (same w e) = ok e.
Proof. unfold same. rewrite ok_bind. destruct e; reflexivity. Qed.

Lemma ok_slot w a c pr fd {B} (k : option fdesc -> outcome B) : shows w a -> vw_proc a !! c = Some pr ->
  ok (obind (fd_slot w c fd) k) = negb (bad_fd fd) && ok (k (seen_des <$> q_tab pr !! fd)).
Proof.
  intros Hs Hp. unfold fd_slot, in_fd_range, bad_fd. change MAXFD with 1024. rewrite (tab_eq w a c pr fd Hs Hp).
  destruct (Z.leb_spec 0 fd), (Z.ltb_spec fd 0), (Z.ltb_spec fd 1024), (Z.leb_spec 1024 fd); try lia; reflexivity.
Qed.

(** What an open descriptor guarantees *)
Lemma open_ino w a c pr fd i pos fl : winv w -> shows w a -> vw_proc a !! c = Some pr -> q_tab pr !! fd = Some (DFile i pos fl) ->
  exists x, w_ino w !! i = Some x /\ i_kind x <> KSock /\ (i_kind x = KFile -> w_fobj w !! i = Some (i_size x) /\ kind_of a i = Some (AFile (default [] (bytes w i))) /\ zlen (default [] (bytes w i)) = i_size x) /\
    (i_kind x <> KFile -> forall bs, kind_of a i <> Some (AFile bs)).
Proof.
  intros Hw Hs Hp Hd. pose proof (tab_eq w a c pr fd Hs Hp) as E. rewrite Hd in E. cbn in E.
  destruct (u_inv _ Hw) as [Hn Hrr Hdd Hpp]. cbn in *. destruct (r_fd _ _ Hrr _ _ _ _ E) as [x Hx]. exists x. split; [exact Hx|].
  split; [exact (n_sock _ _ Hn _ _ Hx)|]. split.
  - intros Hk. destruct (inv_file w i x (u_inv _ Hw) Hx Hk) as (Hf & b & Hb & Hl).
    destruct (r_ref _ _ Hrr _ _ Hx) as [Hr1 _]. rewrite Hk in Hr1. destruct (Hr1 ltac:(discriminate)) as [Hr2 _].
    assert (0 < nfds (w_fds w) i). { apply cnt_pos. exists (c, fd), (FFile i pos fl). split; [exact E|]. unfold onfile. cbn. apply Z.eqb_refl. }
    split; [rewrite Hf; destruct (Z.ltb_spec 0 (i_ref x)); [reflexivity|lia]|].
    assert (Hbb : bytes w i = Some b) by (exact Hb).
    split; [rewrite (kind_view _ _ _ _ Hs Hx); unfold seen_obj; cbn [o_kind]; rewrite Hk; reflexivity|]. rewrite Hbb. exact Hl.
  - intros Hk bs. rewrite (kind_view _ _ _ _ Hs Hx). unfold seen_obj. cbn [o_kind]. pose proof (n_sock _ _ Hn _ _ Hx). destruct (i_kind x); congruence.
Qed.

Lemma open_pipe w a c pr fd k fl : winv w -> shows w a -> vw_proc a !! c = Some pr -> q_tab pr !! fd = Some (DPipe k fl) ->
  exists p, get_pipe w k = Done p.
Proof.
  intros Hw Hs Hp Hd. pose proof (tab_eq w a c pr fd Hs Hp) as E. rewrite Hd in E. cbn in E.
  destruct (p_fd _ _ _ (v_p _ (u_inv _ Hw)) _ _ _ E) as [[p Hk] _]. cbn in Hk. exists p. unfold get_pipe. rewrite Hk. reflexivity.
Qed.

Ltac enter Hs Hp := unfold step; rewrite (cwd_of _ _ _ _ Hs Hp), ?ok_ret, ?ok_same.

Lemma no_file a i f : (forall bs, kind_of a i <> Some (AFile bs)) -> file_len a i f = false.
Proof. intros H. unfold file_len. destruct (kind_of a i) as [[| bs|]|]; try reflexivity. destruct (H bs eq_refl). Qed.

Section S.
Variables (w : world) (a : view) (c : Z) (pr : aproc).
Hypotheses (Hr : reach false w) (Hs : shows w a) (Hp : vw_proc a !! c = Some pr).
Let Hw : winv w := reach_winv _ _ Hr.
Let Hcan : canonical (q_cwd pr) := proc_canonical _ _ _ _ Hw Hs Hp.

Lemma can p : canonical (normpath (q_cwd pr) p).
Proof using Hr Hs Hp. apply normpath_canonical. exact Hcan. Qed.

(** a path that is not the root ends in a name *)
Lemma mw_split q : canonical q -> match vw_at a !! q, up_dir a q with
  | None, Some par => exists f y, file_name q = Some f /\ w_ino w !! par = Some y /\ i_kind y = KDir
  | Some i, Some par => exists f x y, file_name q = Some f /\ w_ino w !! i = Some x /\ w_ino w !! par = Some y /\ i_kind y = KDir /\ i_dict y !! f = Some i /\ 0 < i_link y /\ i <> par /\ (i_kind x <> KDir -> 0 < i_link x)
  | Some i, None => is_Some (w_ino w !! i)
  | None, None => True end.
Proof using Hr Hs.
  intros Hq. pose proof (mw_view _ _ _ Hs Hw Hq) as Em. destruct (vw_at a !! q) as [i|] eqn:Ea, (up_dir a q) as [par|] eqn:Eu.
  - destruct (place_of _ _ _ _ Hq Em) as (dir & f & y & Hpl & Hfn & Hyf). destruct (at_exists _ _ _ _ Hs Hw Ea) as [x Hx].
    exists f, x, y. pose proof (pl_ino _ _ _ _ _ _ Hpl) as Hy. pose proof (pl_dir _ _ _ _ _ _ Hpl) as Hk.
    assert (Hnm : names (w_ino w) !! (par, f) = Some i).
    { rewrite names_lookup, Hy. pose proof (pl_path _ _ _ _ _ _ Hpl) as Epp. rewrite Epp in Hq. apply canonical_snoc in Hq as [_ ->]. exact Hyf. }
    pose proof (v_n _ (u_inv _ Hw)) as Hn. wcbn1 Hn.
    split; [exact Hfn|]. split; [exact Hx|]. split; [exact Hy|]. split; [exact Hk|]. split; [exact Hyf|].
    pose proof (n_dlink _ _ Hn _ _ Hy Hk). pose proof (nkids_nonneg (w_ino w) par). split; [lia|]. split.
    + intros ->. assert (x = y) by congruence. subst y. destruct (n_up _ _ Hn _ _ _ _ Hx Hk Hnm). lia.
    + intros Hkx. pose proof (n_link _ _ Hn _ _ Hx Hkx). assert (0 < nnames (w_ino w) i); [|lia].
      apply cnt_pos. exists (par, f), i. split; [exact Hnm|]. cbn. apply Z.eqb_refl.
  - destruct (at_exists _ _ _ _ Hs Hw Ea) as [x Hx]. eauto.
  - destruct (place_of _ _ _ _ Hq Em) as (dir & f & y & Hpl & Hfn & Hyf). exists f, y. split; [exact Hfn|]. split; [exact (pl_ino _ _ _ _ _ _ Hpl)|exact (pl_dir _ _ _ _ _ _ Hpl)].
  - exact I.
Qed.

Lemma a_mkdir p m : ok (step w c (Mkdir p m)) = true.
Proof using Hr Hs Hp.
  enter Hs Hp. unfold mkdir_syscall. destruct (String.eqb p ""); [reflexivity|]. cbv zeta. rewrite (mw_view _ _ _ Hs Hw (can p)). cbn [obind].
  pose proof (mw_split _ (can p)) as K. destruct (vw_at a !! _) as [i|], (up_dir a _) as [par|]; try reflexivity.
  destruct K as (f & y & -> & Hy & _). destruct (negb (sane_mode m)); [reflexivity|]. unfold add_child, get_ino. rewrite Hy. reflexivity.
Qed.

Lemma a_mknod p m d : ok (step w c (Mknod p m d)) = true.
Proof using Hr Hs Hp.
  enter Hs Hp. unfold mknod_syscall. destruct (String.eqb p ""); [reflexivity|]. cbv zeta. rewrite (mw_view _ _ _ Hs Hw (can p)). cbn [obind].
  pose proof (mw_split _ (can p)) as K. destruct (vw_at a !! _) as [i|], (up_dir a _) as [par|]; try reflexivity.
  destruct K as (f & y & -> & Hy & _). destruct (negb (sane_mode m)); [reflexivity|]. destruct (_ =? 0); [reflexivity|]. unfold add_child, get_ino. rewrite Hy. reflexivity.
Qed.

Lemma a_open' p fl m : ok (open_syscall w c (q_cwd pr) p fl m) = true.
Proof using Hr Hs Hp.
  unfold open_syscall. destruct (String.eqb p ""); [reflexivity|]. cbv zeta. destruct (next_fd w c 0); [|reflexivity]. rewrite (mw_view _ _ _ Hs Hw (can p)). cbn [obind].
  pose proof (mw_split _ (can p)) as K.
  assert (Hold : forall i, is_Some (w_ino w !! i) ->
    ok (if Z.land fl (Z.lor O_CREAT O_EXCL) =? Z.lor O_CREAT O_EXCL then Done (w, err EEXIST) else
          do x <- get_ino w i;
          match i_kind x with
          | KFile =>
              do w1 <- (if Z.land fl O_TRUNC =? O_TRUNC then remove_host i (with_fobj (delete i) (put_ino i (set_size 0 x) w)) else Done w);
              let size := if Z.land fl O_TRUNC =? O_TRUNC then 0 else i_size x in
              let w2 := open_fobj i size w1 in
              let w3 := put_ino i (set_ref (i_ref x + 1) (set_size size x)) w2 in
              Done (put_fd c z (file_initializer i fl size) w3, z)
          | KDir | KChr _ _ =>
              let w1 := put_ino i (set_ref (i_ref x + 1) x) w in
              Done (put_fd c z (file_initializer i fl (i_size x)) w1, z)
          | KSock => Done (w, err ENXIO)
          end) = true).
  { intros i [x Hx]. destruct (_ =? _); [reflexivity|]. unfold get_ino. rewrite Hx. cbn [obind]. destruct (i_kind x) eqn:Hk; try reflexivity.
    destruct (_ =? O_TRUNC); [|reflexivity]. unfold remove_host. wcbn. destruct (inv_file w i x (u_inv _ Hw) Hx Hk) as (_ & b & -> & _). reflexivity. }
  destruct (vw_at a !! _) as [i|], (up_dir a _) as [par|].
  - apply Hold. destruct K as (f & x & y & _ & Hx & _). eauto.
  - apply Hold. exact K.
  - destruct (negb _); [reflexivity|]. destruct (_ =? S_IFCHR); [reflexivity|]. destruct (negb _); [reflexivity|].
    destruct K as (f & y & -> & Hy & _). unfold add_child, get_ino. rewrite Hy. reflexivity.
  - reflexivity.
Qed.
Lemma a_open p fl m : ok (step w c (Open p fl m)) = true.
Proof using Hr Hs Hp. enter Hs Hp. apply a_open'. Qed.
Lemma a_creat p m : ok (step w c (Creat p m)) = true.
Proof using Hr Hs Hp. enter Hs Hp. apply a_open'. Qed.

Lemma a_link x y : ok (step w c (Link x y)) = negb (negb (String.eqb x "") && negb (String.eqb y "") && bool_decide (where_is (q_cwd pr) y = [])).
Proof using Hr Hs Hp.
  enter Hs Hp. unfold link_syscall. destruct (String.eqb x ""); [reflexivity|]. destruct (String.eqb y ""); [reflexivity|]. cbv zeta. cbn [negb andb].
  rewrite where_is_eq. pose proof (can y) as Hqy. pose proof (mw_view _ _ _ Hs Hw Hqy) as Em. pose proof (mw_split _ Hqy) as K.
  assert (Hfn : forall f r, normpath (q_cwd pr) y = f :: r -> exists g, file_name (normpath (q_cwd pr) y) = Some g).
  { intros f r ->. unfold file_name. destruct (last (f :: r)) as [g|] eqn:El; [eauto|]. apply last_None in El. discriminate El. }
  destruct (normpath (q_cwd pr) y) as [|g q0] eqn:Ey; [rewrite bool_decide_eq_true_2 by reflexivity; reflexivity|].
  rewrite bool_decide_eq_false_2 by discriminate. cbn [negb]. destruct (Hfn _ _ eq_refl) as [f ->]. clear Hfn.
  rewrite (mwk_view _ _ _ Hs Hw (can x)). cbn [obind]. destruct (vw_at a !! normpath (q_cwd pr) x) as [i|] eqn:Ea; [|reflexivity].
  destruct (at_exists _ _ _ _ Hs Hw Ea) as [z Hz]. unfold get_ino at 1. rewrite Hz. cbn [obind].
  assert (Hgo : ok (do r <- metawalkandparent (w_ino (put_ino i (set_link (i_link z + 1) z) w)) (g :: q0);
              match r with
              | (None, None) => Done (put_ino i z (put_ino i (set_link (i_link z + 1) z) w), err ENOENT)
              | (Some _, _) => Done (put_ino i z (put_ino i (set_link (i_link z + 1) z) w), err EEXIST)
              | (None, Some par) =>
                  do p <- get_ino (put_ino i (set_link (i_link z + 1) z) w) par;
                  let w2 := put_ino par (set_link (i_link p + 1) (set_dict (<[f := i]> (i_dict p)) p)) (put_ino i (set_link (i_link z + 1) z) w) in
                  Done (log_meta i (log_meta par w2), 0)
              end) = true).
  { wcbn. rewrite (mw_relink _ i z) by (assumption || reflexivity). rewrite Em. cbn [obind].
    destruct (vw_at a !! (g :: q0)) as [j|]; [reflexivity|]. destruct (up_dir a (g :: q0)) as [par|]; [|reflexivity].
    destruct K as (f' & p & _ & Hpy & _). unfold get_ino. wcbn. destruct (decide (i = par)) as [<-|Hne]; [rewrite lookup_insert; reflexivity|].
    rewrite lookup_insert_ne, Hpy by assumption. reflexivity. }
  cbv zeta in Hgo. destruct (i_kind z); try reflexivity; exact Hgo.
Qed.

Lemma a_unlink p : ok (step w c (Unlink p)) = true.
Proof using Hr Hs Hp.
  enter Hs Hp. unfold unlink_syscall. destruct (String.eqb p ""); [reflexivity|]. cbv zeta. rewrite (mw_view _ _ _ Hs Hw (can p)). cbn [obind].
  pose proof (mw_split _ (can p)) as K. destruct (vw_at a !! _) as [i|]; [|reflexivity]. destruct (up_dir a _) as [par|]; [|reflexivity].
  destruct K as (f & x & y & Hfn & Hx & Hy & Hky & Hf & Hl & Hne & Hlx). unfold get_ino at 1. rewrite Hx. cbn [obind].
  assert (Hdec : i_kind x <> KDir -> dec (i_link x) = Done (i_link x - 1)) by (intros H; specialize (Hlx H); unfold dec; destruct (Z.leb_spec (i_link x) 0); [lia|reflexivity]).
  assert (Hrm : forall l, exists w2 r, remove_from_parent par (normpath (q_cwd pr) p) (put_ino i (set_link l x) w) = Done (w2, r) /\ d_host (w_disk w2) = d_host (w_disk w)).
  { intros l. unfold remove_from_parent, get_ino. wcbn. rewrite lookup_insert_ne, Hy by assumption. cbn [obind]. rewrite Hky.
    destruct (no_write_bits _); [eexists _, _; split; [reflexivity|reflexivity]|]. rewrite Hfn, Hf. unfold dec. destruct (Z.leb_spec (i_link y) 0); [lia|].
    cbn [obind]. eexists _, _. split; [reflexivity|reflexivity]. }
  destruct (i_kind x) eqn:Hk; try reflexivity; rewrite Hdec by discriminate; cbn [obind]; destruct (Hrm (i_link x - 1)) as (w2 & r & -> & Hh); cbn [obind];
    destruct (negb (r =? 0)); try reflexivity; destruct (_ && _); try reflexivity.
  unfold remove_host. wcbn. rewrite Hh. destruct (inv_file w i x (u_inv _ Hw) Hx Hk) as (_ & b & -> & _). reflexivity.
Qed.

Lemma a_rmdir p : ok (step w c (Rmdir p)) = negb (aborts a c (Rmdir p)).
Proof using Hr Hs Hp.
  unfold aborts. rewrite Hp. cbv zeta. rewrite where_is_eq.
  enter Hs Hp. unfold rmdir_syscall. destruct (String.eqb p ""); [reflexivity|]. cbv zeta. rewrite (mw_view _ _ _ Hs Hw (can p)). cbn [obind negb andb].
  pose proof (mw_split _ (can p)) as K. destruct (vw_at a !! _) as [i|]; [|reflexivity]. destruct (up_dir a _) as [par|]; [|reflexivity].
  destruct K as (f & x & y & Hfn & Hx & Hy & Hky & Hf & Hl & Hne & Hlx). unfold get_ino at 1. rewrite Hy. cbn [obind].
  rewrite (may_write_eq _ _ _ _ Hs Hy). destruct (no_write_bits (i_mode y)) eqn:Hnw; [reflexivity|]. cbn [negb andb].
  unfold get_ino at 1. rewrite Hx. cbn [obind]. rewrite (sh_obj _ _ Hs _ _ Hx). rewrite (is_adir_eq _ _ _ _ Hs Hw Hx). unfold isdirk.
  destruct (i_kind x) eqn:Hk; try reflexivity. cbn [andb seen_obj o_link o_mode].
  destruct (Z.ltb_spec 3 (i_link x)), (Z.leb_spec (i_link x) 3); try lia; [reflexivity|]. cbn [andb].
  change (says_dir (i_mode x)) with (is_dir (i_mode x)). destruct (is_dir (i_mode x)); [|reflexivity]. cbn [negb].
  destruct (no_write_bits (i_mode x)); [reflexivity|].
  assert (Hrm : forall w1, w_ino w1 !! par = Some y -> exists w2 r, remove_from_parent par (normpath (q_cwd pr) p) w1 = Done (w2, r)).
  { intros w1 H1. unfold remove_from_parent, get_ino. rewrite H1. cbn [obind]. rewrite Hky, Hnw, Hfn, Hf. unfold dec. destruct (Z.leb_spec (i_link y) 0); [lia|].
    cbn [obind]. eauto. }
  destruct (Hrm (if i_ref x =? 0 then put_ino i (set_link 2 x) w else w)) as (w2 & r & ->).
  { destruct (i_ref x =? 0); [|exact Hy]. wcbn. rewrite lookup_insert_ne by assumption. exact Hy. }
  cbn [obind]. destruct (negb (r =? 0)); reflexivity.
Qed.

Lemma a_rename x y : ok (step w c (Rename x y)) = true.
Proof using Hr Hs Hp.
  enter Hs Hp. unfold rename_syscall. destruct (String.eqb x ""); [reflexivity|]. destruct (String.eqb y ""); [reflexivity|]. cbv zeta.
  rewrite (mw_view _ _ _ Hs Hw (can x)). cbn [obind]. pose proof (mw_split _ (can x)) as K. destruct (vw_at a !! _) as [i|]; [|reflexivity].
  destruct (up_dir a _) as [par|]; [|reflexivity]. destruct K as (f & z & p & Hfn & Hz & Hpy & _).
  rewrite (mw_view _ _ _ Hs Hw (can y)). cbn [obind snd]. pose proof (mw_split _ (can y)) as K2.
  destruct (up_dir a (normpath (q_cwd pr) y)) as [par2|]; [|rewrite bool_decide_eq_false_2 by discriminate; reflexivity].
  destruct (negb _); [reflexivity|]. unfold get_ino. rewrite Hpy. cbn [obind]. rewrite Hfn.
  assert (E : exists g, file_name (normpath (q_cwd pr) y) = Some g) by (destruct (vw_at a !! normpath (q_cwd pr) y); [destruct K2 as (g & _ & _ & -> & _)|destruct K2 as (g & _ & -> & _)]; eauto).
  destruct E as [g ->]. reflexivity.
Qed.

Lemma chmod_ok i m : is_Some (w_ino w !! i) -> ok (chmod_helper i m w) = true.
Proof. intros [x Hx]. unfold chmod_helper. destruct (_ =? m); [|reflexivity]. unfold get_ino. rewrite Hx. reflexivity. Qed.
Lemma a_chmod p m : ok (step w c (Chmod p m)) = true.
Proof using Hr Hs Hp.
  enter Hs Hp. unfold chmod_syscall. rewrite (mwk_view _ _ _ Hs Hw (can p)). cbn [obind]. destruct (vw_at a !! _) as [i|] eqn:Ea; [|reflexivity].
  apply chmod_ok. destruct (at_exists _ _ _ _ Hs Hw Ea) as [x Hx]. eauto.
Qed.
Lemma a_fchmod fd m : ok (step w c (Fchmod fd m)) = negb (bad_fd fd).
Proof using Hr Hs Hp.
  enter Hs Hp. unfold fchmod_syscall. rewrite (ok_slot _ _ _ _ _ _ Hs Hp). destruct (q_tab pr !! fd) as [[i pos fl|s fl|k fl|fl]|] eqn:Ed; cbn [fmap option_fmap option_map seen_des]; rewrite ?andb_true_r; try reflexivity.
  destruct (open_ino _ _ _ _ _ _ _ _ Hw Hs Hp Ed) as (x & Hx & _). rewrite chmod_ok by eauto. apply andb_true_r.
Qed.

Lemma trunc_ok i n must : is_Some (w_ino w !! i) -> (must = true -> forall x, w_ino w !! i = Some x -> i_kind x = KFile -> is_Some (w_fobj w !! i)) -> ok (truncate_helper i n must w) = true.
Proof using Hr.
  intros [x Hx] Hm. unfold truncate_helper. destruct (Z.ltb_spec n 0); [reflexivity|]. unfold get_ino. rewrite Hx. cbn [obind].
  destruct (i_kind x) eqn:Hk; try reflexivity. destruct (inv_file w i x (u_inv _ Hw) Hx Hk) as (Hf & b & Hb & Hl).
  assert (Hz : forall w1, w_fobj w1 !! i = Some (i_size x) -> exists w2, (if i_size x <? n then zerofill i (i_size x) (n - i_size x) w1
                else match w_fobj w1 !! i with
                     | None => Panic
                     | Some fs => if fs <? n then Panic else Done (with_fobj (insert i n) (emit (PSetLen i n) w1))
                     end) = Done w2).
  { intros w1 H1. unfold zerofill. rewrite H1. destruct (Z.ltb_spec (i_size x) n); [|eauto]. destruct (Z.ltb_spec (i_size x) (i_size x)); [lia|eauto]. }
  destruct (w_fobj w !! i) as [fs|] eqn:Efo; cbn [negb andb].
  - destruct (0 <? i_ref x); [|discriminate Hf]. injection Hf as ->. destruct (Hz w Efo) as [w2 E]. rewrite Efo in E. rewrite Efo. rewrite E. reflexivity.
  - destruct must; [destruct (Hm eq_refl x Hx Hk) as [? K]; discriminate K|]. cbn [andb]. 
    destruct (Hz (with_fobj (insert i (i_size x)) (emit (PCreate i) w))) as [w2 E]; [wcbn; apply lookup_insert|]. rewrite E. reflexivity.
Qed.
Lemma a_truncate p n : ok (step w c (Truncate p n)) = true.
Proof using Hr Hs Hp.
  enter Hs Hp. unfold truncate_syscall. rewrite (mwk_view _ _ _ Hs Hw (can p)). cbn [obind]. destruct (vw_at a !! _) as [i|] eqn:Ea; [|reflexivity].
  apply trunc_ok; [|discriminate]. destruct (at_exists _ _ _ _ Hs Hw Ea) as [x Hx]. eauto.
Qed.
Lemma a_ftruncate fd n : ok (step w c (Ftruncate fd n)) = negb (bad_fd fd).
Proof using Hr Hs Hp.
  enter Hs Hp. unfold ftruncate_syscall. rewrite (ok_slot _ _ _ _ _ _ Hs Hp). destruct (q_tab pr !! fd) as [[i pos fl|s fl|k fl|fl]|] eqn:Ed; cbn [fmap option_fmap option_map seen_des]; rewrite ?andb_true_r; try reflexivity.
  destruct (open_ino _ _ _ _ _ _ _ _ Hw Hs Hp Ed) as (x & Hx & _ & Hf & _). destruct (is_rdonly fl); [apply andb_true_r|]. rewrite trunc_ok; [apply andb_true_r|eauto|].
  intros _ x' Hx' Hk. assert (x' = x) by congruence. subst x'. destruct (Hf Hk) as [-> _]. eauto.
Qed.
Lemma a_stat p : ok (step w c (Stat p)) = true.
Proof using Hr Hs Hp.
  enter Hs Hp. unfold stat_syscall. rewrite (mwk_view _ _ _ Hs Hw (can p)). cbn [obind]. destruct (vw_at a !! _) as [i|] eqn:Ea; [|reflexivity].
  destruct (at_exists _ _ _ _ Hs Hw Ea) as [x Hx]. unfold get_ino. rewrite Hx. reflexivity.
Qed.
Lemma a_access p m : ok (step w c (Access p m)) = true.
Proof using Hr Hs Hp.
  enter Hs Hp. unfold access_syscall. rewrite (mwk_view _ _ _ Hs Hw (can p)). cbn [obind]. destruct (vw_at a !! _) as [i|] eqn:Ea; [|reflexivity].
  destruct (at_exists _ _ _ _ Hs Hw Ea) as [x Hx]. unfold get_ino. rewrite Hx. reflexivity.
Qed.
Lemma a_chdir p : ok (step w c (Chdir p)) = true.
Proof using Hr Hs Hp.
  enter Hs Hp. unfold chdir_syscall. cbv zeta. rewrite (mwk_view _ _ _ Hs Hw (can p)). cbn [obind]. destruct (vw_at a !! _) as [i|] eqn:Ea; [|reflexivity].
  destruct (at_exists _ _ _ _ Hs Hw Ea) as [x Hx]. unfold get_ino. rewrite Hx. cbn [obind]. destruct (i_kind x); reflexivity.
Qed.
Lemma a_fstat fd : ok (step w c (Fstat fd)) = negb (bad_fd fd).
Proof using Hr Hs Hp.
  enter Hs Hp. unfold fstat_syscall. rewrite (ok_slot _ _ _ _ _ _ Hs Hp). destruct (q_tab pr !! fd) as [[i pos fl|s fl|k fl|fl]|] eqn:Ed; cbn [fmap option_fmap option_map seen_des]; rewrite ?andb_true_r; try reflexivity.
  destruct (open_ino _ _ _ _ _ _ _ _ Hw Hs Hp Ed) as (x & Hx & _). unfold get_ino. rewrite Hx. apply andb_true_r.
Qed.
Lemma a_fsync fd : ok (step w c (Fsync fd)) = negb (bad_fd fd).
Proof using Hr Hs Hp.
  enter Hs Hp. rewrite ok_bind. replace (match fsync_syscall w c fd with Done _ => _ | Panic => false end) with (ok (fsync_syscall w c fd)) by (destruct (fsync_syscall w c fd); reflexivity).
  unfold fsync_syscall. rewrite (ok_slot _ _ _ _ _ _ Hs Hp). destruct (q_tab pr !! fd) as [[i pos fl|s fl|k fl|fl]|] eqn:Ed; cbn [fmap option_fmap option_map seen_des]; rewrite ?andb_true_r; try reflexivity.
  destruct (open_ino _ _ _ _ _ _ _ _ Hw Hs Hp Ed) as (x & Hx & _ & Hf & _). destruct (is_rdonly fl); [apply andb_true_r|]. unfold get_ino. rewrite Hx. cbn [obind].
  destruct (i_kind x) eqn:Hk; try apply andb_true_r. destruct (Hf eq_refl) as [-> _]. apply andb_true_r.
Qed.

Lemma readat_ok i off n x : w_fobj w !! i = Some (i_size x) -> ok (readat i off n w) = negb ((off <? 0) || (i_size x <? off)).
Proof. intros H. unfold readat. rewrite H. destruct (_ || _); reflexivity. Qed.

Lemma a_read fd n : ok (step w c (Read fd n)) = negb (aborts a c (Read fd n)).
Proof using Hr Hs Hp.
  unfold aborts. rewrite Hp. cbv zeta. enter Hs Hp. unfold read_syscall. rewrite (ok_slot _ _ _ _ _ _ Hs Hp), negb_orb.
  destruct (q_tab pr !! fd) as [[i pos fl|s fl|k fl|fl]|] eqn:Ed; cbn [fmap option_fmap option_map seen_des]; try reflexivity; f_equal.
  2:{ destruct (is_wronly fl); [reflexivity|]. destruct (open_pipe _ _ _ _ _ _ _ Hw Hs Hp Ed) as [p ->]. cbn [obind]. destruct (pipe_read _ _ _); reflexivity. }
  rewrite wronly3. unfold write_only. destruct (Z.land fl 3 =? 1); [reflexivity|]. cbn [negb andb].
  destruct (open_ino _ _ _ _ _ _ _ _ Hw Hs Hp Ed) as (x & Hx & Hks & Hf & Hnf). unfold get_ino. rewrite Hx. cbn [obind].
  destruct (i_kind x) eqn:Hk; try (rewrite no_file by (apply Hnf; discriminate); reflexivity); [|congruence].
  destruct (Hf eq_refl) as (Hfo & Ek & El). unfold file_len. rewrite Ek, El. rewrite <- (readat_ok i pos n x Hfo). rewrite ok_bind. destruct (readat i pos n w); reflexivity.
Qed.
Lemma a_pread fd n off : ok (step w c (Pread fd n off)) = negb (aborts a c (Pread fd n off)).
Proof using Hr Hs Hp.
  unfold aborts. rewrite Hp. cbv zeta. enter Hs Hp. unfold pread_syscall. rewrite (ok_slot _ _ _ _ _ _ Hs Hp), negb_orb.
  destruct (q_tab pr !! fd) as [[i pos fl|s fl|k fl|fl]|] eqn:Ed; cbn [fmap option_fmap option_map seen_des]; try reflexivity. f_equal.
  rewrite wronly3. unfold write_only. destruct (Z.land fl 3 =? 1); [reflexivity|]. cbn [negb andb].
  destruct (open_ino _ _ _ _ _ _ _ _ Hw Hs Hp Ed) as (x & Hx & Hks & Hf & Hnf). unfold get_ino. rewrite Hx. cbn [obind].
  destruct (i_kind x) eqn:Hk; try (rewrite no_file by (apply Hnf; discriminate); reflexivity); [|congruence].
  destruct (Hf eq_refl) as (Hfo & Ek & El). unfold file_len. rewrite Ek, El. rewrite <- (readat_ok i off n x Hfo). rewrite ok_bind. destruct (readat i off n w); reflexivity.
Qed.

Lemma write_ok i pos bs x : w_fobj w !! i = Some (i_size x) -> 0 <= i_size x -> ok (file_write i pos bs x w) = negb (pos <? 0).
Proof.
  intros H H0. unfold file_write. destruct (Z.ltb_spec 0 (pos - i_size x)).
  - unfold zerofill. rewrite H. destruct (Z.ltb_spec (i_size x) (i_size x)); [lia|]. cbn [obind]. unfold writeat. wcbn. rewrite lookup_insert.
    replace (Z.max (i_size x) (i_size x + (pos - i_size x))) with pos by lia. destruct (Z.ltb_spec pos 0); [lia|]. destruct (Z.ltb_spec pos pos); [lia|]. cbn [orb obind].
    destruct (_ <? _); reflexivity.
  - rewrite H. cbn [obind]. unfold writeat. rewrite H. destruct (Z.ltb_spec pos 0); [reflexivity|]. destruct (Z.ltb_spec (i_size x) pos); [lia|]. cbn [orb obind]. destruct (_ <? _); reflexivity.
Qed.

Lemma zlen_nonneg (l : list Z) : 0 <= zlen l.
Proof. unfold zlen. lia. Qed.

Lemma a_write fd bs : ok (step w c (Write fd bs)) = negb (aborts a c (Write fd bs)).
Proof using Hr Hs Hp.
  unfold aborts. rewrite Hp. cbv zeta. enter Hs Hp. unfold write_syscall. cbv zeta. rewrite (ok_slot _ _ _ _ _ _ Hs Hp), negb_orb.
  destruct (q_tab pr !! fd) as [[i pos fl|s fl|k fl|fl]|] eqn:Ed; cbn [fmap option_fmap option_map seen_des]; try reflexivity; f_equal.
  2:{ destruct (is_rdonly fl); [reflexivity|]. destruct (open_pipe _ _ _ _ _ _ _ Hw Hs Hp Ed) as [p ->]. cbn [obind]. destruct (pipe_write _ _ _); reflexivity. }
  rewrite rdonly3. unfold read_only. destruct (Z.land fl 3 =? 0); [reflexivity|]. cbn [negb andb].
  destruct (open_ino _ _ _ _ _ _ _ _ Hw Hs Hp Ed) as (x & Hx & Hks & Hf & Hnf). unfold get_ino. rewrite Hx. cbn [obind].
  destruct (i_kind x) eqn:Hk; try (rewrite no_file by (apply Hnf; discriminate); reflexivity); [|congruence].
  destruct (Hf eq_refl) as (Hfo & Ek & El). unfold file_len. rewrite Ek. pose proof (zlen_nonneg (default [] (bytes w i))).
  rewrite <- (write_ok i pos bs x Hfo ltac:(lia)). rewrite ok_bind. destruct (file_write i pos bs x w); reflexivity.
Qed.
Lemma a_writev fd iov : ok (step w c (Writev fd iov)) = negb (aborts a c (Writev fd iov)).
Proof using Hr Hs Hp.
  unfold aborts. rewrite Hp. cbv zeta. enter Hs Hp. unfold writev_syscall. cbv zeta. rewrite (ok_slot _ _ _ _ _ _ Hs Hp), negb_orb.
  destruct (q_tab pr !! fd) as [[i pos fl|s fl|k fl|fl]|] eqn:Ed; cbn [fmap option_fmap option_map seen_des]; try reflexivity; f_equal.
  2:{ destruct (is_rdonly fl); [reflexivity|]. destruct (open_pipe _ _ _ _ _ _ _ Hw Hs Hp Ed) as [p ->]. cbn [obind]. destruct (pipe_writev _ _ _ _); reflexivity. }
  rewrite rdonly3. unfold read_only. destruct (Z.land fl 3 =? 0); [reflexivity|]. cbn [negb andb].
  destruct (open_ino _ _ _ _ _ _ _ _ Hw Hs Hp Ed) as (x & Hx & Hks & Hf & Hnf). unfold get_ino. rewrite Hx. cbn [obind].
  destruct (i_kind x) eqn:Hk; try (rewrite no_file by (apply Hnf; discriminate); reflexivity); [|congruence].
  destruct (Hf eq_refl) as (Hfo & Ek & El). unfold file_len. rewrite Ek. pose proof (zlen_nonneg (default [] (bytes w i))).
  rewrite <- (write_ok i pos (concat iov) x Hfo ltac:(lia)). rewrite ok_bind. destruct (file_write i pos (concat iov) x w); reflexivity.
Qed.
Lemma a_pwrite fd bs off : ok (step w c (Pwrite fd bs off)) = negb (aborts a c (Pwrite fd bs off)).
Proof using Hr Hs Hp.
  unfold aborts. rewrite Hp. cbv zeta. enter Hs Hp. unfold pwrite_syscall. cbv zeta. rewrite (ok_slot _ _ _ _ _ _ Hs Hp), negb_orb.
  destruct (q_tab pr !! fd) as [[i pos fl|s fl|k fl|fl]|] eqn:Ed; cbn [fmap option_fmap option_map seen_des]; try reflexivity. f_equal.
  rewrite rdonly3. unfold read_only. destruct (Z.land fl 3 =? 0); [reflexivity|]. cbn [negb andb].
  destruct (open_ino _ _ _ _ _ _ _ _ Hw Hs Hp Ed) as (x & Hx & Hks & Hf & Hnf). unfold get_ino. rewrite Hx. cbn [obind].
  destruct (i_kind x) eqn:Hk; try (rewrite no_file by (apply Hnf; discriminate); reflexivity); [|congruence].
  destruct (Hf eq_refl) as (Hfo & Ek & El). unfold file_len. rewrite Ek. pose proof (zlen_nonneg (default [] (bytes w i))).
  rewrite <- (write_ok i off bs x Hfo ltac:(lia)). rewrite ok_bind. destruct (file_write i off bs x w); reflexivity.
Qed.

Lemma a_lseek fd off wh : allowed a c (Lseek fd off wh) = true -> ok (step w c (Lseek fd off wh)) = negb (aborts a c (Lseek fd off wh)).
Proof using Hr Hs Hp.
  unfold allowed, aborts. rewrite Hp. cbv zeta. intros Hal. enter Hs Hp. unfold lseek_syscall. rewrite (ok_slot _ _ _ _ _ _ Hs Hp), negb_orb.
  destruct (q_tab pr !! fd) as [[i pos fl|s fl|k fl|fl]|] eqn:Ed; cbn [fmap option_fmap option_map seen_des]; try reflexivity. f_equal.
  destruct (open_ino _ _ _ _ _ _ _ _ Hw Hs Hp Ed) as (x & Hx & Hks & Hf & Hnf). unfold get_ino. rewrite Hx. cbn [obind]. cbv zeta.
  rewrite (is_adir_eq _ _ _ _ Hs Hw Hx) in Hal. unfold isdirk in Hal. unfold has_len.
  destruct (i_kind x) eqn:Hk; [| | |congruence].
  - destruct (Hf eq_refl) as (Hfo & Ek & El). rewrite Ek, El. unfold add_isize, SEEK_SET, SEEK_CUR, SEEK_END.
    change (- ISIZE_MAX - 1) with (-9223372036854775808). change ISIZE_MAX with 9223372036854775807. unfold overflows.
    destruct (Z.eqb_spec wh 0) as [->|]; [cbn [obind Z.eqb]; destruct (off <? 0); reflexivity|].
    destruct (wh =? 1); [|destruct (wh =? 2); [|reflexivity]]; (match goal with |- context [obind (if ?b then Panic else _) _] => destruct b end; cbn [obind negb]; [reflexivity|]); destruct (_ <? 0); reflexivity.
  - cbn [negb orb] in Hal. rewrite (kind_view _ _ _ _ Hs Hx). unfold seen_obj. cbn [o_kind]. rewrite Hk. destruct (path_of a i) as [q|] eqn:Eq2; [|discriminate Hal].
    apply (path_of_iff w a Hr Hs i x q Hx Hk) in Eq2. rewrite (listing_eq w a Hr Hs q i x Eq2 Hx Hk). unfold add_isize, SEEK_SET, SEEK_CUR, SEEK_END.
    change (- ISIZE_MAX - 1) with (-9223372036854775808). change ISIZE_MAX with 9223372036854775807. unfold overflows.
    destruct (Z.eqb_spec wh 0) as [->|]; [cbn [obind Z.eqb]; destruct (_ || _); reflexivity|].
    destruct (wh =? 1); [|destruct (wh =? 2); [|reflexivity]]; (match goal with |- context [obind (if ?b then Panic else _) _] => destruct b end; cbn [obind negb]; [reflexivity|]); destruct (_ || _); reflexivity.
  - rewrite (kind_view _ _ _ _ Hs Hx). unfold seen_obj. cbn [o_kind]. rewrite Hk. reflexivity.
Qed.

Lemma a_getdents fd n : ok (step w c (Getdents fd n)) = true.
Proof using Hr Hs Hp.
  enter Hs Hp. unfold getdents_syscall. destruct (_ <=? _); [reflexivity|]. destruct (negb _); [reflexivity|]. rewrite (tab_eq w a c pr fd Hs Hp).
  destruct (q_tab pr !! fd) as [[i pos fl|s fl|k fl|fl]|] eqn:Ed; cbn [fmap option_fmap option_map seen_des]; try reflexivity.
  destruct (open_ino _ _ _ _ _ _ _ _ Hw Hs Hp Ed) as (x & Hx & _). unfold get_ino. rewrite Hx. cbn [obind].
  destruct (i_kind x); try reflexivity. destruct (dents_fit _ _ _); reflexivity.
Qed.

Lemma a_fchdir fd : allowed a c (Fchdir fd) = true -> ok (step w c (Fchdir fd)) = negb (bad_fd fd).
Proof using Hr Hs Hp.
  unfold allowed. rewrite Hp. intros Hal. enter Hs Hp. unfold fchdir_syscall. rewrite (ok_slot _ _ _ _ _ _ Hs Hp).
  destruct (q_tab pr !! fd) as [[i pos fl|s fl|k fl|fl]|] eqn:Ed; cbn [fmap option_fmap option_map seen_des]; rewrite ?andb_true_r; try reflexivity.
  destruct (open_ino _ _ _ _ _ _ _ _ Hw Hs Hp Ed) as (x & Hx & _). rewrite (is_adir_eq _ _ _ _ Hs Hw Hx) in Hal. destruct (isdirk x) eqn:Ek.
  - apply isdirk_true in Ek. cbn [negb orb] in Hal. destruct (path_of a i) as [q|] eqn:Eq2; [|discriminate Hal].
    apply (path_of_iff w a Hr Hs i x q Hx Ek) in Eq2. rewrite (fchdir_path w a Hr Hs q i x Eq2 Hx Ek). destruct q; apply andb_true_r.
  - assert (Hk : i_kind x <> KDir) by (intros E; apply isdirk_true in E; congruence). rewrite (fchdir_other w i x Hx Hk). apply andb_true_r.
Qed.

Lemma a_pipe2 fl : ok (step w c (Pipe2 fl)) = true.
Proof using Hs Hp. enter Hs Hp. unfold pipe2_syscall. cbv zeta. destruct (next_fd _ c 0); [|reflexivity]. destruct (next_fd _ c 0); reflexivity. Qed.
Lemma a_epoll n : ok (step w c (EpollCreate n)) = true.
Proof using Hs Hp. enter Hs Hp. unfold epoll_create_syscall. destruct (_ <=? _); [reflexivity|]. destruct (next_fd _ c 0); reflexivity. Qed.

Lemma a_fcntl fd cmd arg : ok (step w c (Fcntl fd cmd arg)) = negb (bad_fd fd).
Proof using Hr Hs Hp.
  enter Hs Hp. unfold fcntl_syscall. rewrite (ok_slot _ _ _ _ _ _ Hs Hp). destruct (q_tab pr !! fd) as [d|] eqn:Ed; cbn [fmap option_fmap option_map]; [|apply andb_true_r].
  cbv zeta. repeat (match goal with |- context [if ?b then _ else _] => destruct b end; try apply andb_true_r).
  unfold dup2_helper. destruct (next_fd w c arg); cbn [obind]; [|apply andb_true_r].
  destruct d as [i pos fl|s fl|k fl|fl]; cbn [seen_des add_ref obind]; [|apply andb_true_r| |apply andb_true_r].
  2:{ destruct (open_pipe _ _ _ _ _ _ _ Hw Hs Hp Ed) as [p ->]. apply andb_true_r. }
  destruct (open_ino _ _ _ _ _ _ _ _ Hw Hs Hp Ed) as (x & Hx & Hks & _). unfold get_ino. rewrite Hx. cbn [obind]. destruct (i_kind x); try apply andb_true_r. congruence.
Qed.

Lemma a_dup fd : ok (step w c (Dup fd)) = true.
Proof using Hr Hs Hp.
  enter Hs Hp. unfold dup_syscall. destruct (fd =? 0); [reflexivity|]. destruct (negb _); [reflexivity|]. rewrite (tab_eq w a c pr fd Hs Hp).
  destruct (q_tab pr !! fd) as [d|] eqn:Ed; cbn [fmap option_fmap option_map]; [|reflexivity]. unfold dup2_helper. destruct (next_fd w c 0); cbn [obind]; [|reflexivity].
  destruct d as [i pos fl|s fl|k fl|fl]; cbn [seen_des add_ref obind]; [|reflexivity| |reflexivity].
  2:{ destruct (open_pipe _ _ _ _ _ _ _ Hw Hs Hp Ed) as [p ->]. reflexivity. }
  destruct (open_ino _ _ _ _ _ _ _ _ Hw Hs Hp Ed) as (x & Hx & Hks & _). unfold get_ino. rewrite Hx. cbn [obind]. destruct (i_kind x); try reflexivity. congruence.
Qed.

Lemma a_close fd : ok (step w c (Close fd)) = negb (bad_fd fd).
Proof using Hr Hs Hp.
  destruct (q_tab pr !! fd) as [d|] eqn:Ed.
  - assert (E : w_fds w !! (c, fd) = Some (seen_des d)) by (rewrite (tab_eq w a c pr fd Hs Hp), Ed; reflexivity).
    destruct (close_exact w c fd _ (reach_weaken _ Hr) E) as (w1 & -> & _). apply (u_key _ Hw) in E as [E _]. change MAXFD with 1024 in E.
    unfold bad_fd. destruct (Z.ltb_spec fd 0), (Z.leb_spec 1024 fd); try lia. reflexivity.
  - enter Hs Hp. unfold close_syscall, close_inner. rewrite ok_bind. match goal with |- match ?e with Done _ => _ | Panic => _ end = _ => replace (match e with Done x => _ | Panic => false end) with (ok e) end.
    + rewrite (ok_slot _ _ _ _ _ _ Hs Hp), Ed. apply andb_true_r.
    + destruct (do s <- _; _) as [[w1 r1]|]; [|reflexivity]. cbn [ok]. destruct (r1 <? 0); reflexivity.
Qed.
End S.
