(** The part of the world that the global invariants talk about, the small
    set of transitions that all system calls are made of, and the invariants. *)
From Verif Require Import Base PathModel PathSpec FsModel FsSpec Count FsNames.
Local Open Scope list_scope.

Record core := Core {
  k_ino : gmap Z inode;
  k_next : Z;
  k_fobj : gmap Z Z;
  k_host : gmap Z (list Z);
  k_fds : gmap (Z * Z) fdesc;
  k_pipes : gmap Z pipe;
  k_npipe : Z
}.

Definition core_of (w : world) : core :=
  Core (w_ino w) (w_next w) (w_fobj w) (d_host (w_disk w)) (w_fds w) (w_pipes w) (w_npipe w).

(** What a descriptor refers to *)
Inductive target := TFile (i : Z) | TPipe (pid : Z) (r w : bool) | TNone.
Definition target_of (d : fdesc) : target :=
  match d with
  | FFile i _ _ => TFile i
  | FPipe pid fl => TPipe pid (is_rdonly fl) (is_wronly fl)
  | _ => TNone
  end.

Definition onfile (i : Z) (e : (Z * Z) * fdesc) : bool :=
  match target_of e.2 with TFile j => j =? i | _ => false end.
Definition onread (pid : Z) (e : (Z * Z) * fdesc) : bool :=
  match target_of e.2 with TPipe q r _ => (q =? pid) && r | _ => false end.
Definition onwrite (pid : Z) (e : (Z * Z) * fdesc) : bool :=
  match target_of e.2 with TPipe q _ w => (q =? pid) && w | _ => false end.

Definition nfds (m : gmap (Z * Z) fdesc) (i : Z) : Z := cnt (onfile i) m.
Definition nrd (m : gmap (Z * Z) fdesc) (pid : Z) : Z := cnt (onread pid) m.
Definition nwr (m : gmap (Z * Z) fdesc) (pid : Z) : Z := cnt (onwrite pid) m.

Definition named (t : gmap Z inode) (d : Z) : Prop := d = ROOTINO \/ exists k, names t !! k = Some d.

(** A new directory or device *)
Definition newobj (par i : Z) (x : inode) : Prop :=
  i_ref x = 0 /\ i_size x = 0 /\
  ((i_kind x = KDir /\ i_link x = 3 /\ i_dict x = new_dict i par) \/
   ((exists a b, i_kind x = KChr a b) /\ i_link x = 1 /\ i_dict x = ∅)).

(** The parent with one more / one less name *)
Definition par_add (f : string) (i : Z) (p : inode) : inode :=
  set_link (i_link p + 1) (set_dict (<[f := i]> (i_dict p)) p).
Definition par_rem (f : string) (p : inode) : inode :=
  set_link (i_link p - 1) (set_dict (delete f (i_dict p)) p).

(** Effect of an open on the table of file objects and on the host *)
Definition fobj_open (i : Z) (x : inode) (m : gmap Z Z) : gmap Z Z :=
  match i_kind x with
  | KFile => match m !! i with Some _ => m | None => <[i := i_size x]> m end
  | _ => m
  end.
Definition host_open (i : Z) (x : inode) (m : gmap Z Z) (h : gmap Z (list Z)) : gmap Z (list Z) :=
  match i_kind x with
  | KFile => match m !! i with Some _ => h | None => <[i := default [] (h !! i)]> h end
  | _ => h
  end.

(** Effect of giving up one reference *)
Definition last_ref (x : inode) : bool := i_ref x =? 1.
Definition gone (x : inode) : bool :=
  last_ref x && match i_kind x with
                | KFile | KChr _ _ => i_link x =? 0
                | KDir => i_link x =? 2
                | KSock => false
                end.
Definition isfile (x : inode) : bool := match i_kind x with KFile => true | _ => false end.
Definition rel_ino (i : Z) (x : inode) (t : gmap Z inode) : gmap Z inode :=
  if gone x then delete i t else <[i := set_ref (i_ref x - 1) x]> t.
Definition rel_fobj (i : Z) (x : inode) (m : gmap Z Z) : gmap Z Z :=
  if isfile x && last_ref x then delete i m else m.
Definition rel_host (i : Z) (x : inode) (h : gmap Z (list Z)) : gmap Z (list Z) :=
  if isfile x && gone x then delete i h else h.

(** Effect of unlink *)
Definition un_gone (x : inode) : bool := (i_link x =? 1) && (i_ref x =? 0).
Definition un_ino (i : Z) (x : inode) (par : Z) (p : inode) (f : string) (t : gmap Z inode) : gmap Z inode :=
  let t1 := <[par := par_rem f p]> (<[i := set_link (i_link x - 1) x]> t) in
  if un_gone x then delete i t1 else t1.
Definition un_host (i : Z) (x : inode) (h : gmap Z (list Z)) : gmap Z (list Z) :=
  if isfile x && un_gone x then delete i h else h.

(** [disp]: may a rename displace an existing name? *)
Inductive tr (disp : bool) : core -> core -> Prop :=
| t_new t n fo h fds ps np par p f x :
    t !! par = Some p -> i_kind p = KDir -> i_dict p !! f = None -> dotb f = false ->
    named t par -> newobj par n x -> good_name f ->
    tr disp (Core t n fo h fds ps np)
       (Core (<[n := x]> (<[par := par_add f n p]> t)) (n + 1) fo h fds ps np)
| t_newfile t n fo h fds ps np par p f x k pos fl :
    t !! par = Some p -> i_kind p = KDir -> i_dict p !! f = None -> dotb f = false ->
    named t par -> i_kind x = KFile -> i_size x = 0 -> i_link x = 1 -> i_ref x = 1 -> i_dict x = ∅ ->
    fds !! k = None -> good_name f ->
    tr disp (Core t n fo h fds ps np)
       (Core (<[n := x]> (<[par := par_add f n p]> t)) (n + 1) (<[n := 0]> fo) (<[n := []]> h)
          (<[k := FFile n pos fl]> fds) ps np)
| t_open t n fo h fds ps np i x k pos fl :
    t !! i = Some x -> fds !! k = None ->
    tr disp (Core t n fo h fds ps np)
       (Core (<[i := set_ref (i_ref x + 1) x]> t) n (fobj_open i x fo) (host_open i x fo h)
          (<[k := FFile i pos fl]> fds) ps np)
| t_trunc t n fo h fds ps np i x k pos fl :
    t !! i = Some x -> i_kind x = KFile -> fds !! k = None ->
    tr disp (Core t n fo h fds ps np)
       (Core (<[i := set_ref (i_ref x + 1) (set_size 0 x)]> t) n (<[i := 0]> fo) (<[i := []]> h)
          (<[k := FFile i pos fl]> fds) ps np)
| t_link t n fo h fds ps np i x par p f :
    t !! i = Some x -> i_kind x <> KDir -> t !! par = Some p -> i_kind p = KDir ->
    i_dict p !! f = None -> dotb f = false -> named t par -> (exists k, names t !! k = Some i) -> good_name f ->
    tr disp (Core t n fo h fds ps np)
       (Core (<[par := par_add f i p]> (<[i := set_link (i_link x + 1) x]> t)) n fo h fds ps np)
| t_unlink t n fo h fds ps np i x par p f :
    t !! i = Some x -> i_kind x <> KDir -> t !! par = Some p -> i_kind p = KDir ->
    i_dict p !! f = Some i -> dotb f = false ->
    tr disp (Core t n fo h fds ps np)
       (Core (un_ino i x par p f t) n fo (un_host i x h) fds ps np)
| t_rmdir t n fo h fds ps np i x par p f :
    t !! i = Some x -> i_kind x = KDir -> t !! par = Some p -> i_kind p = KDir ->
    i_dict p !! f = Some i -> dotb f = false -> i_link x <= 3 ->
    tr disp (Core t n fo h fds ps np)
       (Core (if i_ref x =? 0 then delete i (<[par := par_rem f p]> t) else <[par := par_rem f p]> t)
          n fo h fds ps np)
| t_rename t n fo h fds ps np i par p fo1 fn1 :
    t !! par = Some p -> i_kind p = KDir -> i_dict p !! fo1 = Some i -> dotb fo1 = false -> dotb fn1 = false ->
    (i_dict p !! fn1 = None \/ disp = true) -> good_name fn1 ->
    tr disp (Core t n fo h fds ps np)
       (Core (<[par := set_dict (delete fo1 (<[fn1 := i]> (i_dict p))) p]> t) n fo h fds ps np)
| t_mode t n fo h fds ps np i x m :
    t !! i = Some x ->
    tr disp (Core t n fo h fds ps np) (Core (<[i := set_mode m x]> t) n fo h fds ps np)
| t_data t n fo h fds ps np i x len fo' h' b :
    t !! i = Some x -> i_kind x = KFile -> 0 <= len ->
    (forall j, j <> i -> fo' !! j = fo !! j /\ h' !! j = h !! j) ->
    fo' !! i = (fun _ => len) <$> fo !! i -> h' !! i = Some b -> Z.of_nat (length b) = len ->
    tr disp (Core t n fo h fds ps np) (Core (<[i := set_size len x]> t) n fo' h' fds ps np)
| t_close t n fo h fds ps np i x k pos fl :
    t !! i = Some x -> fds !! k = Some (FFile i pos fl) ->
    tr disp (Core t n fo h fds ps np)
       (Core (rel_ino i x t) n (rel_fobj i x fo) (rel_host i x h) (delete k fds) ps np)
| t_close_pipe t n fo h fds ps np k pid fl p :
    fds !! k = Some (FPipe pid fl) -> ps !! pid = Some p ->
    tr disp (Core t n fo h fds ps np)
       (Core t n fo h (delete k fds) (<[pid := pipe_decr fl p]> ps) np)
| t_close_other t n fo h fds ps np k d :
    fds !! k = Some d -> target_of d = TNone ->
    tr disp (Core t n fo h fds ps np) (Core t n fo h (delete k fds) ps np)
| t_dup t n fo h fds ps np i x k k' pos fl pos' fl' :
    t !! i = Some x -> fds !! k' = Some (FFile i pos' fl') -> fds !! k = None ->
    tr disp (Core t n fo h fds ps np)
       (Core (<[i := set_ref (i_ref x + 1) x]> t) n fo h (<[k := FFile i pos fl]> fds) ps np)
| t_dup_pipe t n fo h fds ps np k k' pid fl fl' p :
    ps !! pid = Some p -> fds !! k' = Some (FPipe pid fl') -> fds !! k = None ->
    is_rdonly fl = is_rdonly fl' -> is_wronly fl = is_wronly fl' ->
    tr disp (Core t n fo h fds ps np)
       (Core t n fo h (<[k := FPipe pid fl]> fds) (<[pid := pipe_incr fl p]> ps) np)
| t_put_other t n fo h fds ps np k d :
    fds !! k = None -> target_of d = TNone ->
    tr disp (Core t n fo h fds ps np) (Core t n fo h (<[k := d]> fds) ps np)
| t_move t n fo h fds ps np k k' d :
    fds !! k = Some d -> fds !! k' = None ->
    tr disp (Core t n fo h fds ps np) (Core t n fo h (<[k' := d]> (delete k fds)) ps np)
| t_same t n fo h fds ps np k d d' :
    fds !! k = Some d -> target_of d' = target_of d ->
    tr disp (Core t n fo h fds ps np) (Core t n fo h (<[k := d']> fds) ps np)
| t_dirref t n fo h fds ps np i x :
    t !! i = Some x -> i_kind x = KDir ->
    tr disp (Core t n fo h fds ps np) (Core (<[i := set_ref (i_ref x + 1) x]> t) n fo h fds ps np)
| t_pipe2 t n fo h fds ps np a b fl1 fl2 :
    fds !! a = None -> fds !! b = None -> a <> b ->
    is_rdonly fl1 = true -> is_wronly fl1 = false -> is_rdonly fl2 = false -> is_wronly fl2 = true ->
    tr disp (Core t n fo h fds ps np)
       (Core t n fo h (<[b := FPipe np fl2]> (<[a := FPipe np fl1]> fds)) (<[np := Pipe [] 1 1]> ps) (np + 1))
| t_pipe_data t n fo h fds ps np pid p buf :
    ps !! pid = Some p -> Z.of_nat (length buf) <= PIPE_CAPACITY ->
    tr disp (Core t n fo h fds ps np)
       (Core t n fo h fds (<[pid := Pipe buf (p_r p) (p_w p)]> ps) np).

(** ** Invariants on references *)
Definition okref (x : inode) (n : Z) : Prop :=
  (i_kind x <> KDir -> i_ref x = n /\ (i_link x <> 0 \/ 0 < i_ref x)) /\
  (i_kind x = KDir -> n <= i_ref x).

Record inv_r (t : gmap Z inode) (fds : gmap (Z * Z) fdesc) : Prop := {
  r_fd k i pos fl : fds !! k = Some (FFile i pos fl) -> is_Some (t !! i);
  r_ref i x : t !! i = Some x -> okref x (nfds fds i)
}.

Lemma nfds_nonneg m i : 0 <= nfds m i.
Proof. apply cnt_nonneg. Qed.

Lemma nfds_none t fds i : inv_r t fds -> t !! i = None -> nfds fds i = 0.
Proof.
  intros H Hi. apply cnt_zero. intros k d Hk. unfold onfile. cbn.
  destruct d as [j ? ?| | |]; cbn; try reflexivity.
  destruct (Z.eqb_spec j i) as [->|]; [|reflexivity].
  apply (r_fd _ _ H) in Hk as [? ?]. congruence.
Qed.

(** One object changes; descriptors of other objects keep their number *)
Lemma inv_r_upd t fds i x' fds' :
  inv_r t fds ->
  (forall k j pos fl, fds' !! k = Some (FFile j pos fl) ->
     j = i \/ exists k' pos' fl', fds !! k' = Some (FFile j pos' fl')) ->
  (forall j, j <> i -> nfds fds' j = nfds fds j) -> okref x' (nfds fds' i) ->
  inv_r (<[i := x']> t) fds'.
Proof.
  intros H Hf Hn Hx. constructor.
  - intros k j pos fl Hk. destruct (decide (i = j)) as [<-|]; [rewrite lookup_insert; eauto|].
    rewrite lookup_insert_ne by assumption. destruct (Hf _ _ _ _ Hk) as [->|(k' & pos' & fl' & Hk')]; [contradiction|].
    eapply r_fd; eauto.
  - intros j y. destruct (decide (i = j)) as [<-|].
    + rewrite lookup_insert. intros [= <-]. exact Hx.
    + rewrite lookup_insert_ne by assumption. rewrite Hn by congruence. apply (r_ref _ _ H).
Qed.

Lemma inv_r_del t fds i : inv_r t fds -> nfds fds i = 0 -> inv_r (delete i t) fds.
Proof.
  intros H Hn. constructor.
  - intros k j pos fl Hk. rewrite lookup_delete_ne; [eapply r_fd; eauto|]. intros <-.
    assert (0 < nfds fds i); [|lia]. apply cnt_pos. exists k, (FFile i pos fl). split; [assumption|].
    unfold onfile. cbn. apply Z.eqb_refl.
  - intros j y Hy. apply lookup_delete_Some in Hy as [? Hy]. eapply r_ref; eauto.
Qed.

Lemma inv_r_fds t fds fds' : inv_r t fds ->
  (forall k j pos fl, fds' !! k = Some (FFile j pos fl) -> exists k' pos' fl', fds !! k' = Some (FFile j pos' fl')) ->
  (forall j, nfds fds' j = nfds fds j) -> inv_r t fds'.
Proof.
  intros H Hf Hn. constructor.
  - intros k j pos fl Hk. destruct (Hf _ _ _ _ Hk) as (? & ? & ? & ?). eapply r_fd; eauto.
  - intros j y Hy. rewrite Hn. eapply r_ref; eauto.
Qed.

(** ** Invariant on file data *)
Definition okdata (ox : option inode) (of : option Z) (ob : option (list Z)) : Prop :=
  match ox with
  | Some x =>
      if isfile x
      then of = (if 0 <? i_ref x then Some (i_size x) else None)
           /\ exists b, ob = Some b /\ Z.of_nat (length b) = i_size x
      else of = None /\ ob = None
  | None => of = None /\ ob = None
  end.
Definition inv_d (t : gmap Z inode) (fo : gmap Z Z) (h : gmap Z (list Z)) : Prop :=
  forall i, okdata (t !! i) (fo !! i) (h !! i).

Lemma inv_d_upd t fo h i x fo' h' :
  inv_d t fo h -> (forall j, j <> i -> fo' !! j = fo !! j /\ h' !! j = h !! j) ->
  okdata (Some x) (fo' !! i) (h' !! i) -> inv_d (<[i := x]> t) fo' h'.
Proof.
  intros H Ho Hx j. destruct (decide (i = j)) as [<-|].
  - rewrite lookup_insert. exact Hx.
  - rewrite lookup_insert_ne by assumption. destruct (Ho j) as [-> ->]; [congruence|]. apply H.
Qed.

Lemma inv_d_del t fo h i fo' h' :
  inv_d t fo h -> (forall j, j <> i -> fo' !! j = fo !! j /\ h' !! j = h !! j) ->
  fo' !! i = None -> h' !! i = None -> inv_d (delete i t) fo' h'.
Proof.
  intros H Ho H1 H2 j. destruct (decide (i = j)) as [<-|].
  - rewrite lookup_delete. cbn. auto.
  - rewrite lookup_delete_ne by assumption. destruct (Ho j) as [-> ->]; [congruence|]. apply H.
Qed.

(** ** Invariant on pipes *)
Record inv_p (fds : gmap (Z * Z) fdesc) (ps : gmap Z pipe) (np : Z) : Prop := {
  p_fd k pid fl : fds !! k = Some (FPipe pid fl) ->
    is_Some (ps !! pid) /\ (is_rdonly fl = true \/ is_wronly fl = true);
  p_cnt pid p : ps !! pid = Some p ->
    p_r p = to_u32 (nrd fds pid) /\ p_w p = to_u32 (nwr fds pid)
    /\ Z.of_nat (length (p_buf p)) <= PIPE_CAPACITY /\ pid < np
}.

Record inv (k : core) : Prop := {
  v_n : inv_n (k_ino k) (k_next k);
  v_r : inv_r (k_ino k) (k_fds k);
  v_d : inv_d (k_ino k) (k_fobj k) (k_host k);
  v_p : inv_p (k_fds k) (k_pipes k) (k_npipe k)
}.

(** ** Counting lemmas for descriptor tables *)
Definition b2z (b : bool) : Z := if b then 1 else 0.
Definition isf (d : fdesc) (i : Z) : bool := match target_of d with TFile j => j =? i | _ => false end.
Definition isr (d : fdesc) (q : Z) : bool := match target_of d with TPipe q' r _ => (q' =? q) && r | _ => false end.
Definition isw (d : fdesc) (q : Z) : bool := match target_of d with TPipe q' _ w => (q' =? q) && w | _ => false end.

Lemma nfds_new m k d i : m !! k = None -> nfds (<[k := d]> m) i = nfds m i + b2z (isf d i).
Proof. intros. unfold nfds. rewrite cnt_insert_new by assumption. reflexivity. Qed.
Lemma nfds_del m k d i : m !! k = Some d -> nfds (delete k m) i = nfds m i - b2z (isf d i).
Proof. intros H. unfold nfds. rewrite (cnt_delete _ _ _ _ H). reflexivity. Qed.
Lemma nfds_over m k d d' i : m !! k = Some d -> nfds (<[k := d']> m) i = nfds m i - b2z (isf d i) + b2z (isf d' i).
Proof. intros H. unfold nfds. rewrite (cnt_insert_over _ _ _ _ _ H). reflexivity. Qed.
Lemma nrd_new m k d i : m !! k = None -> nrd (<[k := d]> m) i = nrd m i + b2z (isr d i).
Proof. intros. unfold nrd. rewrite cnt_insert_new by assumption. reflexivity. Qed.
Lemma nrd_del m k d i : m !! k = Some d -> nrd (delete k m) i = nrd m i - b2z (isr d i).
Proof. intros H. unfold nrd. rewrite (cnt_delete _ _ _ _ H). reflexivity. Qed.
Lemma nrd_over m k d d' i : m !! k = Some d -> nrd (<[k := d']> m) i = nrd m i - b2z (isr d i) + b2z (isr d' i).
Proof. intros H. unfold nrd. rewrite (cnt_insert_over _ _ _ _ _ H). reflexivity. Qed.
Lemma nwr_new m k d i : m !! k = None -> nwr (<[k := d]> m) i = nwr m i + b2z (isw d i).
Proof. intros. unfold nwr. rewrite cnt_insert_new by assumption. reflexivity. Qed.
Lemma nwr_del m k d i : m !! k = Some d -> nwr (delete k m) i = nwr m i - b2z (isw d i).
Proof. intros H. unfold nwr. rewrite (cnt_delete _ _ _ _ H). reflexivity. Qed.
Lemma nwr_over m k d d' i : m !! k = Some d -> nwr (<[k := d']> m) i = nwr m i - b2z (isw d i) + b2z (isw d' i).
Proof. intros H. unfold nwr. rewrite (cnt_insert_over _ _ _ _ _ H). reflexivity. Qed.

Lemma nrd_nonneg m i : 0 <= nrd m i.
Proof. apply cnt_nonneg. Qed.
Lemma nwr_nonneg m i : 0 <= nwr m i.
Proof. apply cnt_nonneg. Qed.

Lemma nrd_none fds ps np pid : inv_p fds ps np -> ps !! pid = None -> nrd fds pid = 0 /\ nwr fds pid = 0.
Proof.
  intros H Hp. split; apply cnt_zero; intros k d Hk; unfold onread, onwrite; cbn;
    destruct d as [| |q fl|]; cbn; try reflexivity;
    destruct (Z.eqb_spec q pid) as [->|]; try reflexivity;
    destruct (p_fd _ _ _ H _ _ _ Hk) as [[? ?] _]; congruence.
Qed.

Lemma inv_p_fds fds ps np fds' : inv_p fds ps np ->
  (forall k pid fl, fds' !! k = Some (FPipe pid fl) -> is_Some (ps !! pid) /\ (is_rdonly fl = true \/ is_wronly fl = true)) ->
  (forall q, nrd fds' q = nrd fds q /\ nwr fds' q = nwr fds q) -> inv_p fds' ps np.
Proof.
  intros H Hf Hn. constructor.
  - exact Hf.
  - intros pid p Hp. destruct (Hn pid) as [-> ->]. eapply p_cnt; eauto.
Qed.
