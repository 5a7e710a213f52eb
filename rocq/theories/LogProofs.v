(** Proofs about the log file. *)
From Coq Require Import Ascii.
From Verif Require Import Base FsModel LogModel LogSpec.
Local Open Scope list_scope.
Local Open Scope Z_scope.

(** ** Numbers *)

Lemma be_length k n : length (be k n) = k.
Proof. induction k; cbn; [reflexivity|]. by rewrite IHk. Qed.

Lemma of_be_acc k n a :
  fold_left (fun a b => a * 256 + b) (be k n) a = a * 256 ^ Z.of_nat k + n mod 256 ^ Z.of_nat k.
Proof.
  revert a. induction k as [|k IH]; intros a.
  - cbn. rewrite Z.mod_1_r. lia.
  - cbn [be fold_left]. rewrite IH.
    replace (Z.of_nat (S k)) with (Z.of_nat k + 1) by lia.
    rewrite Z.pow_add_r, Z.pow_1_r by lia.
    pose proof (Z.pow_pos_nonneg 256 (Z.of_nat k) ltac:(lia) ltac:(lia)) as Hp.
    rewrite (Z.rem_mul_r n (256 ^ Z.of_nat k) 256) by lia. ring.
Qed.

Lemma of_be_be k n : 0 <= n < 256 ^ Z.of_nat k -> of_be (be k n) = n.
Proof. intros H. unfold of_be. rewrite of_be_acc, Z.mod_small by lia. lia. Qed.

Lemma arg_be k n r : 0 <= n < 256 ^ Z.of_nat k -> arg k (be k n ++ r) = Some (n, r).
Proof.
  intros H. unfold arg. rewrite app_length, be_length.
  destruct (Nat.ltb_spec (k + length r) k); [lia|].
  rewrite take_app_le by (rewrite be_length; lia).
  rewrite take_ge by (rewrite be_length; lia).
  rewrite drop_app_ge by (rewrite be_length; lia).
  rewrite be_length, Nat.sub_diag. cbn [drop]. by rewrite of_be_be.
Qed.

(** ** Heads *)

Lemma dec_head_head j n r : 0 <= j -> u64 n -> dec_head (head j n ++ r) = Some (j, n, r).
Proof.
  intros Hj [Hn Hu]. unfold head.
  assert (D : forall k, 0 <= k < 32 -> (j * 32 + k) / 32 = j /\ (j * 32 + k) mod 32 = k).
  { intros k Hk. split.
    - rewrite Z.div_add_l by lia. rewrite Z.div_small by lia. lia.
    - rewrite Z.add_comm, Z.mod_add by lia. apply Z.mod_small. lia. }
  assert (A : forall k, 0 <= n < 256 ^ Z.of_nat k -> arg k (be k n ++ r) = Some (n, r)) by (intros; by apply arg_be).
  destruct (Z.ltb_spec n 24) as [H|H].
  { cbn [app dec_head]. destruct (D n ltac:(lia)) as [-> ->].
    destruct (Z.ltb_spec n 24); [reflexivity|lia]. }
  destruct (Z.ltb_spec n 256) as [H1|H1].
  { cbn [app dec_head]. destruct (D 24 ltac:(lia)) as [-> ->].
    change (24 <? 24) with false. change (24 =? 24) with true. cbv iota. rewrite (A 1%nat); [reflexivity|].
    change (256 ^ Z.of_nat 1) with 256. lia. }
  destruct (Z.ltb_spec n 65536) as [H2|H2].
  { cbn [app dec_head]. destruct (D 25 ltac:(lia)) as [-> ->].
    change (25 <? 24) with false. change (25 =? 24) with false. change (25 =? 25) with true. cbv iota.
    rewrite (A 2%nat); [reflexivity|]. change (256 ^ Z.of_nat 2) with 65536. lia. }
  destruct (Z.ltb_spec n 4294967296) as [H3|H3].
  { cbn [app dec_head]. destruct (D 26 ltac:(lia)) as [-> ->].
    change (26 <? 24) with false. change (26 =? 24) with false. change (26 =? 25) with false.
    change (26 =? 26) with true. cbv iota.
    rewrite (A 4%nat); [reflexivity|]. change (256 ^ Z.of_nat 4) with 4294967296. lia. }
  cbn [app dec_head]. destruct (D 27 ltac:(lia)) as [-> ->].
  change (27 <? 24) with false. change (27 =? 24) with false. change (27 =? 25) with false.
  change (27 =? 26) with false. change (27 =? 27) with true. cbv iota.
  rewrite (A 8%nat); [reflexivity|]. change (256 ^ Z.of_nat 8) with 18446744073709551616. lia.
Qed.

(** The first byte of a head with a small major type is not special *)
Lemma head_first j n : 0 <= j <= 5 -> 0 <= n -> exists b r, head j n = b :: r /\ b < 246.
Proof.
  intros Hj Hn. unfold head. repeat case_match; eexists _, _; (split; [reflexivity|]); lia.
Qed.

Lemma head_length j n : (1 <= length (head j n))%nat.
Proof. unfold head. repeat case_match; cbn; lia. Qed.

(** ** Items *)

Fixpoint wf (x : item) : Prop :=
  match x with
  | IUint n => u64 n
  | IText bs => u64 (Z.of_nat (length bs))
  | IArr l => u64 (Z.of_nat (length l)) /\ (fix all l := match l with [] => True | y :: r => wf y /\ all r end) l
  | IMap l => u64 (Z.of_nat (length l)) /\ Z.of_nat (length l) mod 2 = 0 /\
              (fix all l := match l with [] => True | y :: r => wf y /\ all r end) l
  | INull => True
  end.
Fixpoint wfs (l : list item) : Prop := match l with [] => True | y :: r => wf y /\ wfs r end.
Lemma wf_arr l : wf (IArr l) <-> u64 (Z.of_nat (length l)) /\ wfs l.
Proof. reflexivity. Qed.
Lemma wf_map l : wf (IMap l) <-> u64 (Z.of_nat (length l)) /\ Z.of_nat (length l) mod 2 = 0 /\ wfs l.
Proof. reflexivity. Qed.
Lemma wfs_app l m : wfs (l ++ m) <-> wfs l /\ wfs m.
Proof. induction l as [|x l IH]; cbn; [tauto|]. rewrite IH. tauto. Qed.

Lemma item_ind2 (P : item -> Prop) (Q : list item -> Prop) :
  (forall n, P (IUint n)) -> (forall bs, P (IText bs)) -> (forall l, Q l -> P (IArr l)) ->
  (forall l, Q l -> P (IMap l)) -> P INull -> Q [] -> (forall x l, P x -> Q l -> Q (x :: l)) ->
  (forall x, P x) /\ (forall l, Q l).
Proof.
  intros H1 H2 H3 H4 H5 H6 H7.
  assert (G : forall x, P x).
  { fix IH 1. intros [n|bs|l|l|].
    - apply H1.
    - apply H2.
    - apply H3. induction l as [|y l IHl]; [exact H6|]. apply H7; [apply IH|exact IHl].
    - apply H4. induction l as [|y l IHl]; [exact H6|]. apply H7; [apply IH|exact IHl].
    - exact H5. }
  split; [exact G|]. intros l. induction l as [|y l IHl]; [exact H6|]. by apply H7.
Qed.

Fixpoint cost (x : item) : nat :=
  match x with
  | IArr l | IMap l => S (S ((fix sum l := match l with [] => O | y :: r => (S (cost y) + sum r)%nat end) l))
  | _ => 1
  end.
Fixpoint costs (l : list item) : nat := match l with [] => O | y :: r => (S (cost y) + costs r)%nat end.
Lemma cost_arr l : cost (IArr l) = S (S (costs l)).
Proof. reflexivity. Qed.
Lemma cost_map l : cost (IMap l) = S (S (costs l)).
Proof. reflexivity. Qed.

Lemma cost_le : (forall x, (S (cost x) <= 3 * length (enc x))%nat) /\ (forall l, (costs l <= 3 * length (flat_map enc l))%nat).
Proof.
  apply item_ind2.
  - intros n. cbn [cost enc]. pose proof (head_length 0 n). lia.
  - intros bs. cbn [cost enc]. rewrite app_length. pose proof (head_length 3 (Z.of_nat (length bs))). lia.
  - intros l H. rewrite cost_arr. cbn [enc]. rewrite app_length. pose proof (head_length 4 (Z.of_nat (length l))). lia.
  - intros l H. rewrite cost_map. cbn [enc]. rewrite app_length. pose proof (head_length 5 (Z.of_nat (length l) / 2)). lia.
  - cbn. lia.
  - cbn. lia.
  - intros x l H1 H2. cbn [costs flat_map]. rewrite app_length. lia.
Qed.

(** An encoded item does not begin with a break byte *)
Lemma enc_first x : wf x -> exists b r, enc x = b :: r /\ b <> 255.
Proof.
  assert (A : forall j n r0, 0 <= j <= 5 -> 0 <= n -> exists b r, head j n ++ r0 = b :: r /\ b <> 255).
  { intros j n r0 Hj Hn. destruct (head_first j n Hj Hn) as (b & r & -> & Hb). exists b, (r ++ r0). split; [reflexivity|lia]. }
  destruct x as [n|bs|l|l|]; intros Hw.
  - cbn [enc]. rewrite <- (app_nil_r (head 0 n)). destruct Hw. apply A; lia.
  - cbn [enc]. apply A; lia.
  - cbn [enc]. apply A; lia.
  - cbn [enc]. apply A; [lia|]. apply Z.div_pos; lia.
  - cbn [enc]. exists 246, []. split; [reflexivity|lia].
Qed.

Lemma dec_of_head f j n r :
  0 <= j <= 5 -> u64 n ->
  dec (S f) (head j n ++ r) =
    (if j =? 0 then Some (IUint n, r)
     else if j =? 3 then
       match (if (length r <? Z.to_nat n)%nat then None else Some tt) with
       | None => None
       | Some _ => Some (IText (take (Z.to_nat n) r), drop (Z.to_nat n) r)
       end
     else if j =? 4 then match dec_n f n r with Some (l, r') => Some (IArr l, r') | None => None end
     else if j =? 5 then match dec_n f (2 * n) r with Some (l, r') => Some (IMap l, r') | None => None end
     else None).
Proof.
  intros Hj Hn. destruct (head_first j n Hj ltac:(destruct Hn; lia)) as (b & q & Eh & Hb).
  pose proof (dec_head_head j n r ltac:(lia) Hn) as D. rewrite Eh in *. cbn [app] in *.
  cbn [dec].
  assert (X : forall T (a : T) (g : T), (match b with 246 => a | _ => g end) = g).
  { intros T a g. destruct b as [|p|p]; try reflexivity.
    do 8 (destruct p as [p|p|]; try reflexivity; try lia). }
  rewrite X, D. reflexivity.
Qed.

Lemma dec_enc :
  (forall x, wf x -> forall f r, (cost x <= f)%nat -> dec f (enc x ++ r) = Some (x, r)) /\
  (forall l, wfs l -> forall f r, (S (costs l) <= f)%nat ->
     dec_n f (Z.of_nat (length l)) (flat_map enc l ++ r) = Some (l, r)).
Proof.
  apply item_ind2.
  - intros n Hw f r Hf. cbn [cost] in Hf. destruct f as [|f]; [lia|]. cbn [enc].
    rewrite dec_of_head by (done || lia). reflexivity.
  - intros bs Hw f r Hf. cbn [cost] in Hf. destruct f as [|f]; [lia|]. cbn [enc].
    rewrite <- app_assoc, dec_of_head by (done || lia). change (3 =? 0) with false. change (3 =? 3) with true. cbv iota.
    rewrite Nat2Z.id, app_length. destruct (Nat.ltb_spec (length bs + length r) (length bs)); [lia|].
    rewrite take_app, drop_app. reflexivity.
  - intros l IH Hw f r Hf. rewrite cost_arr in Hf. apply wf_arr in Hw as [Hu Hw]. destruct f as [|f]; [lia|]. cbn [enc].
    rewrite <- app_assoc, dec_of_head by (done || lia). change (4 =? 0) with false. change (4 =? 3) with false.
    change (4 =? 4) with true. cbv iota.
    rewrite (IH Hw f r) by lia. reflexivity.
  - intros l IH Hw f r Hf. rewrite cost_map in Hf. apply wf_map in Hw as (Hu & Hm & Hw). destruct f as [|f]; [lia|]. cbn [enc].
    assert (E : 2 * (Z.of_nat (length l) / 2) = Z.of_nat (length l)).
    { pose proof (Z_div_mod_eq_full (Z.of_nat (length l)) 2). lia. }
    rewrite <- app_assoc, dec_of_head; [|lia|destruct Hu; split; lia]. change (5 =? 0) with false. change (5 =? 3) with false.
    change (5 =? 4) with false. change (5 =? 5) with true. cbv iota.
    rewrite E, (IH Hw f r) by lia. reflexivity.
  - intros _ f r Hf. cbn [cost] in Hf. destruct f as [|f]; [lia|]. reflexivity.
  - intros _ f r Hf. cbn [costs] in Hf. destruct f as [|f]; [lia|]. reflexivity.
  - intros x l IHx IHl [Hx Hl] f r Hf. cbn [costs] in Hf. destruct f as [|f]; [lia|].
    cbn [flat_map dec_n]. destruct (Z.leb_spec (Z.of_nat (length (x :: l))) 0) as [H|H]; [cbn [length] in H; lia|].
    rewrite <- app_assoc, (IHx Hx f) by lia.
    replace (Z.of_nat (length (x :: l)) - 1) with (Z.of_nat (length l)) by (cbn [length]; lia).
    rewrite (IHl Hl f) by lia. reflexivity.
Qed.

Lemma dec_indef_enc l : wfs l -> forall f r, (S (costs l) <= f)%nat ->
  dec_indef f (flat_map enc l ++ 255 :: r) = Some (l, r).
Proof.
  induction l as [|x l IH]; intros Hw f r Hf.
  - destruct f as [|f]; [cbn in Hf; lia|]. reflexivity.
  - destruct Hw as [Hx Hl]. cbn [costs] in Hf. destruct f as [|f]; [lia|].
    cbn [flat_map]. rewrite <- app_assoc.
    pose proof (proj1 dec_enc x Hx f (flat_map enc l ++ 255 :: r) ltac:(lia)) as D.
    destruct (enc_first x Hx) as (b & q & Ex & Hb). rewrite Ex in *. cbn [app] in *. cbn [dec_indef].
    assert (X : forall T (a : T) (g : T), (match b with 255 => a | _ => g end) = g).
    { intros T a g. destruct b as [|p|p]; try reflexivity.
      do 8 (destruct p as [p|p|]; try reflexivity; try lia). }
    rewrite X, D, (IH Hl f) by lia. reflexivity.
Qed.

Lemma of_bytes_enc l : wfs l -> of_bytes ([159] ++ flat_map enc l ++ [255]) = Some l.
Proof.
  intros Hw. unfold of_bytes. cbn [app].
  rewrite (dec_indef_enc l Hw); [reflexivity|].
  pose proof (proj2 cost_le l). rewrite app_length. cbn [length]. lia.
Qed.

(** ** Entries *)

Lemma ascii_codes (l : list ascii) :
  map (fun b => ascii_of_nat (Z.to_nat b)) (map (fun a => Z.of_nat (nat_of_ascii a)) l) = l.
Proof. induction l as [|a l IH]; cbn [map]; [reflexivity|]. by rewrite Nat2Z.id, ascii_nat_embedding, IH. Qed.
Lemma untext_text s : untext (text s) = Some s.
Proof. unfold untext, text. by rewrite ascii_codes, String.string_of_list_ascii_of_string. Qed.

Lemma string_codes_length s : length (String.list_ascii_of_string s) = String.length s.
Proof. induction s as [|a s IH]; cbn; [reflexivity|]. by rewrite IH. Qed.

Lemma undict_dict (es : list (string * Z)) :
  undict (flat_map (fun e => [text (fst e); IUint (snd e)]) es) = Some es.
Proof.
  induction es as [|[s n] es IH]; [reflexivity|]. cbn [flat_map app undict fst snd].
  rewrite untext_text, IH. reflexivity.
Qed.

Lemma wfs_dict (es : list (string * Z)) :
  (forall f n, (f, n) ∈ es -> u64 n /\ u64 (Z.of_nat (String.length f))) ->
  wfs (flat_map (fun e => [text (fst e); IUint (snd e)]) es).
Proof.
  induction es as [|[s n] es IH]; intros H; [exact I|]. cbn [flat_map app wfs fst snd].
  destruct (H s n (elem_of_list_here _ _)) as [H1 H2]. split; [|split].
  - cbn [text wf]. by rewrite map_length, string_codes_length.
  - exact H1.
  - apply IH. intros f m Hm. apply H. by apply elem_of_list_further.
Qed.
Lemma dict_length (es : list (string * Z)) :
  length (flat_map (fun e => [text (fst e); IUint (snd e)]) es) = (2 * length es)%nat.
Proof. induction es as [|e es IH]; [reflexivity|]. cbn [flat_map app length]. rewrite IH. lia. Qed.

Lemma small_u64 n : 0 <= n < 4294967296 -> u64 n.
Proof. unfold u64. lia. Qed.
Ltac sm := apply small_u64; vm_compute; split; [discriminate|reflexivity].

Lemma wf_fields x more :
  u64 (i_size x) -> u64 (i_mode x) -> u64 (i_link x) -> wfs more -> (length more <= 2)%nat ->
  Z.of_nat (length more) mod 2 = 0 -> wf (fields x more).
Proof.
  intros Hs Hm Hl Hw Hn H2. unfold fields. apply wf_map. rewrite wfs_app. cbn [app length].
  split; [apply small_u64; lia|].
  split.
  { replace (Z.of_nat (S (S (S (S (S (S (S (S (S (S (S (S (S (S (S (S (length more)))))))))))))))))) with (Z.of_nat (length more) + 8 * 2) by lia.
    rewrite Z.mod_add by lia. exact H2. }
  split; [|exact Hw]. cbn [wfs wf].
  repeat match goal with |- _ /\ _ => split end; first [assumption|exact I|sm].
Qed.

Lemma unfields_fields x more :
  match fields x more with IMap l => unfields l | _ => None end = Some (i_size x, i_mode x, i_link x, more).
Proof. reflexivity. Qed.

Lemma wf_entry e : entry_fits e -> wf (item_of_entry e).
Proof.
  destruct e as [i [x|]]; intros [Hi Hx]; cbn [fst snd] in *.
  2:{ apply wf_arr. split; [sm|]. cbn [wfs wf]. tauto. }
  apply wf_arr. split; [sm|]. cbn [wfs]. split; [exact Hi|]. split; [|exact I].
  destruct Hx as (Hs & Hm & Hl & _ & Hd & Hz & Hk). change (wf (item_of_inode x)). unfold item_of_inode.
  assert (W : forall v more, u64 v -> wfs more -> (length more <= 2)%nat -> Z.of_nat (length more) mod 2 = 0 ->
     wf (IMap [IUint v; fields x more])).
  { intros v more Hv Hw H1 H2. apply wf_map. split; [sm|]. split; [reflexivity|]. cbn [wfs]. split; [exact Hv|].
    split; [|exact I]. by apply wf_fields. }
  destruct (i_kind x) as [| |a b|].
  - apply W; [sm|exact I|cbn; lia|reflexivity].
  - apply W; [sm| |cbn; lia|reflexivity]. cbn [wfs]. split; [sm|]. split; [|exact I].
    apply wf_map. rewrite dict_length. change (length (map_to_list (i_dict x))) with (size (i_dict x)). split; [split; lia|]. split.
    + replace (Z.of_nat (2 * size (i_dict x))) with (0 + Z.of_nat (size (i_dict x)) * 2) by lia.
      by rewrite Z.mod_add by lia.
    + apply wfs_dict. intros f n Hfn. apply elem_of_map_to_list in Hfn. exact (Hd f n Hfn).
  - destruct Hk as (Ha & Hb & _). apply W; [sm| |cbn; lia|reflexivity]. cbn [wfs]. split; [sm|]. split; [|exact I].
    apply wf_map. split; [sm|]. split; [reflexivity|]. cbn [wfs wf].
    repeat match goal with |- _ /\ _ => split end; first [assumption|exact I|sm].
  - apply W; [sm|exact I|cbn; lia|reflexivity].
Qed.

Lemma entry_roundtrip e : entry_fits e -> entry_of_item (item_of_entry e) = Some e.
Proof.
  destruct e as [i [x|]]; intros [Hi Hx]; cbn [fst snd] in *; [|reflexivity].
  destruct Hx as (_ & _ & _ & Hr & _ & _ & Hk). unfold item_of_entry. cbn [fst snd].
  destruct x as [k s m l r d]. cbn [i_ref i_kind i_dict i_size i_mode i_link] in *. subst r.
  assert (E : inode_of_item (item_of_inode (Inode k s m l 0 d)) = Some (Inode k s m l 0 d)).
  { destruct k as [| |a b|]; unfold item_of_inode; cbn [i_kind i_dict i_size i_mode i_link]; cbn [inode_of_item fields app unfields].
    - by subst d.
    - cbn. rewrite undict_dict, list_to_map_to_list. reflexivity.
    - destruct Hk as (_ & _ & ->). reflexivity.
    - by subst d. }
  destruct k; cbn [entry_of_item item_of_inode i_kind] in *; rewrite E; reflexivity.
Qed.


(** ** The file *)

Definition data (es : list (Z * option inode)) : list Z := flat_map entry_bytes es.

Lemma data_items es : data es = flat_map enc (map item_of_entry es).
Proof. unfold data. induction es as [|e es IH]; [reflexivity|]. cbn [flat_map map]. by rewrite IH. Qed.
Lemma data_app es e : data (es ++ [e]) = data es ++ entry_bytes e.
Proof. unfold data. rewrite flat_map_app. cbn. by rewrite app_nil_r. Qed.

(** [f] holds the count [n] and, after it, the bytes [d] *)
Definition holds (f : list Z) (n : Z) (d : list Z) : Prop :=
  n = Z.of_nat (length d) /\ u64 n /\ take 8 f = be 8 n /\ (8 + length d <= length f)%nat /\
  take (length d) (drop 8 f) = d.

Lemma read_holds f n es : holds f n (data es) -> Forall entry_fits es -> read_log f = Done es.
Proof.
  intros (En & Hu & Ht & Hl & Hd) HF. unfold read_log.
  destruct (Nat.ltb_spec (length f) 8); [lia|].
  rewrite Ht, of_be_be by (change (256 ^ Z.of_nat 8) with 18446744073709551616; exact Hu).
  destruct (Z.ltb_spec (Z.of_nat (length f)) (COUNTMAPSIZE + n)) as [H1|H1]; [unfold COUNTMAPSIZE in H1; lia|].
  rewrite En, Nat2Z.id, Hd, data_items.
  rewrite of_bytes_enc.
  - assert (M : mapM entry_of_item (map item_of_entry es) = Some es).
    { clear - HF. induction HF as [|e es He HF IH]; [reflexivity|]. cbn [map mapM]. rewrite entry_roundtrip by done.
      cbn. by rewrite IH. }
    by rewrite M.
  - clear - HF. induction HF as [|e es He HF IH]; [exact I|]. cbn [map wfs]. split; [by apply wf_entry|exact IH].
Qed.

(** A write that does not touch the count nor the bytes after it *)
Definition beyond (n : Z) (x : mw) : Prop :=
  match x with WGrow _ => True | WByte off _ => 8 + n <= off | WCount _ => False end.

Lemma holds_beyond f n d x : holds f n d -> beyond n x -> holds (apply_mw f x) n d.
Proof.
  intros (En & Hu & Ht & Hl & Hd) Hb. destruct x as [g|off b|v]; cbn [apply_mw beyond] in *; [| |destruct Hb].
  - split; [exact En|]. split; [exact Hu|]. split; [|split].
    + by rewrite take_app_le by lia.
    + rewrite app_length. lia.
    + rewrite drop_app_le by lia. rewrite take_app_le; [exact Hd|]. rewrite drop_length. lia.
  - split; [exact En|]. split; [exact Hu|]. split; [|split].
    + rewrite take_insert by lia. exact Ht.
    + rewrite insert_length. exact Hl.
    + rewrite drop_insert_le by lia. rewrite take_insert by lia. exact Hd.
Qed.
Lemma holds_all n d xs f : holds f n d -> Forall (beyond n) xs -> holds (fold_left apply_mw xs f) n d.
Proof.
  revert f. induction xs as [|x xs IH]; intros f Hh HF; [exact Hh|]. cbn [fold_left].
  apply Forall_cons in HF as [Hx HF]. apply IH; [by apply holds_beyond|exact HF].
Qed.

Lemma mw_length f x : (length f <= length (apply_mw f x))%nat \/ (exists v, x = WCount v /\ (length f < 8)%nat) \/ (exists v, x = WCount v).
Proof. destruct x; cbn; [left; rewrite app_length; lia|left; by rewrite insert_length|right; right; by eexists]. Qed.
Lemma bytes_length xs n f : Forall (beyond n) xs -> (length f <= length (fold_left apply_mw xs f))%nat.
Proof.
  revert f. induction xs as [|x xs IH]; intros f HF; [cbn; lia|]. cbn [fold_left].
  apply Forall_cons in HF as [Hx HF]. pose proof (IH (apply_mw f x) HF).
  destruct x as [g|off b|v]; cbn [apply_mw beyond] in *; [| |destruct Hx].
  - rewrite app_length in H. lia.
  - rewrite insert_length in H. exact H.
Qed.

(** Writing single bytes, each offset with one value: in the end every offset
    has its value *)
Definition only_at (k : nat) (b : Z) (xs : list mw) : Prop :=
  forall x, x ∈ xs -> exists off v, x = WByte off v /\ (Z.to_nat off = k -> v = b).
Lemma bytes_stay xs k b f : only_at k b xs -> f !! k = Some b -> fold_left apply_mw xs f !! k = Some b.
Proof.
  revert f. induction xs as [|x xs IH]; intros f Ho Hk; [exact Hk|]. cbn [fold_left]. apply IH.
  - intros y Hy. apply Ho. by apply elem_of_list_further.
  - destruct (Ho x (elem_of_list_here _ _)) as (off & v & -> & Hv). cbn [apply_mw].
    destruct (decide (Z.to_nat off = k)) as [E|E].
    + rewrite <- E, (Hv E). apply list_lookup_insert. rewrite E. exact (lookup_lt_Some _ _ _ Hk).
    + by rewrite list_lookup_insert_ne.
Qed.
Lemma bytes_put xs k b f off :
  only_at k b xs -> WByte off b ∈ xs -> Z.to_nat off = k -> (k < length f)%nat -> fold_left apply_mw xs f !! k = Some b.
Proof.
  revert f. induction xs as [|x xs IH]; intros f Ho Hin E Hl; [by apply elem_of_nil in Hin|]. cbn [fold_left].
  assert (Ho' : only_at k b xs) by (intros y Hy; apply Ho; by apply elem_of_list_further).
  apply elem_of_cons in Hin as [<-|Hin].
  - apply bytes_stay; [exact Ho'|]. cbn [apply_mw]. rewrite E. by apply list_lookup_insert.
  - apply IH; [exact Ho'|exact Hin|exact E|].
    destruct (Ho x (elem_of_list_here _ _)) as (o & v & -> & _). cbn [apply_mw]. by rewrite insert_length.
Qed.

Definition stores (n : Z) (bs : list Z) : list mw := imap (fun k b => WByte (COUNTMAPSIZE + n + Z.of_nat k) b) bs.

Lemma stores_elem n bs x : x ∈ stores n bs <-> exists (k : nat) b, bs !! k = Some b /\ x = WByte (COUNTMAPSIZE + n + Z.of_nat k) b.
Proof.
  unfold stores. rewrite elem_of_list_lookup. split.
  - intros [k Hk]. rewrite list_lookup_imap in Hk. destruct (bs !! k) as [b|] eqn:E; [|discriminate Hk].
    cbn in Hk. injection Hk as <-. by exists k, b.
  - intros (k & b & E & ->). exists k. rewrite list_lookup_imap, E. reflexivity.
Qed.
Lemma stores_beyond n bs xs : Permutation (stores n bs) xs -> Forall (beyond n) xs.
Proof.
  intros HP. apply Forall_forall. intros x Hx. rewrite <- HP in Hx. apply stores_elem in Hx as (k & b & _ & ->).
  cbn [beyond]. unfold COUNTMAPSIZE. lia.
Qed.

(** All bytes in place, then the count *)
Lemma holds_last f n d bs xs :
  holds f n d -> Permutation (stores n bs) xs -> (8 + length d + length bs <= length f)%nat -> u64 (n + Z.of_nat (length bs)) ->
  holds (apply_mw (fold_left apply_mw xs f) (WCount (n + Z.of_nat (length bs)))) (n + Z.of_nat (length bs)) (d ++ bs).
Proof.
  intros Hh HP Hl Hu. pose proof (stores_beyond _ _ _ HP) as HB.
  pose proof (holds_all n d xs f Hh HB) as (En & _ & Ht & Hl1 & Hd).
  pose proof (bytes_length xs n f HB) as Hl2. set (g := fold_left apply_mw xs f) in *.
  cbn [apply_mw]. unfold holds. rewrite app_length. split; [lia|]. split; [exact Hu|].
  assert (T : take 8 (be 8 (n + Z.of_nat (length bs)) ++ drop 8 g) = be 8 (n + Z.of_nat (length bs))).
  { rewrite take_app_le by (rewrite be_length; lia). apply take_ge. rewrite be_length. lia. }
  assert (D : drop 8 (be 8 (n + Z.of_nat (length bs)) ++ drop 8 g) = drop 8 g).
  { rewrite drop_app_ge by (rewrite be_length; lia). by rewrite be_length, Nat.sub_diag, drop_0. }
  split; [exact T|]. rewrite D. split.
  - rewrite app_length, be_length, drop_length. lia.
  - apply list_eq. intros j. destruct (decide (j < length d)%nat) as [Hj|Hj].
    + rewrite lookup_take by lia. rewrite lookup_app_l by exact Hj. rewrite <- Hd.
      rewrite lookup_take by lia. reflexivity.
    + rewrite lookup_app_r by lia. destruct (decide (j < length d + length bs)%nat) as [Hk|Hk].
      2:{ rewrite lookup_take_ge by lia. symmetry. apply lookup_ge_None. lia. }
      rewrite lookup_take by lia. rewrite lookup_drop.
      destruct (lookup_lt_is_Some_2 bs (j - length d)) as [b Eb]; [lia|]. rewrite Eb.
      apply (bytes_put xs (8 + j) b f (COUNTMAPSIZE + n + Z.of_nat (j - length d))).
      * intros x Hx. rewrite <- HP in Hx. apply stores_elem in Hx as (k & v & Ev & ->).
        eexists _, _. split; [reflexivity|]. intros E. unfold COUNTMAPSIZE in E.
        assert (k = (j - length d)%nat) by lia. congruence.
      * rewrite <- HP. apply stores_elem. exists (j - length d)%nat, b. by split.
      * unfold COUNTMAPSIZE. lia.
      * lia.
Qed.

(** ** The log as a whole *)

(** [m] is a log that consists of the entries [es] *)
Definition log_of (m : lmap) (es : list (Z * option inode)) : Prop :=
  holds (m_file m) (m_count m) (data es) /\ Z.of_nat (length (m_file m)) = COUNTMAPSIZE + m_size m /\
  0 <= m_size m /\ COUNTMAPSIZE + m_size m <= MAXOFF.

Lemma log_new : log_of new_log [].
Proof.
  assert (H : forall k, (8 <= k)%nat -> take 8 (replicate k 0) = be 8 0).
  { intros k Hk. rewrite take_replicate. rewrite Nat.min_l by exact Hk. reflexivity. }
  assert (L : length (replicate (Z.to_nat MAP_1MB) 0) = Z.to_nat MAP_1MB) by apply replicate_length.
  assert (P : (8 <= Z.to_nat MAP_1MB)%nat) by (unfold MAP_1MB; lia).
  assert (Q : Z.of_nat (Z.to_nat MAP_1MB) = 1048576) by (unfold MAP_1MB; lia).
  unfold log_of, new_log, holds. cbn [m_file m_count m_size].
  revert L P Q. generalize (Z.to_nat MAP_1MB). intros k L P Q. rewrite L. cbn [data flat_map length].
  split; [|split; [|split]].
  - split; [reflexivity|]. split; [unfold u64; lia|]. split; [by apply H|]. split; [lia|]. by rewrite take_0.
  - unfold COUNTMAPSIZE, MAP_1MB. lia.
  - unfold COUNTMAPSIZE, MAP_1MB. lia.
  - unfold COUNTMAPSIZE, MAP_1MB, MAXOFF. lia.
Qed.

(** What an append does, at every point *)
Lemma plan_points m es e f :
  log_of m es -> dies m (entry_bytes e) f ->
  (exists n, holds f n (data es)) \/ (exists n, holds f n (data (es ++ [e]))).
Proof.
  intros (Hh & Hl & H0 & Hm) (ws & dn & rest & Hp & Ew & ->).
  unfold plan in Hp. set (bs := entry_bytes e) in *. set (n := m_count m) in *.
  assert (En : n = Z.of_nat (length (data es))) by exact (proj1 Hh).
  assert (G : forall g s, Forall (beyond n) g -> s >= n + Z.of_nat (length bs) -> COUNTMAPSIZE + s <= MAXOFF ->
     Z.of_nat (length (fold_left apply_mw g (m_file m))) = COUNTMAPSIZE + s ->
     forall b', Permutation (stores n bs) b' -> ws = g ++ b' ++ [WCount (n + Z.of_nat (length bs))] ->
     (exists n0, holds (fold_left apply_mw dn (m_file m)) n0 (data es)) \/
     (exists n0, holds (fold_left apply_mw dn (m_file m)) n0 (data (es ++ [e])))).
  { intros g s Hg Hfit Hmax Hlen b' HP Ew2. pose proof (stores_beyond _ _ _ HP) as HB.
    destruct rest as [|x rest] using rev_ind.
    - right. rewrite app_nil_r in Ew. subst dn. rewrite Ew2. exists (n + Z.of_nat (length bs)).
      rewrite data_app, !fold_left_app. fold bs. cbn [fold_left].
      apply holds_last; [by apply holds_all|exact HP| |].
      + unfold COUNTMAPSIZE in *. lia.
      + unfold u64, MAXOFF, COUNTMAPSIZE in *. lia.
    - left. exists n. clear IHrest. rewrite app_assoc in Ew. rewrite Ew in Ew2. rewrite (app_assoc g) in Ew2.
      apply app_inj_tail in Ew2 as [Ew2 _]. apply holds_all; [exact Hh|].
      assert (Forall (beyond n) (g ++ b')) as HA by (by apply Forall_app).
      rewrite <- Ew2 in HA. apply Forall_app in HA. tauto. }
  destruct (Z.ltb_spec (m_size m) (n + Z.of_nat (length bs))) as [H1|H1].
  - destruct (Z.ltb_spec MAXOFF (COUNTMAPSIZE + (m_size m + MAP_1MB))) as [H2|H2].
    + rewrite Hp in Ew. symmetry in Ew. apply app_eq_nil in Ew as [-> _]. left. by exists n.
    + assert (HL : Z.of_nat (length (fold_left apply_mw [WGrow (COUNTMAPSIZE + (m_size m + MAP_1MB))] (m_file m))) =
              COUNTMAPSIZE + (m_size m + MAP_1MB)).
      { cbn [fold_left apply_mw]. rewrite app_length, replicate_length. unfold COUNTMAPSIZE, MAP_1MB in *. lia. }
      destruct (Z.ltb_spec (m_size m + MAP_1MB) (n + Z.of_nat (length bs))) as [H3|H3].
      * left. exists n. apply holds_all; [exact Hh|].
        assert (Forall (beyond n) ws) as HA by (rewrite Hp; repeat constructor).
        rewrite Ew in HA. apply Forall_app in HA. tauto.
      * destruct Hp as (b' & HP & Hw).
        apply (G [WGrow (COUNTMAPSIZE + (m_size m + MAP_1MB))] (m_size m + MAP_1MB)) with b'; try assumption; try lia.
        repeat constructor.
  - destruct Hp as (b' & HP & Hw). apply (G [] (m_size m)) with b'; try assumption; try lia. constructor.
Qed.

Lemma append_log m es e m' : log_of m es -> append m (entry_bytes e) = Done m' -> log_of m' (es ++ [e]).
Proof.
  intros (Hh & Hl & H0 & Hm) Ha. unfold append, plan in Ha. set (bs := entry_bytes e) in *. set (n := m_count m) in *.
  assert (En : n = Z.of_nat (length (data es))) by exact (proj1 Hh).
  assert (HP : Permutation (stores n bs) (stores n bs)) by reflexivity.
  pose proof (stores_beyond _ _ _ HP) as HB. fold (stores n bs) in Ha.
  assert (G : forall g s, Forall (beyond n) g -> s >= n + Z.of_nat (length bs) -> COUNTMAPSIZE + s <= MAXOFF ->
     Z.of_nat (length (fold_left apply_mw g (m_file m))) = COUNTMAPSIZE + s -> 0 <= s ->
     log_of (LMap (fold_left apply_mw (g ++ stores n bs ++ [WCount (n + Z.of_nat (length bs))]) (m_file m)) (n + Z.of_nat (length bs)) s) (es ++ [e])).
  { intros g s Hg Hfit Hmax Hlen Hs. unfold log_of. cbn [m_file m_count m_size].
    split; [|split; [|split; [exact Hs|exact Hmax]]].
    - rewrite data_app, !fold_left_app. fold bs. cbn [fold_left]. apply holds_last; [by apply holds_all|exact HP| |].
      + unfold COUNTMAPSIZE in *. lia.
      + unfold u64, MAXOFF, COUNTMAPSIZE in *. lia.
    - rewrite !fold_left_app. cbn [fold_left apply_mw]. rewrite app_length, be_length, drop_length.
      assert (LL : length (fold_left apply_mw (stores n bs) (fold_left apply_mw g (m_file m))) = length (fold_left apply_mw g (m_file m))).
      { assert (A : forall xs f, Forall (fun x => match x with WByte _ _ => True | _ => False end) xs -> length (fold_left apply_mw xs f) = length f).
        { induction xs as [|x xs IH]; intros f HF; [reflexivity|]. apply Forall_cons in HF as [Hx HF]. cbn [fold_left].
          rewrite IH by exact HF. destruct x; [destruct Hx| |destruct Hx]. cbn. by rewrite insert_length. }
        apply A. apply Forall_forall. intros x Hx. apply stores_elem in Hx as (k & b & _ & ->). exact I. }
      rewrite LL. unfold COUNTMAPSIZE in *. lia. }
  clearbody bs.
  destruct (Z.ltb_spec (m_size m) (n + Z.of_nat (length bs))) as [H1|H1].
  - destruct (Z.ltb_spec MAXOFF (COUNTMAPSIZE + (m_size m + MAP_1MB))) as [H2|H2]; [discriminate Ha|].
    destruct (Z.ltb_spec (m_size m + MAP_1MB) (n + Z.of_nat (length bs))) as [H3|H3]; [discriminate Ha|].
    injection Ha as <-. apply (G [WGrow (COUNTMAPSIZE + (m_size m + MAP_1MB))]); try lia.
    + repeat constructor.
    + cbn [fold_left apply_mw]. rewrite app_length, replicate_length. unfold COUNTMAPSIZE, MAP_1MB in *. lia.
  - injection Ha as <-. apply (G []); try lia; [constructor|exact Hl].
Qed.

Lemma append_all_log es m es0 m' : log_of m es0 -> append_all m es = Done m' -> log_of m' (es0 ++ es).
Proof.
  revert m es0. induction es as [|e es IH]; intros m es0 Hl Ha; cbn [append_all] in Ha.
  - injection Ha as <-. by rewrite app_nil_r.
  - destruct (append m (entry_bytes e)) as [m1|] eqn:E; [|discriminate Ha].
    pose proof (IH m1 (es0 ++ [e]) (append_log _ _ _ _ Hl E) Ha) as H. by rewrite <- app_assoc in H.
Qed.

Lemma read_after es m : append_all new_log es = Done m -> Forall entry_fits es -> read_log (m_file m) = Done es.
Proof.
  intros Ha HF. pose proof (append_all_log es new_log [] m log_new Ha) as (Hh & _). cbn [app] in Hh.
  exact (read_holds _ _ _ Hh HF).
Qed.

Lemma read_crash es e m f :
  append_all new_log es = Done m -> dies m (entry_bytes e) f -> Forall entry_fits es -> entry_fits e ->
  read_log f = Done es \/ read_log f = Done (es ++ [e]).
Proof.
  intros Ha Hd HF He. pose proof (append_all_log es new_log [] m log_new Ha) as Hl. cbn [app] in Hl.
  destruct (plan_points _ _ _ _ Hl Hd) as [[n H]|[n H]].
  - left. exact (read_holds _ _ _ H HF).
  - right. apply (read_holds _ _ _ H). apply Forall_app. split; [exact HF|]. by constructor.
Qed.

(** An entry of at most 1 MB can always be appended, short of the largest file *)
Lemma append_fits m es bs :
  log_of m es -> Z.of_nat (length bs) <= MAP_1MB -> COUNTMAPSIZE + (m_size m + MAP_1MB) <= MAXOFF ->
  exists m', append m bs = Done m' /\ m_size m <= m_size m' <= m_size m + MAP_1MB.
Proof.
  intros (Hh & Hl & H0 & Hm) Hb Hx. unfold append, plan.
  assert (En : m_count m = Z.of_nat (length (data es))) by exact (proj1 Hh).
  assert (Hc : m_count m <= m_size m).
  { destruct Hh as (_ & _ & _ & H & _). unfold COUNTMAPSIZE in *. lia. }
  destruct (Z.ltb_spec (m_size m) (m_count m + Z.of_nat (length bs))) as [H1|H1].
  - destruct (Z.ltb_spec MAXOFF (COUNTMAPSIZE + (m_size m + MAP_1MB))) as [H2|H2]; [lia|].
    destruct (Z.ltb_spec (m_size m + MAP_1MB) (m_count m + Z.of_nat (length bs))) as [H3|H3]; [lia|].
    eexists. split; [reflexivity|]. cbn [m_size]. unfold MAP_1MB. lia.
  - eexists. split; [reflexivity|]. cbn [m_size]. unfold MAP_1MB. lia.
Qed.

(** A longer one aborts *)
Lemma append_long m es bs :
  log_of m es -> m_size m + MAP_1MB < Z.of_nat (length bs) -> append m bs = Panic.
Proof.
  intros (Hh & Hl & H0 & Hm) Hb. unfold append, plan.
  assert (En : m_count m = Z.of_nat (length (data es))) by exact (proj1 Hh).
  destruct (Z.ltb_spec (m_size m) (m_count m + Z.of_nat (length bs))) as [H1|H1]; [|unfold MAP_1MB in *; lia].
  destruct (Z.ltb_spec MAXOFF (COUNTMAPSIZE + (m_size m + MAP_1MB))) as [H2|H2]; [reflexivity|].
  destruct (Z.ltb_spec (m_size m + MAP_1MB) (m_count m + Z.of_nat (length bs))) as [H3|H3]; [reflexivity|lia].
Qed.

(** A directory with one very long name *)
Definition long_name (n : nat) : string := String.string_of_list_ascii (replicate n "a"%char).
Lemma long_name_length n : String.length (long_name n) = n.
Proof.
  unfold long_name. rewrite <- string_codes_length, String.list_ascii_of_string_of_list_ascii. apply replicate_length.
Qed.
Definition long_dir (n : nat) : inode := Inode KDir 0 16877 3 0 {[long_name n := 9]}.
Lemma long_dir_bytes n i : (n <= length (entry_bytes (i, Some (long_dir n))))%nat.
Proof.
  unfold entry_bytes, item_of_entry. cbn [fst snd]. unfold item_of_inode, long_dir. cbn [i_kind i_dict].
  rewrite map_to_list_singleton. cbn [flat_map app fst snd]. unfold fields, text. cbn [app].
  cbn [enc flat_map]. rewrite !app_length. rewrite !map_length, string_codes_length, long_name_length. lia.
Qed.
Lemma long_dir_fits n i : u64 i -> u64 (Z.of_nat n) -> entry_fits (i, Some (long_dir n)).
Proof.
  intros Hi Hn. split; [exact Hi|]. cbn [snd]. unfold fits, long_dir. cbn [i_size i_mode i_link i_ref i_dict i_kind].
  split; [unfold u64; lia|]. split; [unfold u64; lia|]. split; [unfold u64; lia|]. split; [reflexivity|].
  split; [|split; [|exact I]].
  - intros f k Hk. apply lookup_singleton_Some in Hk as [<- <-]. split; [unfold u64; lia|]. by rewrite long_name_length.
  - rewrite map_size_singleton. lia.
Qed.

(** Many short entries *)
Lemma append_many es m es0 :
  log_of m es0 -> m_count m + Z.of_nat (length (data es)) <= m_size m -> exists m', append_all m es = Done m' /\ m_size m' = m_size m.
Proof.
  revert m es0. induction es as [|e es IH]; intros m es0 Hl Hs; [by exists m|].
  unfold data in Hs. cbn [flat_map] in Hs. fold (data es) in Hs. rewrite app_length in Hs.
  cbn [append_all]. destruct (append m (entry_bytes e)) as [m1|] eqn:E.
  - pose proof (append_log _ _ _ _ Hl E) as Hl1.
    unfold append, plan in E. set (bs := entry_bytes e) in *. clearbody bs.
    destruct (Z.ltb_spec (m_size m) (m_count m + Z.of_nat (length bs))) as [H1|H1]; [lia|].
    injection E as <-. cbn [m_size m_count] in *.
    destruct (IH _ _ Hl1) as (m' & -> & Hm'); [cbn [m_size m_count]; lia|]. exists m'. split; [reflexivity|]. exact Hm'.
  - exfalso. unfold append, plan in E. set (bs := entry_bytes e) in *. clearbody bs.
    destruct (Z.ltb_spec (m_size m) (m_count m + Z.of_nat (length bs))) as [H1|H1]; [lia|discriminate E].
Qed.

(** ** The count stored byte by byte *)

Definition nones (n : nat) : list (Z * option inode) := replicate n (9, None).
Lemma nones_data : data (nones 85) = concat (replicate 85 [130; 9; 246]).
Proof. vm_compute. reflexivity. Qed.
Lemma nones_fits n : Forall entry_fits (nones n).
Proof. apply Forall_replicate. split; [cbn; unfold u64; lia|exact I]. Qed.

Lemma count_torn :
  exists m, append_all new_log (nones 85) = Done m /\
    forall f, holds f 255 (data (nones 85)) -> read_log (<[7%nat := 2]> f) = Panic.
Proof.
  destruct (append_many (nones 85) new_log [] log_new) as (m & Hm & _).
  { rewrite nones_data. cbn [m_count m_size new_log]. vm_compute. discriminate. }
  exists m. split; [exact Hm|]. intros f (_ & _ & Ht & Hl & Hd). rewrite nones_data in *.
  assert (HL : length (concat (replicate 85 [130; 9; 246])) = 255%nat) by (vm_compute; reflexivity).
  rewrite HL in *. unfold read_log. rewrite insert_length.
  destruct (Nat.ltb_spec (length f) 8); [lia|].
  assert (T : take 8 (<[7%nat := 2]> f) = be 8 2).
  { apply list_eq. intros j. destruct (decide (j < 8)%nat) as [Hj|Hj].
    - rewrite lookup_take by exact Hj. destruct (decide (j = 7)%nat) as [->|Hn].
      + rewrite list_lookup_insert by lia. reflexivity.
      + rewrite list_lookup_insert_ne by lia. rewrite <- (lookup_take f 8 j Hj), Ht.
        do 7 (destruct j as [|j]; [reflexivity|]). lia.
    - rewrite lookup_take_ge by lia. symmetry. apply lookup_ge_None. rewrite be_length. lia. }
  rewrite T. change (of_be (be 8 2)) with 2.
  destruct (Z.ltb_spec (Z.of_nat (length f)) (COUNTMAPSIZE + 2)); [reflexivity|].
  assert (D : take (Z.to_nat 2) (drop 8 (<[7%nat := 2]> f)) = [130; 9]).
  { rewrite drop_insert_gt by lia. change (Z.to_nat 2) with 2%nat.
    replace (take 2 (drop 8 f)) with (take 2 (take 255 (drop 8 f))) by (by rewrite take_take).
    rewrite Hd. vm_compute. reflexivity. }
  rewrite D. vm_compute. reflexivity.
Qed.
