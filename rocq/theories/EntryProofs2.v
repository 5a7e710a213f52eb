(** Proofs for the entry point: decoding and the memory a call changes. *)
From stdpp Require Import gmap.
From Coq Require Import Ascii.
From Verif Require Import Base PathModel FsModel AbiModel AbiSpec AbiProofs AbiBuf EntryModel EntrySpec EntryProofs.
Local Open Scope list_scope.
Local Open Scope Z_scope.

(** ** Arguments, one after the other *)
Definition numb (e : res Z) : outcome (res val) := Done (match e with Ok v => Ok (Num v) | Fail r => Fail r end).
Definition conv (m : mem) (t : aty) (w : Z) : outcome (res val) :=
  match t with
  | AInt => numb (get_int w) | AUint => numb (get_uint w) | ALong => numb (get_long w) | ASize => numb (get_ulong w) | APtr => numb (get_ptr w)
  | APath => match get_cstr m w with Done (Ok s) => Done (Ok (Txt s)) | Done (Fail r) => Done (Fail r) | Panic => Panic end
  end.
Fixpoint chain (m : mem) (ts : list aty) (ws : list Z) (k : list val -> todo) : todo :=
  match ts, ws with
  | t :: ts, w :: ws => match conv m t w with Panic => Fault | Done (Fail r) => Bad r | Done (Ok v) => chain m ts ws (fun vs => k (v :: vs)) end
  | _, _ => k []
  end.
(** the address for the result *)
Definition place (n : Z) (a : args) : Z :=
  match n with 9 | 17 | 19 | 26 | 12 | 126 | 23 => a2 a | 47 | 66 | 67 | 125 => a1 a | _ => 0 end.
Definition goal_of (m : mem) (n : Z) (a : args) (vs : list val) : todo :=
  match n, vs with
  | 19, [Num fd; Num b] => Fstatfs fd b
  | 26, [Txt p; Num b] => Statfs p b
  | 125, [Num b; Num k] => Hostname b k
  | _, _ => match meaning m n vs with Some o => Do o (place n a) | None => Fault end
  end.

Lemma bytes_at_load m p n : load m p (Z.to_nat n) = bytes_at m p n.
Proof. unfold load, bytes_at, seqZ. rewrite map_map. apply map_ext. intros k. f_equal. lia. Qed.
Lemma word_at_load m p : of_le (load m p 8) = word_at m p.
Proof.
  unfold word_at, number_at, load. cbn [seq map of_le]. change (Z.of_nat 0) with 0. change (Z.of_nat 1) with 1. change (Z.of_nat 2) with 2.
  change (Z.of_nat 3) with 3. change (Z.of_nat 4) with 4. change (Z.of_nat 5) with 5. change (Z.of_nat 6) with 6. change (Z.of_nat 7) with 7.
  replace (p + 4 + 1) with (p + 5) by lia. replace (p + 4 + 2) with (p + 6) by lia. replace (p + 4 + 3) with (p + 7) by lia.
  rewrite Z.add_0_r. lia.
Qed.
Lemma iovecs_gathered m p n : iovecs m p n = gathered m p n.
Proof.
  unfold iovecs, gathered. change (seqZ 0 n) with (map (fun i => Z.of_nat i + 0) (seq 0 (Z.to_nat n))). rewrite map_map. apply map_ext. intros k.
  rewrite bytes_at_load, !word_at_load. rewrite Z.add_0_r. reflexivity.
Qed.
Lemma ptr_val w v : get_ptr w = Ok v -> v = w.
Proof. unfold get_ptr. destruct (w =? 0); [discriminate|]. intros [= ->]. reflexivity. Qed.

Lemma table_all (P : Z -> list aty -> Prop) : (forall e, e ∈ table -> P (fst e) (snd e)) -> forall n ts, (n, ts) ∈ table -> P n ts.
Proof. intros H n ts K. exact (H _ K). Qed.
Ltac each_call H := unfold table in H; repeat (apply elem_of_cons in H as [H|H]; [injection H as -> ->|]); [..|apply elem_of_nil in H; destruct H].

Lemma decode_chain m n a ts : (n, ts) ∈ table -> decode m n a = chain m ts (words a) (goal_of m n a).
Proof.
  intros H. each_call H.
  all: unfold words; cbn [chain conv]; unfold decode; cbn [Z.eqb Pos.eqb]; unfold int, uint, long, size, ptr, numb, arg.
  all: repeat match goal with
    | |- context [get_cstr ?m0 ?w] => destruct (get_cstr m0 w) as [[?|?]|]
    | |- context [get_int ?w] => destruct (get_int w) as [?|?]
    | |- context [get_uint ?w] => destruct (get_uint w) as [?|?]
    | |- context [get_long ?w] => destruct (get_long w) as [?|?]
    | |- context [get_ulong ?w] => destruct (get_ulong w) as [?|?]
    | |- context [get_ptr ?w] => let E := fresh "E" in destruct (get_ptr w) as [?|?] eqn:E; [apply ptr_val in E; subst|clear E]
    end.
  all: try reflexivity.
  all: unfold goal_of, meaning, place; rewrite ?bytes_at_load, ?iovecs_gathered; reflexivity.
Qed.

(** ** Each converter accepts exactly the words that stand for values *)
Lemma get_int_cases w : is_word w -> match get_int w with Ok v => is_int v /\ w = v mod 2 ^ 32 | Fail r => 2 ^ 32 <= w /\ r = -22 end.
Proof.
  intros W. destruct (decide (2 ^ 32 <= w)) as [L|L].
  - destruct (get_int_wide w W L) as [E _]. rewrite E. split; [exact L|reflexivity].
  - destruct (get_int w) as [v|r] eqn:E; [apply get_int_only in E; assumption|].
    exfalso. unfold is_word in W.
    assert (I : is_int (to_i32 w)) by (unfold is_int, to_i32, wrap_u; destruct (w mod 2 ^ 32 <? 2 ^ 31) eqn:Q; pose proof (Z.mod_pos_bound w (2 ^ 32)); lia).
    pose proof (get_int_exact _ I) as X. unfold zero_extended in X.
    assert (R : to_i32 w mod 2 ^ 32 = w).
    { unfold to_i32, wrap_u. rewrite (Z.mod_small w (2 ^ 32)) by lia. destruct (w <? 2 ^ 31) eqn:Q; [apply Z.mod_small; lia|].
      replace (w - 2 ^ 32) with (w + (-1) * 2 ^ 32) by lia. rewrite Z.mod_add by lia. apply Z.mod_small. lia. }
    rewrite R, E in X. discriminate X.
Qed.
Lemma get_uint_cases w : is_word w -> match get_uint w with Ok v => is_uint v /\ w = v | Fail r => 2 ^ 32 <= w /\ r = -22 end.
Proof.
  intros W. destruct (decide (2 ^ 32 <= w)) as [L|L].
  - destruct (get_int_wide w W L) as [_ E]. rewrite E. split; [exact L|reflexivity].
  - unfold is_word in W. assert (U : is_uint w) by (unfold is_uint; lia). pose proof (get_uint_exact _ U) as X. unfold zero_extended in X.
    rewrite Z.mod_small in X by lia. rewrite X. split; [exact U|reflexivity].
Qed.
Lemma get_long_cases w : is_word w -> exists v, get_long w = Ok v /\ is_long v /\ w = v mod 2 ^ 64.
Proof.
  intros W. unfold is_word in W. exists (to_i64 w). split; [reflexivity|]. unfold to_i64, wrap_u, is_long. rewrite (Z.mod_small w) by lia.
  destruct (w <? 2 ^ 63) eqn:Q; [split; [lia|rewrite Z.mod_small; lia]|].
  split; [lia|]. replace (w - 2 ^ 64) with (w + (-1) * 2 ^ 64) by lia. rewrite Z.mod_add by lia. rewrite Z.mod_small; lia.
Qed.
Lemma conv_cases m t w : is_word w -> match conv m t w with
  | Done (Ok v) => stands m t w v | Done (Fail r) => refused m t w r | Panic => t = APath /\ w <> 0 /\ endless m w end.
Proof.
  intros W. destruct t; cbn [conv]; unfold numb.
  - pose proof (get_int_cases w W) as H. destruct (get_int w) as [v|r]; destruct H as [H ->]; constructor; exact H.
  - pose proof (get_uint_cases w W) as H. destruct (get_uint w) as [v|r]; destruct H as [H ->]; constructor; exact H.
  - destruct (get_long_cases w W) as (v & -> & H & ->). constructor. exact H.
  - constructor. exact W.
  - unfold get_ptr. destruct (w =? 0) eqn:E; [assert (w = 0) as -> by lia; apply re_ptr|constructor; lia].
  - pose proof (cstr_cases m w) as H. destruct (get_cstr m w) as [[s|r]|]; [exact H|exact H|auto].
Qed.
Lemma conv_ok m t w v : stands m t w v -> conv m t w = Done (Ok v).
Proof.
  intros H. destruct H as [v I|v I|v I|v I|v I|p s P C U]; cbn [conv]; unfold numb.
  - pose proof (get_int_exact v I) as X. unfold zero_extended in X. rewrite X. reflexivity.
  - pose proof (get_uint_exact v I) as X. unfold zero_extended in X. unfold is_uint in I. rewrite Z.mod_small in X by lia. rewrite X. reflexivity.
  - rewrite (get_long_exact v I). reflexivity.
  - reflexivity.
  - unfold get_ptr. assert (v =? 0 = false) as -> by lia. reflexivity.
  - rewrite (cstr_ok m p s (st_path m p s P C U)). reflexivity.
Qed.
Lemma conv_bad m t w r : is_word w -> refused m t w r -> conv m t w = Done (Fail r).
Proof.
  intros W H. destruct H as [w L|w L| | |p bs P C U]; cbn [conv]; unfold numb.
  - destruct (get_int_wide w W L) as [-> _]. reflexivity.
  - destruct (get_int_wide w W L) as [_ ->]. reflexivity.
  - reflexivity.
  - reflexivity.
  - pose proof (cstr_cases m p) as K. destruct (get_cstr m p) as [[s|r]|].
    + inversion K as [| | | | |p' s' P' C' U']. subst. rewrite (c_string_unique _ _ _ _ C C') in U. contradiction.
    + inversion K as [| | |Z1|p' bs' P' C' U']; [congruence|]. reflexivity.
    + destruct K as [_ K]. exfalso. destruct (c_string_end _ _ _ C) as [E _]. apply (K (Z.of_nat (length bs))); [destruct C as (_ & _ & C); lia|exact E].
Qed.
Lemma stands_fun m t w v v' : stands m t w v -> stands m t w v' -> v = v'.
Proof. intros H H'. apply conv_ok in H. apply conv_ok in H'. rewrite H in H'. injection H' as ->. reflexivity. Qed.

Lemma chain_ok m ts : forall ws vs k, (length ts <= length ws)%nat -> well_typed m ts ws vs -> chain m ts ws k = k vs.
Proof.
  induction ts as [|t ts IH]; intros ws vs k L H.
  - inversion H. subst. destruct ws; reflexivity.
  - destruct ws as [|w ws]; [cbn in L; lia|]. inversion H as [|tw v l l' Hv Hr]. subst. cbn [fst snd] in Hv. cbn [chain].
    rewrite (conv_ok _ _ _ _ Hv). apply (IH ws l'); [cbn in L; lia|exact Hr].
Qed.
Lemma chain_bad m ts : forall ws r k, Forall is_word ws -> first_bad m ts ws r -> chain m ts ws k = Bad r.
Proof.
  induction ts as [|t ts IH]; intros ws r k W (j & vs & t' & w' & T & N1 & N2 & R).
  - destruct j; discriminate N1.
  - destruct ws as [|w ws]; [destruct j; discriminate N2|]. apply Forall_cons in W as [Ww W]. cbn [chain].
    destruct j as [|j].
    + injection N1 as ->. injection N2 as ->. rewrite (conv_bad _ _ _ _ Ww R). reflexivity.
    + cbn [take zip zip_with] in T. inversion T as [|tw v l l' Hv Hr]. subst. cbn [fst snd] in Hv. rewrite (conv_ok _ _ _ _ Hv).
      apply IH; [exact W|]. exists j, l', t', w'. split; [exact Hr|]. split; [exact N1|]. split; [exact N2|exact R].
Qed.
(** Every call is of one of three kinds *)
Lemma chain_cases m ts : forall ws, (length ts <= length ws)%nat -> Forall is_word ws ->
  (exists vs, well_typed m ts ws vs) \/ (exists r, first_bad m ts ws r) \/
  (exists j w, nth_error ts j = Some APath /\ nth_error ws j = Some w /\ endless m w /\ forall k, chain m ts ws k = Fault).
Proof.
  induction ts as [|t ts IH]; intros ws L W.
  - left. exists []. constructor.
  - destruct ws as [|w ws]; [cbn in L; lia|]. apply Forall_cons in W as [Ww W].
    pose proof (conv_cases m t w Ww) as C. destruct (conv m t w) as [[v|r]|] eqn:E.
    + destruct (IH ws ltac:(cbn in L; lia) W) as [(vs & T)|[(r & j & vs & t' & w' & T & N1 & N2 & R)|(j & w' & N1 & N2 & En & K)]].
      * left. exists (v :: vs). constructor; [exact C|exact T].
      * right. left. exists r, (S j), (v :: vs), t', w'. split; [constructor; [exact C|exact T]|]. split; [exact N1|]. split; [exact N2|exact R].
      * right. right. exists (S j), w'. split; [exact N1|]. split; [exact N2|]. split; [exact En|]. intros k. cbn [chain]. rewrite E. apply K.
    + right. left. exists r, 0%nat, [], t, w. split; [constructor|]. split; [reflexivity|]. split; [reflexivity|exact C].
    + right. right. exists 0%nat, w. destruct C as (-> & P & En). split; [reflexivity|]. split; [reflexivity|]. split; [exact En|]. intros k. cbn [chain]. rewrite E. reflexivity.
Qed.
Lemma table_len n ts : (n, ts) ∈ table -> (length ts <= 6)%nat.
Proof. intros H. each_call H; cbn; lia. Qed.
