(** Proofs for the entry point of the socket calls: understanding the words. *)
From stdpp Require Import gmap.
From Verif Require Import Base AbiModel AbiSpec AbiProofs AbiBuf EntryModel EntrySpec EntryProofs NetModel NetSpec WireModel WireSpec.
Local Open Scope list_scope.
Local Open Scope Z_scope.

(** ** Numbers in memory *)
Lemma byte_at m p : bytes_only m -> 0 <= m p < 256.
Proof. intros B. exact (B p). Qed.
Lemma number_range m p : bytes_only m -> 0 <= number_at m p < 2 ^ 32.
Proof. intros B. unfold number_at. pose proof (B p). pose proof (B (p + 1)). pose proof (B (p + 2)). pose proof (B (p + 3)). unfold is_byte in *. lia. Qed.
Lemma load2 m p : of_le (load m p 2) = short_at m p.
Proof. unfold load, short_at. cbn [seq map of_le]. change (Z.of_nat 0) with 0. change (Z.of_nat 1) with 1. rewrite Z.add_0_r. lia. Qed.
Lemma load8 m p : of_le (load m p 8) = word_at m p.
Proof.
  unfold load, word_at, number_at. cbn [seq map of_le].
  change (Z.of_nat 0) with 0. change (Z.of_nat 1) with 1. change (Z.of_nat 2) with 2. change (Z.of_nat 3) with 3.
  change (Z.of_nat 4) with 4. change (Z.of_nat 5) with 5. change (Z.of_nat 6) with 6. change (Z.of_nat 7) with 7.
  rewrite <- !Z.add_assoc, !Z.add_0_r. change (4 + 1) with 5. change (4 + 2) with 6. change (4 + 3) with 7. lia.
Qed.
Lemma signed32 v : 0 <= v < 2 ^ 32 -> to_i32 v = signed 32 v.
Proof. intros H. unfold to_i32, signed, wrap_u. rewrite Z.mod_small by lia. reflexivity. Qed.
Lemma signed16 v : 0 <= v < 2 ^ 16 -> to_i16 v = signed 16 v.
Proof. intros H. unfold to_i16, signed, wrap_u. rewrite Z.mod_small by lia. reflexivity. Qed.
Lemma int_at_load m p : bytes_only m -> to_i32 (of_le (load m p 4)) = int_at m p.
Proof. intros B. rewrite load4. apply signed32. apply number_range. exact B. Qed.
Lemma short_range m p : bytes_only m -> 0 <= short_at m p < 2 ^ 16.
Proof. intros B. unfold short_at. pose proof (B p). pose proof (B (p + 1)). unfold is_byte in *. lia. Qed.
Lemma pollfd_polled m p i : bytes_only m -> pollfd m (p + 8 * Z.of_nat i) = polled m p i.
Proof. intros B. unfold pollfd, polled. rewrite int_at_load, load2, signed16 by (auto using short_range). reflexivity. Qed.

(** ** Sets *)
Lemma bit_on m p fd : 0 <= fd < 1024 -> bit m p fd = true <-> on m p fd.
Proof. intros H. unfold bit, on. tauto. Qed.
Lemma set_at_on m p fd : fd ∈ set_at m p <-> on m p fd.
Proof.
  unfold set_at. rewrite elem_of_list_to_set, elem_of_list_In, filter_In, <- elem_of_list_In, elem_of_seqZ. unfold on, bit. split; [intros [H1 H2]; split; [lia|exact H2]|intros [H1 H2]; split; [lia|exact H2]].
Qed.
Lemma shows_fun m p o : shows m p o -> opt_set m p = o.
Proof.
  unfold shows, opt_set. destruct o as [s|].
  - intros [N H]. replace (p =? 0) with false by lia. f_equal. apply set_eq. intros fd. rewrite set_at_on, H. reflexivity.
  - intros ->. reflexivity.
Qed.
Lemma opt_set_shows m p : shows m p (opt_set m p).
Proof. unfold shows, opt_set. destruct (p =? 0) eqn:E; [lia|]. split; [lia|]. intros fd. apply set_at_on. Qed.

(** ** Words *)
Lemma int_word_ok w v : int_word w v -> get_int w = Ok v.
Proof. intros [H ->]. exact (get_int_exact v H). Qed.
Lemma int_word_cases w : is_word w -> (exists v, int_word w v) \/ 2 ^ 32 <= w.
Proof.
  intros W. destruct (Z_lt_le_dec w (2 ^ 32)) as [L|L]; [left|right; exact L].
  destruct (get_int w) as [v|r] eqn:E.
  - exists v. destruct (get_int_only w v W E) as [H1 H2]. split; assumption.
  - unfold get_int in E. rewrite (high_zero w W) in E. replace (w <? 2 ^ 32) with true in E by lia. discriminate E.
Qed.
Lemma int_word_small w v : int_word w v -> w < 2 ^ 32.
Proof. intros [_ ->]. apply Z.mod_pos_bound. lia. Qed.
Lemma int_word_fun w v v' : int_word w v -> int_word w v' -> v = v'.
Proof. intros H H'. apply int_word_ok in H, H'. congruence. Qed.
Lemma wide_int w : is_word w -> 2 ^ 32 <= w -> get_int w = Fail (err EINVAL).
Proof. intros W L. exact (proj1 (get_int_wide w W L)). Qed.
Lemma wide_uint w : is_word w -> 2 ^ 32 <= w -> get_uint w = Fail (err EINVAL).
Proof. intros W L. exact (proj2 (get_int_wide w W L)). Qed.
Lemma small_uint w : is_word w -> w < 2 ^ 32 -> get_uint w = Ok w.
Proof. intros W L. pose proof (get_uint_exact w) as H. unfold zero_extended in H. rewrite Z.mod_small in H by (unfold is_word in W; lia). apply H. unfold is_uint, is_word in *. lia. Qed.
Lemma ptr_ok w : w <> 0 -> get_ptr w = Ok w.
Proof. intros H. unfold get_ptr. replace (w =? 0) with false by lia. reflexivity. Qed.
Lemma null_ptr : get_ptr 0 = Fail (err EFAULT).
Proof. reflexivity. Qed.

(** one word of a type *)
Definition convert (t : aty) (w : Z) : AbiModel.res Z :=
  match t with AInt => get_int w | AUint => get_uint w | ALong => get_long w | ASize => get_ulong w | APtr => get_ptr w | APath => Fail 0 end.
Lemma convert_ok m t w v : t <> APath -> stands m t w v -> exists x, v = Num x /\ convert t w = Ok x.
Proof.
  intros N S. destruct S as [v H|v H|v H|v H|v H|p s H1 H2 H3]; cbn [convert]; try (eexists; split; [reflexivity|]).
  - apply int_word_ok. split; [exact H|reflexivity].
  - pose proof (get_uint_exact v H) as E. unfold zero_extended in E. rewrite Z.mod_small in E by (unfold is_uint in H; lia). exact E.
  - exact (get_long_exact v H).
  - reflexivity.
  - exact (ptr_ok v H).
  - contradiction.
Qed.
Lemma convert_bad m t w r : t <> APath -> is_word w -> refused m t w r -> convert t w = Fail r.
Proof.
  intros N W S. destruct S; cbn [convert].
  - exact (wide_int w W H).
  - exact (wide_uint w W H).
  - reflexivity.
  - contradiction.
  - contradiction.
Qed.
(** the chain of conversions of a call of the table *)
Fixpoint chain (ts : list aty) (ws : list Z) (k : list Z -> todo) : todo :=
  match ts, ws with
  | t :: ts, w :: ws => arg (convert t w) (fun v => chain ts ws (fun vs => k (v :: vs)))
  | _, _ => k []
  end.
Lemma chain_typed m ts : forall ws vs k, ~ APath ∈ ts -> (length ts <= length ws)%nat -> well_typed m ts ws vs -> exists xs, vs = map Num xs /\ length xs = length ts /\ chain ts ws k = k xs.
Proof.
  induction ts as [|t ts IH]; intros ws vs k N L K.
  - cbn [zip] in K. unfold well_typed in K. cbn in K. inversion K. subst. exists []. destruct ws; auto.
  - destruct ws as [|w ws]; [cbn in L; lia|]. unfold well_typed in K. cbn in K. inversion K as [|? ? ? ? S K']. subst.
    apply convert_ok in S as (x & -> & E); [|intros Q; cbn in Q; subst t; apply N; left]. change (convert t w = Ok x) in E.
    destruct (IH ws l' (fun vs => k (x :: vs))) as (xs & -> & L' & E'); [intros Q; apply N; right; exact Q|cbn in L; lia|exact K'|].
    exists (x :: xs). split; [reflexivity|]. split; [cbn; lia|]. cbn [chain]. rewrite E. exact E'.
Qed.
Lemma chain_bad m ts : forall ws r k, ~ APath ∈ ts -> Forall is_word ws -> first_bad m ts ws r -> chain ts ws k = Bad r.
Proof.
  induction ts as [|t ts IH]; intros ws r k N W (j & vs & t' & w' & K & N1 & N2 & R).
  - destruct j; discriminate N1.
  - destruct ws as [|w ws]; [destruct j; discriminate N2|]. apply Forall_cons in W as [W1 W2].
    destruct j as [|j].
    + cbn in N1, N2. injection N1 as <-. injection N2 as <-. cbn [chain]. erewrite convert_bad; [reflexivity| |exact W1|exact R]. intros ->; apply N; left.
    + cbn in N1, N2. unfold well_typed in K. cbn in K. inversion K as [|? ? ? ? S K']. subst.
      apply convert_ok in S as (x & -> & E); [|intros Q; cbn in Q; subst t; apply N; left]. change (convert t w = Ok x) in E. cbn [chain]. rewrite E. cbn [arg].
      apply IH; [intros Q; apply N; right; exact Q|exact W2|]. exists j, l', t', w'. repeat (split; [assumption|]). assumption.
Qed.
Lemma chain_cases m ts : forall ws, ~ APath ∈ ts -> (length ts <= length ws)%nat -> Forall is_word ws ->
  (exists vs, well_typed m ts ws vs) \/ (exists r, first_bad m ts ws r).
Proof.
  induction ts as [|t ts IH]; intros ws N L W.
  - left. exists []. unfold well_typed. cbn. constructor.
  - destruct ws as [|w ws]; [cbn in L; lia|]. apply Forall_cons in W as [W1 W2].
    assert (C : (exists v, stands m t w v) \/ exists r, refused m t w r).
    { destruct t.
      - destruct (int_word_cases w W1) as [(v & H & ->)|H]; [left; eexists; constructor; exact H|right; eexists; constructor; exact H].
      - destruct (Z_lt_le_dec w (2 ^ 32)) as [H|H]; [left; eexists; constructor; unfold is_uint, is_word in *; lia|right; eexists; constructor; exact H].
      - left. exists (Num (to_i64 w)). assert (E : w = to_i64 w mod 2 ^ 64).
        { unfold to_i64, wrap_u. unfold is_word in W1. rewrite (Z.mod_small w) by lia. destruct (w <? 2 ^ 63) eqn:E.
          - rewrite Z.mod_small; lia.
          - replace (w - 2 ^ 64) with (w + (-1) * 2 ^ 64) by lia. rewrite Z.mod_add by lia. rewrite Z.mod_small; lia. }
        rewrite E at 1. constructor. unfold is_long, to_i64, wrap_u. unfold is_word in W1. rewrite (Z.mod_small w) by lia. destruct (w <? 2 ^ 63) eqn:E'; lia.
      - left. eexists. constructor. exact W1.
      - destruct (Z.eq_dec w 0) as [->|H]; [right; eexists; constructor|left; eexists; constructor; exact H].
      - exfalso. apply N. left. }
    destruct C as [(v & S)|(r & R)].
    + destruct (IH ws) as [(vs & K)|(r & j & vs & t' & w' & K & N1 & N2 & R)]; [intros Q; apply N; right; exact Q|cbn in L; lia|exact W2| |].
      * left. exists (v :: vs). unfold well_typed. cbn. constructor; [exact S|exact K].
      * right. exists r, (Datatypes.S j), (v :: vs), t', w'. split; [unfold well_typed; cbn; constructor; [exact S|exact K]|]. auto.
    + right. exists r, O, [], t, w. split; [unfold well_typed; cbn; constructor|]. auto.
Qed.
Lemma wtable_plain n ts : (n, ts) ∈ wtable -> ~ APath ∈ ts /\ (length ts <= 6)%nat.
Proof.
  intros T. unfold wtable in T. repeat (apply elem_of_cons in T as [T|T]; [injection T as -> ->; split; [intros H; repeat (apply elem_of_cons in H as [H|H]; [discriminate H|]); apply elem_of_nil in H; exact H|cbn; lia]|]).
  apply elem_of_nil in T. contradiction.
Qed.

(** where the call puts its results *)
Definition where_to (m : Z -> Z) (n : Z) (a : args) : dst :=
  match n with
  | 12 | 36 | 37 => Buf (a2 a)
  | 40 => if a2 a =? 0 then Nowhere else Addr (a2 a) (a3 a)
  | 43 => Value (a4 a)
  | 46 => FdSets (a2 a) (a3 a)
  | 48 => Polls (a1 a) (pollfds m (a1 a) (a2 a))
  | 49 => Two (a4 a)
  | 58 => Evs (a2 a)
  | 66 => Two (a1 a)
  | _ => Nowhere
  end.
Definition dflt (xs : list Z) (k : nat) : Z := nth k xs 0.
Definition do_plain (m : Z -> Z) (n : Z) (a : args) (xs : list Z) : todo :=
  match wmeaning m n (map Num xs) with Some o => Do o (where_to m n a) | None => Away end.
Lemma bytes_load m p k : load m p (Z.to_nat k) = bytes_at m p k.
Proof. unfold load, bytes_at, seqZ. rewrite map_map. apply map_ext. intros j. f_equal. lia. Qed.
Ltac in_table T := unfold wtable in T; repeat (apply elem_of_cons in T as [T|T]; [injection T as -> ->|]); [..|apply elem_of_nil in T; contradiction].
Lemma decode_plain m n a late ts : bytes_only m -> (n, ts) ∈ wtable -> (forall w, get_ulong w = Ok w) ->
  decode m n a late = chain ts (words a) (do_plain m n a).
Proof.
  intros B T _. in_table T; unfold decode; cbn [Z.eqb Pos.eqb chain words convert]; unfold do_plain; cbn [map wmeaning where_to arg].
  1,4,5,8,9,11,14: reflexivity.
  - (* read: the pointer is the word itself *)
    destruct (get_int (a1 a)); [|reflexivity]. cbn [arg]. unfold get_ptr. destruct (a2 a =? 0); reflexivity.
  - destruct (get_int (a1 a)); [|reflexivity]. cbn [arg]. unfold get_ptr. destruct (a2 a =? 0); [reflexivity|]. cbn [arg get_ulong]. rewrite bytes_load. reflexivity.
  - destruct (get_int (a1 a)); [|reflexivity]. cbn [arg]. unfold get_ptr. destruct (a2 a =? 0); [reflexivity|]. cbn [arg get_ulong]. rewrite bytes_load. reflexivity.
  - destruct (get_int (a1 a)); [|reflexivity]. cbn [arg]. unfold get_ptr. destruct (a2 a =? 0); reflexivity.
  - destruct (get_int (a1 a)); [|reflexivity]. destruct (get_int (a2 a)); [|reflexivity]. destruct (get_int (a3 a)); [|reflexivity]. cbn [arg]. unfold get_ptr. destruct (a4 a =? 0); reflexivity.
  - destruct (get_int (a1 a)); [|reflexivity]. destruct (get_int (a2 a)); [|reflexivity]. destruct (get_int (a3 a)); [|reflexivity]. cbn [arg]. unfold get_ptr. destruct (a4 a =? 0); [reflexivity|].
    cbn [arg]. rewrite load4, int_at_load by exact B. reflexivity.
  - unfold get_ptr. destruct (a1 a =? 0); reflexivity.
Qed.
