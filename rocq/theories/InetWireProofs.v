(** Proofs for the entry point of INET sockets: understanding the words, and
    what a call leaves in memory. *)
From stdpp Require Import gmap.
From Verif Require Import Base AbiModel AbiSpec AbiProofs EntryModel EntrySpec EntryProofs EntryProofs2 EntryProofs3 WireSpec WireProofs WireProofs6 DirectProofs
  PortModel InetModel InetSpec InetWireModel InetWireSpec.
Local Open Scope list_scope.
Local Open Scope Z_scope.

(** ** Addresses *)
Lemma given_sound m p w x : bytes_only m -> given m p w x -> exists g, get_uint w = Ok w /\ get_sockaddr m p w = Ok g /\ v4_of g = Some x.
Proof.
  intros B (P & L & H1 & H2 & H3 & H4 & H5 & H6). destruct x as [v6 ad port]. cbn [ia_v6 ia_port ia_a] in *. subst v6 port.
  eexists. split; [apply uint_ok; unfold is_uint; lia|]. split.
  - unfold get_sockaddr. replace (p =? 0) with false by lia. rewrite load2, H1. change (2 =? 1) with false. change (2 =? 2) with true. cbv iota.
    change V4_LEN with 16. replace (w <? 16) with false by lia. reflexivity.
  - cbn [v4_of]. rewrite load8. unfold word_at. replace (p + 8 + 4) with (p + 12) by lia. rewrite H5, H6. change (0 + 2 ^ 32 * 0 =? 0) with true. cbv iota.
    rewrite load2, load4. f_equal. destruct H4 as [[-> ->]|(ip & -> & N & ->)]; [reflexivity|]. replace (ip =? 0) with false by lia. reflexivity.
Qed.
Lemma given_complete m p w len g x : bytes_only m -> is_word w -> get_uint w = Ok len -> get_sockaddr m p len = Ok g -> v4_of g = Some x -> given m p w x.
Proof.
  intros B W U G V. pose proof (get_uint_cases w W) as C. rewrite U in C. destruct C as [C1 C2]. subst len. unfold is_uint in C1. unfold get_sockaddr in G.
  destruct (Z.eqb_spec p 0) as [|P]; [discriminate G|]. rewrite load2 in G.
  destruct (short_at m p =? 1). { destruct (_ || _) in G; [discriminate G|]. injection G as <-. discriminate V. }
  destruct (Z.eqb_spec (short_at m p) 2) as [F|_].
  2: { destruct (short_at m p =? 30); [|discriminate G]. destruct (_ <? _) in G; [discriminate G|]. injection G as <-. discriminate V. }
  change V4_LEN with 16 in G. destruct (w <? 16) eqn:L; [discriminate G|].
  assert (Eg : g = GV4 (short_at m p) (of_le (load m (p + 2) 2)) (of_le (load m (p + 4) 4)) (of_le (load m (p + 8) 8))) by congruence. clear G. subst g. cbn [v4_of] in V. rewrite load8, load2, load4 in V.
  destruct (Z.eqb_spec (word_at m (p + 8)) 0) as [Z0|]; [|discriminate V]. injection V as <-.
  unfold word_at in Z0. replace (p + 8 + 4) with (p + 12) in Z0 by lia. pose proof (number_range m (p + 8) B). pose proof (number_range m (p + 12) B).
  split; [exact P|]. split; [lia|]. split; [exact F|]. split; [reflexivity|]. split; [reflexivity|]. cbn [ia_a]. split; [|split; lia].
  destruct (Z.eqb_spec (number_at m (p + 4)) 0) as [E|E]; [left; split; [reflexivity|exact E]|right]. exists (number_at m (p + 4)). auto.
Qed.

(** ** Kinds of sockets *)
Lemma land_bit t k : 0 <= k -> Z.land t (2 ^ k) = if Z.testbit t k then 2 ^ k else 0.
Proof.
  intros K. apply Z.bits_inj'. intros i Hi. rewrite Z.land_spec, Z.pow2_bits_eqb by lia. destruct (Z.eqb_spec k i) as [->|N].
  - rewrite andb_true_r. destruct (Z.testbit t i); [rewrite Z.pow2_bits_true by lia; reflexivity|rewrite Z.bits_0; reflexivity].
  - rewrite andb_false_r. destruct (Z.testbit t k); [rewrite Z.pow2_bits_false by lia; reflexivity|rewrite Z.bits_0; reflexivity].
Qed.
Lemma kind_of t : Z.land t (Z.lnot (Z.lor (Z.lor SOCK_NB SOCK_CE) 7)) = 0 ->
  t = Z.lor (Z.lor (Z.land t 7) (Z.land t SOCK_NB)) (Z.land t SOCK_CE).
Proof.
  intros H. apply Z.bits_inj'. intros i Hi. rewrite !Z.lor_spec, !Z.land_spec. assert (E : Z.testbit (Z.land t (Z.lnot (Z.lor (Z.lor SOCK_NB SOCK_CE) 7))) i = false) by (rewrite H; apply Z.bits_0).
  rewrite Z.land_spec, Z.lnot_spec, !Z.lor_spec in E by lia. destruct (Z.testbit t i), (Z.testbit SOCK_NB i), (Z.testbit SOCK_CE i), (Z.testbit 7 i); cbn in *; congruence.
Qed.
Lemma socket_sound (v6 tcp nb ce : bool) p : p = 0 \/ p = (if tcp then 6 else 17) -> socket_of (if v6 then 10 else 2) (kinds tcp nb ce) p = Do (Socket v6 tcp nb ce) Nowhere.
Proof. destruct v6, tcp, nb, ce; intros [-> | ->]; vm_compute; reflexivity. Qed.
Lemma socket_complete d t p o x : socket_of d t p = Do o x -> x = Nowhere /\ exists v6 tcp nb ce : bool, o = Socket v6 tcp nb ce /\ d = (if v6 then 10 else 2) /\ t = kinds tcp nb ce /\ (p = 0 \/ p = if tcp then 6 else 17).
Proof.
  unfold socket_of. cbv zeta.
  match goal with |- (if ?b then _ else _) = _ -> _ => destruct b eqn:Q1; [discriminate|] end.
  match goal with |- (if ?b then _ else _) = _ -> _ => destruct b eqn:Q2; [discriminate|] end.
  match goal with |- (if ?b then _ else _) = _ -> _ => destruct b eqn:Q3; [discriminate|] end.
  intros H. injection H as <- <-. split; [reflexivity|]. apply negb_false_iff in Q1, Q2, Q3. apply Z.eqb_eq in Q2. apply kind_of in Q2.
  change SOCK_NB with (2 ^ 11) in *. change SOCK_CE with (2 ^ 19) in *. rewrite !land_bit in * by lia.
  exists (d =? 10), (Z.land t 7 =? 1), (Z.testbit t 11), (Z.testbit t 19). split.
  { f_equal; [destruct (Z.testbit t 11)|destruct (Z.testbit t 19)]; reflexivity. }
  split. { apply orb_true_iff in Q1. rewrite !Z.eqb_eq in Q1. destruct (Z.eqb_spec d 10); lia. }
  apply orb_true_iff in Q3. rewrite !andb_true_iff, !orb_true_iff, !Z.eqb_eq in Q3.
  set (b1 := Z.testbit t 11) in *. set (b2 := Z.testbit t 19) in *. clearbody b1 b2.
  destruct Q3 as [[K P]|[K P]]; rewrite K in *.
  - split; [|exact P]. rewrite Q2. destruct b1, b2; reflexivity.
  - split; [|exact P]. rewrite Q2. destruct b1, b2; reflexivity.
Qed.

(** ** Words *)
Definition goes (a : args) (n : Z) (d : dst) : Prop :=
  (n ∈ [12; 36; 37] /\ a2 a <> 0 /\ d = Buf (a2 a)) \/
  (n ∈ [40; 144; 145] /\ a2 a <> 0 /\ a3 a <> 0 /\ d = Addr (a2 a) (a3 a)) \/
  (n ∉ [12; 36; 37; 144; 145] /\ d = Nowhere /\ (n = 40 -> a2 a = 0 /\ a3 a = 0)).
Ltac listed := repeat first [left|right].
Ltac inlist := solve [repeat (first [apply elem_of_list_here|apply elem_of_list_further])].
Ltac outlist := intros QX; repeat (apply elem_of_cons in QX as [QX|QX]; [discriminate QX|]); apply elem_of_nil in QX; exact QX.
Ltac iw H := match type of H with int_word ?w ?v => rewrite (int_word_ok w v H) end.
Ltac g1 := left; split; [inlist|split; [assumption|reflexivity]].
Ltac g2 := right; left; split; [inlist|split; [assumption|split; [assumption|reflexivity]]].
Ltac g3 := right; right; split; [outlist|split; [reflexivity|discriminate]].
Lemma asks_sound m a n o : bytes_only m -> asks m a n o -> exists d, decode m n a = Do o d /\ goes a n d.
Proof.
  intros B H. destruct H as [fd H|fd [H P]|fd [H P]|fd x H G|fd f [H P] F|fd f x [H P] F G|fd f [H P] F|fd f [H P] F N5 N6|fd x H G|fd b H H2|fd H N|fd how H H2|v6 tcp nb ce p H H2 H3 Hp|fd H P L|fd H P L];
    cbn [decode Z.eqb Pos.eqb]; unfold buffer, with_addr.
  - iw H. cbn [arg]. eexists. split; [reflexivity|g3].
  - iw H. rewrite (ptr_ok _ P). cbn [arg get_ulong]. eexists. split; [reflexivity|g1].
  - iw H. rewrite (ptr_ok _ P). cbn [arg get_ulong]. rewrite bytes_load. eexists. split; [reflexivity|g3].
  - destruct (given_sound _ _ _ _ B G) as (g & -> & G2 & G3). cbn [arg]. rewrite G2. cbn [arg]. rewrite G3. iw H. eexists. split; [reflexivity|g3].
  - iw H. rewrite (ptr_ok _ P). cbn [arg get_ulong]. iw F. cbn [arg]. rewrite bytes_load. eexists. split; [reflexivity|g3].
  - destruct (given_sound _ _ _ _ B G) as (g & -> & G2 & G3). cbn [arg]. rewrite G2. cbn [arg]. rewrite G3. iw H. rewrite (ptr_ok _ P). cbn [arg get_ulong]. iw F. cbn [arg]. rewrite bytes_load. eexists. split; [reflexivity|g3].
  - iw H. rewrite (ptr_ok _ P). cbn [arg get_ulong]. iw F. cbn [arg]. eexists. split; [reflexivity|g1].
  - unfold null. rewrite N5, N6. cbn [Z.eqb andb]. iw H. rewrite (ptr_ok _ P). cbn [arg get_ulong]. iw F. cbn [arg]. eexists. split; [reflexivity|g1].
  - destruct (given_sound _ _ _ _ B G) as (g & -> & G2 & G3). cbn [arg]. rewrite G2. cbn [arg]. rewrite G3. iw H. eexists. split; [reflexivity|g3].
  - iw H. cbn [arg]. iw H2. eexists. split; [reflexivity|g3].
  - unfold null. destruct (Z.eqb_spec (a2 a) 0) as [E|E]; destruct (Z.eqb_spec (a3 a) 0) as [E'|E']; cbn [andb orb negb]; try (destruct N; tauto).
    + iw H. cbn [arg]. eexists. split; [reflexivity|]. right. right. split; [outlist|]. auto.
    + iw H. cbn [arg]. eexists. split; [reflexivity|g2].
  - iw H. cbn [arg]. iw H2. eexists. split; [reflexivity|g3].
  - iw H. cbn [arg]. iw H2. cbn [arg]. iw H3. cbn [arg]. rewrite (socket_sound _ _ _ _ _ Hp). eexists. split; [reflexivity|g3].
  - unfold null. replace (a2 a =? 0) with false by lia. replace (a3 a =? 0) with false by lia. cbn [orb]. iw H. cbn [arg]. eexists. split; [reflexivity|g2].
  - unfold null. replace (a2 a =? 0) with false by lia. replace (a3 a =? 0) with false by lia. cbn [orb]. iw H. cbn [arg]. eexists. split; [reflexivity|g2].
Qed.
Lemma int_only w v : is_word w -> get_int w = Ok v -> int_word w v.
Proof. intros W E. pose proof (get_int_cases w W) as C. rewrite E in C. exact C. Qed.
Lemma arg_do {A} (e : AbiModel.res A) k o d : arg e k = Do o d -> exists v, e = Ok v /\ k v = Do o d.
Proof. destruct e as [v|r]; [|discriminate]. intros H. exists v. auto. Qed.
Lemma ptr_only w v : get_ptr w = Ok v -> w <> 0 /\ v = w.
Proof. unfold get_ptr. destruct (Z.eqb_spec w 0); [discriminate|]. intros E. injection E as <-. auto. Qed.
Lemma buffer_do a k o d : is_word (a1 a) -> buffer a k = Do o d -> exists fd, buf a fd /\ k fd (a2 a) (a3 a) = Do o d.
Proof.
  intros W H. unfold buffer in H. apply arg_do in H as (fd & E1 & H). apply arg_do in H as (b & E2 & H). apply arg_do in H as (z & E3 & H).
  apply ptr_only in E2 as [P ->]. injection E3 as <-. exists fd. split; [split; [apply int_only; assumption|exact P]|exact H].
Qed.
Lemma addr_do m p w k o d : bytes_only m -> is_word w -> with_addr m p w k = Do o d -> exists x, given m p w x /\ k x = Do o d.
Proof.
  intros B W H. unfold with_addr in H. apply arg_do in H as (len & E1 & H). apply arg_do in H as (g & E2 & H). destruct (v4_of g) as [x|] eqn:E3; [|discriminate H].
  exists x. split; [eapply given_complete; eassumption|exact H].
Qed.
Ltac wd Q := injection Q as <- <-.
Lemma asks_complete m a n o d : bytes_only m -> Forall is_word (words a) -> decode m n a = Do o d -> asks m a n o.
Proof.
  intros B W H. unfold words in W. apply Forall_cons in W as [W1 W]. apply Forall_cons in W as [W2 W]. apply Forall_cons in W as [W3 W]. apply Forall_cons in W as [W4 W]. apply Forall_cons in W as [W5 W]. apply Forall_cons in W as [W6 _].
  unfold decode in H.
  destruct (Z.eqb_spec n 11) as [->|_]. { apply arg_do in H as (fd & E & H). wd H. apply as_close. apply int_only; assumption. }
  destruct (Z.eqb_spec n 12) as [->|_]. { apply buffer_do in H as (fd & E & H); [|exact W1]. wd H. apply as_read. exact E. }
  destruct (Z.eqb_spec n 13) as [->|_]. { apply buffer_do in H as (fd & E & H); [|exact W1]. wd H. rewrite bytes_load. apply as_write. exact E. }
  destruct (Z.eqb_spec n 33) as [->|_]. { apply addr_do in H as (x & G & H); [|assumption..]. apply arg_do in H as (fd & E & H). wd H. apply as_bind; [apply int_only; assumption|exact G]. }
  destruct (Z.eqb_spec n 34) as [->|_]. { apply buffer_do in H as (fd & E & H); [|exact W1]. apply arg_do in H as (f & F & H). wd H. rewrite bytes_load. apply (as_send _ _ _ f); [exact E|apply int_only; assumption]. }
  destruct (Z.eqb_spec n 35) as [->|_]. { apply addr_do in H as (x & G & H); [|assumption..]. apply buffer_do in H as (fd & E & H); [|exact W1]. apply arg_do in H as (f & F & H). wd H. rewrite bytes_load. apply (as_sendto _ _ _ f); [exact E|apply int_only; assumption|exact G]. }
  destruct (Z.eqb_spec n 36) as [->|_]. { apply buffer_do in H as (fd & E & H); [|exact W1]. apply arg_do in H as (f & F & H). wd H. apply as_recv; [exact E|apply int_only; assumption]. }
  destruct (Z.eqb_spec n 37) as [->|_].
  { unfold null in H. destruct (Z.eqb_spec (a5 a) 0) as [N5|N5]; destruct (Z.eqb_spec (a6 a) 0) as [N6|N6]; cbn [andb orb negb] in H; try discriminate H.
    apply buffer_do in H as (fd & E & H); [|exact W1]. apply arg_do in H as (f & F & H). wd H. apply as_recvfrom; [exact E|apply int_only; assumption|exact N5|exact N6]. }
  destruct (Z.eqb_spec n 38) as [->|_]. { apply addr_do in H as (x & G & H); [|assumption..]. apply arg_do in H as (fd & E & H). wd H. apply as_connect; [apply int_only; assumption|exact G]. }
  destruct (Z.eqb_spec n 39) as [->|_]. { apply arg_do in H as (fd & E & H). apply arg_do in H as (b & E2 & H). wd H. apply as_listen; apply int_only; assumption. }
  destruct (Z.eqb_spec n 40) as [->|_].
  { unfold null in H. destruct (Z.eqb_spec (a2 a) 0) as [N5|N5]; destruct (Z.eqb_spec (a3 a) 0) as [N6|N6]; cbn [andb orb negb] in H; try discriminate H;
      apply arg_do in H as (fd & E & H); wd H; (apply as_accept; [apply int_only; assumption|tauto]). }
  destruct (Z.eqb_spec n 45) as [->|_]. { apply arg_do in H as (fd & E & H). apply arg_do in H as (b & E2 & H). wd H. apply as_shutdown; apply int_only; assumption. }
  destruct (Z.eqb_spec n 136) as [->|_].
  { apply arg_do in H as (x & E & H). apply arg_do in H as (t & E2 & H). apply arg_do in H as (p & E3 & H). apply socket_complete in H as (_ & v6 & tcp & nb & ce & -> & -> & -> & Hp).
    apply (as_socket _ _ _ _ _ _ p); [apply int_only; assumption..|exact Hp]. }
  destruct (Z.eqb_spec n 144) as [->|_].
  { unfold null in H. destruct (Z.eqb_spec (a2 a) 0) as [N5|N5]; [discriminate H|]. destruct (Z.eqb_spec (a3 a) 0) as [N6|N6]; [discriminate H|]. cbn [orb] in H. apply arg_do in H as (fd & E & H). wd H. apply as_sockname; [apply int_only; assumption|exact N5|exact N6]. }
  destruct (Z.eqb_spec n 145) as [->|_].
  { unfold null in H. destruct (Z.eqb_spec (a2 a) 0) as [N5|N5]; [discriminate H|]. destruct (Z.eqb_spec (a3 a) 0) as [N6|N6]; [discriminate H|]. cbn [orb] in H. apply arg_do in H as (fd & E & H). wd H. apply as_peername; [apply int_only; assumption|exact N5|exact N6]. }
  discriminate H.
Qed.
Lemma asks_fun m a n o o' : bytes_only m -> asks m a n o -> asks m a n o' -> o = o'.
Proof. intros B H H'. destruct (asks_sound _ _ _ _ B H) as (d & E & _). destruct (asks_sound _ _ _ _ B H') as (d' & E' & _). congruence. Qed.

(** ** Memory *)
Lemma record_length f p i z : length (sock_bytes (GV4 f p i z)) = 16%nat.
Proof. cbn [sock_bytes]. rewrite !app_length, !length_le. reflexivity. Qed.
Lemma out_frame m p lp f po i z q : ~ (p <= q < p + 16) -> ~ (lp <= q < lp + 4) -> copy_out_sockaddr m p lp (GV4 f po i z) q = m q.
Proof.
  intros H1 H2. unfold copy_out_sockaddr. rewrite store_out by (rewrite length_le; lia). apply store_out. rewrite take_length, record_length. lia.
Qed.
Lemma out_bytes m p lp f po i z : bytes_only m -> bytes_only (copy_out_sockaddr m p lp (GV4 f po i z)).
Proof.
  intros B. unfold copy_out_sockaddr.
  assert (S0 : forall m q bs, bytes_only m -> Forall is_byte bs -> bytes_only (store m q bs)).
  { intros m' q bs Hm F a. unfold store. destruct ((q <=? a) && (a <? q + Z.of_nat (length bs))) eqn:E; [|apply Hm]. rewrite Forall_forall in F. apply F. apply elem_of_list_In. apply nth_In. lia. }
  apply S0; [|apply le_byte]. apply S0; [exact B|]. apply Forall_take. cbn [sock_bytes]. repeat (apply Forall_app; split); apply le_byte.
Qed.
Lemma out_record m p lp po i : bytes_only m -> lp + 4 <= p \/ p + 16 <= lp ->
  lies (copy_out_sockaddr m p lp (GV4 2 po i 0)) p (take (Z.to_nat (Z.min (number_at m lp) 16)) (v4_bytes po i)) /\
  number_at (copy_out_sockaddr m p lp (GV4 2 po i 0)) lp = 16.
Proof.
  intros B D. split; [|exact (copy_out_length m p lp (GV4 2 po i 0) B)]. intros k b Hk. unfold copy_out_sockaddr. rewrite load4. change (sock_len (GV4 2 po i 0)) with 16.
  assert (E : sock_bytes (GV4 2 po i 0) = v4_bytes po i).
  { unfold v4_bytes, le2, le4. cbn [sock_bytes le app]. rewrite !Z.div_div by lia. reflexivity. }
  assert (L : (k < length (take (Z.to_nat (Z.min (number_at m lp) 16)) (v4_bytes po i)))%nat) by (apply nth_error_Some; rewrite Hk; discriminate).
  pose proof L as L2. rewrite take_length in L2. change (length (v4_bytes po i)) with 16%nat in L2.
  rewrite E. rewrite store_out by (rewrite length_le; lia). rewrite store_in by exact L. apply (nth_error_nth _ _ 0) in Hk. exact Hk.
Qed.
