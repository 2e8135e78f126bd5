(** [from_double_scalarmult_vartime] computes [a]A + [b]B. *)
From Verif Require Import BaseFacts M_Slp M_FeProg M_Curve25519 M_EdConst M_Ed25519 S_Field S_Edwards
  P_Field P_Slp P_Fe P_FeBytes P_Inv P_X25519 P_FieldInv P_Edwards P_Ge P_Ge2 P_EdTable P_EdBase P_Slide.
From Coq Require Import ZifyBool.
Local Opaque ed_mul ed_add ed_B ed_zero ed_opp.

Lemma odd_table_ok b a2 A : on_curve A -> p3_rep a2 (ed_mul 2 A) -> forall n c m, cached_rep c (ed_mul m A) ->
  exists l, odd_table b a2 c n = Ok l /\ length l = S n /\
  forall j, (j <= n)%nat -> exists q, nth_error l j = Some q /\ cached_rep q (ed_mul (m + 2 * Z.of_nat j) A).
Proof.
  intros C H2. induction n as [|n IH]; intros c m Hc.
  - exists [c]. split; [reflexivity|]. split; [reflexivity|]. intros j Hj. exists c. replace j with 0%nat by lia.
    split; [reflexivity|]. rewrite Z.add_0_r. exact Hc.
  - cbn [odd_table].
    destruct (ge_add_ok b a2 c _ _ (on_curve_mul _ _ C) (on_curve_mul _ _ C) H2 Hc) as (t & -> & Rt). rewrite bind_ok.
    destruct (p1p1_to_p3_ok b t _ Rt) as (u & -> & Ru). rewrite bind_ok.
    destruct (p3_to_cached_ok b u _ Ru) as (c' & -> & Rc'). rewrite bind_ok.
    rewrite <- ed_mul_add in Rc' by exact C.
    destruct (IH c' _ Rc') as (l & -> & Ll & Hl). rewrite bind_ok. exists (c :: l). split; [reflexivity|].
    split; [cbn [length]; now rewrite Ll|]. intros [|j] Hj.
    + exists c. split; [reflexivity|]. rewrite Z.add_0_r. exact Hc.
    + destruct (Hl j (le_S_n _ _ Hj)) as (q & Eq & Rq). exists q. split; [exact Eq|].
      assert (E : m + 2 * Z.of_nat (S j) = 2 + m + 2 * Z.of_nat j) by (clear; lia). rewrite E. exact Rq.
Qed.

(** A table of odd multiples. *)
Definition otab (ai : list GeCached) (A : point) : Prop :=
  forall j, (j < 8)%nat -> exists q, nth_error ai j = Some q /\ cached_rep q (ed_mul (2 * Z.of_nat j + 1) A).

Lemma odd_half d : odd_digit d -> 0 < d -> (Z.to_nat (d / 2) < 8)%nat /\ 2 * Z.of_nat (Z.to_nat (d / 2)) + 1 = d.
Proof.
  intros [[q ->] B] H. assert (E : (2 * q + 1) / 2 = q) by (symmetry; apply (Z.div_unique _ _ _ 1); lia).
  rewrite E. lia.
Qed.
Lemma odd_opp d : odd_digit d -> odd_digit (- d).
Proof. intros [[q ->] B]. split; [exists (- q - 1); lia|lia]. Qed.

Lemma add_digit_a_ok b ai A d t P : on_curve A -> on_curve P -> otab ai A -> digit_ok d -> p1_rep t P ->
  exists r, add_digit_a b ai d t = Ok r /\ p1_rep r (ed_add P (ed_mul d A)).
Proof.
  intros CA CP T Hd Ht. unfold add_digit_a. destruct (Z.ltb_spec 0 d) as [Hp|Hp].
  - destruct Hd as [-> |Hd]; [lia|]. destruct (odd_half d Hd Hp) as [Hj Ej].
    destruct (p1p1_to_p3_ok b t _ Ht) as (u & -> & Ru). rewrite bind_ok.
    destruct (T _ Hj) as (q & Eq & Rq). unfold tidx. rewrite Eq, bind_ok. rewrite Ej in Rq.
    exact (ge_add_ok b u q _ _ CP (on_curve_mul _ _ CA) Ru Rq).
  - destruct (Z.ltb_spec d 0) as [Hn|Hn].
    + destruct Hd as [-> |Hd]; [lia|]. destruct (odd_half (- d) (odd_opp _ Hd) ltac:(lia)) as [Hj Ej].
      destruct (p1p1_to_p3_ok b t _ Ht) as (u & -> & Ru). rewrite bind_ok.
      destruct Hd as [_ DB]. rewrite schk_ok by lia. rewrite bind_ok.
      destruct (T _ Hj) as (q & Eq & Rq). unfold tidx. rewrite Eq, bind_ok. rewrite Ej in Rq.
      destruct (ge_sub_ok b u q _ _ CP (on_curve_mul _ _ CA) Ru Rq) as (r & E & R). exists r. split; [exact E|].
      rewrite <- ed_mul_opp, Z.opp_involutive in R. exact R.
    + assert (d = 0) by lia. subst d. exists t. split; [reflexivity|]. rewrite ed_mul_0, ed_add_0_r. exact Ht.
Qed.
Lemma add_digit_b_ok b d t P : on_curve P -> digit_ok d -> p1_rep t P ->
  exists r, add_digit_b b d t = Ok r /\ p1_rep r (ed_add P (ed_mul d ed_B)).
Proof.
  intros CP Hd Ht. pose proof on_curve_B as CB. unfold add_digit_b. destruct (Z.ltb_spec 0 d) as [Hp|Hp].
  - destruct Hd as [-> |Hd]; [lia|]. destruct (odd_half d Hd Hp) as [Hj Ej].
    destruct (p1p1_to_p3_ok b t _ Ht) as (u & -> & Ru). rewrite bind_ok.
    destruct (bi_entry _ Hj) as (q & Eq & Rq). unfold tidx. rewrite Eq, bind_ok. rewrite Ej in Rq.
    exact (ge_madd_ok b u _ _ _ CP (on_curve_mul _ _ CB) Ru Rq).
  - destruct (Z.ltb_spec d 0) as [Hn|Hn].
    + destruct Hd as [-> |Hd]; [lia|]. destruct (odd_half (- d) (odd_opp _ Hd) ltac:(lia)) as [Hj Ej].
      destruct (p1p1_to_p3_ok b t _ Ht) as (u & -> & Ru). rewrite bind_ok.
      destruct Hd as [_ DB]. rewrite schk_ok by lia. rewrite bind_ok.
      destruct (bi_entry _ Hj) as (q & Eq & Rq). unfold tidx. rewrite Eq, bind_ok. rewrite Ej in Rq.
      destruct (ge_msub_ok b u _ _ _ CP (on_curve_mul _ _ CB) Ru Rq) as (r & E & R). exists r. split; [exact E|].
      rewrite <- ed_mul_opp, Z.opp_involutive in R. exact R.
    + assert (d = 0) by lia. subst d. exists t. split; [reflexivity|]. rewrite ed_mul_0, ed_add_0_r. exact Ht.
Qed.

Lemma double_loop_ok b ai A asl bsl : on_curve A -> otab ai A -> (forall k, digit_ok (get asl k)) -> (forall k, digit_ok (get bsl k)) ->
  forall n r P, (n <= length asl)%nat -> (n <= length bsl)%nat -> on_curve P -> p2_rep r P ->
  exists r', double_loop b ai asl bsl n r = Ok r' /\
    p2_rep r' (ed_add (ed_mul (2 ^ Z.of_nat n) P) (ed_add (ed_mul (pval 2 (firstn n asl)) A) (ed_mul (pval 2 (firstn n bsl)) ed_B))).
Proof.
  intros CA T Da Db. pose proof on_curve_B as CB. induction n as [|i IH]; intros r P La Lb CP H.
  - exists r. split; [reflexivity|]. cbn [firstn]. change (pval 2 []) with 0. change (2 ^ Z.of_nat 0) with 1.
    rewrite (ed_mul_0 A), (ed_mul_0 ed_B), (ed_mul_1 P), (ed_add_0_r ed_zero), (ed_add_0_r P). exact H.
  - cbn [double_loop].
    destruct (p2_dbl_ok b r _ CP H) as (t & -> & Rt). rewrite bind_ok.
    destruct (add_digit_a_ok b ai A (get asl i) t _ CA (on_curve_add _ _ CP CP) T (Da i) Rt) as (t1 & -> & Rt1). rewrite bind_ok.
    assert (C1 : on_curve (ed_add (ed_add P P) (ed_mul (get asl i) A))) by auto using on_curve_mul with curve.
    destruct (add_digit_b_ok b (get bsl i) t1 _ C1 (Db i) Rt1) as (t2 & -> & Rt2). rewrite bind_ok.
    destruct (p1p1_to_p2_ok b t2 _ Rt2) as (r1 & -> & R1). rewrite bind_ok.
    assert (C2 : on_curve (ed_add (ed_add (ed_add P P) (ed_mul (get asl i) A)) (ed_mul (get bsl i) ed_B))) by auto using on_curve_mul with curve.
    destruct (IH r1 _ ltac:(lia) ltac:(lia) C2 R1) as (r' & -> & R'). exists r'. split; [reflexivity|].
    rewrite !pval_firstn_S by lia.
    match type of R' with p2_rep _ ?X => match goal with |- p2_rep _ ?Y => assert (EQ : Y = X); [|rewrite EQ; exact R'] end end.
    clear R' IH R1 r1 Rt2 t2 C2 Rt1 t1 C1 Rt t H T Da Db.
    set (m := 2 ^ Z.of_nat i). set (u := pval 2 (firstn i asl)). set (v := pval 2 (firstn i bsl)).
    set (x := get asl i). set (y := get bsl i).
    assert (EP : 2 ^ Z.of_nat (S i) = m + m) by (unfold m; rewrite Nat2Z.inj_succ, Z.pow_succ_r by lia; lia).
    rewrite EP. clearbody m u v x y.
    pose proof (on_curve_mul x A CA) as Cx. pose proof (on_curve_mul y ed_B CB) as Cy.
    rewrite (ed_mul_dist m (ed_add (ed_add P P) (ed_mul x A)) (ed_mul y ed_B)) by auto with curve.
    rewrite (ed_mul_dist m (ed_add P P) (ed_mul x A)) by auto with curve.
    rewrite (ed_mul_dist m P P) by exact CP.
    rewrite (ed_mul_mul m x A CA), (ed_mul_mul m y ed_B CB), (ed_mul_add u (m * x) A CA), (ed_mul_add v (m * y) ed_B CB), (ed_mul_add m m P CP).
    pose proof (on_curve_mul u A CA) as U. pose proof (on_curve_mul (m * x) A CA) as X. pose proof (on_curve_mul m P CP) as M.
    pose proof (on_curve_mul v ed_B CB) as V. pose proof (on_curve_mul (m * y) ed_B CB) as Y.
    generalize dependent (ed_mul u A). generalize dependent (ed_mul (m * x) A). generalize dependent (ed_mul m P).
    generalize dependent (ed_mul v ed_B). generalize dependent (ed_mul (m * y) ed_B). clear.
    intros Y CY V CV M CM X CX U CU.
    (* (M+M) + ((U+X) + (V+Y)) = ((M+M) + X) + Y + (U + V) *)
    pose proof (on_curve_add _ _ CM CM) as CMM. generalize dependent (ed_add M M). intros W CW.
    rewrite (ed_add_assoc (ed_add W X) Y (ed_add U V)) by auto with curve.
    rewrite (ed_add_assoc W X (ed_add Y (ed_add U V))) by auto with curve. f_equal.
    rewrite <- (ed_add_assoc Y U V) by auto with curve. rewrite (ed_add_comm Y U).
    rewrite (ed_add_assoc U Y V) by auto with curve. rewrite <- (ed_add_assoc X U (ed_add Y V)) by auto with curve.
    rewrite (ed_add_comm X U), (ed_add_comm Y V). reflexivity.
Qed.

Lemma skip_zeros_ok asl bsl n : (skip_zeros asl bsl n <= n)%nat /\
  (n <= length asl -> n <= length bsl ->
   pval 2 (firstn (skip_zeros asl bsl n) asl) = pval 2 (firstn n asl) /\
   pval 2 (firstn (skip_zeros asl bsl n) bsl) = pval 2 (firstn n bsl))%nat.
Proof.
  induction n as [|i [IH1 IH2]]; [split; [apply le_n|auto]|]. cbn [skip_zeros].
  destruct (Z.eqb_spec (get asl i) 0) as [Ea|Ea]; [|split; [apply le_n|auto]].
  destruct (Z.eqb_spec (get bsl i) 0) as [Eb|Eb]; [|split; [apply le_n|auto]].
  cbn [negb orb]. split; [lia|]. intros Ha Hb. destruct (IH2 ltac:(lia) ltac:(lia)) as [I1 I2].
  rewrite !pval_firstn_S, Ea, Eb, I1, I2 by lia. lia.
Qed.

Theorem from_double_scalarmult_ok b a ga A bs : bytes a -> (32 <= length a)%nat -> le_decode (firstn 32 a) < 2 ^ 253 ->
  bytes bs -> length bs = 32%nat -> le_decode bs < 2 ^ 253 -> on_curve A -> p3_rep ga A ->
  exists r, from_double_scalarmult b a ga bs = Ok r /\
    p2_rep r (ed_add (ed_mul (le_decode (firstn 32 a)) A) (ed_mul (le_decode bs) ed_B)).
Proof.
  intros Ba La Ha Bb Lb Hb CA HA. unfold from_double_scalarmult. rewrite Lb. change (assertb (32 =? 32)%nat) with (Ok tt). rewrite bind_ok.
  destruct (slide_ok b a Ba La Ha) as (asl & -> & Lasl & Dasl & Vasl). rewrite bind_ok.
  assert (Eb : firstn 32 bs = bs) by (rewrite <- Lb; apply firstn_all).
  destruct (slide_ok b bs Bb ltac:(lia) ltac:(rewrite Eb; exact Hb)) as (bsl & -> & Lbsl & Dbsl & Vbsl). rewrite bind_ok. rewrite Eb in Vbsl.
  destruct (p3_to_cached_ok b ga _ HA) as (c0 & -> & R0). rewrite bind_ok.
  destruct (p3_dbl_ok b ga _ CA HA) as (t & -> & Rt). rewrite bind_ok.
  destruct (p1p1_to_p3_ok b t _ Rt) as (a2 & -> & R2). rewrite bind_ok. rewrite <- ed_mul_2 in R2 by exact CA.
  assert (R0' : cached_rep c0 (ed_mul 1 A)) by (rewrite ed_mul_1; exact R0).
  destruct (odd_table_ok b a2 A CA R2 7 c0 1 R0') as (ai & -> & Lai & Hai). rewrite bind_ok.
  assert (T : otab ai A).
  { intros j Hj. destruct (Hai j ltac:(lia)) as (q & Eq & Rq). exists q. split; [exact Eq|].
    rewrite Z.add_comm. exact Rq. }
  destruct (skip_zeros_ok asl bsl 256) as [Hs Hv]. destruct (Hv ltac:(lia) ltac:(lia)) as [Va Vb].
  destruct (double_loop_ok b ai A asl bsl CA T Dasl Dbsl (skip_zeros asl bsl 256) _ _ ltac:(lia) ltac:(lia) on_curve_zero p2_zero_rep) as (r & -> & R).
  exists r. split; [reflexivity|]. rewrite Va, Vb in R.
  assert (E1 : firstn 256 asl = asl) by (rewrite <- Lasl; apply firstn_all).
  assert (E2 : firstn 256 bsl = bsl) by (rewrite <- Lbsl; apply firstn_all).
  rewrite E1, E2, Vasl, Vbsl, ed_mul_zero, ed_add_0_l in R. exact R.
Qed.
