(** 8 Lt kills every point of the twist. *)
From Verif Require Import BaseFacts S_Field S_Edwards S_Twist S_X25519 P_Field P_FieldInv P_Edwards P_TwEd P_X25519b P_Mont P_TwMont P_Twist
  P_EdDecode P_EdOrder P_PrimeT P_TwOrder.
From Coq Require Import Znumtheory.
Local Opaque tw_mul tw_add tw_zero tw_opp tw_d.

Lemma Lt_num : Lt = 2 ^ 253 - 55484635554744707071703875581767296995. Proof. reflexivity. Qed.
Lemma Lt_4 : rel_prime Lt 4.
Proof. apply prime_rel_prime; [exact prime_Lt|]. intros D. apply Z.divide_pos_le in D; [|reflexivity]. exact (D eq_refl). Qed.
Lemma tw_mul_sub m n P : tw_curve P -> tw_mul m P = tw_mul n P -> tw_mul (m - n) P = tw_zero.
Proof.
  intros C H. replace (m - n) with (m + - n) by (clear; lia).
  rewrite (tw_mul_add m (- n) P C), tw_mul_opp, H. exact (tw_opp_r _ (tw_curve_mul n P C)).
Qed.
Lemma tw_dec (P Q : point) : P = Q \/ P <> Q.
Proof.
  destruct P as [x y], Q as [x' y']. destruct (F_eq_dec x x') as [X|X].
  - destruct (F_eq_dec y y') as [Y|Y].
    + left. rewrite X, Y. exact eq_refl.
    + right. intros E. apply Y. exact (f_equal snd E).
  - right. intros E. apply X. exact (f_equal fst E).
Qed.

(** ** A point of order four *)
Definition T4 : point := (f_i, f0).
Lemma T4_curve : tw_curve T4.
Proof. unfold T4, tw_curve. transitivity (fopp (fmul f_i f_i)); [ring|]. rewrite f_i_sq. ring. Qed.
Lemma T4_2 : tw_mul 2 T4 = (f0, fopp f1).
Proof.
  rewrite (tw_mul_2 _ T4_curve). unfold T4. apply (tw_add_char _ _ _ _ _ _ T4_curve T4_curve); [ring|].
  transitivity (fmul f_i f_i); [rewrite f_i_sq; ring|ring].
Qed.
Lemma tw_m1_curve : tw_curve (f0, fopp f1). Proof. unfold tw_curve. ring. Qed.
Lemma T4_4 : tw_mul 4 T4 = tw_zero.
Proof.
  change 4 with (2 * 2). rewrite <- (tw_mul_mul 2 2 _ T4_curve), T4_2. exact (tw_x0_double _ tw_m1_curve eq_refl).
Qed.
Local Transparent tw_zero.
Lemma T4_2_neq0 : tw_mul 2 T4 <> tw_zero.
Proof. rewrite T4_2. intros E. apply (f_equal (fun P => fz (snd P))) in E. discriminate E. Qed.
Local Opaque tw_zero T4.
Lemma order_T4 n : tw_mul n T4 = tw_zero -> (4 | n).
Proof.
  intros H. pose proof (Z.div_mod n 4 ltac:(discriminate)) as D. pose proof (Z.mod_pos_bound n 4 ltac:(reflexivity)) as R.
  assert (K : forall u, tw_mul (u * n) T4 = tw_zero) by (intros u; rewrite <- (tw_mul_mul u n T4 T4_curve), H; apply tw_mul_zero).
  assert (K4 : forall u, tw_mul (u * 4) T4 = tw_zero) by (intros u; rewrite <- (tw_mul_mul u 4 T4 T4_curve), T4_4; apply tw_mul_zero).
  assert (G : forall u v, u * n + v * 4 = 2 -> False).
  { intros u v E. apply T4_2_neq0. rewrite <- E, (tw_mul_add _ _ T4 T4_curve), K, K4. exact (tw_add_0_r tw_zero). }
  set (q := n / 4) in *. set (r := n mod 4) in *. clearbody q r. clear H K K4.
  assert (r = 0 \/ r = 1 \/ r = 2 \/ r = 3) as C by (clear -R; lia).
  destruct C as [C|[C|[C|C] ] ]; rewrite C in D.
  - exists q. clear -D. lia.
  - exfalso. apply (G 2 (- 2 * q)). clear -D. lia.
  - exfalso. apply (G 1 (- q)). clear -D. lia.
  - exfalso. apply (G 2 (- 2 * q - 1)). clear -D. lia.
Qed.

(** ** Points are determined by y and the parity of x *)
Lemma tw_code_inj P Q : tw_curve P -> tw_curve Q -> code P = code Q -> P = Q.
Proof.
  intros CP CQ E. unfold code in E.
  pose proof (fz_range (snd P)) as RP. pose proof (fz_range (snd Q)) as RQ.
  assert (G : fz (snd P) = fz (snd Q) /\ fz (fst P) mod 2 = fz (fst Q) mod 2).
  { set (a := fz (snd P)) in *. set (b := fz (snd Q)) in *. set (s := fz (fst P) mod 2) in *. set (t := fz (fst Q) mod 2) in *.
    clearbody a b s t. clear -E RP RQ.
    assert (s = t); [|nia]. apply (f_equal (fun z => z / p)) in E. rewrite !(Z.mul_comm p), !Z.div_add in E by discriminate.
    rewrite !Z.div_small in E by assumption. exact E. }
  destruct G as [G1 G2]. destruct P as [x y], Q as [x' y']. cbn [fst snd] in *.
  assert (Ey : y' = y) by (rewrite <- (toF_fz y), <- (toF_fz y'), G1; exact eq_refl). rewrite Ey in *. clear Ey G1 RP RQ E.
  unfold tw_curve in CP, CQ.
  assert (N : fadd f1 (fmul tw_d (fmul y y)) <> f0).
  { intros E. assert (Ny : y <> f0).
    { intros Y. apply f1_neq0. rewrite Y in E. transitivity (1 + tw_d * (f0 * f0))%F; [ring|exact E]. }
    apply (tw_d_nonsquare (f_i / y)%F). transitivity ((f_i * f_i) / (y * y))%F; [field; exact Ny|]. rewrite f_i_sq.
    transitivity ((1 + tw_d * (y * y) - 1) / (y * y))%F; [rewrite E; field; exact Ny|field; exact Ny]. }
  assert (Q : (x' * x' = x * x)%F).
  { apply (fmul_cancel _ _ _ N).
    transitivity (y * y - (y * y - x' * x') + tw_d * (x' * x') * (y * y))%F; [ring|].
    transitivity (y * y - (y * y - x * x) + tw_d * (x * x) * (y * y))%F; [|ring]. rewrite CP, CQ. ring. }
  apply fsq_eq in Q. destruct Q as [Q|Q]; [rewrite Q; exact eq_refl|].
  destruct (F_eq_dec x f0) as [X0|X0].
  - rewrite Q, X0. apply (f_equal (fun t => (t, y))). ring.
  - exfalso. rewrite Q, (fopp_parity x X0) in G2. clear -G2. pose proof (Z.mod_pos_bound (fz x) 2 ltac:(reflexivity)). lia.
Qed.

Section Order.
  Variable G : point.
  Hypothesis CG : tw_curve G.
  Hypothesis NG : fst G <> f0.
  Hypothesis HG : tw_mul Lt G = tw_zero.

  Lemma G_neq0 : G <> tw_zero.
  Proof. intros E. apply NG. rewrite E. Local Transparent tw_zero. exact eq_refl. Local Opaque tw_zero. Qed.
  Lemma tw_mul_Lt k : tw_mul (k * Lt) G = tw_zero.
  Proof. rewrite <- (tw_mul_mul k Lt G CG), HG. apply tw_mul_zero. Qed.
  Lemma order_G n : tw_mul n G = tw_zero -> (Lt | n).
  Proof.
    intros H. destruct (Zdivide_dec Lt n) as [D|D]; [exact D|exfalso].
    destruct (rel_prime_bezout _ _ (prime_rel_prime Lt prime_Lt n D)) as [u v E].
    apply G_neq0. transitivity (tw_mul (u * Lt + v * n) G); [rewrite E; symmetry; exact (tw_mul_1 G)|].
    rewrite (tw_mul_add _ _ G CG), (tw_mul_Lt u), <- (tw_mul_mul v n G CG), H.
    rewrite (tw_mul_zero v). exact (tw_add_0_r tw_zero).
  Qed.

  Definition tcomb (n j : Z) : point := tw_add (tw_mul n G) (tw_mul j T4).
  Lemma tcomb_curve n j : tw_curve (tcomb n j).
  Proof. exact (tw_curve_add _ _ (tw_curve_mul n G CG) (tw_curve_mul j T4 T4_curve)). Qed.
  Lemma tw_add4 P Q R S : tw_curve P -> tw_curve Q -> tw_curve R -> tw_curve S ->
    tw_add (tw_add P Q) (tw_add R S) = tw_add (tw_add P R) (tw_add Q S).
  Proof.
    intros CP CQ CR CS.
    rewrite (tw_add_assoc P Q (tw_add R S) CP CQ (tw_curve_add _ _ CR CS)).
    rewrite <- (tw_add_assoc Q R S CQ CR CS), (tw_add_comm Q R), (tw_add_assoc R Q S CR CQ CS).
    rewrite <- (tw_add_assoc P R (tw_add Q S) CP CR (tw_curve_add _ _ CQ CS)). exact eq_refl.
  Qed.
  Lemma tcomb_add n j n' j' : tw_add (tcomb n j) (tcomb n' j') = tcomb (n + n') (j + j').
  Proof.
    unfold tcomb.
    rewrite (tw_add4 _ _ _ _ (tw_curve_mul n G CG) (tw_curve_mul j T4 T4_curve) (tw_curve_mul n' G CG) (tw_curve_mul j' T4 T4_curve)).
    rewrite (tw_mul_add n n' G CG), (tw_mul_add j j' T4 T4_curve). exact eq_refl.
  Qed.
  Lemma tcomb_0 : tcomb 0 0 = tw_zero.
  Proof. unfold tcomb. rewrite !tw_mul_0. exact (tw_add_0_r tw_zero). Qed.
  Lemma tcomb_opp n j : tw_opp (tcomb n j) = tcomb (- n) (- j).
  Proof.
    symmetry. apply (tw_opp_unique _ _ (tcomb_curve n j) (tcomb_curve (- n) (- j))).
    rewrite tcomb_add, !Z.add_opp_diag_r. exact tcomb_0.
  Qed.
  Lemma tcomb_zero n j : tcomb n j = tw_zero -> (Lt | n) /\ (4 | j).
  Proof.
    intros H.
    assert (E : tw_mul 4 (tcomb n j) = tw_mul (4 * n) G).
    { unfold tcomb. rewrite (tw_mul_dist 4 _ _ (tw_curve_mul n G CG) (tw_curve_mul j T4 T4_curve)).
      rewrite (tw_mul_mul 4 n G CG), (tw_mul_mul 4 j T4 T4_curve), (Z.mul_comm 4 j), <- (tw_mul_mul j 4 T4 T4_curve), T4_4.
      rewrite (tw_mul_zero j). exact (tw_add_0_r _). }
    assert (Dn : (Lt | n)).
    { rewrite H, (tw_mul_zero 4) in E. exact (Gauss _ _ _ (order_G _ (eq_sym E)) Lt_4). }
    split; [exact Dn|]. destruct Dn as [k ->]. unfold tcomb in H. rewrite (tw_mul_Lt k) in H.
    apply order_T4. rewrite <- H. symmetry. exact (tw_add_0_l _).
  Qed.
  Lemma tcomb_inj n j n' j' : tcomb n j = tcomb n' j' -> (Lt | n - n') /\ (4 | j - j').
  Proof.
    intros H. apply tcomb_zero. transitivity (tw_add (tcomb n j) (tw_opp (tcomb n' j'))).
    - rewrite tcomb_opp, tcomb_add. exact eq_refl.
    - rewrite H. exact (tw_opp_r _ (tcomb_curve n' j')).
  Qed.
  Lemma tcomb_4Lt n j : tw_mul (4 * Lt) (tcomb n j) = tw_zero.
  Proof.
    unfold tcomb. rewrite (tw_mul_dist (4 * Lt) _ _ (tw_curve_mul n G CG) (tw_curve_mul j T4 T4_curve)).
    rewrite (tw_mul_mul (4 * Lt) n G CG), (tw_mul_mul (4 * Lt) j T4 T4_curve).
    replace (4 * Lt * n) with (4 * n * Lt) by (clear; lia). replace (4 * Lt * j) with (Lt * j * 4) by (clear; lia).
    rewrite (tw_mul_Lt (4 * n)), <- (tw_mul_mul (Lt * j) 4 T4 T4_curve), T4_4, (tw_mul_zero (Lt * j)). exact (tw_add_0_r tw_zero).
  Qed.
  (** Two elements of different cosets. *)
  Lemma tcomb_coset P c n j c' n' j' : tw_curve P ->
    tw_add (tw_mul c P) (tcomb n j) = tw_add (tw_mul c' P) (tcomb n' j') -> tw_mul (c - c') P = tcomb (n' - n) (j' - j).
  Proof.
    intros CP E. pose proof (tw_curve_mul c P CP) as Cc. pose proof (tw_curve_mul (- c') P CP) as Cc'.
    pose proof (tcomb_curve n j) as Ch. pose proof (tcomb_curve (- n) (- j)) as Ch'.
    transitivity (tw_add (tw_add (tw_mul c P) (tcomb n j)) (tw_add (tw_mul (- c') P) (tcomb (- n) (- j)))).
    - rewrite (tw_add4 _ _ _ _ Cc Ch Cc' Ch'), <- (tw_mul_add c (- c') P CP), tcomb_add, !Z.add_opp_diag_r, tcomb_0.
      symmetry. exact (tw_add_0_r _).
    - rewrite E, (tw_add4 _ _ _ _ (tw_curve_mul c' P CP) (tcomb_curve n' j') Cc' Ch'), <- (tw_mul_add c' (- c') P CP), tcomb_add.
      rewrite Z.add_opp_diag_r, tw_mul_0, tw_add_0_l. exact eq_refl.
  Qed.
  Lemma in_sub_8Lt P d n j : tw_curve P -> d = 1 \/ d = -1 \/ d = 2 \/ d = -2 -> tw_mul d P = tcomb n j -> tw_mul (8 * Lt) P = tw_zero.
  Proof.
    intros CP Hd E.
    assert (K : exists e, 8 * Lt = e * (4 * Lt) * d).
    { destruct Hd as [-> |[-> |[-> | ->] ] ]; [exists 2|exists (-2)|exists 1|exists (-1)]; clear; lia. }
    destruct K as (e & ->). rewrite <- (tw_mul_mul (e * (4 * Lt)) d P CP), E.
    rewrite <- (tw_mul_mul e (4 * Lt) _ (tcomb_curve n j)), tcomb_4Lt. apply tw_mul_zero.
  Qed.

  (** The points n G + j T4 + c P, indexed by 0 <= i < 12 Lt. *)
  Definition tnth_pt (P : point) (i : Z) : point := tw_add (tw_mul (i / (4 * Lt)) P) (tcomb (i mod Lt) ((i / Lt) mod 4)).
  Lemma two_p_lt_12 : 2 * p < 12 * Lt. Proof. reflexivity. Qed.
  Theorem tw_order P : tw_curve P -> tw_mul (8 * Lt) P = tw_zero.
  Proof.
    intros CP. destruct (tw_dec (tw_mul (8 * Lt) P) tw_zero) as [DEC|DEC]; [exact DEC|exfalso].
    assert (NH : forall d n j, d = 1 \/ d = -1 \/ d = 2 \/ d = -2 -> tw_mul d P <> tcomb n j)
      by (intros d n j Hd E; apply DEC; exact (in_sub_8Lt P d n j CP Hd E)).
    assert (CC : forall i, tw_curve (tnth_pt P i)) by (intros i; exact (tw_curve_add _ _ (tw_curve_mul _ P CP) (tcomb_curve _ _))).
    assert (LB : 0 < Lt) by reflexivity.
    apply (Zlt_not_le _ _ two_p_lt_12). apply (pigeon (fun i => code (tnth_pt P i))).
    - clear -LB. lia.
    - clear. apply Z.leb_le. reflexivity.
    - intros i _. apply code_range.
    - intros i j Ri Rj E. apply (tw_code_inj _ _ (CC i) (CC j)) in E. unfold tnth_pt in E.
      assert (B : forall k, 0 <= k < 12 * Lt -> 0 <= k / (4 * Lt) < 3).
      { intros k R. split; [apply Z.div_pos; lia|apply Z.div_lt_upper_bound; lia]. }
      pose proof (B i Ri) as Bi. pose proof (B j Rj) as Bj. clear B.
      assert (EQ : i / (4 * Lt) = j / (4 * Lt)).
      { pose proof (tcomb_coset P _ _ _ _ _ _ CP E) as Q.
        destruct (Z.eq_dec (i / (4 * Lt)) (j / (4 * Lt))) as [Z0|Z0]; [exact Z0|exfalso].
        refine (NH _ _ _ _ Q). clear -Bi Bj Z0. lia. }
      rewrite EQ in E. apply (tw_cancel _ _ _ (tw_curve_mul _ P CP) (tcomb_curve _ _) (tcomb_curve _ _)) in E.
      apply tcomb_inj in E. destruct E as [D1 D4]. clear -EQ D1 D4 Ri Rj LB.
      assert (M1 : i mod Lt = j mod Lt).
      { exact (small_diff _ _ Lt (Z.mod_pos_bound i Lt ltac:(lia)) (Z.mod_pos_bound j Lt ltac:(lia)) D1). }
      assert (M4 : (i / Lt) mod 4 = (j / Lt) mod 4).
      { exact (small_diff _ _ 4 (Z.mod_pos_bound (i / Lt) 4 ltac:(lia)) (Z.mod_pos_bound (j / Lt) 4 ltac:(lia)) D4). }
      rewrite (Z.mul_comm 4 Lt), <- !Z.div_div in EQ by lia.
      rewrite (Z.div_mod i Lt), (Z.div_mod j Lt), M1 by lia.
      rewrite (Z.div_mod (i / Lt) 4), (Z.div_mod (j / Lt) 4), M4, EQ by lia. reflexivity.
  Qed.
End Order.
Theorem order_8Lt P : tw_curve P -> tw_mul (8 * Lt) P = tw_zero.
Proof. intros CP. destruct G_exists as (G & CG & NG & HG). exact (tw_order G CG NG HG P CP). Qed.
