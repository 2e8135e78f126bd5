(** The order of the base point is exactly L, and every point of the curve is killed by 8 L (the curve has 8 L
    points: the subgroup generated by the base point and a point of order 8 has that many, and there are at most
    2 p < 16 L points). *)
From Verif Require Import BaseFacts S_Field S_Edwards S_Ed25519 P_Field P_FieldInv P_Edwards P_Mont P_EdTable P_EdDecode P_Ed25519 P_PrimeL.
From Coq Require Import Znumtheory.
Local Opaque ed_mul ed_add ed_B ed_zero ed_opp ed_encode.

(** ** The base point *)
Local Transparent ed_B ed_zero.
Lemma B_neq0 : ed_B <> ed_zero.
Proof.
  intros E. apply (f_equal fst) in E. unfold ed_B, ed_zero in E. cbn [fst] in E. revert E.
  apply const_neq0. reflexivity.
Qed.
Local Opaque ed_B ed_zero.
Lemma order_B n : ed_mul n ed_B = ed_zero -> (L | n).
Proof.
  intros H. destruct (Zdivide_dec L n) as [D|D]; [exact D|exfalso].
  destruct (rel_prime_bezout _ _ (prime_rel_prime L prime_L n D)) as [u v E].
  apply B_neq0. transitivity (ed_mul (u * L + v * n) ed_B); [rewrite E; symmetry; exact (ed_mul_1 ed_B)|].
  rewrite (ed_mul_add _ _ ed_B on_curve_B), (ed_mul_L u), <- (ed_mul_mul v n ed_B on_curve_B), H.
  rewrite (ed_mul_zero v). exact (ed_add_0_r ed_zero).
Qed.
Lemma mul_sub m n P : on_curve P -> ed_mul m P = ed_mul n P -> ed_mul (m - n) P = ed_zero.
Proof.
  intros C H. replace (m - n) with (m + - n) by (clear; lia).
  rewrite (ed_mul_add m (- n) P C), ed_mul_opp, H. exact (ed_opp_r _ (on_curve_mul n P C)).
Qed.
Lemma mulB_inj m n : ed_mul m ed_B = ed_mul n ed_B <-> m mod L = n mod L.
Proof.
  split; [|exact (ed_mul_eqm m n)]. intros H. apply (mul_sub m n ed_B on_curve_B) in H. apply order_B in H.
  destruct H as [k H]. replace m with (n + k * L) by (clear -H; lia). apply Z.mod_add. discriminate.
Qed.

(** ** A point of order eight *)
Definition T8 : point := (f_i * toF y8a, toF y8a)%F.
Lemma order8_4 y : (ed_d * (y * y) * (y * y) = 1 - (1 + 1) * (y * y))%F ->
  ed_mul 4 (f_i * y, y)%F = (f0, fopp f1).
Proof.
  intros Hy. destruct (order8 y Hy) as [C _]. pose proof f_i_sq as Hi. set (i := f_i) in *. clearbody i.
  assert (C4 : on_curve (i, f0)).
  { unfold on_curve. transitivity (fopp (fmul i i)); [ring|]. rewrite Hi. ring. }
  assert (D1 : ed_add (fmul i y, y) (fmul i y, y) = (i, f0)).
  { apply (ed_add_char _ _ _ _ _ _ C C).
    - transitivity (i + i * ((i * i) * (ed_d * (y * y) * (y * y))))%F; [ring|]. rewrite Hy, Hi. ring.
    - transitivity (y * y + (i * i) * (y * y))%F; [rewrite Hi; ring|ring]. }
  assert (D2 : ed_add (i, f0) (i, f0) = (f0, fopp f1)).
  { apply (ed_add_char _ _ _ _ _ _ C4 C4); [ring|]. transitivity (fmul i i); [rewrite Hi; ring|ring]. }
  change 4 with (2 * 2). rewrite <- (ed_mul_mul 2 2 _ C), (ed_mul_2 _ C), D1, (ed_mul_2 _ C4). exact D2.
Qed.
Lemma y8a_ok : (ed_d * (toF y8a * toF y8a) * (toF y8a * toF y8a) = 1 - (1 + 1) * (toF y8a * toF y8a))%F.
Proof. apply y8_check. apply toF_eq. vm_compute. reflexivity. Qed.
Lemma T8_curve : on_curve T8. Proof. exact (proj1 (order8 _ y8a_ok)). Qed.
Lemma T8_8 : ed_mul 8 T8 = ed_zero. Proof. exact (proj2 (order8 _ y8a_ok)). Qed.
Local Transparent ed_zero.
Lemma T8_4 : ed_mul 4 T8 <> ed_zero.
Proof.
  unfold T8. rewrite (order8_4 _ y8a_ok). intros E. apply (f_equal (fun P => fz (snd P))) in E. discriminate E.
Qed.
Local Opaque ed_zero T8.
Lemma order_T8 n : ed_mul n T8 = ed_zero -> (8 | n).
Proof.
  intros H. pose proof (Z.div_mod n 8 ltac:(discriminate)) as D. pose proof (Z.mod_pos_bound n 8 ltac:(reflexivity)) as R.
  assert (K : forall u, ed_mul (u * n) T8 = ed_zero) by (intros u; rewrite <- (ed_mul_mul u n T8 T8_curve), H; apply ed_mul_zero).
  assert (K8 : forall u, ed_mul (u * 8) T8 = ed_zero) by (intros u; rewrite <- (ed_mul_mul u 8 T8 T8_curve), T8_8; apply ed_mul_zero).
  assert (G : forall u v, u * n + v * 8 = 4 -> False).
  { intros u v E. apply T8_4. rewrite <- E, (ed_mul_add _ _ T8 T8_curve), K, K8. exact (ed_add_0_r ed_zero). }
  set (q := n / 8) in *. set (r := n mod 8) in *. clearbody q r. clear H K K8.
  assert (r = 0 \/ r = 1 \/ r = 2 \/ r = 3 \/ r = 4 \/ r = 5 \/ r = 6 \/ r = 7) as C by (clear -R; lia).
  destruct C as [C|[C|[C|[C|[C|[C|[C|C] ] ] ] ] ] ]; rewrite C in D.
  - exists q. clear -D. lia.
  - exfalso. apply (G 4 (- 4 * q)). clear -D. lia.
  - exfalso. apply (G 2 (- 2 * q)). clear -D. lia.
  - exfalso. apply (G 4 (- 4 * q - 1)). clear -D. lia.
  - exfalso. apply (G 1 (- q)). clear -D. lia.
  - exfalso. apply (G 4 (- 4 * q - 2)). clear -D. lia.
  - exfalso. apply (G 2 (- 2 * q - 1)). clear -D. lia.
  - exfalso. apply (G 4 (- 4 * q - 3)). clear -D. lia.
Qed.

(** ** The subgroup they generate *)
Definition comb (n j : Z) : point := ed_add (ed_mul n ed_B) (ed_mul j T8).
Lemma comb_curve n j : on_curve (comb n j).
Proof. exact (on_curve_add _ _ (on_curve_mulB n) (on_curve_mul j T8 T8_curve)). Qed.
Lemma add4 P Q R S : on_curve P -> on_curve Q -> on_curve R -> on_curve S ->
  ed_add (ed_add P Q) (ed_add R S) = ed_add (ed_add P R) (ed_add Q S).
Proof.
  intros CP CQ CR CS.
  rewrite (ed_add_assoc P Q (ed_add R S) CP CQ (on_curve_add _ _ CR CS)).
  rewrite <- (ed_add_assoc Q R S CQ CR CS), (ed_add_comm Q R), (ed_add_assoc R Q S CR CQ CS).
  rewrite <- (ed_add_assoc P R (ed_add Q S) CP CR (on_curve_add _ _ CQ CS)). exact eq_refl.
Qed.
Lemma comb_add n j n' j' : ed_add (comb n j) (comb n' j') = comb (n + n') (j + j').
Proof.
  unfold comb.
  rewrite (add4 _ _ _ _ (on_curve_mulB n) (on_curve_mul j T8 T8_curve) (on_curve_mulB n') (on_curve_mul j' T8 T8_curve)).
  rewrite (ed_mul_add n n' ed_B on_curve_B), (ed_mul_add j j' T8 T8_curve). exact eq_refl.
Qed.
Lemma comb_0 : comb 0 0 = ed_zero.
Proof. unfold comb. rewrite !ed_mul_0. exact (ed_add_0_r ed_zero). Qed.
Lemma comb_opp n j : ed_opp (comb n j) = comb (- n) (- j).
Proof.
  symmetry. apply (ed_opp_unique _ _ (comb_curve n j) (comb_curve (- n) (- j))).
  rewrite comb_add, !Z.add_opp_diag_r. exact comb_0.
Qed.
Lemma comb_zero n j : comb n j = ed_zero -> (L | n) /\ (8 | j).
Proof.
  intros H.
  assert (E : ed_mul 8 (comb n j) = ed_mul (8 * n) ed_B).
  { unfold comb. rewrite (ed_mul_dist 8 _ _ (on_curve_mulB n) (on_curve_mul j T8 T8_curve)).
    rewrite (ed_mul_mul 8 n ed_B on_curve_B), (ed_mul_mul 8 j T8 T8_curve), (Z.mul_comm 8 j), <- (ed_mul_mul j 8 T8 T8_curve), T8_8.
    rewrite (ed_mul_zero j). exact (ed_add_0_r _). }
  assert (Dn : (L | n)).
  { rewrite H, (ed_mul_zero 8) in E. pose proof (order_B _ (eq_sym E)) as D. apply prime_mult in D; [|exact prime_L].
    destruct D as [D|D]; [|exact D]. exfalso. apply Z.divide_pos_le in D; [|reflexivity]. exact (D eq_refl). }
  split; [exact Dn|]. destruct Dn as [k ->]. unfold comb in H. rewrite (ed_mul_L k) in H.
  apply order_T8. rewrite <- H. symmetry. exact (ed_add_0_l _).
Qed.
Lemma comb_inj n j n' j' : comb n j = comb n' j' -> (L | n - n') /\ (8 | j - j').
Proof.
  intros H. apply comb_zero. transitivity (ed_add (comb n j) (ed_opp (comb n' j'))).
  - rewrite comb_opp, comb_add. exact eq_refl.
  - rewrite H. exact (ed_opp_r _ (comb_curve n' j')).
Qed.
Lemma comb_8L n j : ed_mul (8 * L) (comb n j) = ed_zero.
Proof.
  unfold comb. rewrite (ed_mul_dist (8 * L) _ _ (on_curve_mulB n) (on_curve_mul j T8 T8_curve)).
  rewrite (ed_mul_mul (8 * L) n ed_B on_curve_B), (ed_mul_mul (8 * L) j T8 T8_curve).
  replace (8 * L * n) with (8 * n * L) by (clear; lia). replace (8 * L * j) with (L * j * 8) by (clear; lia).
  rewrite (ed_mul_L (8 * n)), <- (ed_mul_mul (L * j) 8 T8 T8_curve), T8_8, (ed_mul_zero (L * j)). exact (ed_add_0_r ed_zero).
Qed.

Lemma comb_shift P n j n' j' : on_curve P -> ed_add P (comb n j) = comb n' j' -> P = comb (n' - n) (j' - j).
Proof.
  intros CP E. pose proof (comb_curve n j) as C. pose proof (on_curve_opp _ C) as CO.
  transitivity (ed_add (ed_add P (comb n j)) (ed_opp (comb n j))).
  - rewrite (ed_add_assoc P _ _ CP C CO), (ed_opp_r _ C). symmetry. exact (ed_add_0_r P).
  - rewrite E, comb_opp, comb_add. exact eq_refl.
Qed.

(** ** Counting *)
Lemma pigeon (f : Z -> Z) m n : 0 <= m -> 0 <= n -> (forall i, 0 <= i < m -> 0 <= f i < n) ->
  (forall i j, 0 <= i < m -> 0 <= j < m -> f i = f j -> i = j) -> m <= n.
Proof.
  intros Hm Hn Hf Hi.
  set (dom := map Z.of_nat (seq 0 (Z.to_nat m))). set (cod := map Z.of_nat (seq 0 (Z.to_nat n))).
  assert (ID : forall x, In x dom -> 0 <= x < m).
  { intros x Hx. apply in_map_iff in Hx as (k & <- & Hk). apply in_seq in Hk. lia. }
  assert (ND : NoDup (map f dom)).
  { assert (Nd : NoDup dom) by (apply FinFun.Injective_map_NoDup; [intros x y; lia|apply seq_NoDup]).
    clearbody dom. induction dom as [|x l IH]; [constructor|]. inversion Nd as [|? ? Hx Hl]; subst. cbn [map]. constructor.
    - intros C. apply in_map_iff in C as (y & E & Hy). apply Hi in E; [|apply ID; now right|apply ID; now left]. subst y. contradiction.
    - apply IH; [|exact Hl]. intros y Hy. apply ID. now right. }
  assert (IC : incl (map f dom) cod).
  { intros y Hy. apply in_map_iff in Hy as (x & <- & Hx). apply ID in Hx. apply Hf in Hx.
    apply in_map_iff. exists (Z.to_nat (f x)). split; [lia|]. apply in_seq. lia. }
  pose proof (NoDup_incl_length ND IC) as G. unfold dom, cod in G. rewrite !map_length, !seq_length in G. lia.
Qed.
Definition code (P : point) : Z := fz (snd P) + p * (fz (fst P) mod 2).
Lemma code_range P : 0 <= code P < 2 * p.
Proof.
  unfold code. pose proof (fz_range (snd P)) as R. pose proof (Z.mod_pos_bound (fz (fst P)) 2 ltac:(reflexivity)) as M.
  set (s := fz (fst P) mod 2) in *. clearbody s. assert (s = 0 \/ s = 1) as [-> | ->] by (clear -M; lia); clear -R; revert R; generalize (fz (snd P)); intros a R; unfold p in *; lia.
Qed.
Lemma code_inj P Q : on_curve P -> on_curve Q -> code P = code Q -> P = Q.
Proof.
  intros CP CQ E. unfold code in E.
  pose proof (fz_range (snd P)) as RP. pose proof (fz_range (snd Q)) as RQ.
  assert (G : fz (snd P) = fz (snd Q) /\ fz (fst P) mod 2 = fz (fst Q) mod 2).
  { set (a := fz (snd P)) in *. set (b := fz (snd Q)) in *. set (s := fz (fst P) mod 2) in *. set (t := fz (fst Q) mod 2) in *.
    clearbody a b s t. clear -E RP RQ.
    assert (s = t); [|nia]. apply (f_equal (fun z => z / p)) in E. rewrite !(Z.mul_comm p), !Z.div_add in E by discriminate.
    rewrite !Z.div_small in E by assumption. exact E. }
  destruct G as [G1 G2]. symmetry. apply (enc_lax_unique P Q CP).
  assert (EE : ed_encode P = ed_encode Q).
  { apply le_decode_inj; [apply enc_bytes|apply enc_bytes|rewrite !enc_length; reflexivity|]. rewrite !enc_decode, G1, G2. reflexivity. }
  rewrite EE. exact (rfc_lax _ _ (rfc_of_encode Q CQ)).
Qed.
Lemma small_diff a b n : 0 <= a < n -> 0 <= b < n -> (n | a - b) -> a = b.
Proof.
  intros Ha Hb [k D]. destruct (Z.eq_dec k 0) as [->|K]; [lia|]. exfalso.
  assert (k <= -1 \/ 1 <= k) as [J|J] by lia; nia.
Qed.
(** The points n B + j T8 + c P, indexed by 0 <= i < 16 L. *)
Definition nth_pt (P : point) (i : Z) : point :=
  ed_add (ed_mul (i / (8 * L)) P) (comb (i mod L) ((i / L) mod 8)).
Lemma two_p_lt : 2 * p < 16 * L. Proof. reflexivity. Qed.
Theorem order_8L P : on_curve P -> ed_mul (8 * L) P = ed_zero.
Proof.
  intros CP.
  assert (DEC : ed_mul (8 * L) P = ed_zero \/ ed_mul (8 * L) P <> ed_zero).
  { destruct (ed_mul (8 * L) P) as [x y]. destruct (F_eq_dec x (fst ed_zero)) as [X|X].
    - destruct (F_eq_dec y (snd ed_zero)) as [Y|Y].
      + left. rewrite X, Y. symmetry. apply surjective_pairing.
      + right. intros E. apply Y. rewrite <- E. exact eq_refl.
    - right. intros E. apply X. rewrite <- E. exact eq_refl. }
  destruct DEC as [DEC|DEC]; [exact DEC|exfalso].
  assert (NH : forall n j, P <> comb n j) by (intros n j E; apply DEC; rewrite E; apply comb_8L).
  assert (CC : forall i, on_curve (nth_pt P i)) by (intros i; exact (on_curve_add _ _ (on_curve_mul _ P CP) (comb_curve _ _))).
  pose proof L_bounds as LB.
  apply (Zlt_not_le _ _ two_p_lt). apply (pigeon (fun i => code (nth_pt P i))).
  - clear -LB. lia.
  - clear. apply Z.leb_le. reflexivity.
  - intros i _. apply code_range.
  - intros i j Ri Rj E. apply (code_inj _ _ (CC i) (CC j)) in E. unfold nth_pt in E.
    assert (Bi : i / (8 * L) = 0 \/ i / (8 * L) = 1).
    { assert (0 <= i / (8 * L) < 2); [|lia]. split; [apply Z.div_pos; lia|apply Z.div_lt_upper_bound; lia]. }
    assert (Bj : j / (8 * L) = 0 \/ j / (8 * L) = 1).
    { assert (0 <= j / (8 * L) < 2); [|lia]. split; [apply Z.div_pos; lia|apply Z.div_lt_upper_bound; lia]. }
    assert (EQ : i / (8 * L) = j / (8 * L) /\ comb (i mod L) ((i / L) mod 8) = comb (j mod L) ((j / L) mod 8)).
    { destruct Bi as [Bi|Bi], Bj as [Bj|Bj]; rewrite Bi, Bj in *.
      - rewrite !ed_mul_0, !ed_add_0_l in E. split; [reflexivity|exact E].
      - rewrite ed_mul_0, ed_add_0_l, ed_mul_1 in E. exfalso. exact (NH _ _ (comb_shift P _ _ _ _ CP (eq_sym E))).
      - rewrite ed_mul_0, ed_add_0_l, ed_mul_1 in E. exfalso. exact (NH _ _ (comb_shift P _ _ _ _ CP E)).
      - rewrite !ed_mul_1 in E. split; [reflexivity|]. exact (ed_cancel P _ _ CP (comb_curve _ _) (comb_curve _ _) E). }
    destruct EQ as [EQ1 EQ2]. apply comb_inj in EQ2. destruct EQ2 as [D1 D8]. clear -EQ1 D1 D8 Ri Rj LB.
    assert (M1 : i mod L = j mod L).
    { exact (small_diff _ _ L (Z.mod_pos_bound i L ltac:(lia)) (Z.mod_pos_bound j L ltac:(lia)) D1). }
    assert (M8 : (i / L) mod 8 = (j / L) mod 8).
    { exact (small_diff _ _ 8 (Z.mod_pos_bound (i / L) 8 ltac:(lia)) (Z.mod_pos_bound (j / L) 8 ltac:(lia)) D8). }
    rewrite (Z.mul_comm 8 L), <- !Z.div_div in EQ1 by lia.
    rewrite (Z.div_mod i L), (Z.div_mod j L), M1 by lia.
    rewrite (Z.div_mod (i / L) 8), (Z.div_mod (j / L) 8), M8, EQ1 by lia. reflexivity.
Qed.
