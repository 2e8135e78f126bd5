(** Consequences of the order of the base point: collisions of keys, malleability, message binding. *)
From Verif Require Import BaseFacts M_Curve25519 S_Field S_Edwards S_X25519 S_Ed25519 P_Field P_FieldInv P_Edwards P_X25519 P_X25519b P_Mont P_EdDecode P_Ed25519 P_PrimeL P_EdOrder.
From Coq Require Import Znumtheory.
Local Opaque ed_mul ed_add ed_B ed_zero ed_opp ed_encode H512.

(** ** Clamped scalars *)
Lemma decode_scalar_form k : exists j, 0 <= j < 2 ^ 251 /\ decode_scalar k = 8 * j + 2 ^ 254.
Proof.
  exists ((le_decode k / 8) mod 2 ^ 251). split; [|reflexivity]. apply Z.mod_pos_bound. reflexivity.
Qed.
Lemma L_num : L = 2 ^ 252 + 27742317777372353535851937790883648493. Proof. reflexivity. Qed.
Lemma L_8 : rel_prime L 8.
Proof. apply prime_rel_prime; [exact prime_L|]. intros D. apply Z.divide_pos_le in D; [|lia]. rewrite L_num in D. lia. Qed.
Lemma L_2 : rel_prime L 2.
Proof. apply prime_rel_prime; [exact prime_L|]. intros D. apply Z.divide_pos_le in D; [|lia]. rewrite L_num in D. lia. Qed.
Lemma mul8L x : (L | 8 * x) -> exists k, x = k * L.
Proof. intros D. destruct (Gauss L 8 x D L_8) as [k E]. exists k. exact E. Qed.
Lemma clamped_not_L k : ~ (L | decode_scalar k).
Proof.
  destruct (decode_scalar_form k) as (j & R & ->). intros D.
  replace (8 * j + 2 ^ 254) with (8 * (j + 2 ^ 251)) in D by lia. apply mul8L in D as (q & E).
  rewrite L_num in E. assert (q <= 0 \/ 1 <= q) as [Q|Q] by lia; lia.
Qed.
Lemma clamped_eq a b : (decode_scalar a) mod L = (decode_scalar b) mod L -> decode_scalar a = decode_scalar b.
Proof.
  intros H. assert (D : (L | decode_scalar a - decode_scalar b)).
  { apply Z.mod_divide; [discriminate|]. rewrite Zminus_mod, H, Z.sub_diag. reflexivity. }
  destruct (decode_scalar_form a) as (i & Ri & Ea). destruct (decode_scalar_form b) as (j & Rj & Eb). rewrite Ea, Eb in *.
  replace (8 * i + 2 ^ 254 - (8 * j + 2 ^ 254)) with (8 * (i - j)) in D by lia. apply mul8L in D as (q & E).
  clear H Ea Eb. rewrite L_num in E. assert (q <= -1 \/ q = 0 \/ 1 <= q) as [Q|[Q|Q] ] by lia; lia.
Qed.
Lemma clamped_opp a b : (decode_scalar a + decode_scalar b) mod L = 0 <-> decode_scalar a + decode_scalar b = 8 * L.
Proof.
  split.
  - intros H. apply Z.mod_divide in H; [|discriminate].
    destruct (decode_scalar_form a) as (i & Ri & Ea). destruct (decode_scalar_form b) as (j & Rj & Eb). rewrite Ea, Eb in *.
    replace (8 * i + 2 ^ 254 + (8 * j + 2 ^ 254)) with (8 * (i + j + 2 ^ 252)) in H by lia. apply mul8L in H as (q & E).
    clear Ea Eb. rewrite L_num in *. assert (q <= 0 \/ q = 1 \/ 2 <= q) as [Q|[Q|Q] ] by lia; lia.
  - intros ->. apply Z.mod_mul. discriminate.
Qed.

(** ** Encoding is injective *)
Lemma encode_inj P Q : on_curve P -> on_curve Q -> ed_encode P = ed_encode Q -> P = Q.
Proof.
  intros CP CQ E. symmetry. apply (enc_lax_unique P Q CP). rewrite E. exact (rfc_lax _ _ (rfc_of_encode Q CQ)).
Qed.
Lemma pk_collision sk sk' : rfc_public_key sk = rfc_public_key sk' <-> ed_secret_scalar sk = ed_secret_scalar sk'.
Proof.
  unfold rfc_public_key. split; intros H.
  - apply (encode_inj _ _ (on_curve_mulB _) (on_curve_mulB _)) in H. apply mulB_inj in H. exact (clamped_eq _ _ H).
  - rewrite H. exact eq_refl.
Qed.

(** ** Malleability *)
Lemma ref10_same_R msg sig sig' pk : bytes pk -> ref10_verifies msg sig pk -> length sig' = 64%nat ->
  firstn 32 sig' = firstn 32 sig ->
  (ref10_verifies msg sig' pk <->
   le_decode (skipn 32 sig') < 2 ^ 253 /\ le_decode (skipn 32 sig') mod L = le_decode (skipn 32 sig) mod L).
Proof.
  intros Hb (_ & A & H) Ls EF. cbv zeta in H. destruct H as (LA & HS & HE).
  set (S := le_decode (skipn 32 sig)) in *. set (S' := le_decode (skipn 32 sig')) in *.
  assert (CA : on_curve A) by apply LA.
  set (k := le_decode (H512 (firstn 32 sig ++ pk ++ msg)) mod L) in *.
  assert (CK : on_curve (ed_opp (ed_mul k A))) by exact (on_curve_opp _ (on_curve_mul k A CA)).
  split.
  - intros (_ & A' & H). cbv zeta in H. destruct H as (LA' & HS' & HE').
    rewrite (lax_unique pk A' A Hb LA' LA), EF in HE'. fold k in HE'. fold S' in HE', HS'. split; [exact HS'|].
    rewrite <- HE in HE'.
    apply (encode_inj _ _ (on_curve_add _ _ (on_curve_mulB S') CK) (on_curve_add _ _ (on_curve_mulB S) CK)) in HE'.
    rewrite (ed_add_comm (ed_mul S' ed_B)), (ed_add_comm (ed_mul S ed_B)) in HE'.
    apply (ed_cancel _ _ _ CK (on_curve_mulB S') (on_curve_mulB S)) in HE'. apply mulB_inj. exact HE'.
  - intros (HS' & E). split; [exact Ls|]. exists A. cbv zeta. fold S'. split; [exact LA|]. split; [exact HS'|].
    rewrite EF. fold k. rewrite (proj2 (mulB_inj S' S) E). exact HE.
Qed.

(** ** Binding of the message *)
Lemma ref10_binding m m' sig sk pk : pk = rfc_public_key sk ->
  ref10_verifies m sig pk -> ref10_verifies m' sig pk ->
  le_decode (H512 (firstn 32 sig ++ pk ++ m)) mod L = le_decode (H512 (firstn 32 sig ++ pk ++ m')) mod L.
Proof.
  intros EP (_ & A & H) (_ & A' & H'). cbv zeta in H, H'. destruct H as (LA & _ & HE). destruct H' as (LA' & _ & HE').
  assert (E : forall X, lax_decodes pk X -> X = ed_mul (ed_secret_scalar sk) ed_B).
  { intros X LX. rewrite EP in LX. exact (enc_lax_unique _ X (on_curve_mulB _) LX). }
  rewrite (E A LA) in HE. rewrite (E A' LA') in HE'. clear E LA LA' A A'.
  set (k := le_decode (H512 (firstn 32 sig ++ pk ++ m)) mod L) in *.
  set (k' := le_decode (H512 (firstn 32 sig ++ pk ++ m')) mod L) in *.
  set (S := le_decode (skipn 32 sig)) in *. set (a := ed_secret_scalar sk) in *.
  rewrite <- HE' in HE.
  assert (C : forall n, on_curve (ed_opp (ed_mul n (ed_mul a ed_B))))
    by (intros n; exact (on_curve_opp _ (on_curve_mul n _ (on_curve_mulB a)))).
  apply (encode_inj _ _ (on_curve_add _ _ (on_curve_mulB S) (C k)) (on_curve_add _ _ (on_curve_mulB S) (C k'))) in HE.
  apply (ed_cancel _ _ _ (on_curve_mulB S) (C k) (C k')) in HE.
  rewrite <- !ed_mul_opp, !(ed_mul_mul _ _ ed_B on_curve_B) in HE. apply mulB_inj in HE.
  assert (D : (L | a * (k' - k))).
  { apply Z.mod_divide; [discriminate|]. replace (a * (k' - k)) with (- k * a - - k' * a) by (clear; ring).
    rewrite Zminus_mod, HE, Z.sub_diag. reflexivity. }
  destruct (prime_mult L prime_L _ _ D) as [X|X]; [exact (False_ind _ (clamped_not_L _ X))|].
  symmetry. exact (small_diff k' k L (modL_range _) (modL_range _) X).
Qed.

(** ** The u-line *)
Local Open Scope F_scope.
Lemma d1_neq0 : 1 + ed_d <> 0.
Proof.
  intros Q. pose proof ed_d_def as Ed. assert (Dd : ed_d = - f1) by (transitivity (1 + ed_d - 1); [ring|rewrite Q; ring]).
  rewrite Dd, c12 in Ed. apply f1_neq0. transitivity (toF 121665 + 1 - toF 121665); [ring|].
  transitivity (- (- f1 * (toF 121665 + 1)) - toF 121665); [ring|]. rewrite Ed. ring.
Qed.
Lemma y_unit x y : on_curve (x, y) -> y * y = 1 -> x = 0.
Proof.
  unfold on_curve. intros C Y.
  assert (Q : x * x * (1 + ed_d) = 0).
  { rewrite Y in C. transitivity (1 + ed_d * (x * x) * 1 - (1 - x * x)); [ring|]. rewrite <- C. ring. }
  apply fmul_eq0 in Q. destruct Q as [Q|Q]; [exact (fsq_eq0 x Q)|exact (False_ind _ (d1_neq0 Q))].
Qed.
Lemma sub_1 y : 1 - y = 0 -> y = f1.
Proof. intros E. transitivity (1 - (1 - y)); [ring|rewrite E; ring]. Qed.
Lemma y1_zero P : on_curve P -> snd P = f1 -> P = ed_zero.
Proof.
  destruct P as [x y]. cbn [snd]. intros C E. rewrite E in C. rewrite E. apply (y_unit x f1) in C; [|ring]. rewrite C. exact eq_refl.
Qed.
Lemma x0_double P : on_curve P -> fst P = 0 -> ed_mul 2 P = ed_zero.
Proof.
  intros C X. rewrite (ed_mul_2 P C).
  assert (E : ed_opp P = P).
  { destruct P as [x y]. cbn [fst] in X. rewrite X. Local Transparent ed_opp. unfold ed_opp. Local Opaque ed_opp.
    apply (f_equal (fun t => (t, y))). ring. }
  rewrite <- E at 2. exact (ed_opp_r P C).
Qed.
(** u = 0 exactly at the two points with x = 0. *)
Lemma mont_u_eq0 P : on_curve P -> mont_u P = 0 -> fst P = 0.
Proof.
  destruct P as [x y]. intros C H. cbn [fst]. apply (y_unit x y C). unfold mont_u in H.
  change (fdiv (1 + y) (1 - y)) with ((1 + y) * finv (1 - y)) in H. apply fmul_eq0 in H. destruct H as [H|H].
  - assert (Y : y = - f1) by (transitivity (1 + y - 1); [ring|rewrite H; ring]). rewrite Y. ring.
  - destruct (F_eq_dec (1 - y) 0) as [E|N].
    + assert (Y : y = 1) by (transitivity (1 - (1 - y)); [ring|rewrite E; ring]). rewrite Y. ring.
    + exfalso. apply f1_neq0. transitivity (finv (1 - y) * (1 - y)); [symmetry; exact (finv_l _ N)|rewrite H; ring].
Qed.
Lemma mont_u_opp P : mont_u (ed_opp P) = mont_u P.
Proof. destruct P as [x y]. exact eq_refl. Qed.
Lemma same_y x x' y : on_curve (x, y) -> on_curve (x', y) -> x' = x \/ x' = - x.
Proof.
  intros C C'. apply curve_root in C. apply curve_root in C'. rewrite <- C in C'.
  pose proof (fmul_cancel _ _ _ (dv_neq0 y) C') as E. exact (fsq_eq _ _ E).
Qed.
Lemma mont_u_eq P Q : on_curve P -> on_curve Q -> mont_u P = mont_u Q ->
  (fst P = 0 /\ fst Q = 0) \/ P = Q \/ P = ed_opp Q.
Proof.
  intros CP CQ H. destruct (F_eq_dec (mont_u P) 0) as [Z|N].
  - left. split; [exact (mont_u_eq0 P CP Z)|]. rewrite H in Z. exact (mont_u_eq0 Q CQ Z).
  - right. assert (N' : mont_u Q <> 0) by (rewrite <- H; exact N).
    destruct P as [x y], Q as [x' y'].
    assert (D : 1 - y <> 0) by (intros E; apply N; exact (mont_u_den0 x y E)).
    assert (D' : 1 - y' <> 0) by (intros E; apply N'; exact (mont_u_den0 x' y' E)).
    clear N N'. unfold mont_u in H.
    assert (M : (1 + y) * (1 - y') = (1 + y') * (1 - y)).
    { transitivity ((1 + y) / (1 - y) * ((1 - y) * (1 - y'))); [field; exact D|]. rewrite H. field. exact D'. }
    assert (Y : y = y').
    { apply (fmul_cancel (1 + 1)); [exact f2_neq0|].
      transitivity ((1 + y) * (1 - y') - (1 + y') * (1 - y) + (1 + 1) * y'); [ring|]. rewrite M. ring. }
    rewrite Y in *. destruct (same_y x x' y' CP CQ) as [E|E].
    + left. rewrite E. exact eq_refl.
    + right. Local Transparent ed_opp. unfold ed_opp. Local Opaque ed_opp. rewrite E. apply (f_equal (fun t => (t, y'))). ring.
Qed.
Local Close Scope F_scope.

(** ** X25519 *)
Lemma mulB_x0 n : fst (ed_mul n ed_B) = f0 -> (L | n).
Proof.
  intros H. apply (x0_double _ (on_curve_mulB n)) in H. rewrite (ed_mul_mul 2 n ed_B on_curve_B) in H. apply order_B in H.
  exact (Gauss L 2 n H L_2).
Qed.
Lemma mont_mulB m n : ~ (L | m) -> 
  (mont_u (ed_mul m ed_B) = mont_u (ed_mul n ed_B) <-> m mod L = n mod L \/ (m + n) mod L = 0).
Proof.
  intros NL. split; intros H.
  - apply (mont_u_eq _ _ (on_curve_mulB m) (on_curve_mulB n)) in H. destruct H as [[H _]|[H|H] ].
    + exact (False_ind _ (NL (mulB_x0 m H))).
    + left. apply mulB_inj. exact H.
    + right. rewrite <- (ed_mul_opp n ed_B) in H. apply mulB_inj in H. rewrite Z.add_mod, H, <- Z.add_mod by discriminate.
      rewrite Z.add_opp_diag_l. exact eq_refl.
  - destruct H as [H|H].
    + apply mulB_inj in H. rewrite H. exact eq_refl.
    + assert (E : m mod L = (- n) mod L).
      { replace m with (m + n + - n) by (clear; lia). rewrite Z.add_mod, H by discriminate. rewrite Z.add_0_l. apply Z.mod_mod. discriminate. }
      apply mulB_inj in E. rewrite E, ed_mul_opp. apply mont_u_opp.
Qed.
(** The multiple of a point by a clamped scalar has u = 0 exactly for the points of order dividing 8. *)
Lemma clamped_bezout k : exists u v, u * (2 * decode_scalar k) + v * (8 * L) = 8.
Proof.
  destruct (decode_scalar_form k) as (j & R & E).
  assert (N : ~ (L | 2 * (j + 2 ^ 251))).
  { intros D. apply (fun D => Gauss L 2 _ D L_2) in D. destruct D as [q D]. clear E. rewrite L_num in D.
    assert (q <= 0 \/ 1 <= q) as [Q|Q] by lia; lia. }
  destruct (rel_prime_bezout _ _ (prime_rel_prime L prime_L _ N)) as [u v B].
  exists v, u. rewrite E. transitivity (8 * (u * L + v * (2 * (j + 2 ^ 251)))); [clear; ring|]. rewrite B. reflexivity.
Qed.
Lemma clamped_zero k P : on_curve P -> (mont_u (ed_mul (decode_scalar k) P) = f0 <-> ed_mul 8 P = ed_zero).
Proof.
  intros C. split; intros H.
  - apply (mont_u_eq0 _ (on_curve_mul _ P C)) in H. apply (x0_double _ (on_curve_mul _ P C)) in H.
    rewrite (ed_mul_mul 2 _ P C) in H. destruct (clamped_bezout k) as (u & v & B).
    rewrite <- B, (ed_mul_add _ _ P C), <- (ed_mul_mul u _ P C), <- (ed_mul_mul v _ P C), H, (order_8L P C).
    rewrite !ed_mul_zero. exact (ed_add_0_r ed_zero).
  - rewrite (mul8_zero P _ C H (proj2 (decode_scalar_8 k))). exact mont_u_zero.
Qed.

Lemma encode_u_inj x y : le_encode 32 (fz x) = le_encode 32 (fz y) -> x = y.
Proof.
  intros H. change (encode_u x = encode_u y) in H. rewrite <- (decode_encode_u x), <- (decode_encode_u y), H. exact eq_refl.
Qed.
Lemma encode_u_zero x : le_encode 32 (fz x) = repeat 0 32 -> x = f0.
Proof. intros H. apply encode_u_inj. rewrite H. exact eq_refl. Qed.
Lemma dh_encoded b P sk : on_curve P -> length sk = 32%nat -> bytes sk ->
  x_dh b (le_encode 32 (fz (mont_u P))) sk = Ok (le_encode 32 (fz (mont_u (ed_mul (decode_scalar sk) P)))).
Proof.
  intros C Ls Bs. unfold x_dh.
  rewrite (P_X25519.scalarmult_ok b sk (le_encode 32 (fz (mont_u P)))) by (assumption || apply le_encode_length || apply le_encode_bytes).
  unfold x25519. change (le_encode 32 (fz (mont_u P))) with (encode_u (mont_u P)). rewrite decode_encode_u.
  rewrite (x25519_mul P _ C (decode_scalar_range sk) (proj2 (decode_scalar_8 sk))). exact eq_refl.
Qed.
Lemma mont_mulB_cancel a k1 k2 :
  mont_u (ed_mul (decode_scalar a) (ed_mul (decode_scalar k1) ed_B)) =
  mont_u (ed_mul (decode_scalar a) (ed_mul (decode_scalar k2) ed_B)) ->
  mont_u (ed_mul (decode_scalar k1) ed_B) = mont_u (ed_mul (decode_scalar k2) ed_B).
Proof.
  rewrite !(ed_mul_mul _ _ ed_B on_curve_B). intros H.
  pose proof (clamped_not_L a) as Na. pose proof (clamped_not_L k1) as N1.
  set (x := decode_scalar a) in *. set (y := decode_scalar k1) in *. set (z := decode_scalar k2) in *. clearbody x y z.
  assert (N : ~ (L | x * y)).
  { intros D. destruct (prime_mult L prime_L _ _ D) as [X|X]; [exact (Na X)|exact (N1 X)]. }
  apply (mont_mulB (x * y) (x * z) N) in H. apply (mont_mulB y z N1).
  assert (G : forall t, (x * t) mod L = 0 -> t mod L = 0).
  { intros t E. apply Z.mod_divide in E; [|discriminate]. apply Z.mod_divide; [discriminate|].
    destruct (prime_mult L prime_L _ _ E) as [X|X]; [exact (False_ind _ (Na X))|exact X]. }
  destruct H as [H|H].
  - left. assert (E : (y - z) mod L = 0).
    { apply G. rewrite Z.mul_sub_distr_l, Zminus_mod, H, Z.sub_diag. exact eq_refl. }
    apply Z.mod_divide in E; [|discriminate]. destruct E as [q E].
    replace y with (z + q * L) by (clear -E; lia). apply Z.mod_add. discriminate.
  - right. apply G. rewrite Z.mul_add_distr_l. exact H.
Qed.

(** ** The cofactored equation *)
Lemma ref10_cofactored m sig pk A : bytes sig -> bytes pk -> ref10_verifies m sig pk -> le_decode (skipn 32 sig) < L ->
  rfc_decodes pk A -> rfc_verifies_cofactored m sig pk.
Proof.
  intros Bs Bp (Ls & A' & H) HS HA. cbv zeta in H. destruct H as (LA & _ & HE).
  rewrite (lax_unique pk A' A Bp LA (rfc_lax _ _ HA)) in HE. clear A' LA.
  split; [exact Ls|]. assert (CA : on_curve A) by apply HA.
  set (S := le_decode (skipn 32 sig)) in *. set (k := le_decode (H512 (firstn 32 sig ++ pk ++ m))) in *.
  set (Q := ed_mul (k mod L) A) in *. assert (CQ : on_curve Q) by exact (on_curve_mul _ A CA).
  set (R := ed_add (ed_mul S ed_B) (ed_opp Q)) in *.
  assert (CR : on_curve R) by exact (on_curve_add _ _ (on_curve_mulB S) (on_curve_opp _ CQ)).
  exists R, A. cbv zeta. fold S k. split; [rewrite <- HE; exact (rfc_of_encode R CR)|]. split; [exact HA|].
  split; [split; [exact (proj1 (le_decode_range _ (bytes_skipn 32 sig Bs)))|exact HS]|].
  assert (E : ed_mul S ed_B = ed_add R Q) by (apply (ed_sub_eq _ Q R (on_curve_mulB S) CQ CR); exact eq_refl).
  rewrite E, (ed_mul_dist 8 R Q CR CQ). apply (f_equal (ed_add (ed_mul 8 R))).
  unfold Q. rewrite !(ed_mul_mul 8 _ A CA).
  assert (K : 8 * k = 8 * (k mod L) + k / L * (8 * L)).
  { rewrite (Z.div_mod k L) at 1 by discriminate. clear. generalize (k / L), (k mod L). intros q r. lia. }
  rewrite K, (ed_mul_add _ _ A CA), <- (ed_mul_mul (k / L) (8 * L) A CA), (order_8L A CA), (ed_mul_zero (k / L)).
  symmetry. exact (ed_add_0_r _).
Qed.
Local Transparent ed_zero ed_opp.
Definition T2 : point := (f0, fopp f1).
Lemma T2_curve : on_curve T2.
Proof. unfold on_curve, T2. ring. Qed.
Lemma T2_8 : ed_mul 8 T2 = ed_zero.
Proof.
  change 8 with (4 * 2). rewrite <- (ed_mul_mul 4 2 T2 T2_curve), (x0_double T2 T2_curve eq_refl). apply ed_mul_zero.
Qed.
Lemma enc_T2 : ed_encode T2 = le_encode 32 (p - 1).
Proof. Local Transparent ed_encode. vm_compute. reflexivity. Qed.
Lemma enc_O : ed_encode ed_zero = le_encode 32 1.
Proof. vm_compute. reflexivity. Qed.
Local Opaque ed_zero ed_opp ed_encode T2.
Lemma T2_neq : ed_encode ed_zero <> le_encode 32 (p - 1).
Proof. rewrite enc_O. vm_compute. intros X. discriminate X. Qed.
Lemma sig_ex_first : firstn 32 (le_encode 32 (p - 1) ++ repeat 0 32) = le_encode 32 (p - 1).
Proof. apply firstn_app_eq. reflexivity. Qed.
Lemma sig_ex_second : le_decode (skipn 32 (le_encode 32 (p - 1) ++ repeat 0 32)) = 0.
Proof. reflexivity. Qed.
Lemma cofactored_example m : rfc_verifies_cofactored m (le_encode 32 (p - 1) ++ repeat 0 32) (le_encode 32 1).
Proof.
  split; [reflexivity|]. exists T2, ed_zero. cbv zeta. rewrite sig_ex_first, sig_ex_second.
  split; [rewrite <- enc_T2; exact (rfc_of_encode T2 T2_curve)|].
  split; [rewrite <- enc_O; exact (rfc_of_encode ed_zero on_curve_zero)|].
  split; [split; [apply Z.le_refl|exact (proj1 L_bounds)]|].
  rewrite T2_8, !ed_mul_zero. symmetry. exact (ed_add_0_r ed_zero).
Qed.
Lemma cofactored_example_rejected m : ~ ref10_verifies m (le_encode 32 (p - 1) ++ repeat 0 32) (le_encode 32 1).
Proof.
  intros (_ & A & H). cbv zeta in H. rewrite sig_ex_first, sig_ex_second in H. destruct H as (LA & _ & HE).
  rewrite <- enc_O in LA. apply (enc_lax_unique ed_zero A on_curve_zero) in LA. rewrite LA in HE.
  rewrite (ed_mul_0 ed_B), ed_mul_zero, ed_opp_zero, (ed_add_0_r ed_zero) in HE. exact (T2_neq HE).
Qed.

(** ** Nonces *)
Lemma sign_first m sk : firstn 32 (rfc_sign m sk) = ed_encode (ed_mul (le_decode (H512 (ed_prefix sk ++ m))) ed_B).
Proof. unfold rfc_sign. cbv zeta. apply firstn_app_eq. apply enc_length. Qed.
Lemma sign_second m sk : le_decode (skipn 32 (rfc_sign m sk)) =
  (le_decode (H512 (ed_prefix sk ++ m)) +
   le_decode (H512 (firstn 32 (rfc_sign m sk) ++ rfc_public_key sk ++ m)) * ed_secret_scalar sk) mod L.
Proof.
  rewrite sign_first. unfold rfc_sign. cbv zeta. rewrite (skipn_app_eq 32 _ _ (enc_length _)). apply dec_modL.
Qed.
Lemma same_R m m' sk : firstn 32 (rfc_sign m sk) = firstn 32 (rfc_sign m' sk) <->
  le_decode (H512 (ed_prefix sk ++ m)) mod L = le_decode (H512 (ed_prefix sk ++ m')) mod L.
Proof.
  rewrite !sign_first. split; intros H.
  - apply mulB_inj. exact (encode_inj _ _ (on_curve_mulB _) (on_curve_mulB _) H).
  - apply mulB_inj in H. rewrite H. exact eq_refl.
Qed.
Lemma reuse_reveals m m' sk : firstn 32 (rfc_sign m sk) = firstn 32 (rfc_sign m' sk) ->
  ((le_decode (H512 (firstn 32 (rfc_sign m sk) ++ rfc_public_key sk ++ m)) -
    le_decode (H512 (firstn 32 (rfc_sign m' sk) ++ rfc_public_key sk ++ m'))) * ed_secret_scalar sk) mod L =
  (le_decode (skipn 32 (rfc_sign m sk)) - le_decode (skipn 32 (rfc_sign m' sk))) mod L.
Proof.
  intros HR. apply same_R in HR. rewrite !sign_second.
  set (k := le_decode (H512 (firstn 32 (rfc_sign m sk) ++ _ ++ _))).
  set (k' := le_decode (H512 (firstn 32 (rfc_sign m' sk) ++ _ ++ _))).
  set (r := le_decode (H512 (ed_prefix sk ++ m))) in *. set (r' := le_decode (H512 (ed_prefix sk ++ m'))) in *.
  set (a := ed_secret_scalar sk). clearbody k k' r r' a. rewrite <- Zminus_mod.
  replace (r + k * a - (r' + k' * a)) with ((r - r') + (k - k') * a) by (clear; ring).
  rewrite Z.add_mod, (Zminus_mod r r'), HR, Z.sub_diag by discriminate. rewrite Z.mod_0_l, Z.add_0_l, Z.mod_mod by discriminate.
  exact eq_refl.
Qed.
