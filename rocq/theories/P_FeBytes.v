(** Loading and storing little-endian bytes. *)
From Verif Require Import BaseFacts M_Slp M_FeProg M_Curve25519 S_Field P_Field P_Slp P_Fe.

Lemma lor_add k x y : 0 <= k -> 0 <= x < 2 ^ k -> Z.lor x (y * 2 ^ k) = x + y * 2 ^ k.
Proof.
  intros Hk Hx. rewrite <- Z.lxor_lor.
  - symmetry. apply Z.add_nocarry_lxor. apply Z.bits_inj'. intros n Hn. rewrite Z.land_spec, Z.bits_0.
    destruct (Z.lt_ge_cases n k).
    + rewrite Z.mul_pow2_bits_low by lia. apply andb_false_r.
    + rewrite (testbit_high x k n) by lia. reflexivity.
  - apply Z.bits_inj'. intros n Hn. rewrite Z.land_spec, Z.bits_0.
    destruct (Z.lt_ge_cases n k).
    + rewrite Z.mul_pow2_bits_low by lia. apply andb_false_r.
    + rewrite (testbit_high x k n) by lia. reflexivity.
Qed.

Lemma ushl_small w x n : 0 <= n -> 0 <= x * 2 ^ n < 2 ^ w -> ushl w x n = x * 2 ^ n.
Proof. intros Hn H. unfold ushl. rewrite Z.shiftl_mul_pow2 by lia. apply Z.mod_small. lia. Qed.

Lemma load_3_ok x0 x1 x2 r : byte_ok x0 -> byte_ok x1 -> byte_ok x2 ->
  load_3 (x0 :: x1 :: x2 :: r) = Ok (x0 + 256 * (x1 + 256 * x2)).
Proof.
  unfold byte_ok. intros H0 H1 H2. unfold load_3, idx. cbn [nth_error bind].
  rewrite !ushl_small by lia. rewrite (lor_add 8 x0 x1) by lia.
  rewrite (lor_add 16) by lia. f_equal. lia.
Qed.
Lemma load_4_ok x0 x1 x2 x3 r : byte_ok x0 -> byte_ok x1 -> byte_ok x2 -> byte_ok x3 ->
  load_4 (x0 :: x1 :: x2 :: x3 :: r) = Ok (x0 + 256 * (x1 + 256 * (x2 + 256 * x3))).
Proof.
  unfold byte_ok. intros H0 H1 H2 H3. unfold load_4, idx. cbn [nth_error bind].
  rewrite !ushl_small by lia. rewrite (lor_add 8 x0 x1) by lia.
  rewrite (lor_add 16) by lia. rewrite (lor_add 24) by lia. f_equal. lia.
Qed.

Lemma le_decode_skipn n s : bytes s -> (n <= length s)%nat ->
  le_decode (skipn n s) = le_decode s / 2 ^ (8 * Z.of_nat n).
Proof.
  intros Hs Hn. rewrite <- (firstn_skipn n s) at 2. rewrite le_decode_app.
  pose proof (le_decode_range (firstn n s) (bytes_firstn n s Hs)) as R.
  unfold len in *. rewrite firstn_length_le in * by lia.
  rewrite Z.pow_mul_r by lia. change (2 ^ 8) with 256.
  apply Z.div_unique with (r := le_decode (firstn n s)); lia.
Qed.

Lemma load_3_at_ok s n : bytes s -> (n + 3 <= length s)%nat ->
  load_3_at s n = Ok ((le_decode s / 2 ^ (8 * Z.of_nat n)) mod 2 ^ 24).
Proof.
  intros Hs Hn. unfold load_3_at, from. rewrite (proj2 (Nat.leb_le _ _)) by lia. rewrite bind_ok.
  rewrite <- le_decode_skipn by (assumption || lia).
  assert (Hb : bytes (skipn n s)) by now apply bytes_skipn.
  assert (Hl : (3 <= length (skipn n s))%nat) by (rewrite skipn_length; lia).
  destruct (skipn n s) as [|x0 [|x1 [|x2 r]]]; cbn [length] in Hl; try lia.
  rewrite !bytes_cons in Hb. destruct Hb as (H0 & H1 & H2 & Hr).
  rewrite load_3_ok by assumption. f_equal. rewrite !le_decode_cons. unfold byte_ok in *.
  apply Z.mod_unique with (q := le_decode r); lia.
Qed.
Lemma load_4_at_ok s n : bytes s -> (n + 4 <= length s)%nat ->
  load_4_at s n = Ok ((le_decode s / 2 ^ (8 * Z.of_nat n)) mod 2 ^ 32).
Proof.
  intros Hs Hn. unfold load_4_at, from. rewrite (proj2 (Nat.leb_le _ _)) by lia. rewrite bind_ok.
  rewrite <- le_decode_skipn by (assumption || lia).
  assert (Hb : bytes (skipn n s)) by now apply bytes_skipn.
  assert (Hl : (4 <= length (skipn n s))%nat) by (rewrite skipn_length; lia).
  destruct (skipn n s) as [|x0 [|x1 [|x2 [|x3 r]]]]; cbn [length] in Hl; try lia.
  rewrite !bytes_cons in Hb. destruct Hb as (H0 & H1 & H2 & H3 & Hr).
  rewrite load_4_ok by assumption. f_equal. rewrite !le_decode_cons. unfold byte_ok in *.
  apply Z.mod_unique with (q := le_decode r); lia.
Qed.
Lemma load_4_at_0 s : load_4 s = load_4_at s 0.
Proof. reflexivity. Qed.
Lemma load_3_at_0 s : load_3 s = load_3_at s 0.
Proof. reflexivity. Qed.

Lemma mod_split N a c : 0 <= a -> 0 <= c -> N mod 2 ^ (a + c) = N mod 2 ^ a + 2 ^ a * ((N / 2 ^ a) mod 2 ^ c).
Proof. intros. rewrite Z.pow_add_r by lia. apply Z.rem_mul_r; [apply Z.pow_nonzero; lia|apply Z.pow_pos_nonneg; lia]. Qed.

Definition load_ivls : list ivl :=
  [(0, 4294967295); (0, 1073741760); (0, 536870880); (0, 134217720); (0, 67108860);
   (0, 4294967295); (0, 2147483520); (0, 536870880); (0, 268435440); (0, 33554428)].
Lemma from_bytes_bounded : bounded from_bytes_prog load_ivls (ivls 1) = true.
Proof. vm_compute. reflexivity. Qed.
Lemma from_bytes_congr : congr p from_bytes_prog ws (wparams ws (params from_bytes_prog)) = true.
Proof. vm_compute. reflexivity. Qed.
Lemma from_bytes_nodup : NoDup (params from_bytes_prog).
Proof. apply nodupb_ok. vm_compute. reflexivity. Qed.

Lemma swrap64 v : 0 <= v < 2 ^ 63 -> swrap 64 v = v.
Proof. intros H. apply swrap_id; [lia|]. change (2 ^ (64 - 1)) with (2 ^ 63). lia. Qed.

Lemma fe_from_bytes_ok b s : bytes s -> length s = 32%nat ->
  exists h, fe_from_bytes b s = Ok h /\ bnd 1 h /\ fv h = toF (le_decode s mod 2 ^ 255).
Proof.
  intros Hs Hl. unfold fe_from_bytes. rewrite load_4_at_0.
  rewrite !load_4_at_ok, !load_3_at_ok by (assumption || lia). rewrite !bind_ok.
  set (N := le_decode s).
  change (8 * Z.of_nat 0) with 0. change (8 * Z.of_nat 4) with 32. change (8 * Z.of_nat 7) with 56.
  change (8 * Z.of_nat 10) with 80. change (8 * Z.of_nat 13) with 104. change (8 * Z.of_nat 16) with 128.
  change (8 * Z.of_nat 20) with 160. change (8 * Z.of_nat 23) with 184. change (8 * Z.of_nat 26) with 208.
  change (8 * Z.of_nat 29) with 232. rewrite Z.pow_0_r, Z.div_1_r.
  change 8388607 with (Z.ones 23). rewrite Z.land_ones by lia.
  assert (E9 : ((N / 2 ^ 232) mod 2 ^ 24) mod 2 ^ 23 = (N / 2 ^ 232) mod 2 ^ 23).
  { change 24 with (23 + 1). rewrite mod_split by lia. rewrite Z.mul_comm, Z.mod_add by (compute; discriminate).
    apply Z.mod_mod. compute; discriminate. }
  rewrite E9.
  assert (EN : N mod 2 ^ 255 = N mod 2 ^ 32 + 2 ^ 32 * ((N / 2 ^ 32) mod 2 ^ 24) + 2 ^ 56 * ((N / 2 ^ 56) mod 2 ^ 24)
    + 2 ^ 80 * ((N / 2 ^ 80) mod 2 ^ 24) + 2 ^ 104 * ((N / 2 ^ 104) mod 2 ^ 24) + 2 ^ 128 * ((N / 2 ^ 128) mod 2 ^ 32)
    + 2 ^ 160 * ((N / 2 ^ 160) mod 2 ^ 24) + 2 ^ 184 * ((N / 2 ^ 184) mod 2 ^ 24) + 2 ^ 208 * ((N / 2 ^ 208) mod 2 ^ 24)
    + 2 ^ 232 * ((N / 2 ^ 232) mod 2 ^ 23)).
  { pose proof (mod_split N 232 23 ltac:(clear; lia) ltac:(clear; lia)) as A0. change (232 + 23) with 255 in A0.
    pose proof (mod_split N 208 24 ltac:(clear; lia) ltac:(clear; lia)) as A1. change (208 + 24) with 232 in A1.
    pose proof (mod_split N 184 24 ltac:(clear; lia) ltac:(clear; lia)) as A2. change (184 + 24) with 208 in A2.
    pose proof (mod_split N 160 24 ltac:(clear; lia) ltac:(clear; lia)) as A3. change (160 + 24) with 184 in A3.
    pose proof (mod_split N 128 32 ltac:(clear; lia) ltac:(clear; lia)) as A4. change (128 + 32) with 160 in A4.
    pose proof (mod_split N 104 24 ltac:(clear; lia) ltac:(clear; lia)) as A5. change (104 + 24) with 128 in A5.
    pose proof (mod_split N 80 24 ltac:(clear; lia) ltac:(clear; lia)) as A6. change (80 + 24) with 104 in A6.
    pose proof (mod_split N 56 24 ltac:(clear; lia) ltac:(clear; lia)) as A7. change (56 + 24) with 80 in A7.
    pose proof (mod_split N 32 24 ltac:(clear; lia) ltac:(clear; lia)) as A8. change (32 + 24) with 56 in A8.
    rewrite A0, A1, A2, A3, A4, A5, A6, A7, A8. reflexivity. }
  rewrite EN. clear EN E9.
  assert (R : forall a c, 0 < c -> 0 <= a mod c < c) by (intros; now apply Z.mod_pos_bound).
  pose proof (R N (2 ^ 32) ltac:(lia)). pose proof (R (N / 2 ^ 32) (2 ^ 24) ltac:(lia)).
  pose proof (R (N / 2 ^ 56) (2 ^ 24) ltac:(lia)). pose proof (R (N / 2 ^ 80) (2 ^ 24) ltac:(lia)).
  pose proof (R (N / 2 ^ 104) (2 ^ 24) ltac:(lia)). pose proof (R (N / 2 ^ 128) (2 ^ 32) ltac:(lia)).
  pose proof (R (N / 2 ^ 160) (2 ^ 24) ltac:(lia)). pose proof (R (N / 2 ^ 184) (2 ^ 24) ltac:(lia)).
  pose proof (R (N / 2 ^ 208) (2 ^ 24) ltac:(lia)). pose proof (R (N / 2 ^ 232) (2 ^ 23) ltac:(lia)).
  generalize dependent (N mod 2 ^ 32). intros l0 ?. generalize dependent ((N / 2 ^ 32) mod 2 ^ 24). intros l1 ?.
  generalize dependent ((N / 2 ^ 56) mod 2 ^ 24). intros l2 ?. generalize dependent ((N / 2 ^ 80) mod 2 ^ 24). intros l3 ?.
  generalize dependent ((N / 2 ^ 104) mod 2 ^ 24). intros l4 ?. generalize dependent ((N / 2 ^ 128) mod 2 ^ 32). intros l5 ?.
  generalize dependent ((N / 2 ^ 160) mod 2 ^ 24). intros l6 ?. generalize dependent ((N / 2 ^ 184) mod 2 ^ 24). intros l7 ?.
  generalize dependent ((N / 2 ^ 208) mod 2 ^ 24). intros l8 ?. generalize dependent ((N / 2 ^ 232) mod 2 ^ 23). intros l9 ?.
  clear R N Hs Hl.
  rewrite !ushl_small by lia. rewrite !swrap64 by lia.
  set (vs := [l0; l1 * 2 ^ 6; l2 * 2 ^ 5; l3 * 2 ^ 3; l4 * 2 ^ 2; l5; l6 * 2 ^ 7; l7 * 2 ^ 5; l8 * 2 ^ 4; l9 * 2 ^ 2]).
  assert (Hi : Forall2 inr load_ivls vs).
  { unfold load_ivls, vs, inr. repeat (constructor; [cbn [fst snd]; lia|]). constructor. }
  destruct (bounded_sound _ _ _ b _ from_bytes_bounded Hi) as [E B].
  exists (irun from_bytes_prog vs). split; [exact E|]. split; [now apply bnd_ivls|].
  pose proof (congr_sound p _ ws _ vs p_nz from_bytes_congr) as Hc. apply eqm_toF in Hc.
  unfold fv, fval. rewrite Hc, wparams_ok, (lookup_params _ from_bytes_nodup) by reflexivity.
  f_equal. unfold vs, ws. cbn [wsum]. lia.
Qed.

(** ** Storing *)
Definition digit_ivls : list ivl :=
  [(0, 67108863); (0, 33554431); (0, 67108863); (0, 33554431); (0, 67108863);
   (0, 33554431); (0, 67108863); (0, 33554431); (0, 67108863); (0, 33554431)].

Lemma as_u8_lor k a h : 0 <= k <= 8 -> 0 <= a < 2 ^ k ->
  as_u8 (Z.lor a (shl32 h k)) = a + 2 ^ k * (h mod 2 ^ (8 - k)).
Proof.
  intros Hk Ha. unfold as_u8. change 256 with (2 ^ 8) at 1. rewrite <- Z.land_ones by lia.
  rewrite Z.land_lor_distr_l, !Z.land_ones by lia.
  assert (Ea : a mod 2 ^ 8 = a).
  { apply Z.mod_small. assert (2 ^ k <= 2 ^ 8) by (apply Z.pow_le_mono_r; lia). lia. }
  assert (Es : shl32 h k mod 2 ^ 8 = h mod 2 ^ (8 - k) * 2 ^ k).
  { unfold shl32, swrap. rewrite Z.shiftl_mul_pow2 by lia. change (2 ^ (32 - 1)) with (2 ^ 31).
    transitivity ((h * 2 ^ k) mod 2 ^ 8).
    - rewrite Zminus_mod. change (2 ^ 32) with (2 ^ 8 * 2 ^ 24). rewrite Z.rem_mul_r by lia.
      rewrite Z.add_mod by lia. rewrite (Z.mul_comm (2 ^ 8)), Z.mod_mul, Z.add_0_r, !Z.mod_mod by lia.
      rewrite <- Zminus_mod. f_equal. ring.
    - replace (2 ^ 8) with (2 ^ (8 - k) * 2 ^ k) by (rewrite <- Z.pow_add_r by lia; f_equal; lia).
      apply Z.mul_mod_distr_r; apply Z.pow_nonzero; lia. }
  rewrite Ea, Es, lor_add by lia. lia.
Qed.

Lemma split4 h a : 0 <= a -> h = h mod 2 ^ a + 2 ^ a * ((h / 2 ^ a) mod 256)
  + 2 ^ (a + 8) * ((h / 2 ^ (a + 8)) mod 256) + 2 ^ (a + 16) * (h / 2 ^ (a + 16)).
Proof.
  intros Ha. change 256 with (2 ^ 8).
  pose proof (mod_split h a 8 Ha ltac:(lia)). pose proof (mod_split h (a + 8) 8 ltac:(lia) ltac:(lia)) as H1.
  replace (a + 8 + 8) with (a + 16) in H1 by lia.
  pose proof (Z.div_mod h (2 ^ (a + 16))) as H2.
  assert (2 ^ (a + 16) <> 0) by (apply Z.pow_nonzero; lia). lia.
Qed.

Lemma shiftr_small h k m : 0 <= k -> 0 <= h < 2 ^ (k + m) -> 0 <= m -> 0 <= Z.shiftr h k < 2 ^ m.
Proof.
  intros Hk H Hm. rewrite Z.shiftr_div_pow2 by lia. rewrite Z.pow_add_r in H by lia.
  split; [apply Z.div_pos; [lia|apply Z.pow_pos_nonneg; lia]|].
  apply Z.div_lt_upper_bound; [apply Z.pow_pos_nonneg; lia|lia].
Qed.

Lemma fe_bytes_ok h : Forall2 inr digit_ivls h -> le_decode (fe_bytes h) = fval h /\ bytes (fe_bytes h) /\ length (fe_bytes h) = 32%nat.
Proof.
  intros H. unfold digit_ivls in H.
  repeat match goal with
  | H : Forall2 inr (_ :: _) _ |- _ => inversion H; subst; clear H
  | H : Forall2 inr [] _ |- _ => inversion H; subst; clear H
  end.
  repeat match goal with H : inr _ _ |- _ => unfold inr in H; cbn [fst snd] in H end.
  match goal with |- context [fe_bytes [?a;?b;?c;?d;?e;?f;?g;?h;?i;?j]] =>
    rename a into h0; rename b into h1; rename c into h2; rename d into h3; rename e into h4;
    rename f into h5; rename g into h6; rename h into h7; rename i into h8; rename j into h9 end.
  assert (E : fe_bytes [h0;h1;h2;h3;h4;h5;h6;h7;h8;h9] =
    [h0 mod 256; (h0 / 2 ^ 8) mod 256; (h0 / 2 ^ 16) mod 256; h0 / 2 ^ 24 + 2 ^ 2 * (h1 mod 2 ^ 6);
     (h1 / 2 ^ 6) mod 256; (h1 / 2 ^ 14) mod 256; h1 / 2 ^ 22 + 2 ^ 3 * (h2 mod 2 ^ 5);
     (h2 / 2 ^ 5) mod 256; (h2 / 2 ^ 13) mod 256; h2 / 2 ^ 21 + 2 ^ 5 * (h3 mod 2 ^ 3);
     (h3 / 2 ^ 3) mod 256; (h3 / 2 ^ 11) mod 256; h3 / 2 ^ 19 + 2 ^ 6 * (h4 mod 2 ^ 2);
     (h4 / 2 ^ 2) mod 256; (h4 / 2 ^ 10) mod 256; (h4 / 2 ^ 18) mod 256;
     h5 mod 256; (h5 / 2 ^ 8) mod 256; (h5 / 2 ^ 16) mod 256; h5 / 2 ^ 24 + 2 ^ 1 * (h6 mod 2 ^ 7);
     (h6 / 2 ^ 7) mod 256; (h6 / 2 ^ 15) mod 256; h6 / 2 ^ 23 + 2 ^ 3 * (h7 mod 2 ^ 5);
     (h7 / 2 ^ 5) mod 256; (h7 / 2 ^ 13) mod 256; h7 / 2 ^ 21 + 2 ^ 4 * (h8 mod 2 ^ 4);
     (h8 / 2 ^ 4) mod 256; (h8 / 2 ^ 12) mod 256; h8 / 2 ^ 20 + 2 ^ 6 * (h9 mod 2 ^ 2);
     (h9 / 2 ^ 2) mod 256; (h9 / 2 ^ 10) mod 256; (h9 / 2 ^ 18) mod 256]).
  { unfold fe_bytes, get. cbn [nth]. cbv zeta.
    rewrite (as_u8_lor 2 (Z.shiftr h0 24)) by (try apply (shiftr_small h0 24 2); lia).
    rewrite (as_u8_lor 3 (Z.shiftr h1 22)) by (try apply (shiftr_small h1 22 3); lia).
    rewrite (as_u8_lor 5 (Z.shiftr h2 21)) by (try apply (shiftr_small h2 21 5); lia).
    rewrite (as_u8_lor 6 (Z.shiftr h3 19)) by (try apply (shiftr_small h3 19 6); lia).
    rewrite (as_u8_lor 1 (Z.shiftr h5 24)) by (try apply (shiftr_small h5 24 1); lia).
    rewrite (as_u8_lor 3 (Z.shiftr h6 23)) by (try apply (shiftr_small h6 23 3); lia).
    rewrite (as_u8_lor 4 (Z.shiftr h7 21)) by (try apply (shiftr_small h7 21 4); lia).
    rewrite (as_u8_lor 6 (Z.shiftr h8 20)) by (try apply (shiftr_small h8 20 6); lia).
    unfold as_u8. rewrite !Z.shiftr_div_pow2 by lia. reflexivity. }
  rewrite E. clear E.
  assert (Q : forall h k m, 0 <= k -> 0 <= m -> 0 <= h < 2 ^ (k + m) -> 0 <= h / 2 ^ k < 2 ^ m).
  { intros h k m Hk Hm Hh. rewrite <- Z.shiftr_div_pow2 by lia. now apply shiftr_small. }
  pose proof (Q h0 24 2 ltac:(clear; lia) ltac:(clear; lia) ltac:(assumption || lia)). pose proof (Q h1 22 3 ltac:(clear; lia) ltac:(clear; lia) ltac:(assumption || lia)).
  pose proof (Q h2 21 5 ltac:(clear; lia) ltac:(clear; lia) ltac:(assumption || lia)). pose proof (Q h3 19 6 ltac:(clear; lia) ltac:(clear; lia) ltac:(assumption || lia)).
  pose proof (Q h4 18 8 ltac:(clear; lia) ltac:(clear; lia) ltac:(assumption || lia)). pose proof (Q h5 24 1 ltac:(clear; lia) ltac:(clear; lia) ltac:(assumption || lia)).
  pose proof (Q h6 23 3 ltac:(clear; lia) ltac:(clear; lia) ltac:(assumption || lia)). pose proof (Q h7 21 4 ltac:(clear; lia) ltac:(clear; lia) ltac:(assumption || lia)).
  pose proof (Q h8 20 6 ltac:(clear; lia) ltac:(clear; lia) ltac:(assumption || lia)). pose proof (Q h9 18 7 ltac:(clear; lia) ltac:(clear; lia) ltac:(assumption || lia)) as B9.
  split; [|split; [|reflexivity]].
  - assert (M4 : (h4 / 2 ^ 18) mod 256 = h4 / 2 ^ 18) by (apply Z.mod_small; assumption).
    assert (M9 : (h9 / 2 ^ 18) mod 256 = h9 / 2 ^ 18) by (apply Z.mod_small; change 256 with (2 ^ 8); split; [apply B9|]; eapply Z.lt_trans; [apply B9|reflexivity]).
    rewrite M4, M9. clear.
    assert (P : forall a, 0 <= Z.of_nat a) by (intros; apply Nat2Z.is_nonneg).
    pose proof (split4 h0 8 (P 8%nat)) as S0. pose proof (split4 h1 6 (P 6%nat)) as S1.
    pose proof (split4 h2 5 (P 5%nat)) as S2. pose proof (split4 h3 3 (P 3%nat)) as S3.
    pose proof (split4 h4 2 (P 2%nat)) as S4. pose proof (split4 h5 8 (P 8%nat)) as S5.
    pose proof (split4 h6 7 (P 7%nat)) as S6. pose proof (split4 h7 5 (P 5%nat)) as S7.
    pose proof (split4 h8 4 (P 4%nat)) as S8. pose proof (split4 h9 2 (P 2%nat)) as S9.
    change (2 ^ 8) with 256 in S0 at 1. change (2 ^ 8) with 256 in S5 at 1.
    cbn [Z.add Pos.add Pos.succ Pos.add_carry] in S0, S1, S2, S3, S4, S5, S6, S7, S8, S9.
    rewrite !le_decode_cons. change (le_decode []) with 0. unfold fval, ws. cbn [wsum].
    revert S0 S1 S2 S3 S4 S5 S6 S7 S8 S9. clear P.
    repeat match goal with |- context [Z.modulo ?x ?y] => generalize (Z.modulo x y); intros ? end.
    repeat match goal with |- context [Z.div ?x ?y] => generalize (Z.div x y); intros ? end.
    intros -> -> -> -> -> -> -> -> -> ->. ring.
  - assert (M : forall x, byte_ok (x mod 256)) by (intros; apply Z.mod_pos_bound; lia).
    pose proof (Z.mod_pos_bound h1 (2 ^ 6) ltac:(lia)). pose proof (Z.mod_pos_bound h2 (2 ^ 5) ltac:(lia)).
    pose proof (Z.mod_pos_bound h3 (2 ^ 3) ltac:(lia)). pose proof (Z.mod_pos_bound h4 (2 ^ 2) ltac:(lia)).
    pose proof (Z.mod_pos_bound h6 (2 ^ 7) ltac:(lia)). pose proof (Z.mod_pos_bound h7 (2 ^ 5) ltac:(lia)).
    pose proof (Z.mod_pos_bound h8 (2 ^ 4) ltac:(lia)). pose proof (Z.mod_pos_bound h9 (2 ^ 2) ltac:(lia)).
    repeat (apply bytes_cons; split; [first [apply M | unfold byte_ok; lia]|]). apply bytes_nil.
Qed.

Lemma write_bounded : bounded write_bytes_prog (ivls 3 ++ [(-4, 4)]) digit_ivls = true.
Proof. vm_compute. reflexivity. Qed.
Definition hs : list positive := firstn 10 (params write_bytes_prog).
Definition qv : positive := nth 10 (params write_bytes_prog) 1%positive.
Lemma write_congr : congr (2 ^ 255) write_bytes_prog ws ((19, [qv]) :: wparams ws hs) = true.
Proof. vm_compute. reflexivity. Qed.
Lemma write_params : params write_bytes_prog = hs ++ [qv].
Proof. reflexivity. Qed.
Lemma hsq_nodup : NoDup (hs ++ [qv]).
Proof. apply nodupb_ok. vm_compute. reflexivity. Qed.

Lemma q_step_ok b h q k M m : 0 < k -> - M <= h <= M -> - m <= q <= m -> M + m < 2 ^ 31 ->
  exists q' r, q_step b h q k = Ok q' /\ h + q = 2 ^ k * q' + r /\ 0 <= r < 2 ^ k.
Proof.
  intros Hk H1 H2 H3. unfold q_step. rewrite schk_ok by (change (2 ^ (32 - 1)) with (2 ^ 31); lia). rewrite bind_ok.
  exists (Z.shiftr (h + q) k), ((h + q) mod 2 ^ k). rewrite Z.shiftr_div_pow2 by lia.
  assert (P : 0 < 2 ^ k) by (apply Z.pow_pos_nonneg; lia).
  split; [reflexivity|]. split; [apply Z.div_mod; lia|]. now apply Z.mod_pos_bound.
Qed.

Lemma wsum_fval x : wsum ws x = fval x.
Proof. reflexivity. Qed.
Lemma fval_digits o : Forall2 inr digit_ivls o -> 0 <= fval o < 2 ^ 255.
Proof.
  intros H. unfold digit_ivls in H.
  repeat match goal with
  | H : Forall2 inr (_ :: _) _ |- _ => inversion H; subst; clear H
  | H : Forall2 inr [] _ |- _ => inversion H; subst; clear H
  end.
  repeat match goal with H : inr _ _ |- _ => unfold inr in H; cbn [fst snd] in H end.
  unfold fval, ws. cbn [wsum]. lia.
Qed.

(** The quotient is exact. *)
Lemma q_exact H q0 q r X O h9 s rest :
  H = 2 ^ 230 * h9 + rest -> - (4 * 2 ^ 229) <= rest <= 4 * 2 ^ 229 -> - 2 ^ 26 <= h9 <= 2 ^ 26 ->
  19 * h9 + 2 ^ 24 = 2 ^ 25 * q0 + s -> 0 <= s < 2 ^ 25 ->
  H + q0 = 2 ^ 255 * q + X -> 0 <= X < 2 ^ 255 ->
  eqm (2 ^ 255) O (19 * q + H) -> 0 <= O < 2 ^ 255 -> r = H mod p -> O = r.
Proof.
  intros E1 B1 B9 E2 B2 E3 B3 [k E4] B4 ->.
  pose proof (Z.div_mod H p p_nz) as E5. pose proof (Z.mod_pos_bound H p p_pos) as B5.
  set (r := H mod p) in *. set (Q := H / p) in *. clearbody r Q. unfold p in *.
  assert (q = Q) by lia. subst q. assert (k = - Q) by lia. lia.
Qed.

Lemma fe_write_bytes_ok b h : bnd 3 h -> fe_write_bytes b h = Ok (le_encode 32 (fz (fv h))).
Proof.
  intros Hb. pose proof Hb as Hb'. unfold bnd, tl in Hb.
  repeat match goal with
  | H : Forall2 _ (_ :: _) _ |- _ => inversion H; subst; clear H
  | H : Forall2 _ [] _ |- _ => inversion H; subst; clear H
  end.
  match goal with |- context [fe_write_bytes _ [?a;?b;?c;?d;?e;?f;?g;?h;?i;?j]] =>
    rename a into h0; rename b into h1; rename c into h2; rename d into h3; rename e into h4;
    rename f into h5; rename g into h6; rename h into h7; rename i into h8; rename j into h9 end.
  unfold fe_write_bytes. unfold get. cbn [nth].
  rewrite schk_ok by (change (2 ^ (32 - 1)) with (2 ^ 31); lia). rewrite bind_ok.
  rewrite schk_ok by (change (2 ^ (32 - 1)) with (2 ^ 31); lia). rewrite bind_ok.
  assert (Q0 : exists q0 r, Z.shiftr (19 * h9 + 2 ^ 24) 25 = q0 /\ 19 * h9 + 2 ^ 24 = 2 ^ 25 * q0 + r /\ 0 <= r < 2 ^ 25).
  { eexists _, ((19 * h9 + 2 ^ 24) mod 2 ^ 25). split; [reflexivity|]. rewrite Z.shiftr_div_pow2 by lia.
    split; [apply Z.div_mod; lia|]. apply Z.mod_pos_bound. lia. }
  destruct Q0 as (q0 & r & -> & E & R).
  destruct (q_step_ok b h0 q0 26 (3 * 33890000) 30 ltac:(lia) ltac:(lia) ltac:(lia) ltac:(lia)) as (q1 & r0 & -> & E0 & R0). rewrite bind_ok.
  destruct (q_step_ok b h1 q1 25 (3 * 16945000) 4 ltac:(lia) ltac:(lia) ltac:(lia) ltac:(lia)) as (q2 & r1 & -> & E1 & R1). rewrite bind_ok.
  destruct (q_step_ok b h2 q2 26 (3 * 33890000) 4 ltac:(lia) ltac:(lia) ltac:(lia) ltac:(lia)) as (q3 & r2 & -> & E2 & R2). rewrite bind_ok.
  destruct (q_step_ok b h3 q3 25 (3 * 16945000) 4 ltac:(lia) ltac:(lia) ltac:(lia) ltac:(lia)) as (q4 & r3 & -> & E3 & R3). rewrite bind_ok.
  destruct (q_step_ok b h4 q4 26 (3 * 33890000) 4 ltac:(lia) ltac:(lia) ltac:(lia) ltac:(lia)) as (q5 & r4 & -> & E4 & R4). rewrite bind_ok.
  destruct (q_step_ok b h5 q5 25 (3 * 16945000) 4 ltac:(lia) ltac:(lia) ltac:(lia) ltac:(lia)) as (q6 & r5 & -> & E5 & R5). rewrite bind_ok.
  destruct (q_step_ok b h6 q6 26 (3 * 33890000) 4 ltac:(lia) ltac:(lia) ltac:(lia) ltac:(lia)) as (q7 & r6 & -> & E6 & R6). rewrite bind_ok.
  destruct (q_step_ok b h7 q7 25 (3 * 16945000) 4 ltac:(lia) ltac:(lia) ltac:(lia) ltac:(lia)) as (q8 & r7 & -> & E7 & R7). rewrite bind_ok.
  destruct (q_step_ok b h8 q8 26 (3 * 33890000) 4 ltac:(lia) ltac:(lia) ltac:(lia) ltac:(lia)) as (q9 & r8 & -> & E8 & R8). rewrite bind_ok.
  destruct (q_step_ok b h9 q9 25 (3 * 16945000) 4 ltac:(lia) ltac:(lia) ltac:(lia) ltac:(lia)) as (q & r9 & -> & E9 & R9). rewrite bind_ok.
  set (h := [h0; h1; h2; h3; h4; h5; h6; h7; h8; h9]) in *.
  assert (Hi : Forall2 inr (ivls 3 ++ [(-4, 4)]) (h ++ [q])).
  { apply Forall2_app2; [now apply bnd_ivls|]. constructor; [|constructor]. unfold inr; cbn [fst snd]. lia. }
  destruct (bounded_sound _ _ _ b _ write_bounded Hi) as [EX B]. rewrite EX, bind_ok.
  destruct (fe_bytes_ok _ B) as (V & Hby & Hlen). f_equal.
  rewrite <- (le_encode_decode _ Hby), Hlen, V. f_equal.
  pose proof (congr_sound (2 ^ 255) _ ws _ (h ++ [q]) ltac:(lia) write_congr) as HC.
  rewrite peval_cons, wparams_ok, write_params in HC. cbn [fst snd meval fold_right] in HC.
  pose proof (lookup_params _ hsq_nodup (h ++ [q]) eq_refl) as Hl. rewrite map_app in Hl.
  apply app_len_inj in Hl as [H1' H2']; [|reflexivity]. rewrite H1' in HC.
  assert (H3' : lookup qv (bind_args (hs ++ [qv]) (h ++ [q])) = q) by (change (hd 0 (map (fun x => lookup x (bind_args (hs ++ [qv]) (h ++ [q]))) [qv]) = q); rewrite H2'; reflexivity).
  rewrite H3', Z.mul_1_r in HC. clear H1' H2' H3'. rewrite !wsum_fval in HC.
  assert (D : 0 <= fval (irun write_bytes_prog (h ++ [q])) < 2 ^ 255).
  { now apply fval_digits. }
  set (O := fval (irun write_bytes_prog (h ++ [q]))) in *. clearbody O.
  unfold fv. rewrite fz_toF.
  assert (EH : fval h + q0 = 2 ^ 255 * q + (r0 + 2 ^ 26 * r1 + 2 ^ 51 * r2 + 2 ^ 77 * r3 + 2 ^ 102 * r4 + 2 ^ 128 * r5
     + 2 ^ 153 * r6 + 2 ^ 179 * r7 + 2 ^ 204 * r8 + 2 ^ 230 * r9)).
  { unfold fval, ws, h. cbn [wsum]. lia. }
  apply (q_exact (fval h) q0 q _ _ O h9 r (fval [h0; h1; h2; h3; h4; h5; h6; h7; h8]) ) with (5 := R) (4 := E) (6 := EH) (8 := HC) (9 := D);
    [| | | |reflexivity];
    clear HC EH D Hby Hlen V EX B Hi E0 E1 E2 E3 E4 E5 E6 E7 E8 E9 E.
  all: unfold h, fval, ws; cbn [wsum]; lia.
Qed.
