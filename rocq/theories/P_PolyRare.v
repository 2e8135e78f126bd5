(** For a fixed message, few points r make the Poly1305 accumulator small. *)
From Verif Require Import BaseFacts S_Gcm S_ChaCha P_Ctr P_Roots P_Forge P_Gf128 P_Prime1305 P_Forge2.
From Coq Require Import Ring Bool Znumtheory.
Local Notation P := P1305.

Lemma coef_nonzero B : okb B -> zmk (coef B) <> zp0.
Proof.
  intros H E. pose proof (coef_range B H) as R. apply (f_equal zval) in E. unfold zp0 in E. rewrite !zval_mk in E.
  rewrite Z.mod_0_l in E by (pose proof P_pos; lia). rewrite Z.mod_small in E by (unfold P1305; lia). lia.
Qed.

(** One value [v]: at most as many points as blocks. *)
Lemma rare1 l B v : Forall okb (l ++ [B]) ->
  exists bad, (length bad <= length (l ++ [B]))%nat /\ forall r, 0 <= r < P -> acc r (l ++ [B]) = v -> In r bad.
Proof.
  intros F. set (c := zpsub (zpoly (l ++ [B])) [zmk v]).
  destruct (roots_bound zp zp0 zp1 zadd zmul zsub zopp zp_ring zp_dec zp_integral zp_search (length c) c eq_refl) as (bad & Lb & Hb).
  - intros Hz. apply Forall_app in F. destruct F as [_ F]. inversion_clear F as [|? ? F1 _]. apply (coef_nonzero B F1).
    pose proof (psub_zero zp zp0 zp1 zadd zmul zsub zopp zp_ring _ _ Hz 1%nat) as Z1.
    unfold zpoly in Z1. rewrite map_app, rev_app_distr in Z1. cbn [map rev app nth] in Z1. exact Z1.
  - exists (map zval bad). split.
    + rewrite map_length. unfold c in Lb. rewrite psub_length in Lb. unfold zpoly in Lb. cbn [length] in Lb.
      rewrite rev_length, map_length in Lb. rewrite app_length in *. cbn [length] in *. lia.
    + intros r Hr E. apply in_map_iff. exists (zmk r). split; [rewrite zval_mk; now apply Z.mod_small|]. apply Hb.
      unfold c. rewrite (peval_psub zp zp0 zp1 zadd zmul zsub zopp zp_ring). rewrite <- E, acc_eval, mk_val. cbn [peval].
      set (u := zpeval (zpoly (l ++ [B])) _). apply zp_ext. unfold zsub, zadd, zmul, zp0.
      repeat rewrite zval_mk. rewrite Z.mod_0_l by (pose proof P_pos; lia). rewrite Z.mul_0_r, Z.mod_0_l by (pose proof P_pos; lia).
      rewrite Z.add_0_r, zval_mod, Z.sub_diag. reflexivity.
Qed.
(** All values below [n]. *)
Lemma rare_below l B n : Forall okb (l ++ [B]) ->
  exists bad, (length bad <= n * length (l ++ [B]))%nat /\ forall r, 0 <= r < P -> acc r (l ++ [B]) < Z.of_nat n -> In r bad.
Proof.
  intros F. induction n as [|n (bad & Lb & Hb)].
  - exists []. split; [apply Nat.le_0_l|]. intros r _ H. pose proof (acc_range r (l ++ [B])). lia.
  - destruct (rare1 l B (Z.of_nat n) F) as (bad1 & L1 & H1). exists (bad1 ++ bad). split.
    + rewrite app_length. cbn [Nat.mul]. lia.
    + intros r Hr H. apply in_app_iff. destruct (Z.eq_dec (acc r (l ++ [B])) (Z.of_nat n)) as [E|N0]; [left; now apply H1|right; apply Hb; [exact Hr|lia] ].
Qed.
Lemma rare A C : bytes A -> bytes C -> exists bad, Z.of_nat (length bad) <= (2 ^ 22 + 5) * Z.of_nat (length (macb A C)) /\
  forall r, 0 <= r < P -> acc r (macb A C) < 2 ^ 22 + 5 -> In r bad.
Proof.
  intros HA HC. pose proof (macb_ok A C HA HC) as F. unfold macb in *. rewrite app_assoc in *.
  destruct (rare_below _ _ (Z.to_nat (2 ^ 22 + 5)) F) as (bad & Lb & Hb). exists bad.
  apply Nat2Z.inj_le in Lb. rewrite Nat2Z.inj_mul in Lb. rewrite Z2Nat.id in Lb, Hb by (apply Z.leb_le; exact eq_refl).
  split; [exact Lb|exact Hb].
Qed.
