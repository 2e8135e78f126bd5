(** GF(2)[x]/(x^128 + x^7 + x^2 + x + 1) is a field. *)
From Verif Require Import BaseFacts S_Gf2 S_Gcm P_Gf2.
From Coq Require Import Ring Eqdep_dec Bool.

Definition N : Z := 2 ^ 128.
Definition R (a : Z) : Prop := 0 <= a < N.
Definition X (a : Z) : Z := mulx 128 GCM_MODULUS a.

(** ** Linear maps given by the images of 1, x, x^2, ... *)
Fixpoint lin (t : list Z) (v : Z) : Z :=
  match t with [] => 0 | a :: t' => Z.lxor (if Z.odd v then a else 0) (lin t' (Z.div2 v)) end.
Lemma odd_lxor a b : Z.odd (Z.lxor a b) = xorb (Z.odd a) (Z.odd b).
Proof. rewrite <- !Z.bit0_odd. apply Z.lxor_spec. Qed.
Lemma div2_lxor a b : Z.div2 (Z.lxor a b) = Z.lxor (Z.div2 a) (Z.div2 b).
Proof. rewrite !Z.div2_spec. apply Z.shiftr_lxor. Qed.
Lemma lin_lxor t : forall a b, lin t (Z.lxor a b) = Z.lxor (lin t a) (lin t b).
Proof.
  induction t as [|x t IH]; intros a b; cbn [lin]; [reflexivity|]. rewrite odd_lxor, div2_lxor, IH, lxor_swap. f_equal.
  destruct (Z.odd a), (Z.odd b); cbn [xorb]; rewrite ?Z.lxor_nilpotent, ?Z.lxor_0_r, ?Z.lxor_0_l; reflexivity.
Qed.
Lemma lin_seq (T : nat -> Z) v : forall n k,
  lin (map T (seq k n)) (Z.shiftr v (Z.of_nat k)) =
  fold_right Z.lxor 0 (map (fun i => if Z.testbit v (Z.of_nat i) then T i else 0) (seq k n)).
Proof.
  induction n as [|n IH]; intros k; [reflexivity|]. cbn [seq map lin fold_right].
  rewrite <- Z.bit0_odd, Z.shiftr_spec, Z.add_0_l by lia. f_equal.
  rewrite Z.div2_spec, Z.shiftr_shiftr by lia. replace (Z.of_nat k + 1) with (Z.of_nat (S k)) by lia. apply IH.
Qed.
Lemma lin_seq0 (T : nat -> Z) v n : lin (map T (seq 0 n)) v =
  fold_right Z.lxor 0 (map (fun i => if Z.testbit v (Z.of_nat i) then T i else 0) (seq 0 n)).
Proof. rewrite <- (lin_seq T v n 0). now rewrite Z.shiftr_0_r. Qed.

Lemma R_lxor a b : R a -> R b -> R (Z.lxor a b).
Proof. intros Ha Hb. apply (lxor_range 128); [lia|exact Ha|exact Hb]. Qed.
Lemma R_0 : R 0. Proof. unfold R, N. lia. Qed.
Lemma R_pow i : (i < 128)%nat -> R (2 ^ Z.of_nat i).
Proof. intros H. split; [apply Z.pow_nonneg; lia|]. apply Z.pow_lt_mono_r; lia. Qed.

(** An additive map is determined by the images of the powers of two. *)
Definition additive (f : Z -> Z) : Prop := forall a b, R a -> R b -> f (Z.lxor a b) = Z.lxor (f a) (f b).
Lemma additive_0 f : additive f -> f 0 = 0.
Proof.
  intros H. pose proof (H 0 0 R_0 R_0) as E. rewrite Z.lxor_nilpotent in E. rewrite E. apply Z.lxor_nilpotent.
Qed.
Lemma bits_value v : R v -> v = lin (map (fun i => 2 ^ Z.of_nat i) (seq 0 128)) v.
Proof.
  intros Hv. rewrite lin_seq0. apply Z.bits_inj_iff'. intros n Hn.
  rewrite testbit_fold_lxor, map_map.
  assert (G : forall l, NoDup l -> fold_right xorb false (map (fun i => Z.testbit (if Z.testbit v (Z.of_nat i) then 2 ^ Z.of_nat i else 0) n) l)
     = if in_dec Nat.eq_dec (Z.to_nat n) l then Z.testbit v n else false).
  { induction l as [|i l IH]; intros ND; [reflexivity|]. inversion_clear ND as [|? ? N1 N2]. cbn [map fold_right]. rewrite IH by assumption.
    assert (E : Z.testbit (if Z.testbit v (Z.of_nat i) then 2 ^ Z.of_nat i else 0) n =
                if Nat.eq_dec i (Z.to_nat n) then Z.testbit v n else false).
    { destruct (Nat.eq_dec i (Z.to_nat n)) as [->|Ne].
      - rewrite Z2Nat.id by lia. destruct (Z.testbit v n); [|apply Z.testbit_0_l]. rewrite Z.pow2_bits_true by lia. reflexivity.
      - destruct (Z.testbit v (Z.of_nat i)); [|apply Z.testbit_0_l]. apply Z.pow2_bits_false. lia. }
    rewrite E. destruct (Nat.eq_dec i (Z.to_nat n)) as [->|Ne].
    - destruct (in_dec Nat.eq_dec (Z.to_nat n) l); [contradiction|]. destruct (in_dec Nat.eq_dec (Z.to_nat n) (Z.to_nat n :: l)) as [|C].
      + apply xorb_false_r.
      + exfalso. apply C. now left.
    - rewrite xorb_false_l. destruct (in_dec Nat.eq_dec (Z.to_nat n) l) as [I|I], (in_dec Nat.eq_dec (Z.to_nat n) (i :: l)) as [J|J]; try reflexivity.
      + exfalso. apply J. now right.
      + exfalso. destruct J; [congruence|contradiction]. }
  rewrite G by apply seq_NoDup. destruct (in_dec Nat.eq_dec (Z.to_nat n) (seq 0 128)) as [|C]; [reflexivity|].
  rewrite in_seq in C. apply (testbit_high v 128); [exact Hv|lia].
Qed.
Lemma additive_ext f g : additive f -> additive g -> (forall i, (i < 128)%nat -> f (2 ^ Z.of_nat i) = g (2 ^ Z.of_nat i)) ->
  forall v, R v -> f v = g v.
Proof.
  intros Hf Hg H v Hv. rewrite (bits_value v Hv). clear Hv. revert v. intros v.
  rewrite lin_seq0.
  assert (G : forall l, (forall i, In i l -> (i < 128)%nat) ->
    let s := fold_right Z.lxor 0 (map (fun i => if Z.testbit v (Z.of_nat i) then 2 ^ Z.of_nat i else 0) l) in R s /\ f s = g s).
  { induction l as [|i l IH]; intros Hl; cbv zeta; cbn [map fold_right].
    - split; [apply R_0|]. now rewrite (additive_0 f Hf), (additive_0 g Hg).
    - destruct IH as [I1 I2]; [intros j Hj; apply Hl; now right|]. cbv zeta in I1, I2.
      assert (Hi : (i < 128)%nat) by (apply Hl; now left).
      assert (Ri : R (if Z.testbit v (Z.of_nat i) then 2 ^ Z.of_nat i else 0)) by (destruct (Z.testbit v _); [now apply R_pow|apply R_0]).
      split; [now apply R_lxor|]. rewrite Hf, Hg by assumption. rewrite I2. f_equal.
      destruct (Z.testbit v _); [now apply H|]. now rewrite (additive_0 f Hf), (additive_0 g Hg). }
  apply G. intros i Hi. apply in_seq in Hi. lia.
Qed.
Lemma additive_lin t : additive (lin t).
Proof. intros a b _ _. apply lin_lxor. Qed.

(** ** The ring *)
Lemma X_lxor a b : X (Z.lxor a b) = Z.lxor (X a) (X b).
Proof.
  unfold X, mulx. rewrite Z.lxor_spec, <- lxor_double. generalize (2 * a), (2 * b). intros x y.
  destruct (Z.testbit a (128 - 1)), (Z.testbit b (128 - 1)); cbn [xorb].
  - rewrite lxor_swap, Z.lxor_nilpotent, Z.lxor_0_r. reflexivity.
  - rewrite Z.lxor_assoc, (Z.lxor_comm y), <- Z.lxor_assoc. reflexivity.
  - apply Z.lxor_assoc.
  - reflexivity.
Qed.
Lemma R_X a : R a -> R (X a).
Proof. intros H. apply mulx_range; [lia| |exact H]. vm_compute. split; [discriminate|reflexivity]. Qed.
Lemma R_iterX i a : R a -> R (Nat.iter i X a).
Proof. intros H. induction i as [|i IH]; [exact H|]. now apply R_X. Qed.
Lemma iterX_lxor i a b : Nat.iter i X (Z.lxor a b) = Z.lxor (Nat.iter i X a) (Nat.iter i X b).
Proof. induction i as [|i IH]; [reflexivity|]. change (X (Nat.iter i X (Z.lxor a b)) = Z.lxor (X (Nat.iter i X a)) (X (Nat.iter i X b))). now rewrite IH, X_lxor. Qed.
Lemma iterX_1 i : (i < 128)%nat -> Nat.iter i X 1 = 2 ^ Z.of_nat i.
Proof.
  induction i as [|i IH]; intros H; [reflexivity|]. change (X (Nat.iter i X 1) = 2 ^ Z.of_nat (S i)). rewrite IH by lia.
  unfold X, mulx. rewrite Z.pow2_bits_false by lia. rewrite Nat2Z.inj_succ, Z.pow_succ_r by lia. reflexivity.
Qed.

Definition gm (a b : Z) : Z := gf128_mul a b.
Lemma gm_eq a b : R a -> gm a b = lin (map (fun i => Nat.iter i X a) (seq 0 128)) b.
Proof. intros H. unfold gm, gf128_mul. rewrite fmul_eq by exact H. symmetry. apply lin_seq0. Qed.
Local Opaque gm.
Lemma R_gm a b : R a -> R (gm a b).
Proof.
  intros H. rewrite gm_eq, lin_seq0 by assumption.
  assert (G : forall l, R (fold_right Z.lxor 0 (map (fun i => if Z.testbit b (Z.of_nat i) then Nat.iter i X a else 0) l))).
  { induction l as [|i l IH]; [apply R_0|]. cbn [map fold_right]. apply R_lxor; [|exact IH]. destruct (Z.testbit b _); [now apply R_iterX|apply R_0]. }
  apply G.
Qed.
Lemma gm_add_r a b c : R a -> gm a (Z.lxor b c) = Z.lxor (gm a b) (gm a c).
Proof. intros H. rewrite !gm_eq by assumption. apply lin_lxor. Qed.
Lemma gm_add_l a b c : R a -> R b -> gm (Z.lxor a b) c = Z.lxor (gm a c) (gm b c).
Proof.
  intros Ha Hb. rewrite !gm_eq by (assumption || now apply R_lxor).
  generalize c. generalize (seq 0 128). induction l as [|i l IH]; intros v; [reflexivity|]. cbn [map lin]. rewrite IH, lxor_swap. f_equal.
  destruct (Z.odd v); [apply iterX_lxor|reflexivity].
Qed.
Lemma gm_X a b : R a -> gm (X a) b = X (gm a b).
Proof.
  intros Ha. rewrite !gm_eq by (assumption || now apply R_X).
  generalize b. generalize (seq 0 128). induction l as [|i l IH]; intros v; [reflexivity|]. cbn [map lin]. rewrite IH, X_lxor. f_equal.
  destruct (Z.odd v); [|reflexivity]. rewrite <- iter_succ_r. reflexivity.
Qed.
Lemma gm_iterX i a b : R a -> gm (Nat.iter i X a) b = Nat.iter i X (gm a b).
Proof.
  intros Ha. induction i as [|i IH]; [reflexivity|]. change (gm (X (Nat.iter i X a)) b = X (Nat.iter i X (gm a b))).
  rewrite gm_X by now apply R_iterX. now rewrite IH.
Qed.
Lemma R_1 : R 1. Proof. unfold R, N. lia. Qed.
Lemma gm_1_l b : R b -> gm 1 b = b.
Proof.
  intros Hb. rewrite gm_eq by apply R_1. rewrite (bits_value b Hb) at 2. apply (f_equal (fun t => lin t b)). apply map_ext_in. intros i Hi.
  apply in_seq in Hi. apply iterX_1. lia.
Qed.
Lemma gm_pow a i : R a -> (i < 128)%nat -> gm a (2 ^ Z.of_nat i) = Nat.iter i X a.
Proof.
  intros Ha Hi. rewrite gm_eq, lin_seq0 by assumption.
  assert (G : forall l, NoDup l -> fold_right Z.lxor 0 (map (fun j => if Z.testbit (2 ^ Z.of_nat i) (Z.of_nat j) then Nat.iter j X a else 0) l)
     = if in_dec Nat.eq_dec i l then Nat.iter i X a else 0).
  { induction l as [|j l IH]; intros ND; [reflexivity|]. inversion_clear ND as [|? ? N1 N2]. cbn [map fold_right]. rewrite IH by assumption.
    destruct (Nat.eq_dec j i) as [->|Ne].
    - rewrite Z.pow2_bits_true by lia. destruct (in_dec Nat.eq_dec i l); [contradiction|].
      destruct (in_dec Nat.eq_dec i (i :: l)) as [|C]; [apply Z.lxor_0_r|exfalso; apply C; now left].
    - rewrite Z.pow2_bits_false by lia. rewrite Z.lxor_0_l.
      destruct (in_dec Nat.eq_dec i l) as [I|I], (in_dec Nat.eq_dec i (j :: l)) as [J|J]; try reflexivity.
      + exfalso. apply J. now right.
      + exfalso. destruct J; [congruence|contradiction]. }
  rewrite G by apply seq_NoDup. destruct (in_dec Nat.eq_dec i (seq 0 128)) as [|C]; [reflexivity|].
  exfalso. apply C. apply in_seq. lia.
Qed.
Lemma gm_comm a b : R a -> R b -> gm a b = gm b a.
Proof.
  intros Ha Hb. apply (additive_ext (fun a => gm a b) (fun a => gm b a)); [| | |exact Ha].
  - intros x y Hx Hy. now apply gm_add_l.
  - intros x y Hx Hy. now apply gm_add_r.
  - intros i Hi. rewrite (gm_pow b i Hb Hi), <- (iterX_1 i Hi), gm_iterX by apply R_1. now rewrite gm_1_l.
Qed.
Lemma gm_assoc a b c : R a -> R b -> R c -> gm a (gm b c) = gm (gm a b) c.
Proof.
  intros Ha Hb Hc. apply (additive_ext (fun c => gm a (gm b c)) (fun c => gm (gm a b) c)); [| | |exact Hc].
  - intros x y Hx Hy. cbv beta. rewrite gm_add_r by assumption. now apply gm_add_r.
  - intros x y Hx Hy. apply gm_add_r. now apply R_gm.
  - intros i Hi. rewrite (gm_pow b i Hb Hi), (gm_pow (gm a b) i (R_gm a b Ha) Hi).
    rewrite gm_comm by (assumption || now apply R_iterX). rewrite gm_iterX by assumption. now rewrite (gm_comm b a).
Qed.

(** ** Squaring *)
Definition sq (a : Z) : Z := gm a a.
Lemma sq_add : additive sq.
Proof.
  intros a b Ha Hb. unfold sq. rewrite gm_add_r by now apply R_lxor. rewrite !gm_add_l by assumption. rewrite (gm_comm b a) by assumption.
  rewrite Z.lxor_assoc, <- (Z.lxor_assoc (gm a b)), Z.lxor_nilpotent, Z.lxor_0_l. reflexivity.
Qed.
Fixpoint even_powers (n : nat) (c : Z) : list Z := match n with O => [] | S n' => c :: even_powers n' (X (X c)) end.
Definition sq_table : list Z := even_powers 128 1.
Lemma even_powers_nth n : forall c k, (k < n)%nat -> nth k (even_powers n c) 0 = Nat.iter (2 * k) X c.
Proof.
  induction n as [|n IH]; intros c k H; [lia|]. destruct k as [|k]; [reflexivity|]. cbn [even_powers nth]. rewrite IH by lia.
  replace (2 * S k)%nat with (S (S (2 * k))) by lia. rewrite !iter_succ_r. reflexivity.
Qed.
Lemma even_powers_length n : forall c, length (even_powers n c) = n.
Proof. induction n as [|n IH]; intros c; [reflexivity|]. cbn [even_powers length]. now rewrite IH. Qed.
Lemma lin_pow : forall t i, lin t (2 ^ Z.of_nat i) = nth i t 0.
Proof.
  induction t as [|a t IH]; intros i; [now destruct i|]. cbn [lin]. destruct i as [|i].
  - change (2 ^ Z.of_nat 0) with 1. cbn [Z.odd nth]. change (Z.div2 1) with 0.
    rewrite (additive_0 (lin t) (additive_lin t)). apply Z.lxor_0_r.
  - rewrite Nat2Z.inj_succ, Z.pow_succ_r by lia. rewrite Z.odd_mul. cbn [Z.odd andb]. rewrite Z.lxor_0_l.
    rewrite Z.div2_div, Z.mul_comm, Z.div_mul by lia. apply IH.
Qed.
Lemma iterX_add i j c : Nat.iter (i + j) X c = Nat.iter i X (Nat.iter j X c).
Proof. induction i as [|i IH]; [reflexivity|]. change (X (Nat.iter (i + j) X c) = X (Nat.iter i X (Nat.iter j X c))). now rewrite IH. Qed.
Lemma sq_lin a : R a -> sq a = lin sq_table a.
Proof.
  apply additive_ext; [exact sq_add|apply additive_lin|]. intros i Hi. rewrite lin_pow. unfold sq_table. rewrite even_powers_nth by assumption.
  unfold sq. rewrite gm_pow by (now apply R_pow || assumption). rewrite <- (iterX_1 i Hi).
  replace (2 * i)%nat with (i + i)%nat by lia. symmetry. apply iterX_add.
Qed.

(** ** Frobenius and idempotents: two computations. *)
Definition frob_x : bool := Nat.iter 128 (lin sq_table) 2 =? 2.
Lemma frob_x_ok : frob_x = true. Proof. vm_compute. reflexivity. Qed.
(** A left inverse of a -> a^2 + a on the multiples of x. *)
Definition half_table : list Z :=
  [0x295ac0b1f4731af9676aac9fa4b20b08; 0xe5da5595ee970b89929959af766af404; 0xe5da5595ee970b89929959af766af406;
   0x4e9826c74350bfe67783f7333404a20c; 0xe5da5595ee970b89929959af766af402; 0x2aaea79ad7da34b07dc714cb83074e6a;
   0x4e9826c74350bfe67783f7333404a204; 0xcc8095241ae41171f5f3f531d2d9fe18; 0xe5da5595ee970b89929959af766af412;
   0x4e983687d159ce9677cb862e8ac85b44; 0x2aaea79ad7da34b07dc714cb83074e4a; 0xaae2ab6aaf144aaff73fcb3c06aaff56;
   0x4e9826c74350bfe67783f7333404a244; 0xe62f327ccd5792dd893fe9ca40603f62; 0xcc8095241ae41171f5f3f531d2d9fe98;
   0xab52f0323f47c90be1336bc7d453b626; 0xe5da5595ee970b89929959af766af512; 0x2abe34bad75338b479a6a089abf4573a;
   0x4e983687d159ce9677cb862e8ac85944; 0x1e8ccb9dcc72f2e1a9cbef8232562fc; 0x2aaea79ad7da34b07dc714cb83074a4a;
   0x2442c3221f3dc1a0ce869b24a80e48c; 0xaae2ab6aaf144aaff73fcb3c06aaf756; 0xcf64612f39c4323deb3ff936dd9aa228;
   0x4e9826c74350bfe67783f7333404b244; 0xcc911696880d4909f0d5382a57572458; 0xe62f327ccd5792dd893fe9ca40601f62;
   0x4d7cd7cc29d28cf2697f6478e5db2834; 0xcc8095241ae41171f5f3f531d2d9be98; 0xccc99127569146a7fc0956ca1a5b86a4;
   0xab52f0323f47c90be1336bc7d4533626; 0x65cece94dacd5b1c14f5986b001eeb82; 0xe5da5595ee970b89929959af766bf512;
   0x2b0e7fa2d509ca746fe27169c7c3e73a; 0x2abe34bad75338b479a6a089abf6573a; 0x65df4d264824132411d3553885980142;
   0x4e983687d159ce9677cb862e8acc5944; 0xcf74f70e70ef2af7ef6fd21d2af671a4; 0x1e8ccb9dcc72f2e1a9cbef8232d62fc;
   0xcec4b9173b16cdf9f91a9d8499490f58; 0x2aaea79ad7da34b07dc714cb83174a4a; 0x83f16f99175f624799a6cf206b513bdc;
   0x2442c3221f3dc1a0ce869b24aa0e48c; 0x3f562a96a2aa9081b9e27ebe84671c0; 0xaae2ab6aaf144aaff73fcb3c06eaf756;
   0xccc9c07ae11bcce3fcd6d526cddeebd4; 0xcf64612f39c4323deb3ff936dd1aa228; 0xa95fc803c09556f7e461dfebe8467196;
   0x4e9826c74350bfe67783f7333504b244; 0x4cdc1ab0f0ab5b2e7b20ee03c15c7384; 0xcc911696880d4909f0d5382a55572458;
   0xaaba68961da11d79fb48c8c7fe68cf6a; 0xe62f327ccd5792dd893fe9ca44601f62; 0xe5db5416ee209847938b5c70638d3bee;
   0x4d7cd7cc29d28cf2697f6478eddb2834; 0x6437818b95e2e76e0b49fa26a7e512ce; 0xcc8095241ae41171f5f3f531c2d9be98;
   0x4cd9020746184ba27868a299022ddf34; 0xccc99127569146a7fc0956ca3a5b86a4; 0x824171dcefbe4a8b8f1d24e407e8e76c;
   0xab52f0323f47c90be1336bc794533626; 0xe62e22af1f6bf32b88711e202cdc3b5e; 0x65cece94dacd5b1c14f5986b801eeb82;
   0x83f4672b23a92e499aadb85427b54520; 0xe5da5595ee970b89929959ae766bf512; 0x1040920971720048711dbeccf94c;
   0x2b0e7fa2d509ca746fe2716bc7c3e73a; 0x81edd40a7a7437cb99d6b267d0d7976c; 0x2abe34bad75338b479a6a08dabf6573a;
   0xe46a1e8deccdf96d84dd884d1a5d4462; 0x65df4d264824132411d3553085980142; 0x804c1cb1eac70f698ab1aeeb3a605920;
   0x4e983687d159ce9677cb863e8acc5944; 0xa94f4b3252499e01e04514377dbd55aa; 0xcf74f70e70ef2af7ef6fd23d2af671a4;
   0xe7d77da5831189d3978a93f3f56f619e; 0x1e8ccb9dcc72f2e1a9cbeb8232d62fc; 0x4cdd0f362b68e52a7a5109eab0a16ef4;
   0xcec4b9173b16cdf9f91a9d0499490f58; 0xe4329c3d7bf233698830781e88d05912; 0x2aaea79ad7da34b07dc715cb83174a4a;
   0x82082082597387418618bcbfcff334e0; 0x83f16f99175f624799a6cd206b513bdc; 0x294b124ed1181a846297e291f4adcc3a;
   0x2442c3221f3dc1a0ce86db24aa0e48c; 0xe78fff41144664939b696b666550119e; 0x3f562a96a2aa9081b9e2febe84671c0;
   0xcd78dbfd54a1436beb568d9e63d55a14; 0xaae2ab6aaf144aaff73fdb3c06eaf756; 0xccdd4e7b1ce38d0ffacabbbeed722b64;
   0xccc9c07ae11bcce3fcd6f526cddeebd4; 0x3e5e1ccb1bf89c61fb4754fa43bbf3c; 0xcf64612f39c4323deb3fb936dd1aa228;
   0xe5da00893461b455926f68f4172caea2; 0xa95fc803c09556f7e4615febe8467196; 0xe78ae2a77b3e87b1981cf1dccb9d1fd2;
   0x4e9826c74350bfe67782f7333504b244; 0x2912d4222a675b0a6fd777b6c15f72c6; 0x4cdc1ab0f0ab5b2e7b22ee03c15c7384;
   0xe7d6682e58d237f196f8740f85956fd2; 0xcc911696880d4909f0d1382a55572458; 0xab4366b0764a0b4be46143c933474626;
   0xaaba68961da11d79fb40c8c7fe68cf6a; 0xe7d77d718378aeb397849bb7f7de0d9e; 0xe62f327ccd5792dd892fe9ca44601f62;
   0x64231d9efb5729d60d13f9bd382e380e; 0xe5db5416ee20984793ab5c70638d3bee; 0x81b51ab7a5fe1499959811bd9a557220;
   0x4d7cd7cc29d28cf2693f6478eddb2834; 0x295ab4bb43072c12678a4ee975a08406; 0x6437818b95e2e76e0bc9fa26a7e512ce;
   0xab0eead38eb165ebef9e1acd25989a26; 0xcc8095241ae41171f4f3f531c2d9be98; 0x3ba7996db230c0010185b9b29b00000;
   0x4cd9020746184ba27a68a299022ddf34; 0x8210932010890d058261f45338765990; 0xccc99127569146a7f80956ca3a5b86a4;
   0x2a88e0fbb92f0c2c7f14722e3db361fa; 0x824171dcefbe4a8b871d24e407e8e76c; 0x29b11e87b8989fd86fb067f47d17578a;
   0xab52f0323f47c90bf1336bc794533626; 0x0; 0xe62e22af1f6bf32ba8711e202cdc3b5e;
   0x862e22af1f6bf32ba8711e202cdc3b6c; 0x65cece94dacd5b1c54f5986b801eeb82; 0x8e8cbdc6770aef73b1ef36f7c270bdac;
   0x83f4672b23a92e491aadb85427b54520; 0x38b21c09fae1613c0db7ed8c3891e6fa].
Fixpoint idem_check (n : nat) (i p : Z) : bool :=
  match n with O => true | S n' => (lin half_table (Z.lxor p i) =? (if i =? 1 then 0 else i)) && idem_check n' (2 * i) (X (X p)) end.
Lemma idem_ok : idem_check 128 1 1 = true. Proof. vm_compute. reflexivity. Qed.

(** *** a^2 = a only for 0 and 1 *)
Lemma R_sq a : R a -> R (sq a). Proof. apply R_gm. Qed.
Lemma idem_spec n : forall i p, idem_check n i p = true -> forall k, (k < n)%nat ->
  lin half_table (Z.lxor (Nat.iter (2 * k) X p) (i * 2 ^ Z.of_nat k)) = (if i * 2 ^ Z.of_nat k =? 1 then 0 else i * 2 ^ Z.of_nat k).
Proof.
  induction n as [|n IH]; intros i p H k Hk; [lia|]. cbn [idem_check] in H. apply andb_true_iff in H. destruct H as [H1 H2].
  destruct k as [|k].
  - change (2 ^ Z.of_nat 0) with 1. rewrite Z.mul_1_r. apply Z.eqb_eq in H1. exact H1.
  - specialize (IH _ _ H2 k ltac:(lia)). replace (2 * S k)%nat with (S (S (2 * k))) by lia. rewrite !iter_succ_r.
    rewrite Nat2Z.inj_succ, Z.pow_succ_r by lia. replace (i * (2 * 2 ^ Z.of_nat k)) with (2 * i * 2 ^ Z.of_nat k) by ring. exact IH.
Qed.
Definition clear0 (v : Z) : Z := Z.lxor v (Z.b2z (Z.odd v)).
Lemma clear0_add : additive clear0.
Proof.
  intros a b _ _. unfold clear0. rewrite odd_lxor, lxor_swap. f_equal. now destruct (Z.odd a), (Z.odd b).
Qed.
Lemma half_ok v : R v -> lin half_table (Z.lxor (sq v) v) = clear0 v.
Proof.
  apply (additive_ext (fun v => lin half_table (Z.lxor (sq v) v)) clear0).
  - intros a b Ha Hb. rewrite sq_add by assumption. rewrite lxor_swap. apply lin_lxor.
  - exact clear0_add.
  - intros i Hi. pose proof (idem_spec 128 1 1 idem_ok i Hi) as E. rewrite Z.mul_1_l in E.
    rewrite sq_lin, lin_pow by now apply R_pow. unfold sq_table. rewrite even_powers_nth by exact Hi. rewrite E.
    unfold clear0. destruct i as [|i]; [reflexivity|].
    rewrite Nat2Z.inj_succ, Z.pow_succ_r by lia. rewrite Z.odd_mul. cbn [Z.odd andb Z.b2z]. rewrite Z.lxor_0_r.
    destruct (Z.eqb_spec (2 * 2 ^ Z.of_nat i) 1); [lia|reflexivity].
Qed.
Lemma idempotent e : R e -> sq e = e -> e = 0 \/ e = 1.
Proof.
  intros He E. pose proof (half_ok e He) as H. rewrite E, Z.lxor_nilpotent in H.
  rewrite (additive_0 (lin half_table) (additive_lin half_table)) in H. unfold clear0 in H. symmetry in H. apply Z.lxor_eq in H.
  rewrite H. destruct (Z.odd e); [right|left]; reflexivity.
Qed.

(** *** a^(2^128) = a *)
Definition fr (n : nat) (a : Z) : Z := Nat.iter n sq a.
Lemma fr_S n a : fr (S n) a = sq (fr n a). Proof. reflexivity. Qed.
Lemma R_fr n a : R a -> R (fr n a).
Proof. intros H. induction n as [|n IH]; [exact H|]. rewrite fr_S. now apply R_sq. Qed.
Lemma sq_mul a b : R a -> R b -> sq (gm a b) = gm (sq a) (sq b).
Proof.
  intros Ha Hb. unfold sq. pose proof (R_gm a b Ha). pose proof (R_gm b b Hb). pose proof (R_gm a a Ha).
  rewrite <- gm_assoc by (assumption || now apply R_gm). rewrite (gm_assoc b a b) by assumption. rewrite (gm_comm b a) by assumption.
  rewrite <- (gm_assoc a b b) by assumption. rewrite (gm_assoc a a) by assumption. reflexivity.
Qed.
Lemma fr_add n : additive (fr n).
Proof.
  induction n as [|n IH]; intros a b Ha Hb; [reflexivity|]. rewrite !fr_S, IH by assumption. apply sq_add; now apply R_fr.
Qed.
Lemma fr_mul n a b : R a -> R b -> fr n (gm a b) = gm (fr n a) (fr n b).
Proof.
  intros Ha Hb. induction n as [|n IH]; [reflexivity|]. rewrite !fr_S, IH. apply sq_mul; now apply R_fr.
Qed.
Lemma sq_1 : sq 1 = 1. Proof. unfold sq. apply gm_1_l, R_1. Qed.
Lemma fr_1 n : fr n 1 = 1.
Proof. induction n as [|n IH]; [reflexivity|]. rewrite fr_S, IH. apply sq_1. Qed.
Lemma fr_lin n a : R a -> fr n a = Nat.iter n (lin sq_table) a.
Proof.
  intros H. induction n as [|n IH]; [reflexivity|]. rewrite fr_S. change (Nat.iter (S n) (lin sq_table) a) with (lin sq_table (Nat.iter n (lin sq_table) a)).
  rewrite <- IH. apply sq_lin. now apply R_fr.
Qed.
Lemma R_2 : R 2. Proof. unfold R, N. lia. Qed.
Lemma fr_x : fr 128 2 = 2.
Proof. rewrite fr_lin by exact R_2. apply Z.eqb_eq. exact frob_x_ok. Qed.
Lemma X_gm a : R a -> X a = gm 2 a.
Proof.
  intros Ha. rewrite gm_comm by (exact R_2 || exact Ha). change 2 with (2 ^ Z.of_nat 1). rewrite gm_pow by (exact Ha || lia). reflexivity.
Qed.
Lemma fr_128 a : R a -> fr 128 a = a.
Proof.
  apply (additive_ext (fr 128) (fun a => a)).
  - apply fr_add.
  - intros x y _ _. reflexivity.
  - intros i Hi. rewrite <- (iterX_1 i Hi). clear Hi. induction i as [|i IH]; [apply fr_1|].
    change (fr 128 (X (Nat.iter i X 1)) = X (Nat.iter i X 1)).
    assert (Ri : R (Nat.iter i X 1)) by (apply R_iterX, R_1).
    rewrite X_gm by exact Ri. rewrite fr_mul by (exact R_2 || exact Ri). now rewrite IH, fr_x.
Qed.

(** *** No zero divisors: the product of the conjugates of a is 0 or 1. *)
Fixpoint norm (n : nat) (a : Z) : Z := match n with O => 1 | S n' => gm (norm n' a) (fr n' a) end.
Lemma R_norm n a : R a -> R (norm n a).
Proof. intros H. induction n as [|n IH]; [exact R_1|]. cbn [norm]. now apply R_gm. Qed.
Lemma sq_norm n a : R a -> gm a (sq (norm n a)) = norm (S n) a.
Proof.
  intros H. induction n as [|n IH].
  - cbn [norm]. rewrite sq_1. change (fr 0 a) with a. now rewrite gm_comm by (exact R_1 || exact H).
  - cbn [norm]. pose proof (R_norm n a H) as Rn. pose proof (R_fr n a H) as Rf.
    rewrite sq_mul by assumption. rewrite gm_assoc by (assumption || now apply R_sq). rewrite IH. reflexivity.
Qed.
Lemma norm_mul n a : R a -> gm a (sq (norm n a)) = gm (norm n a) (fr n a).
Proof. intros H. rewrite sq_norm by exact H. reflexivity. Qed.
Lemma norm_absorb n a : R a -> exists c, R c /\ norm (S n) a = gm a c.
Proof. intros H. exists (sq (norm n a)). split; [apply R_sq; now apply R_norm|]. symmetry. now apply sq_norm. Qed.
Lemma gm_0_l b : gm 0 b = 0.
Proof.
  pose proof (gm_add_l 0 0 b R_0 R_0) as E. rewrite Z.lxor_nilpotent in E. rewrite E. apply Z.lxor_nilpotent.
Qed.
Lemma norm_fr n a : R a -> gm a (norm n a) = fr n a.
Proof.
  intros H. induction n as [|n IH].
  - cbn [norm]. rewrite gm_comm by (exact H || exact R_1). now apply gm_1_l.
  - cbn [norm]. rewrite gm_assoc by (exact H || now apply R_norm || now apply R_fr). rewrite IH. reflexivity.
Qed.
Lemma norm_fixed n a : R a -> fr (S n) a = a -> sq (norm (S n) a) = norm (S n) a.
Proof.
  intros H F. rewrite <- (sq_norm n a H) at 2. cbn [norm].
  pose proof (R_norm n a H) as Rn. rewrite sq_mul by (exact Rn || now apply R_fr).
  change (sq (fr n a)) with (fr (S n) a). rewrite F. apply gm_comm; [now apply R_sq|exact H].
Qed.
Lemma inverse_gen n a : R a -> fr (S n) a = a -> a <> 0 -> exists c, R c /\ gm a c = 1.
Proof.
  intros H F Ha. destruct (idempotent (norm (S n) a) (R_norm (S n) a H) (norm_fixed n a H F)) as [E|E].
  - exfalso. apply Ha. rewrite <- F, <- (norm_fr (S n) a H), E.
    rewrite gm_comm by (exact H || exact R_0). apply gm_0_l.
  - exists (sq (norm n a)). split; [apply R_sq; now apply R_norm|]. rewrite sq_norm by exact H. exact E.
Qed.
Lemma inverse a : R a -> a <> 0 -> exists c, R c /\ gm a c = 1.
Proof. intros H. exact (inverse_gen 127 a H (fr_128 a H)). Qed.
Lemma gm_integral a b : R a -> R b -> gm a b = 0 -> a = 0 \/ b = 0.
Proof.
  intros Ha Hb E. destruct (Z.eq_dec a 0) as [->|Na]; [now left|right].
  destruct (inverse a Ha Na) as (c & Hc & Ec). rewrite <- (gm_1_l b Hb), <- Ec, (gm_comm a c Ha Hc).
  rewrite <- gm_assoc by assumption. rewrite E, gm_comm by (assumption || exact R_0). apply gm_0_l.
Qed.

(** ** The field as a type *)
Record gf := Gf { val : Z; val_ok : ((0 <=? val) && (val <? N))%bool = true }.
Lemma val_R g : R (val g).
Proof. destruct g as [v H]. cbn [val]. unfold R. apply andb_true_iff in H. destruct H as [H1 H2]. split; [now apply Z.leb_le|now apply Z.ltb_lt]. Qed.
Lemma R_bool v : R v -> ((0 <=? v) && (v <? N))%bool = true.
Proof. intros [H1 H2]. apply andb_true_iff. split; [now apply Z.leb_le|now apply Z.ltb_lt]. Qed.
Definition mk (v : Z) (H : R v) : gf := Gf v (R_bool v H).
Lemma gf_ext g h : val g = val h -> g = h.
Proof.
  destruct g as [v Hv], h as [w Hw]. cbn [val]. intros E. subst w. f_equal. apply UIP_dec. apply bool_dec.
Qed.
Definition gf0 : gf := mk 0 R_0.
Definition gf1 : gf := mk 1 R_1.
Definition gfadd (a b : gf) : gf := mk (Z.lxor (val a) (val b)) (R_lxor _ _ (val_R a) (val_R b)).
Definition gfmul (a b : gf) : gf := mk (gm (val a) (val b)) (R_gm _ _ (val_R a)).
Definition gfopp (a : gf) : gf := a.
Lemma gf_ring : ring_theory gf0 gf1 gfadd gfmul gfadd gfopp (@eq gf).
Proof.
  constructor; intros; apply gf_ext; cbn [gfadd gfmul gf0 gf1 gfopp mk val].
  - apply Z.lxor_0_l.
  - apply Z.lxor_comm.
  - symmetry. apply Z.lxor_assoc.
  - apply gm_1_l, val_R.
  - apply gm_comm; apply val_R.
  - apply gm_assoc; apply val_R.
  - apply gm_add_l; apply val_R.
  - reflexivity.
  - apply Z.lxor_nilpotent.
Qed.
Lemma gf_dec (x y : gf) : {x = y} + {x <> y}.
Proof. destruct (Z.eq_dec (val x) (val y)) as [E|N0]; [left; now apply gf_ext|right; congruence]. Qed.
Lemma gf_integral x y : gfmul x y = gf0 -> x = gf0 \/ y = gf0.
Proof.
  intros H. apply (f_equal val) in H. cbn [gfmul gf0 mk val] in H.
  destruct (gm_integral _ _ (val_R x) (val_R y) H) as [E|E]; [left|right]; apply gf_ext; exact E.
Qed.
Lemma search_below (Q : Z -> Prop) : (forall v, 0 <= v -> Q v \/ ~ Q v) -> forall n, 0 <= n ->
  (exists v, 0 <= v < n /\ Q v) \/ (forall v, 0 <= v < n -> ~ Q v).
Proof.
  intros D. apply natlike_ind.
  - right. intros v Hv. lia.
  - intros n Hn [(v & Hv & HQ)|No].
    + left. exists v. split; [lia|exact HQ].
    + destruct (D n Hn) as [HQ|HQ]; [left; exists n; split; [lia|exact HQ]|right].
      intros v Hv. destruct (Z.eq_dec v n) as [->|Ne]; [exact HQ|]. apply No. lia.
Qed.
Lemma gf_search (Q : gf -> Prop) : (forall x, Q x \/ ~ Q x) -> (exists x, Q x) \/ (forall x, ~ Q x).
Proof.
  intros D. destruct (search_below (fun v => exists g, val g = v /\ Q g)) with (n := N) as [(v & Hv & g & _ & Hg)|No].
  - intros v Hv. destruct (Z_lt_dec v N) as [Hlt|Hge].
    + assert (Rv : R v) by (split; assumption). destruct (D (mk v Rv)) as [H|H].
      * left. now exists (mk v Rv).
      * right. intros (g & E & Hg). apply H. replace (mk v Rv) with g; [exact Hg|]. apply gf_ext. exact E.
    + right. intros (g & E & _). pose proof (val_R g) as [_ ?]. lia.
  - unfold N. lia.
  - left. now exists g.
  - right. intros x Hx. apply (No (val x) (val_R x)). now exists x.
Qed.
