(** Encoding, negation and selection of group elements. *)
From Verif Require Import BaseFacts M_Slp M_FeProg M_Curve25519 M_EdConst M_Ed25519 S_Field S_Edwards S_X25519 S_Ed25519
  P_Field P_Slp P_Fe P_FeBytes P_Inv P_X25519 P_FieldInv P_Edwards P_Ge.
From Coq Require Import ZifyBool.
Local Open Scope F_scope.

(** ** Bounds of concrete limbs *)
Definition bndb (k : Z) (f : fe) : bool :=
  (length f =? 10)%nat && forallb (fun tx => (- (k * fst tx) <=? snd tx)%Z && (snd tx <=? k * fst tx)%Z) (combine tl f).
Lemma bndb_ok k f : bndb k f = true -> bnd k f.
Proof.
  unfold bndb, bnd. intros H. apply andb_true_iff in H as [H1 H2]. apply Nat.eqb_eq in H1.
  assert (E : length f = length tl) by (rewrite H1; reflexivity). clear H1. revert f E H2. generalize tl.
  induction l as [|t l IH]; intros [|x f] E H2; cbn [length] in E; try lia; [constructor|].
  cbn [combine forallb fst snd] in H2. apply andb_true_iff in H2 as [Hx H2]. constructor; [lia|]. apply IH; [lia|exact H2].
Qed.

Lemma D_bnd : bnd 1 D. Proof. apply bndb_ok. reflexivity. Qed.
Lemma D2_bnd : bnd 1 D2. Proof. apply bndb_ok. reflexivity. Qed.
Lemma SQRTM1_bnd : bnd 1 SQRTM1. Proof. apply bndb_ok. reflexivity. Qed.

Lemma D_ok : fv D = ed_d.
Proof.
  assert (E : toF 121666 * fv D = toF 121666 * ed_d).
  { transitivity (- toF 121665); [|rewrite <- ed_d_def; ring].
    unfold fv. transitivity (toF (121666 * fval D)); [symmetry; apply toF_mul|].
    transitivity (toF (-121665)); [|reflexivity]. apply toF_eq. vm_compute. reflexivity. }
  exact (fmul_cancel _ _ _ c121666_neq0 E).
Qed.
Lemma D2_ok : fv D2 = (1 + 1) * ed_d.
Proof.
  rewrite <- D_ok. unfold fv. transitivity (toF (2 * fval D)).
  - apply toF_eq. vm_compute. reflexivity.
  - rewrite toF_mul. reflexivity.
Qed.
Lemma SQRTM1_ok : fv SQRTM1 * fv SQRTM1 = - (1).
Proof.
  unfold fv. rewrite <- toF_mul. transitivity (toF (-1)); [|reflexivity]. apply toF_eq. vm_compute. reflexivity.
Qed.

(** ** Constants *)
Lemma p3_zero_rep : p3_rep p3_zero ed_zero.
Proof.
  destruct fe_zero_ok as [B0 V0], fe_one_ok as [B1 V1].
  unfold p3_rep, p3_zero, ed_zero. cbn [p3x p3y p3z p3t fst snd]. rewrite V0, V1.
  split; [exact B0|]. split; [exact B1|]. split; [exact B1|]. split; [exact B0|]. split; [exact f1_neq0|].
  split; [|split]; ring.
Qed.
Lemma p2_zero_rep : p2_rep p2_zero ed_zero.
Proof. exact (p3_to_p2_rep _ _ p3_zero_rep). Qed.
Lemma precomp_0_rep : pre_rep precomp_0 ed_zero.
Proof.
  destruct fe_zero_ok as [B0 V0], fe_one_ok as [B1 V1].
  unfold pre_rep, precomp_0, ed_zero. cbn [yplusx yminusx xy2d fst snd]. rewrite V0, V1.
  split; [exact B1|]. split; [exact B1|]. split; [exact B0|]. split; [|split]; ring.
Qed.

Lemma p3_to_cached_ok b h P : p3_rep h P -> exists r, p3_to_cached b h = Ok r /\ cached_rep r P.
Proof.
  destruct h as [hx hy hz ht], P as [x y]. intros (B1 & B2 & B3 & B4 & N & X & Y & T).
  cbn [p3x p3y p3z p3t fst snd] in *. pose proof D2_bnd as BD.
  unfold p3_to_cached. cbn [p3x p3y p3z p3t]. repeat ge_step. eexists. split; [reflexivity|].
  unfold cached_rep. cbn [cyplusx cyminusx cz ct2d fst snd].
  split; [exact B|]. split; [exact B0|]. split; [exact B3|]. split; [exact B5|]. split; [exact N|].
  rewrite V, V0, V1, D2_ok, X, Y, T. split; [|split]; ring.
Qed.

(** ** Encoding *)
Lemma idx_ok l i : (i < length l)%nat -> idx l i = Ok (nth i l 0%Z).
Proof. intros H. unfold idx. now rewrite (nth_error_nth' l 0%Z H). Qed.
Lemma nth0_le_encode n x : nth 0 (le_encode (S n) x) 0%Z = (x mod 256)%Z.
Proof. reflexivity. Qed.
Lemma land1_mod x : Z.land x 1 = (x mod 2)%Z.
Proof. change 1%Z with (Z.ones 1). now rewrite Z.land_ones by lia. Qed.
Lemma mod256_2 x : ((x mod 256) mod 2 = x mod 2)%Z.
Proof. rewrite (Z.mod_eq x 256), (Z.mod_eq x 2) by lia. rewrite Z.mod_eq by lia. lia. Qed.

Lemma fe_is_negative_ok b f : bnd 3 f -> fe_is_negative b f = Ok (fz (fv f) mod 2)%Z.
Proof.
  intros H. unfold fe_is_negative. rewrite (fe_write_bytes_ok b f H), bind_ok.
  rewrite idx_ok by (rewrite le_encode_length; lia). rewrite bind_ok.
  change (le_encode 32) with (le_encode (S 31)). rewrite nth0_le_encode, land1_mod, mod256_2. reflexivity.
Qed.

Lemma fold_or_range l acc : Forall byte_ok l -> byte_ok acc -> byte_ok (fold_left Z.lor l acc).
Proof.
  revert acc. induction l as [|x l IH]; intros acc H Ha; [exact Ha|]. cbn [fold_left]. inversion H; subst. apply IH; [assumption|].
  unfold byte_ok in *. split; [apply Z.lor_nonneg; lia|].
  destruct (Z.eq_dec (Z.lor acc x) 0) as [E|E]; [lia|].
  change 256%Z with (2 ^ 8)%Z. apply Z.log2_lt_pow2; [pose proof (Z.lor_nonneg acc x); lia|].
  rewrite Z.log2_lor by lia. apply Z.max_lub_lt.
  - destruct (Z.eq_dec acc 0); [subst; cbn; lia|]. apply Z.log2_lt_pow2; lia.
  - destruct (Z.eq_dec x 0); [subst; cbn; lia|]. apply Z.log2_lt_pow2; lia.
Qed.
Lemma verify_32_ok b x y : bytes x -> bytes y -> length x = length y ->
  exists v, verify_32 b x y = Ok v /\ (v = 0%Z <-> x = y).
Proof.
  intros Hx Hy Hl. unfold verify_32.
  set (d := fold_left _ _ 0%Z).
  assert (Hd : byte_ok d /\ (d = 0%Z <-> x = y)).
  { split.
    - assert (G : forall x y acc, fold_left (fun acc xy => Z.lor acc (Z.lxor (fst xy) (snd xy))) (combine x y) acc = fold_left Z.lor (xorl x y) acc).
      { clear. induction x as [|a x IH]; intros [|c y] acc; [reflexivity..|].
        unfold xorl. cbn [zipwith combine fold_left fst snd]. apply IH. }
      unfold d. rewrite G. apply fold_or_range; [now apply xorl_bytes|unfold byte_ok; lia].
    - assert (H : forall x y acc, length x = length y ->
        (fold_left (fun acc xy => Z.lor acc (Z.lxor (fst xy) (snd xy))) (combine x y) acc = 0%Z <-> acc = 0%Z /\ x = y)).
      { clear. induction x as [|a x IH]; intros [|c y] acc Hl; cbn [length] in Hl; try lia; cbn [combine fold_left].
        - tauto.
        - cbn [fst snd]. rewrite IH by lia. rewrite Z.lor_eq_0_iff, Z.lxor_eq_0_iff. intuition congruence. }
      unfold d. rewrite H by exact Hl. tauto. }
  destruct Hd as [Hr Hd]. unfold byte_ok in Hr.
  rewrite schk_ok by lia. rewrite bind_ok.
  assert (S8 : Z.shiftr (d - 1) 8 = (if (d =? 0)%Z then -1 else 0)%Z).
  { rewrite Z.shiftr_div_pow2 by lia. change (2 ^ 8)%Z with 256%Z.
    destruct (Z.eqb_spec d 0) as [E0|]; [rewrite E0; reflexivity|]. apply Z.div_small. lia. }
  rewrite S8. destruct (Z.eqb_spec d 0) as [E|E].
  - exists 0%Z. split; [apply schk_ok; lia|]. tauto.
  - exists (-1)%Z. split; [apply schk_ok; lia|]. split; [lia|]. intros Exy. tauto.
Qed.

Lemma fe_is_nonzero_ok b f : bnd 3 f -> exists v, fe_is_nonzero b f = Ok v /\ (v = 0%Z <-> fv f = 0).
Proof.
  intros H. unfold fe_is_nonzero. rewrite (fe_write_bytes_ok b f H), bind_ok.
  destruct (verify_32_ok b (le_encode 32 (fz (fv f))) (repeat 0%Z 32)) as (v & E & Hv).
  - apply le_encode_bytes.
  - apply bytesb_spec. reflexivity.
  - rewrite le_encode_length. reflexivity.
  - exists v. split; [exact E|]. rewrite Hv. split; intros G.
    + apply (f_equal le_decode) in G. rewrite le_decode_encode in G. change (le_decode (repeat 0%Z 32)) with 0%Z in G.
      pose proof (fz_range (fv f)) as R. unfold p in R. change (256 ^ Z.of_nat 32)%Z with (2 ^ 256)%Z in G.
      rewrite Z.mod_small in G by lia. rewrite <- (toF_fz (fv f)), G. reflexivity.
    + rewrite G. reflexivity.
Qed.

(** The sign bit of an encoding. *)
Lemma set_sign y s : (0 <= y < 2 ^ 255)%Z -> (s = 0 \/ s = 1)%Z ->
  upd (le_encode 32 y) 31 (Z.lxor (nth 31 (le_encode 32 y) 0%Z) (as_u8 (shl32 s 7))) = le_encode 32 (y + 2 ^ 255 * s).
Proof.
  intros Hy Hs. 
  destruct (split32 (le_encode 32 y) (le_encode_bytes _ _) (le_encode_length _ _)) as (a & m & z & E & Ha & Hm & Hz & Lm).
  pose proof (f_equal le_decode E) as ED. rewrite le_decode_encode, le_decode_split32 in ED by exact Lm.
  change (256 ^ Z.of_nat 32)%Z with (2 ^ 256)%Z in ED. rewrite Z.mod_small in ED by lia.
  pose proof (le_decode_range m Hm) as Rm. unfold len in Rm. rewrite Lm in Rm. change (256 ^ Z.of_nat 30)%Z with (2 ^ 240)%Z in Rm.
  unfold byte_ok in *. assert (Hz' : (z < 128)%Z) by lia.
  rewrite E.
  replace (nth 31 (a :: m ++ [z]) 0%Z) with z
    by (cbn [nth]; rewrite app_nth2 by lia; rewrite Lm; reflexivity).
  replace (upd (a :: m ++ [z]) 31 (Z.lxor z (as_u8 (shl32 s 7)))) with (a :: m ++ [Z.lxor z (as_u8 (shl32 s 7))])
    by (cbn [upd]; now rewrite upd_mid by exact Lm).
  assert (EX : Z.lxor z (as_u8 (shl32 s 7)) = (z + 128 * s)%Z).
  { destruct Hs as [-> | ->].
    - change (as_u8 (shl32 0 7)) with 0%Z. rewrite Z.lxor_0_r. lia.
    - change (as_u8 (shl32 1 7)) with 128%Z.
      assert (Q : forallb (fun w => Z.lxor (Z.of_nat w) 128 =? Z.of_nat w + 128 * 1)%Z (seq 0 128) = true) by reflexivity.
      rewrite forallb_forall in Q. specialize (Q (Z.to_nat z)). rewrite Z2Nat.id in Q by lia.
      apply Z.eqb_eq, Q, in_seq. lia. }
  rewrite EX. apply le_decode_inj.
  - constructor; [unfold byte_ok; lia|]. apply Forall_app. split; [exact Hm|]. constructor; [unfold byte_ok; lia|constructor].
  - apply le_encode_bytes.
  - rewrite le_encode_length. cbn [length]. rewrite app_length, Lm. reflexivity.
  - rewrite le_decode_split32 by exact Lm. rewrite le_decode_encode. change (256 ^ Z.of_nat 32)%Z with (2 ^ 256)%Z.
    rewrite Z.mod_small by lia. lia.
Qed.

Lemma mod2_01 x : (x mod 2 = 0 \/ x mod 2 = 1)%Z.
Proof. pose proof (Z.mod_pos_bound x 2 ltac:(lia)). lia. Qed.
Lemma finv_r a : a <> 0 -> a * finv a = 1.
Proof. intros H. transitivity (finv a * a); [ring|exact (finv_l a H)]. Qed.

Lemma ge_bytes_ok b X Y Z_ x y : bnd 1 X -> bnd 1 Y -> bnd 1 Z_ -> fv Z_ <> 0 ->
  fv X = x * fv Z_ -> fv Y = y * fv Z_ -> ge_bytes b X Y Z_ = Ok (ed_encode (x, y)).
Proof.
  intros BX BY BZ N EX EY. unfold ge_bytes.
  destruct (fe_invert_ok b Z_ BZ) as (i & -> & Bi & Vi). rewrite bind_ok.
  destruct (fe_mul_ok b X i (bnd_weaken 1 3 _ ltac:(lia) BX) (bnd_weaken 1 3 _ ltac:(lia) Bi)) as (hx & -> & Bx & Vx). rewrite bind_ok.
  destruct (fe_mul_ok b Y i (bnd_weaken 1 3 _ ltac:(lia) BY) (bnd_weaken 1 3 _ ltac:(lia) Bi)) as (hy & -> & By & Vy). rewrite bind_ok.
  assert (Fx : fv hx = x).
  { rewrite Vx, EX, Vi. transitivity (x * (fv Z_ * finv (fv Z_))); [ring|]. rewrite (finv_r _ N). ring. }
  assert (Fy : fv hy = y).
  { rewrite Vy, EY, Vi. transitivity (y * (fv Z_ * finv (fv Z_))); [ring|]. rewrite (finv_r _ N). ring. }
  rewrite (fe_write_bytes_ok b hy (bnd_weaken 1 3 _ ltac:(lia) By)), bind_ok, Fy.
  rewrite (fe_is_negative_ok b hx (bnd_weaken 1 3 _ ltac:(lia) Bx)), bind_ok, Fx.
  rewrite idx_ok by (rewrite le_encode_length; lia). rewrite bind_ok.
  unfold ed_encode. cbn [fst snd]. apply (f_equal (@Ok _)). apply set_sign; [|apply mod2_01].
  pose proof (fz_range y) as R. unfold p in R. lia.
Qed.
Lemma p2_to_bytes_ok b h P : p2_rep h P -> p2_to_bytes b h = Ok (ed_encode P).
Proof. destruct P as [x y]. intros (B1 & B2 & B3 & N & X & Y). exact (ge_bytes_ok b _ _ _ _ _ B1 B2 B3 N X Y). Qed.
Lemma p3_tobytes_ok b h P : p3_rep h P -> p3_tobytes b h = Ok (ed_encode P).
Proof. intros H. exact (p2_to_bytes_ok b _ _ (p3_to_p2_rep _ _ H)). Qed.

(** ** Negation, conditional move *)
Lemma fe_neg_ok b f : bnd 1 f -> exists h, fe_neg b f = Ok h /\ bnd 1 h /\ fv h = - fv f.
Proof.
  intros H. assert (G : exists h, fe_neg b f = Ok h /\ bnd 1 h /\ forall wl, wsum wl h = (- wsum wl f)%Z).
  { unfold bnd in *. assert (P : Forall (fun t => 0 < t < 2 ^ 30)%Z tl) by (repeat constructor; reflexivity).
    revert P. induction H as [|t x l f Ht H IH]; intros P.
    - exists []. split; [reflexivity|]. split; [constructor|]. intros wl. destruct wl; reflexivity.
    - inversion P; subst. destruct (IH ltac:(assumption)) as (h & E & B & W). cbn [fe_neg].
      rewrite schk_ok by lia. rewrite bind_ok, E, bind_ok. eexists. split; [reflexivity|].
      split; [constructor; [lia|exact B]|]. intros [|w wl]; [reflexivity|]. cbn [wsum]. rewrite W. ring. }
  destruct G as (h & E & B & W). exists h. split; [exact E|]. split; [exact B|].
  unfold fv, fval. rewrite W. apply toF_opp.
Qed.
Lemma fe_cmov_0 f g : length f = length g -> fe_cmov f g 0 = f.
Proof. intros H. pose proof (f_equal fst (fe_cswap_0 f g H)) as E. exact E. Qed.
Lemma fe_cmov_1 f g : length f = length g -> fe_cmov f g 1 = g.
Proof. intros H. pose proof (f_equal fst (fe_cswap_1 f g H)) as E. exact E. Qed.
Definition pre_bnd (q : GePrecomp) : Prop := bnd 1 (yplusx q) /\ bnd 1 (yminusx q) /\ bnd 1 (xy2d q).
Lemma pre_rep_bnd q P : pre_rep q P -> pre_bnd q. Proof. intros (H1 & H2 & H3 & _). exact (conj H1 (conj H2 H3)). Qed.
Lemma cmov_0 t u : pre_bnd t -> pre_bnd u -> cmov t u 0 = t.
Proof.
  intros (T1 & T2 & T3) (U1 & U2 & U3). unfold cmov.
  rewrite !fe_cmov_0 by (erewrite !bnd_length by eassumption; reflexivity). now destruct t.
Qed.
Lemma cmov_1 t u : pre_bnd t -> pre_bnd u -> cmov t u 1 = u.
Proof.
  intros (T1 & T2 & T3) (U1 & U2 & U3). unfold cmov.
  rewrite !fe_cmov_1 by (erewrite !bnd_length by eassumption; reflexivity). now destruct u.
Qed.
