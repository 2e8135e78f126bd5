(** Field element operations: no overflow, and the value modulo p. *)
From Verif Require Import BaseFacts M_Slp M_FeProg M_Curve25519 S_Field P_Field P_Slp.

(** Weights of the ten limbs. *)
Definition ws : list Z := [2^0; 2^26; 2^51; 2^77; 2^102; 2^128; 2^153; 2^179; 2^204; 2^230].
Definition fval (f : fe) : Z := wsum ws f.
Definition fv (f : fe) : F := toF (fval f).

(** Limb bounds: a multiple [k] of about 1.01 * 2^25 / 2^24. *)
Definition tl : list Z :=
  [33890000; 16945000; 33890000; 16945000; 33890000; 16945000; 33890000; 16945000; 33890000; 16945000].
Definition bnd (k : Z) (f : fe) : Prop := Forall2 (fun t x => - (k * t) <= x <= k * t) tl f.
Definition ivls (k : Z) : list ivl := map (fun t => (- (k * t), k * t)) tl.

Lemma bnd_ivls k f : bnd k f <-> Forall2 inr (ivls k) f.
Proof.
  unfold bnd, ivls. generalize tl. intros l. revert f. induction l as [|t l IH]; intros f; cbn [map].
  - split; intros H; inversion H; constructor.
  - split; intros H; inversion H; subst; constructor; auto; now apply IH.
Qed.
Lemma Forall2_len {A B} (R : A -> B -> Prop) l m : Forall2 R l m -> length l = length m.
Proof. induction 1; cbn [length]; congruence. Qed.
Lemma bnd_length k f : bnd k f -> length f = 10%nat.
Proof. intros H. apply Forall2_len in H. cbn in H. congruence. Qed.
Lemma bnd_weaken k j f : k <= j -> bnd k f -> bnd j f.
Proof.
  intros Hk. unfold bnd.
  assert (P : Forall (fun t => 0 < t) tl) by (repeat constructor).
  revert P. generalize tl. intros l P H. induction H as [|t x l f Ht H IH]; constructor.
  - inversion P; subst. nia.
  - apply IH. now inversion P.
Qed.

(** ** Reading parameters back *)
Lemma lookup_notin x xs : forall vs, ~ In x xs -> lookup x (bind_args xs vs) = 0.
Proof.
  induction xs as [|y xs IH]; intros [|v vs] H; try (unfold lookup; now rewrite PositiveMap.gempty).
  cbn [bind_args]. rewrite lookup_other by (intros ->; apply H; now left). apply IH. intros ?; apply H; now right.
Qed.
Lemma lookup_params xs : NoDup xs -> forall vs, length vs = length xs ->
  map (fun x => lookup x (bind_args xs vs)) xs = vs.
Proof.
  induction 1 as [|x xs Hx Hnd IH]; intros [|v vs] Hl; cbn [length] in Hl; try lia; [reflexivity|].
  cbn [map bind_args]. rewrite lookup_same. f_equal. transitivity (map (fun z => lookup z (bind_args xs vs)) xs); [|apply IH; lia].
  apply map_ext_in. intros y Hy. apply lookup_other. intros ->; contradiction.
Qed.
Lemma wparams_ok s wl : forall xs, peval s (wparams wl xs) = wsum wl (map (fun x => lookup x s) xs).
Proof.
  induction wl as [|w wl IH]; intros [|x xs]; try reflexivity.
  cbn [wparams map wsum]. rewrite peval_cons, IH. cbn [fst snd meval fold_right]. ring.
Qed.
Fixpoint nodupb (xs : list positive) : bool :=
  match xs with [] => true | x :: xs' => negb (occurs x xs') && nodupb xs' end.
Lemma nodupb_ok xs : nodupb xs = true -> NoDup xs.
Proof.
  induction xs as [|x xs IH]; cbn [nodupb]; intros H; constructor; apply andb_true_iff in H as [H1 H2]; auto.
  intros Hin. unfold occurs in H1. apply negb_true_iff in H1.
  assert (E : existsb (Pos.eqb x) xs = true).
  { apply existsb_exists. exists x. split; [exact Hin|apply Pos.eqb_refl]. }
  congruence.
Qed.

Lemma eqm_toF x y : eqm p x y -> toF x = toF y.
Proof. intros H. apply toF_eq. apply (proj1 (eqm_mod _ _ _ p_nz)). exact H. Qed.

(** ** Products *)
Definition fs : list positive := params fe_sq_prog.
Definition gs : list positive := skipn 10 (params fe_mul_prog).

Lemma fe_mul_bounded : bounded fe_mul_prog (ivls 3 ++ ivls 3) (ivls 1) = true.
Proof. vm_compute. reflexivity. Qed.
Lemma fe_sq_bounded : bounded fe_sq_prog (ivls 3) (ivls 1) = true.
Proof. vm_compute. reflexivity. Qed.
Lemma mul121666_bounded : bounded mul121666_prog (ivls 2) (ivls 1) = true.
Proof. vm_compute. reflexivity. Qed.
Lemma twice_sq_bounded : bounded twice_sq_prog (ivls 3) (ivls 1) = true.
Proof. vm_compute. reflexivity. Qed.

Lemma fe_mul_congr : congr p fe_mul_prog ws (pmul (wparams ws fs) (wparams ws gs)) = true.
Proof. vm_compute. reflexivity. Qed.
Lemma fe_sq_congr : congr p fe_sq_prog ws (pmul (wparams ws fs) (wparams ws fs)) = true.
Proof. vm_compute. reflexivity. Qed.
Lemma mul121666_congr : congr p mul121666_prog ws (pscale 121666 (wparams ws fs)) = true.
Proof. vm_compute. reflexivity. Qed.
Lemma twice_sq_congr : congr p twice_sq_prog ws (pscale 2 (pmul (wparams ws fs) (wparams ws fs))) = true.
Proof. vm_compute. reflexivity. Qed.

Lemma fs_nodup : NoDup fs. Proof. apply nodupb_ok. vm_compute. reflexivity. Qed.
Lemma mul_params : params fe_mul_prog = fs ++ gs. Proof. reflexivity. Qed.
Lemma fsgs_nodup : NoDup (fs ++ gs). Proof. apply nodupb_ok. vm_compute. reflexivity. Qed.

Lemma Forall2_app2 {A B} (R : A -> B -> Prop) l1 l2 m1 m2 :
  Forall2 R l1 m1 -> Forall2 R l2 m2 -> Forall2 R (l1 ++ l2) (m1 ++ m2).
Proof. intros. now apply Forall2_app. Qed.

Lemma app_len_inj {A} (l1 l2 m1 m2 : list A) : length l1 = length m1 -> l1 ++ l2 = m1 ++ m2 -> l1 = m1 /\ l2 = m2.
Proof.
  revert m1. induction l1 as [|x l1 IH]; intros [|y m1] Hl H; cbn [length] in Hl; try lia.
  - auto.
  - cbn [app] in H. injection H as -> H. destruct (IH m1 ltac:(lia) H) as [-> ->]. auto.
Qed.

Lemma fe_mul_ok b f g : bnd 3 f -> bnd 3 g ->
  exists h, fe_mul b f g = Ok h /\ bnd 1 h /\ fv h = fmul (fv f) (fv g).
Proof.
  intros Hf Hg. unfold fe_mul.
  assert (Hi : Forall2 inr (ivls 3 ++ ivls 3) (f ++ g))
    by (apply Forall2_app2; now apply bnd_ivls).
  destruct (bounded_sound _ _ _ b _ fe_mul_bounded Hi) as [E R].
  exists (irun fe_mul_prog (f ++ g)). split; [exact E|]. split; [now apply bnd_ivls|].
  pose proof (congr_sound p _ ws _ (f ++ g) p_nz fe_mul_congr) as Hc.
  apply eqm_toF in Hc. unfold fv, fval. rewrite Hc, pmul_ok, !wparams_ok, mul_params, toF_mul.
  pose proof (lookup_params _ fsgs_nodup (f ++ g)) as Hl.
  rewrite app_length, (bnd_length _ _ Hf), (bnd_length _ _ Hg) in Hl. specialize (Hl eq_refl).
  rewrite map_app in Hl.
  apply app_len_inj in Hl as [H1 H2].
  - rewrite H1, H2. reflexivity.
  - rewrite map_length, (bnd_length _ _ Hf). reflexivity.
Qed.

Lemma unary_ok (pr : prog) (k : Z) (T : poly) : params pr = fs ->
  bounded pr (ivls k) (ivls 1) = true -> congr p pr ws T = true ->
  forall b f, bnd k f ->
  exists h, run b pr f = Ok h /\ bnd 1 h /\ fv h = toF (peval (bind_args fs f) T).
Proof.
  intros Hp HB HC b f Hf.
  destruct (bounded_sound _ _ _ b _ HB (proj1 (bnd_ivls _ _) Hf)) as [E R].
  exists (irun pr f). split; [exact E|]. split; [now apply bnd_ivls|].
  pose proof (congr_sound p _ ws _ f p_nz HC) as Hc. apply eqm_toF in Hc.
  unfold fv, fval. rewrite Hc, Hp. reflexivity.
Qed.
Lemma lookup_fs k f : bnd k f -> map (fun x => lookup x (bind_args fs f)) fs = f.
Proof. intros H. apply lookup_params; [apply fs_nodup|]. rewrite (bnd_length _ _ H). reflexivity. Qed.

Lemma fe_sq_ok b f : bnd 3 f -> exists h, fe_sq b f = Ok h /\ bnd 1 h /\ fv h = fmul (fv f) (fv f).
Proof.
  intros Hf. destruct (unary_ok fe_sq_prog _ _ eq_refl fe_sq_bounded fe_sq_congr b f Hf) as (h & E & B & V).
  exists h. split; [exact E|]. split; [exact B|]. rewrite V, pmul_ok, wparams_ok, (lookup_fs _ _ Hf).
  apply toF_mul.
Qed.
Lemma fe_mul121666_ok b f : bnd 2 f ->
  exists h, fe_mul121666 b f = Ok h /\ bnd 1 h /\ fv h = fmul (toF 121666) (fv f).
Proof.
  intros Hf. destruct (unary_ok mul121666_prog _ _ eq_refl mul121666_bounded mul121666_congr b f Hf) as (h & E & B & V).
  exists h. split; [exact E|]. split; [exact B|]. rewrite V, pscale_ok, wparams_ok, (lookup_fs _ _ Hf).
  apply toF_mul.
Qed.
Lemma twice_sq_ok b f : bnd 3 f ->
  exists h, run b twice_sq_prog f = Ok h /\ bnd 1 h /\ fv h = fmul (toF 2) (fmul (fv f) (fv f)).
Proof.
  intros Hf. destruct (unary_ok twice_sq_prog _ _ eq_refl twice_sq_bounded twice_sq_congr b f Hf) as (h & E & B & V).
  exists h. split; [exact E|]. split; [exact B|]. rewrite V, pscale_ok, pmul_ok, wparams_ok, (lookup_fs _ _ Hf).
  rewrite !toF_mul. reflexivity.
Qed.

(** ** Sums *)
Lemma limbs2_ok b op k j n (wl l : list Z) : Forall (fun t => 0 < t /\ n * t < 2 ^ 31) l ->
  (forall t x y, 0 < t -> - (k * t) <= x <= k * t -> - (j * t) <= y <= j * t -> - (n * t) <= op x y <= n * t) ->
  (exists cx cy, forall x y, op x y = cx * x + cy * y) ->
  forall f g, Forall2 (fun t x => - (k * t) <= x <= k * t) l f -> Forall2 (fun t x => - (j * t) <= x <= j * t) l g ->
  exists h, limbs2 b op f g = Ok h /\ Forall2 (fun t x => - (n * t) <= x <= n * t) l h /\
    forall cx cy, (forall x y, op x y = cx * x + cy * y) -> wsum wl h = cx * wsum wl f + cy * wsum wl g.
Proof.
  intros Hl Hop _ f g Hf. revert g wl. induction Hf as [|t x l f Hx Hf IH]; intros g wl Hg; inversion Hg; subst.
  - exists []. split; [reflexivity|]. split; [constructor|]. intros. destruct wl; cbn [wsum]; ring.
  - inversion Hl as [|? ? [Ht1 Ht2] Hl']; subst. cbn [limbs2].
    pose proof (Hop t x y Ht1 Hx H1) as B.
    rewrite schk_ok by (change (2 ^ (32 - 1)) with (2 ^ 31); lia). rewrite bind_ok.
    destruct (IH Hl' _ (List.tl wl) H3) as (h & E & BB & W). rewrite E, bind_ok.
    exists (op x y :: h). split; [reflexivity|]. split; [now constructor|].
    intros cx cy Hc. destruct wl as [|w wl]; cbn [wsum]; [ring|]. cbn [List.tl] in W.
    rewrite (W cx cy Hc), (Hc x y). ring.
Qed.

Lemma tl_small n : n <= 60 -> Forall (fun t => 0 < t /\ n * t < 2 ^ 31) tl.
Proof. intros H. unfold tl. repeat (constructor; [lia|]). constructor. Qed.

Lemma fe_add_ok b k j f g : 0 <= k -> 0 <= j -> k + j <= 60 -> bnd k f -> bnd j g ->
  exists h, fe_add b f g = Ok h /\ bnd (k + j) h /\ fv h = fadd (fv f) (fv g).
Proof.
  intros Hk Hj Hkj Hf Hg.
  destruct (limbs2_ok b Z.add k j (k + j) ws tl (tl_small _ Hkj)) with (f := f) (g := g) as (h & E & B & W); auto.
  - intros. nia.
  - exists 1, 1. intros; ring.
  - exists h. split; [exact E|]. split; [exact B|]. unfold fv, fval.
    rewrite (W 1 1) by (intros; ring). rewrite !Z.mul_1_l. apply toF_add.
Qed.
Lemma fe_sub_ok b k j f g : 0 <= k -> 0 <= j -> k + j <= 60 -> bnd k f -> bnd j g ->
  exists h, fe_sub b f g = Ok h /\ bnd (k + j) h /\ fv h = fsub (fv f) (fv g).
Proof.
  intros Hk Hj Hkj Hf Hg.
  destruct (limbs2_ok b Z.sub k j (k + j) ws tl (tl_small _ Hkj)) with (f := f) (g := g) as (h & E & B & W); auto.
  - intros. nia.
  - exists 1, (-1). intros; ring.
  - exists h. split; [exact E|]. split; [exact B|]. unfold fv, fval.
    rewrite (W 1 (-1)) by (intros; ring). rewrite <- toF_sub. f_equal. ring.
Qed.
Lemma fe_subtract_from_ok b k j f g : 0 <= k -> 0 <= j -> k + j <= 60 -> bnd k f -> bnd j g ->
  exists h, fe_subtract_from b f g = Ok h /\ bnd (k + j) h /\ fv h = fsub (fv g) (fv f).
Proof.
  intros Hk Hj Hkj Hf Hg.
  destruct (limbs2_ok b (fun l r => r - l) k j (k + j) ws tl (tl_small _ Hkj)) with (f := f) (g := g) as (h & E & B & W); auto.
  - intros. nia.
  - exists (-1), 1. intros; ring.
  - exists h. split; [exact E|]. split; [exact B|]. unfold fv, fval.
    rewrite (W (-1) 1) by (intros; ring). rewrite <- toF_sub. f_equal. ring.
Qed.

Lemma fe_zero_ok : bnd 1 fe_zero /\ fv fe_zero = f0.
Proof. split; [|reflexivity]. unfold bnd, tl, fe_zero. cbn [repeat]. repeat (constructor; [lia|]). constructor. Qed.
Lemma fe_one_ok : bnd 1 fe_one /\ fv fe_one = f1.
Proof. split; [|reflexivity]. unfold bnd, tl, fe_one. cbn [repeat]. repeat (constructor; [lia|]). constructor. Qed.

(** ** Conditional swap *)
Lemma cswap_mask_0 : cswap_mask 0 = 0. Proof. reflexivity. Qed.
Lemma cswap_mask_1 : cswap_mask 1 = -1. Proof. reflexivity. Qed.
Lemma lxor_cancel x y : Z.lxor x (Z.lxor x y) = y.
Proof. now rewrite <- Z.lxor_assoc, Z.lxor_nilpotent, Z.lxor_0_l. Qed.
Lemma fe_cswap_0 f g : length f = length g -> fe_cswap f g 0 = (f, g).
Proof.
  unfold fe_cswap. rewrite cswap_mask_0. revert g. induction f as [|x f IH]; intros [|y g] H; cbn [length] in H; try lia; [reflexivity|].
  cbn [zipwith]. specialize (IH g ltac:(lia)). cbv zeta in IH. injection IH as E1 E2.
  rewrite E1, E2, Z.land_0_r, !Z.lxor_0_r. reflexivity.
Qed.
Lemma fe_cswap_1 f g : length f = length g -> fe_cswap f g 1 = (g, f).
Proof.
  unfold fe_cswap. rewrite cswap_mask_1. revert g. induction f as [|x f IH]; intros [|y g] H; cbn [length] in H; try lia; [reflexivity|].
  cbn [zipwith]. specialize (IH g ltac:(lia)). cbv zeta in IH. injection IH as E1 E2.
  rewrite E1, E2, Z.land_m1_r, lxor_cancel, (Z.lxor_comm x y), lxor_cancel. reflexivity.
Qed.
