(** The group operations of ed25519.rs on limbs compute the Edwards group law. *)
From Verif Require Import BaseFacts M_Slp M_FeProg M_Curve25519 M_EdConst M_Ed25519 S_Field S_Edwards
  P_Field P_Slp P_Fe P_FeBytes P_Inv P_X25519 P_FieldInv P_Edwards.
Local Open Scope F_scope.

Ltac ge_step :=
  first [fe_step |
  match goal with
  | |- ex (fun _ => bind (fe_twice_sq ?b ?f) _ = _ /\ _) =>
      match goal with Hf : bnd ?k f |- _ =>
        let h := fresh "h" in let E := fresh "E" in let B := fresh "B" in let V := fresh "V" in
        destruct (twice_sq_ok b f (bnd_weaken k 3 f ltac:(lia) Hf)) as (h & E & B & V);
        unfold fe_twice_sq; rewrite E; clear E end
  | |- ex (fun _ => bind (fe_add ?b ?f ?f) _ = _ /\ _) =>
      match goal with Hf : bnd ?k f |- _ =>
        let h := fresh "h" in let E := fresh "E" in let B := fresh "B" in let V := fresh "V" in
        destruct (fe_add_ok b k k f f ltac:(lia) ltac:(lia) ltac:(lia) Hf Hf) as (h & E & B & V);
        rewrite E; clear E; let n := eval vm_compute in (k + k)%Z in change (k + k)%Z with n in B end
  | |- ex (fun _ => bind (fe_subtract_from ?b ?f ?g) _ = _ /\ _) =>
      match goal with Hf : bnd ?k f, Hg : bnd ?j g |- _ =>
        let h := fresh "h" in let E := fresh "E" in let B := fresh "B" in let V := fresh "V" in
        destruct (fe_subtract_from_ok b k j f g ltac:(lia) ltac:(lia) ltac:(lia) Hf Hg) as (h & E & B & V);
        rewrite E; clear E; let n := eval vm_compute in (k + j)%Z in change (k + j)%Z with n in B end
  end; rewrite bind_ok].

(** ** Representations *)
Definition p2_rep (h : GeP2) (P : point) : Prop :=
  bnd 1 (p2x h) /\ bnd 1 (p2y h) /\ bnd 1 (p2z h) /\
  fv (p2z h) <> 0 /\ fv (p2x h) = fst P * fv (p2z h) /\ fv (p2y h) = snd P * fv (p2z h).
Definition p3_rep (h : GeP3) (P : point) : Prop :=
  bnd 1 (p3x h) /\ bnd 1 (p3y h) /\ bnd 1 (p3z h) /\ bnd 1 (p3t h) /\
  fv (p3z h) <> 0 /\ fv (p3x h) = fst P * fv (p3z h) /\ fv (p3y h) = snd P * fv (p3z h) /\
  fv (p3t h) = fst P * snd P * fv (p3z h).
Definition p1_rep (h : GeP1p1) (P : point) : Prop :=
  bnd 3 (c1x h) /\ bnd 3 (c1y h) /\ bnd 3 (c1z h) /\ bnd 3 (c1t h) /\
  fv (c1z h) <> 0 /\ fv (c1t h) <> 0 /\ fv (c1x h) = fst P * fv (c1z h) /\ fv (c1y h) = snd P * fv (c1t h).
Definition pre_rep (q : GePrecomp) (P : point) : Prop :=
  bnd 1 (yplusx q) /\ bnd 1 (yminusx q) /\ bnd 1 (xy2d q) /\
  fv (yplusx q) = snd P + fst P /\ fv (yminusx q) = snd P - fst P /\ fv (xy2d q) = (1 + 1) * ed_d * (fst P * snd P).
Definition cached_rep (q : GeCached) (P : point) : Prop :=
  bnd 2 (cyplusx q) /\ bnd 2 (cyminusx q) /\ bnd 1 (cz q) /\ bnd 1 (ct2d q) /\ fv (cz q) <> 0 /\
  fv (cyplusx q) = (snd P + fst P) * fv (cz q) /\ fv (cyminusx q) = (snd P - fst P) * fv (cz q) /\
  fv (ct2d q) = (1 + 1) * ed_d * (fst P * snd P) * fv (cz q).

Lemma p3_to_p2_rep h P : p3_rep h P -> p2_rep (p3_to_p2 h) P.
Proof. intros (B1 & B2 & B3 & B4 & N & X & Y & T). unfold p2_rep, p3_to_p2. cbn [p2x p2y p2z]. exact (conj B1 (conj B2 (conj B3 (conj N (conj X Y))))). Qed.

Lemma p1p1_to_p2_ok b h P : p1_rep h P -> exists r, p1p1_to_p2 b h = Ok r /\ p2_rep r P.
Proof.
  destruct h as [x y z t]. intros (B1 & B2 & B3 & B4 & Nz & Nt & X & Y). cbn [c1x c1y c1z c1t] in *.
  unfold p1p1_to_p2. cbn [c1x c1y c1z c1t]. repeat ge_step. eexists. split; [reflexivity|].
  unfold p2_rep. cbn [p2x p2y p2z]. repeat (split; [assumption|]).
  rewrite V1, V0, V, X, Y. split; [exact (fmul_neq0 _ _ Nz Nt)|]. split; ring.
Qed.
Lemma p1p1_to_p3_ok b h P : p1_rep h P -> exists r, p1p1_to_p3 b h = Ok r /\ p3_rep r P.
Proof.
  destruct h as [x y z t]. intros (B1 & B2 & B3 & B4 & Nz & Nt & X & Y). cbn [c1x c1y c1z c1t] in *.
  unfold p1p1_to_p3. cbn [c1x c1y c1z c1t]. repeat ge_step. eexists. split; [reflexivity|].
  unfold p3_rep. cbn [p3x p3y p3z p3t]. repeat (split; [assumption|]).
  rewrite V2, V1, V0, V, X, Y. split; [exact (fmul_neq0 _ _ Nz Nt)|]. split; [|split]; ring.
Qed.

Lemma two_neq0 : 1 + 1 <> 0. Proof. exact f2_neq0. Qed.

Lemma p2_dbl_ok b h P : on_curve P -> p2_rep h P -> exists r, p2_dbl b h = Ok r /\ p1_rep r (ed_add P P).
Proof.
  destruct h as [hx hy hz]. intros C (B1 & B2 & B3 & Nz & X & Y). cbn [p2x p2y p2z] in *.
  unfold p2_dbl. cbn [p2x p2y p2z]. repeat ge_step. eexists. split; [reflexivity|].
  destruct P as [x y]. pose proof (den_plus _ _ _ _ C C) as Dp. pose proof (den_minus _ _ _ _ C C) as Dm.
  destruct (ed_add_spec _ _ C C) as (x' & y' & -> & EX & EY). cbn [fst snd] in *.
  unfold p1_rep. cbn [c1x c1y c1z c1t fst snd]. split; [assumption|]. split; [exact (bnd_weaken 2 3 _ ltac:(lia) B7)|].
  split; [exact (bnd_weaken 2 3 _ ltac:(lia) B8)|]. split; [assumption|].
  unfold on_curve in C. set (w := fv hz) in *. set (d := ed_d) in *.
  assert (Ew : forall t : F, (1 + 1) * t = toF 2 * t) by (intros; ring).
  assert (K1 : fv h5 = w * w * (1 + d * (x * x * (y * y)))).
  { rewrite V5, V0, V, X, Y. transitivity (w * w * (y * y - x * x)); [ring|]. rewrite C. ring. }
  assert (K2 : fv h7 = w * w * (1 - d * (x * x * (y * y)))).
  { rewrite V7, K1, V1. ring. }
  assert (K3 : fv h4 = w * w * (y * y + x * x)) by (rewrite V4, V0, V, X, Y; ring).
  assert (K4 : fv h6 = w * w * (x * y + x * y)) by (rewrite V6, K3, V3, V2, X, Y; ring).
  rewrite K1, K2, K3, K4. pose proof (fmul_neq0 _ _ Nz Nz) as Nw.
  split; [exact (fmul_neq0 _ _ Nw Dp)|]. split; [exact (fmul_neq0 _ _ Nw Dm)|]. split.
  - rewrite <- EX. ring.
  - rewrite <- EY. ring.
Qed.
Lemma p3_dbl_ok b h P : on_curve P -> p3_rep h P -> exists r, p3_dbl b h = Ok r /\ p1_rep r (ed_add P P).
Proof. intros C H. unfold p3_dbl. apply p2_dbl_ok; [exact C|]. now apply p3_to_p2_rep. Qed.

(** The common end of the four additions: [w] is twice the product of the two
    denominators, up to the factor 2. *)
Lemma add_end x1 y1 x2 y2 w rx ry rz rt (hx hy hz ht : fe) :
  on_curve (x1, y1) -> on_curve (x2, y2) -> w <> 0 ->
  bnd 2 hx -> bnd 2 hy -> bnd 3 hz -> bnd 3 ht ->
  rx = w * ((y1 + x1) * (y2 + x2)) -> ry = w * ((y1 - x1) * (y2 - x2)) -> rz = (1 + 1) * w ->
  rt = w * ((1 + 1) * ed_d * (x2 * y2) * (x1 * y1)) ->
  fv hx = rx - ry -> fv hy = ry + rx -> fv hz = rz + rt -> fv ht = rz - rt ->
  p1_rep (mkP1 hx hy hz ht) (ed_add (x1, y1) (x2, y2)).
Proof.
  intros C1 C2 Nw Bx By Bz Bt -> -> -> -> Hx Hy Hz Ht.
  pose proof (den_plus _ _ _ _ C1 C2) as Dp. pose proof (den_minus _ _ _ _ C1 C2) as Dm.
  destruct (ed_add_spec _ _ C1 C2) as (x' & y' & -> & EX & EY). cbn [fst snd] in *.
  unfold p1_rep. cbn [c1x c1y c1z c1t fst snd].
  split; [exact (bnd_weaken 2 3 _ ltac:(lia) Bx)|]. split; [exact (bnd_weaken 2 3 _ ltac:(lia) By)|].
  split; [exact Bz|]. split; [exact Bt|].
  set (d := ed_d) in *.
  assert (K1 : fv hz = (1 + 1) * w * (1 + d * (x1 * x2 * (y1 * y2)))) by (rewrite Hz; ring).
  assert (K2 : fv ht = (1 + 1) * w * (1 - d * (x1 * x2 * (y1 * y2)))) by (rewrite Ht; ring).
  pose proof (fmul_neq0 _ _ f2_neq0 Nw) as N2.
  split; [rewrite K1; exact (fmul_neq0 _ _ N2 Dp)|]. split; [rewrite K2; exact (fmul_neq0 _ _ N2 Dm)|]. split.
  - rewrite K1, Hx. transitivity ((1 + 1) * w * (x1 * y2 + x2 * y1)); [ring|]. rewrite <- EX. ring.
  - rewrite K2, Hy. transitivity ((1 + 1) * w * (y1 * y2 + x1 * x2)); [ring|]. rewrite <- EY. ring.
Qed.

Lemma ge_add_ok b h q P Q : on_curve P -> on_curve Q -> p3_rep h P -> cached_rep q Q ->
  exists r, ge_add b h q = Ok r /\ p1_rep r (ed_add P Q).
Proof.
  destruct h as [hx hy hz ht], q as [qp qm qz qt], P as [x1 y1], Q as [x2 y2].
  intros C1 C2 (B1 & B2 & B3 & B4 & Nz & X & Y & T) (G1 & G2 & G3 & G4 & Nw & YP & YM & T2).
  cbn [p3x p3y p3z p3t cyplusx cyminusx cz ct2d fst snd] in *.
  unfold ge_add. cbn [p3x p3y p3z p3t cyplusx cyminusx cz ct2d]. repeat ge_step. eexists. split; [reflexivity|].
  refine (add_end x1 y1 x2 y2 (fv hz * fv qz) _ _ _ _ _ _ _ _ C1 C2 (fmul_neq0 _ _ Nz Nw) B10 B11 B12 B13 _ _ _ _ V6 V7 V8 V9).
  - rewrite V1, V, X, Y, YP. ring.
  - rewrite V2, V0, X, Y, YM. ring.
  - rewrite V5, V4. ring.
  - rewrite V3, T2, T. ring.
Qed.
Lemma ge_sub_ok b h q P Q : on_curve P -> on_curve Q -> p3_rep h P -> cached_rep q Q ->
  exists r, ge_sub b h q = Ok r /\ p1_rep r (ed_add P (ed_opp Q)).
Proof.
  destruct h as [hx hy hz ht], q as [qp qm qz qt], P as [x1 y1], Q as [x2 y2].
  intros C1 C2 (B1 & B2 & B3 & B4 & Nz & X & Y & T) (G1 & G2 & G3 & G4 & Nw & YP & YM & T2).
  cbn [p3x p3y p3z p3t cyplusx cyminusx cz ct2d fst snd] in *.
  unfold ge_sub. cbn [p3x p3y p3z p3t cyplusx cyminusx cz ct2d]. repeat ge_step. eexists. split; [reflexivity|].
  apply on_curve_opp in C2. cbn [ed_opp] in C2 |- *.
  refine (add_end x1 y1 (- x2) y2 (fv hz * fv qz) _ _ (fv h5) (- fv h3) _ _ _ _ C1 C2 (fmul_neq0 _ _ Nz Nw) B10 B11 B12 B13 _ _ _ _ V6 V7 _ _).
  - rewrite V1, V, X, Y, YM. ring.
  - rewrite V2, V0, X, Y, YP. ring.
  - rewrite V5, V4. ring.
  - rewrite V3, T2, T. ring.
  - rewrite V8. ring.
  - rewrite V9. ring.
Qed.
Lemma ge_madd_ok b h q P Q : on_curve P -> on_curve Q -> p3_rep h P -> pre_rep q Q ->
  exists r, ge_madd b h q = Ok r /\ p1_rep r (ed_add P Q).
Proof.
  destruct h as [hx hy hz ht], q as [qp qm qt], P as [x1 y1], Q as [x2 y2].
  intros C1 C2 (B1 & B2 & B3 & B4 & Nz & X & Y & T) (G1 & G2 & G4 & YP & YM & T2).
  cbn [p3x p3y p3z p3t yplusx yminusx xy2d fst snd] in *.
  unfold ge_madd. cbn [p3x p3y p3z p3t yplusx yminusx xy2d]. repeat ge_step. eexists. split; [reflexivity|].
  refine (add_end x1 y1 x2 y2 (fv hz) _ _ _ _ _ _ _ _ C1 C2 Nz B9 B10 B11 B12 _ _ _ _ V5 V6 V7 V8).
  - rewrite V1, V, X, Y, YP. ring.
  - rewrite V2, V0, X, Y, YM. ring.
  - rewrite V4. ring.
  - rewrite V3, T2, T. ring.
Qed.
Lemma ge_msub_ok b h q P Q : on_curve P -> on_curve Q -> p3_rep h P -> pre_rep q Q ->
  exists r, ge_msub b h q = Ok r /\ p1_rep r (ed_add P (ed_opp Q)).
Proof.
  destruct h as [hx hy hz ht], q as [qp qm qt], P as [x1 y1], Q as [x2 y2].
  intros C1 C2 (B1 & B2 & B3 & B4 & Nz & X & Y & T) (G1 & G2 & G4 & YP & YM & T2).
  cbn [p3x p3y p3z p3t yplusx yminusx xy2d fst snd] in *.
  unfold ge_msub. cbn [p3x p3y p3z p3t yplusx yminusx xy2d]. repeat ge_step. eexists. split; [reflexivity|].
  apply on_curve_opp in C2. cbn [ed_opp] in C2 |- *.
  refine (add_end x1 y1 (- x2) y2 (fv hz) _ _ (fv h4) (- fv h3) _ _ _ _ C1 C2 Nz B9 B10 B11 B12 _ _ _ _ V5 V6 _ _).
  - rewrite V1, V, X, Y, YM. ring.
  - rewrite V2, V0, X, Y, YP. ring.
  - rewrite V4. ring.
  - rewrite V3, T2, T. ring.
  - rewrite V7. ring.
  - rewrite V8. ring.
Qed.
