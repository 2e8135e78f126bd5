(** Decompression of a point: [from_bytes_negate]. *)
From Verif Require Import BaseFacts M_Slp M_FeProg M_Curve25519 M_EdConst M_Ed25519 S_Field S_Edwards S_X25519 S_Ed25519
  P_Field P_Slp P_Fe P_FeBytes P_Inv P_X25519 P_FieldInv P_Edwards P_Ge P_Ge2.
Local Open Scope F_scope.
Local Opaque fpow.

(** ** The curve equation as a square root *)
Definition du (y : F) : F := y * y - 1.
Definition dv (y : F) : F := y * y * ed_d + 1.
Lemma curve_root x y : on_curve (x, y) <-> dv y * (x * x) = du y.
Proof.
  unfold on_curve, dv, du. split; intros H.
  - transitivity (1 + ed_d * (x * x) * (y * y) - 1 + x * x); [ring|]. rewrite <- H. ring.
  - transitivity ((y * y - 1) + 1 - x * x); [ring|]. rewrite <- H. ring.
Qed.
Lemma dv_neq0 y : dv y <> 0.
Proof.
  unfold dv. intros H.
  assert (Hy : y <> 0).
  { intros E. rewrite E in H. apply f1_neq0. rewrite <- H. ring. }
  destruct (square_quot f_i ed_d y Hy) as [s Hs].
  - rewrite f_i_sq. transitivity (0 - f1); [ring|]. rewrite <- H. ring.
  - exact (ed_d_nonsquare s Hs).
Qed.

Definition dw (u v : F) : F := v * v * v * (v * v * v) * v * u.
Definition dx (u v : F) : F := fpow (dw u v) ((p - 5) / 8) * (v * v * v) * u.
Definition dth (u v : F) : F := fpow (dw u v) ((p - 1) / 4).

Lemma dx_sq u v : dx u v * dx u v * v = u * dth u v.
Proof.
  unfold dx, dth. replace ((p - 1) / 4)%Z with ((p - 5) / 8 + (p - 5) / 8 + 1)%Z by reflexivity.
  rewrite !fpow_add, fpow_1_r by (vm_compute; discriminate).
  set (e := fpow (dw u v) ((p - 5) / 8)). unfold dw. ring.
Qed.
Lemma dth_root u v z : u <> 0 -> v <> 0 -> v * (z * z) = u -> dth u v = 1 \/ dth u v = - (1).
Proof.
  intros Hu Hv H. apply fsq_eq. unfold dth. rewrite <- fpow_add by (vm_compute; discriminate).
  replace ((p - 1) / 4 + (p - 1) / 4)%Z with ((p - 1) / 2)%Z by reflexivity.
  assert (Hz : z <> 0). { intros E. apply Hu. rewrite <- H, E. ring. }
  assert (E : dw u v = (v * v * v * v * z) * (v * v * v * v * z)). { unfold dw. rewrite <- H. ring. }
  rewrite E, fpow_mul, <- fpow_add by (vm_compute; discriminate).
  replace ((p - 1) / 2 + (p - 1) / 2)%Z with (p - 1)%Z by reflexivity.
  rewrite fermat; [ring|]. repeat apply fmul_neq0; assumption.
Qed.

(** ** The sign bit *)
Lemma sign_bit s : bytes s -> length s = 32%nat -> Z.shiftr (nth 31 s 0%Z) 7 = (le_decode s / 2 ^ 255)%Z.
Proof.
  intros Hs Hl. destruct (split32 s Hs Hl) as (a & m & z & -> & Ha & Hm & Hz & Lm).
  rewrite le_decode_split32 by exact Lm.
  replace (nth 31 (a :: m ++ [z]) 0%Z) with z by (cbn [nth]; rewrite app_nth2 by lia; rewrite Lm; reflexivity).
  rewrite Z.shiftr_div_pow2 by lia. unfold byte_ok in *.
  pose proof (le_decode_range m Hm) as Rm. unfold len in Rm. rewrite Lm in Rm. change (256 ^ Z.of_nat 30)%Z with (2 ^ 240)%Z in Rm.
  set (D := le_decode m) in *. clearbody D.
  assert (Q : (z / 2 ^ 7 = 0 /\ z < 128 \/ z / 2 ^ 7 = 1 /\ 128 <= z)%Z).
  { pose proof (Z.div_mod z (2 ^ 7) ltac:(lia)). pose proof (Z.mod_pos_bound z (2 ^ 7) ltac:(lia)). lia. }
  destruct Q as [[-> Q]|[-> Q]].
  - symmetry. apply Z.div_small. lia.
  - apply Z.div_unique with (r := (a + 256 * (D + 2 ^ 240 * (z - 128)))%Z); lia.
Qed.
Lemma sign01 s : bytes s -> length s = 32%nat -> (le_decode s / 2 ^ 255 = 0 \/ le_decode s / 2 ^ 255 = 1)%Z.
Proof.
  intros Hs Hl. pose proof (le_decode_range s Hs) as R. unfold len in R. rewrite Hl in R. change (256 ^ Z.of_nat 32)%Z with (2 ^ 256)%Z in R.
  pose proof (Z.div_mod (le_decode s) (2 ^ 255) ltac:(lia)). pose proof (Z.mod_pos_bound (le_decode s) (2 ^ 255) ltac:(lia)). lia.
Qed.
(** Negation flips the parity of a non-zero element. *)
Lemma fopp_parity x : x <> 0 -> (fz (fopp x) mod 2 = 1 - fz x mod 2)%Z.
Proof.
  intros Hx. assert (E : fz (fopp x) = (p - fz x)%Z).
  { pose proof (fz_range x) as R. assert (fz x <> 0)%Z.
    { intros E. apply Hx. rewrite <- (toF_fz x), E. reflexivity. }
    rewrite <- (toF_fz x) at 1. rewrite <- toF_opp, fz_toF. symmetry. apply Z.mod_unique with (q := (-1)%Z); lia. }
  rewrite E. unfold p. pose proof (Z.div_mod (fz x) 2 ltac:(lia)) as D. destruct (mod2_01 (fz x)) as [M|M]; rewrite M in *.
  - symmetry. apply Z.mod_unique with (q := (2 ^ 254 - 10 - fz x / 2)%Z); lia.
  - symmetry. apply Z.mod_unique with (q := (2 ^ 254 - 10 - fz x / 2)%Z); lia.
Qed.

Lemma lax_unique s A A' : bytes s -> lax_decodes s A -> lax_decodes s A' -> A = A'.
Proof.
  destruct A as [x y], A' as [x' y']. intros Hs (Hl & C & Y & Sx) (_ & C' & Y' & Sx'). cbn [fst snd] in *.
  assert (Ey : y' = y) by (rewrite Y, Y'; exact eq_refl). rewrite Ey in *. clear Y Y' Ey.
  apply curve_root in C. apply curve_root in C'. rewrite <- C in C'. 
  pose proof (fmul_cancel _ _ _ (dv_neq0 y) C') as E. apply fsq_eq in E. destruct E as [E|E]; [rewrite E; exact eq_refl|].
  destruct (F_eq_dec x 0) as [X0|X0].
  - rewrite E, X0. apply (f_equal (fun t => (t, y))). ring.
  - assert (X1 : x' <> 0) by (rewrite E; exact (fopp_neq0 x X0)).
    destruct Sx as [Sx|Sx]; [exfalso; exact (X0 Sx)|]. destruct Sx' as [Sx'|Sx']; [exfalso; exact (X1 Sx')|].
    exfalso. rewrite E, (fopp_parity x X0), Sx in Sx'. clear -Sx' Hs Hl.
    destruct (sign01 s Hs Hl) as [G|G]; rewrite G in Sx'; discriminate Sx'.
Qed.

Definition decode_finish (b : build) (s : list Z) (y x : fe) : res (option GeP3) :=
  let! neg := fe_is_negative b x in
  let! s31 := idx s 31 in
  let! x := if (neg =? Z.shiftr s31 7)%Z then fe_neg b x else Ok x in
  let! t := fe_mul b x y in
  Ok (Some (mkP3 x y fe_one t)).

Lemma p3_one_rep hx hy ht x y : bnd 1 hx -> bnd 1 hy -> bnd 1 ht -> fv hx = x -> fv hy = y -> fv ht = fv hx * fv hy ->
  p3_rep (mkP3 hx hy fe_one ht) (x, y).
Proof.
  intros Bx By Bt Ex Ey Et. destruct fe_one_ok as [B1 V1]. unfold p3_rep. cbn [p3x p3y p3z p3t fst snd].
  rewrite V1, Et, Ex, Ey. split; [exact Bx|]. split; [exact By|]. split; [exact B1|]. split; [exact Bt|].
  split; [exact f1_neq0|]. split; [|split]; ring.
Qed.

Lemma decode_finish_ok b s y x : bytes s -> length s = 32%nat -> bnd 1 y -> bnd 1 x ->
  fv y = toF (le_decode s mod 2 ^ 255) -> dv (fv y) * (fv x * fv x) = du (fv y) ->
  exists h, decode_finish b s y x = Ok (Some h) /\ exists A, lax_decodes s A /\ p3_rep h (ed_opp A).
Proof.
  intros Hs Hl By Bx Vy C. unfold decode_finish.
  rewrite (fe_is_negative_ok b x (bnd_weaken 1 3 _ ltac:(lia) Bx)), bind_ok.
  rewrite (idx_ok s 31) by (rewrite Hl; lia). rewrite bind_ok, (sign_bit s Hs Hl).
  apply curve_root in C.
  destruct (Z.eqb_spec (fz (fv x) mod 2) (le_decode s / 2 ^ 255)) as [E|E].
  - destruct (fe_neg_ok b x Bx) as (nx & -> & Bn & Vn). rewrite bind_ok.
    destruct (fe_mul_ok b nx y (bnd_weaken 1 3 _ ltac:(lia) Bn) (bnd_weaken 1 3 _ ltac:(lia) By)) as (t & -> & Bt & Vt). rewrite bind_ok.
    eexists. split; [exact eq_refl|]. exists (fv x, fv y). split.
    + split; [exact Hl|]. split; [exact C|]. split; [exact Vy|]. right. exact E.
    + unfold ed_opp. apply (p3_one_rep nx y t _ _ Bn By Bt Vn eq_refl Vt).
  - rewrite bind_ok.
    destruct (fe_mul_ok b x y (bnd_weaken 1 3 _ ltac:(lia) Bx) (bnd_weaken 1 3 _ ltac:(lia) By)) as (t & -> & Bt & Vt). rewrite bind_ok.
    eexists. split; [exact eq_refl|]. exists (ed_opp (fv x, fv y)). split.
    + split; [exact Hl|]. split; [exact (on_curve_opp _ C)|]. split; [exact Vy|].
      destruct (F_eq_dec (fv x) 0) as [X0|X0].
      * left. unfold ed_opp. cbn [fst]. rewrite X0. ring.
      * right. unfold ed_opp. cbn [fst]. rewrite (fopp_parity _ X0).
        destruct (sign01 s Hs Hl) as [G|G], (mod2_01 (fz (fv x))) as [M|M]; rewrite G, M in *; clear -E; lia.
    + rewrite ed_opp_opp. exact (p3_one_rep x y t _ _ Bx By Bt eq_refl eq_refl Vt).
Qed.

Theorem from_bytes_negate_ok b s : bytes s -> length s = 32%nat ->
  exists r, from_bytes_negate b s = Ok r /\
  match r with
  | Some h => exists A, lax_decodes s A /\ p3_rep h (ed_opp A)
  | None => forall A, ~ lax_decodes s A
  end.
Proof.
  intros Hs Hl. unfold from_bytes_negate.
  destruct (fe_from_bytes_ok b s Hs Hl) as (y & -> & By & Vy). rewrite bind_ok.
  destruct fe_one_ok as [B1 V1]. pose proof D_bnd as BD. cbv zeta.
  ge_step. ge_step. ge_step. ge_step. ge_step. ge_step. ge_step. ge_step. ge_step.
  assert (Eu : fv h1 = du (fv y)) by (rewrite V2, V, V1; unfold du; exact eq_refl).
  assert (Ev : fv h2 = dv (fv y)) by (rewrite V3, V0, V, V1, D_ok; unfold dv; exact eq_refl).
  assert (Ew : fv h7 = dw (fv h1) (fv h2)) by (rewrite V8, V7, V6, V5, V4; unfold dw; ring).
  destruct (fe_pow22523_ok b h7 B8) as (h8 & -> & B9 & V9). rewrite bind_ok.
  ge_step. ge_step.
  assert (Ex : fv h10 = dx (fv h1) (fv h2)) by (rewrite V11, V10, V9, Ew, V5, V4; unfold dx; exact eq_refl).
  ge_step. ge_step.
  assert (Es : fv h12 = fv h1 * dth (fv h1) (fv h2)) by (rewrite V13, V12, Ex; apply dx_sq).
  ge_step.
  assert (Eq : fv h12 = fv h10 * fv h10 * fv h2) by (rewrite V13, V12; exact eq_refl).
  clear V13 V12 Ex V11 V10 V9 Ew V8 V7 V6 V5 V4 V3 V2 V0 V.
  assert (Fin : forall x, bnd 1 x -> dv (fv y) * (fv x * fv x) = du (fv y) ->
    exists r, decode_finish b s y x = Ok r /\ match r with Some h => exists A, lax_decodes s A /\ p3_rep h (ed_opp A) | None => forall A, ~ lax_decodes s A end).
  { intros x Bx C. destruct (decode_finish_ok b s y x Hs Hl By Bx Vy C) as (g & E & H). exists (Some g). split; [exact E|exact H]. }
  destruct (fe_is_nonzero_ok b h13 B14) as (nz & -> & Hnz). rewrite bind_ok.
  destruct (Z.eqb_spec nz 0) as [N|N]; cbn [negb].
  - rewrite bind_ok. apply (Fin h10 B11). rewrite <- Eu, <- Ev.
    apply (proj1 Hnz) in N. rewrite V14 in N. apply fsub_eq0 in N. rewrite <- N, Eq. ring.
  - destruct (fe_add_ok b 1 2 h12 h1 ltac:(lia) ltac:(lia) ltac:(lia) B13 B2) as (c & -> & Bc & Vc). rewrite bind_ok.
    change (1 + 2)%Z with 3%Z in Bc.
    destruct (fe_is_nonzero_ok b c Bc) as (nz' & -> & Hnz'). rewrite bind_ok.
    destruct (Z.eqb_spec nz' 0) as [N'|N']; cbn [negb].
    + destruct (fe_mul_ok b h10 SQRTM1 (bnd_weaken 1 3 _ ltac:(lia) B11) (bnd_weaken 1 3 _ ltac:(lia) SQRTM1_bnd)) as (x & -> & Bx & Vx).
      rewrite !bind_ok. apply (Fin x Bx). rewrite <- Eu, <- Ev, Vx.
      apply (proj1 Hnz') in N'. rewrite Vc in N'.
      transitivity (fv h10 * fv h10 * fv h2 * (fv SQRTM1 * fv SQRTM1)); [ring|]. rewrite SQRTM1_ok, <- Eq.
      transitivity (fv h1 - (fv h12 + fv h1)); [ring|]. rewrite N'. ring.
    + rewrite bind_ok. exists None. split; [exact eq_refl|].
      intros [x y'] (_ & C & Y & _). cbn [snd] in Y.
      assert (Ey : y' = fv y) by (rewrite Y, Vy; exact eq_refl). rewrite Ey in C. apply curve_root in C. rewrite <- Eu, <- Ev in C.
      destruct (F_eq_dec (fv h1) 0) as [U0|U0].
      * apply N, (proj2 Hnz). rewrite V14, Es, U0. ring.
      * assert (Vn : fv h2 <> 0) by (rewrite Ev; exact (dv_neq0 _)).
        destruct (dth_root _ _ _ U0 Vn C) as [T|T].
        -- apply N, (proj2 Hnz). rewrite V14, Es, T. ring.
        -- apply N', (proj2 Hnz'). rewrite Vc, Es, T. ring.
Qed.
