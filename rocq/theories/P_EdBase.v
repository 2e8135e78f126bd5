(** [from_scalarmult_base] multiplies the base point. *)
From Verif Require Import BaseFacts M_Slp M_FeProg M_Curve25519 M_EdConst M_Ed25519 S_Field S_Edwards
  P_Field P_Slp P_Fe P_FeBytes P_Inv P_X25519 P_FieldInv P_Edwards P_Ge P_Ge2 P_EdTable.
From Coq Require Import ZifyBool.

(** ** Signed radix-16 digits *)
Definition pval (B : Z) (l : list Z) : Z := fold_right (fun x s => x + B * s) 0 l.
Lemma pval_cons B x l : pval B (x :: l) = x + B * pval B l. Proof. reflexivity. Qed.

Lemma nib x : byte_ok x -> Z.land (swrap 8 x) 15 = x mod 16 /\ Z.land (swrap 8 (Z.shiftr x 4)) 15 = x / 16.
Proof.
  intros H. assert (Q : (Z.land (swrap 8 x) 15 =? x mod 16) && (Z.land (swrap 8 (Z.shiftr x 4)) 15 =? x / 16) = true).
  { revert x H. apply byte_bits. vm_compute. reflexivity. }
  apply andb_true_iff in Q as [Q1 Q2]. apply Z.eqb_eq in Q1, Q2. auto.
Qed.
Lemma nibbles_ok a : bytes a -> (32 <= length a)%nat ->
  length (nibbles a) = 64%nat /\ Forall (fun x => 0 <= x <= 15) (nibbles a) /\
  pval 16 (nibbles a) = le_decode (firstn 32 a) /\ nth 63 (nibbles a) 0 = nth 31 a 0 / 16.
Proof.
  intros Ha Hl. unfold nibbles.
  assert (L : length (firstn 32 a) = 32%nat) by (rewrite firstn_length; lia).
  assert (N : nth 31 a 0 = nth 31 (firstn 32 a) 0).
  { rewrite <- (firstn_skipn 32 a) at 1. rewrite app_nth1 by lia. reflexivity. }
  rewrite N. apply (bytes_firstn 32) in Ha. revert Ha L. generalize (firstn 32 a). clear. intros l Hb Hl.
  set (f := fun x => [Z.land (swrap 8 x) 15; Z.land (swrap 8 (Z.shiftr x 4)) 15]).
  assert (G : length (flat_map f l) = (2 * length l)%nat /\ Forall (fun x => 0 <= x <= 15) (flat_map f l) /\
    pval 16 (flat_map f l) = le_decode l /\ forall n, nth (2 * n + 1) (flat_map f l) 0 = nth n l 0 / 16).
  { clear Hl. induction Hb as [|x l Hx Hb IH].
    - split; [reflexivity|]. split; [constructor|]. split; [reflexivity|]. intros n. cbn [flat_map]. destruct n; reflexivity.
    - destruct IH as (I1 & I2 & I3 & I4). destruct (nib x Hx) as [N1 N2]. unfold byte_ok in Hx.
      cbn [flat_map]. unfold f at 1 3 5 7. cbn [app]. rewrite N1, N2. cbn [length]. rewrite I1. split; [lia|]. split.
      + constructor; [pose proof (Z.mod_pos_bound x 16); lia|]. constructor; [|exact I2].
        split; [apply Z.div_pos; lia|]. apply Z.lt_succ_r, Z.div_lt_upper_bound; lia.
      + split; [rewrite !pval_cons, I3, le_decode_cons; pose proof (Z.div_mod x 16); lia|].
        intros [|n]; [reflexivity|]. replace (2 * S n + 1)%nat with (S (S (2 * n + 1))) by lia. cbn [nth]. apply I4. }
  destruct G as (G1 & G2 & G3 & G4). split; [rewrite G1; lia|]. split; [exact G2|]. split; [exact G3|]. exact (G4 31%nat).
Qed.

Lemma recode_step b x c : 0 <= x <= 15 -> 0 <= c <= 1 ->
  exists v c', schk b 8 (x + c) = Ok (x + c) /\ schk b 8 (x + c + 8) = Ok (x + c + 8) /\ Z.shiftr (x + c + 8) 4 = c' /\
  schk b 8 (x + c - shl8 c' 4) = Ok v /\ 0 <= c' <= 1 /\ -8 <= v <= 8 /\ v + 16 * c' = x + c.
Proof.
  intros Hx Hc. rewrite !schk_ok by lia.
  assert (E : Z.shiftr (x + c + 8) 4 = if x + c <? 8 then 0 else 1).
  { rewrite Z.shiftr_div_pow2 by lia. change (2 ^ 4) with 16. destruct (Z.ltb_spec (x + c) 8).
    - apply Z.div_small. lia.
    - symmetry. apply (Z.div_unique _ _ _ (x + c - 8)); lia. }
  rewrite E. destruct (Z.ltb_spec (x + c) 8).
  - exists (x + c), 0. change (shl8 0 4) with 0. rewrite Z.sub_0_r, schk_ok by lia.
    repeat (split; [reflexivity|]). lia.
  - exists (x + c - 16), 1. change (shl8 1 4) with 16. rewrite schk_ok by lia.
    repeat (split; [reflexivity|]). lia.
Qed.
Lemma recode_ok b e : forall c, e <> [] -> Forall (fun x => 0 <= x <= 15) e -> last e 0 <= 7 -> 0 <= c <= 1 ->
  exists r, recode b c e = Ok r /\ length r = length e /\ Forall (fun x => -8 <= x <= 8) r /\ pval 16 r = pval 16 e + c.
Proof.
  induction e as [|x e IH]; intros c Hne H Hlast Hc; [congruence|]. inversion H; subst.
  destruct e as [|x' e].
  - cbn [last] in Hlast. cbn [recode]. rewrite schk_ok by lia. rewrite bind_ok. eexists. split; [reflexivity|].
    split; [reflexivity|]. split; [constructor; [lia|constructor]|]. rewrite !pval_cons. cbn [pval fold_right]. lia.
  - destruct (recode_step b x c ltac:(assumption) Hc) as (v & c' & E1 & E2 & E3 & E4 & Hc' & Hv & EV).
    change (recode b c (x :: x' :: e)) with
      (let! v := schk b 8 (x + c) in let! c := schk b 8 (v + 8) in let c := Z.shiftr c 4 in
       let! v := schk b 8 (v - shl8 c 4) in let! r := recode b c (x' :: e) in Ok (v :: r)).
    rewrite E1, bind_ok, E2, bind_ok. cbv zeta. rewrite E3, E4, bind_ok.
    destruct (IH c' ltac:(discriminate) ltac:(assumption) ltac:(exact Hlast) Hc') as (r & Er & Lr & Fr & Vr).
    rewrite Er, bind_ok. eexists. split; [reflexivity|]. split; [cbn [length] in *; lia|]. split; [constructor; assumption|].
    rewrite (pval_cons 16 v), (pval_cons 16 x), Vr. lia.
Qed.

(** ** [select] *)
Lemma digit_cases e : -8 <= e <= 8 ->
  e = -8 \/ e = -7 \/ e = -6 \/ e = -5 \/ e = -4 \/ e = -3 \/ e = -2 \/ e = -1 \/ e = 0 \/
  e = 1 \/ e = 2 \/ e = 3 \/ e = 4 \/ e = 5 \/ e = 6 \/ e = 7 \/ e = 8.
Proof. lia. Qed.
Lemma select_abs b e : -8 <= e <= 8 ->
  negative e = (if e <? 0 then 1 else 0) /\
  schk b 8 (e - shl8 (Z.land (swrap 8 ((- negative e) mod 256)) e) 1) = Ok (Z.abs e) /\
  forall k, 1 <= k <= 8 -> equal (Z.abs e) k = (if Z.abs e =? k then 1 else 0).
Proof.
  intros H.
  assert (N : negative e = if e <? 0 then 1 else 0) by
    (pose proof (digit_cases e H) as C; repeat (destruct C as [-> | C]; [reflexivity|]); rewrite C; reflexivity).
  split; [exact N|]. split.
  - rewrite N. pose proof (digit_cases e H) as C.
    repeat (destruct C as [-> | C]; [destruct b; reflexivity|]). rewrite C. destruct b; reflexivity.
  - assert (G : forall a k, 0 <= a <= 8 -> 1 <= k <= 8 -> equal a k = if a =? k then 1 else 0).
    { intros a k Ha Hk.
      assert (Q : forallb (fun a => forallb (fun k => equal (Z.of_nat a) (Z.of_nat k) =? if Z.of_nat a =? Z.of_nat k then 1 else 0)
        (seq 1 8)) (seq 0 9) = true) by reflexivity.
      rewrite forallb_forall in Q. specialize (Q (Z.to_nat a) ltac:(apply in_seq; lia)).
      rewrite forallb_forall in Q. specialize (Q (Z.to_nat k) ltac:(apply in_seq; lia)).
      rewrite !Z2Nat.id in Q by lia. now apply Z.eqb_eq. }
    intros k Hk. apply G; lia.
Qed.
Lemma cmov_b t u (c : bool) : pre_bnd t -> pre_bnd u -> cmov t u (if c then 1 else 0) = if c then u else t.
Proof. intros Ht Hu. destruct c; [now apply cmov_1|now apply cmov_0]. Qed.

Lemma pre_rep_neg b t P : pre_rep t P -> exists nt, fe_neg b (xy2d t) = Ok nt /\ pre_rep (mkPre (yminusx t) (yplusx t) nt) (ed_opp P).
Proof.
  destruct P as [x y]. intros (B1 & B2 & B3 & V1 & V2 & V3).
  destruct (fe_neg_ok b _ B3) as (nt & E & Bn & Vn). exists nt. split; [exact E|].
  unfold pre_rep, ed_opp. cbn [yplusx yminusx xy2d fst snd] in *. rewrite V1, V2, Vn, V3.
  split; [exact B2|]. split; [exact B1|]. split; [exact Bn|]. split; [|split]; ring.
Qed.

Definition sel8 (k : Z) (q : list GePrecomp) : GePrecomp :=
  if k =? 0 then precomp_0 else nth (Z.to_nat (k - 1)) q precomp_0.
Lemma sel_chain k q1 q2 q3 q4 q5 q6 q7 q8 : 0 <= k <= 8 -> Forall pre_bnd [q1; q2; q3; q4; q5; q6; q7; q8] ->
  let c i := if k =? i then 1 else 0 in
  cmov (cmov (cmov (cmov (cmov (cmov (cmov (cmov precomp_0 q1 (c 1)) q2 (c 2)) q3 (c 3)) q4 (c 4)) q5 (c 5)) q6 (c 6)) q7 (c 7)) q8 (c 8)
  = sel8 k [q1; q2; q3; q4; q5; q6; q7; q8].
Proof.
  intros Hk H c. repeat match goal with H : Forall _ (_ :: _) |- _ => inversion H; subst; clear H end.
  pose proof (pre_rep_bnd _ _ precomp_0_rep) as H0.
  assert (C : k = 0 \/ k = 1 \/ k = 2 \/ k = 3 \/ k = 4 \/ k = 5 \/ k = 6 \/ k = 7 \/ k = 8) by lia.
  unfold c. clear c Hk.
  repeat (destruct C as [-> | C]; [cbv beta iota delta [Z.eqb Pos.eqb];
    repeat (match goal with |- context [cmov ?t ?u 0] => rewrite (cmov_0 t u) by assumption | |- context [cmov ?t ?u 1] => rewrite (cmov_1 t u) by assumption end); reflexivity|]).
  rewrite C. cbv beta iota delta [Z.eqb Pos.eqb].
  repeat (match goal with |- context [cmov ?t ?u 0] => rewrite (cmov_0 t u) by assumption | |- context [cmov ?t ?u 1] => rewrite (cmov_1 t u) by assumption end); reflexivity.
Qed.

Lemma select_ok b pos e : (pos < 32)%nat -> -8 <= e <= 8 ->
  exists t, select b pos e = Ok t /\ pre_rep t (ed_mul (e * 256 ^ Z.of_nat pos) ed_B).
Proof.
  intros Hp He. unfold select. destruct (select_abs b e He) as (N & A & Q). cbv zeta. rewrite A, bind_ok.
  destruct (base_entry pos 0 Hp ltac:(lia)) as (row & E & _). rewrite E, bind_ok.
  assert (R : forall j, (j < 8)%nat -> pre_rep (precomp_of (nth j row [])) (ed_mul ((Z.of_nat j + 1) * 256 ^ Z.of_nat pos) ed_B)).
  { intros j Hj. destruct (base_entry pos j Hp Hj) as (row' & E' & R'). rewrite E in E'. injection E' as <-. exact R'. }
  rewrite !Q by lia.
  assert (FB : Forall pre_bnd [precomp_of (nth 0 row []); precomp_of (nth 1 row []); precomp_of (nth 2 row []); precomp_of (nth 3 row []);
        precomp_of (nth 4 row []); precomp_of (nth 5 row []); precomp_of (nth 6 row []); precomp_of (nth 7 row [])]).
  { repeat (constructor; [eapply pre_rep_bnd, R; lia|]). constructor. }
  pose proof (sel_chain (Z.abs e) _ _ _ _ _ _ _ _ ltac:(lia) FB) as SC. cbv beta zeta in SC. rewrite SC. clear SC FB.
  set (t := sel8 _ _).
  assert (Rt : pre_rep t (ed_mul (Z.abs e * 256 ^ Z.of_nat pos) ed_B)).
  { unfold t, sel8. destruct (Z.eqb_spec (Z.abs e) 0) as [E0|N0].
    - rewrite E0. rewrite Z.mul_0_l, ed_mul_0. exact precomp_0_rep.
    - change [precomp_of (nth 0 row []); precomp_of (nth 1 row []); precomp_of (nth 2 row []); precomp_of (nth 3 row []);
        precomp_of (nth 4 row []); precomp_of (nth 5 row []); precomp_of (nth 6 row []); precomp_of (nth 7 row [])]
        with (map (fun j => precomp_of (nth j row [])) (seq 0 8)).
      set (j := Z.to_nat (Z.abs e - 1)). assert (Hj : (j < 8)%nat) by lia.
      rewrite (nth_indep _ precomp_0 (precomp_of (nth 0 row []))) by (rewrite map_length, seq_length; exact Hj).
      rewrite (map_nth (fun j => precomp_of (nth j row [])) (seq 0 8) 0%nat), seq_nth by exact Hj.
      replace (Z.abs e) with (Z.of_nat j + 1) by lia. exact (R j Hj). }
  clearbody t. destruct (pre_rep_neg b t _ Rt) as (nt & -> & Rn). rewrite bind_ok. eexists. split; [reflexivity|].
  rewrite N, (cmov_b _ _ _ (pre_rep_bnd _ _ Rt) (pre_rep_bnd _ _ Rn)). destruct (Z.ltb_spec e 0).
  - replace (Z.abs e) with (- e) in Rn by lia. rewrite <- ed_mul_opp in Rn.
    replace (- (- e * 256 ^ Z.of_nat pos)) with (e * 256 ^ Z.of_nat pos) in Rn by ring. exact Rn.
  - replace (Z.abs e) with e in Rt by lia. exact Rt.
Qed.

(** ** The loops *)
Fixpoint sd (e : list Z) (n i : nat) : Z :=
  match n with O => 0 | S n' => nth i e 0 * 256 ^ Z.of_nat (i / 2) + sd e n' (i + 2) end.
Lemma sd_shift x y l n : forall i, sd (x :: y :: l) n (S (S i)) = 256 * sd l n i.
Proof.
  induction n as [|n IH]; intros i; [reflexivity|]. cbn [sd]. cbn [nth].
  replace (S (S i) + 2)%nat with (S (S (i + 2))) by lia. rewrite IH.
  replace (S (S i) / 2)%nat with (S (i / 2)) by (replace (S (S i)) with (i + 1 * 2)%nat by lia; rewrite Nat.div_add by lia; lia).
  rewrite Nat2Z.inj_succ, Z.pow_succ_r by lia. ring.
Qed.
Lemma sd_total n : forall e, length e = (2 * n)%nat -> 16 * sd e n 1 + sd e n 0 = pval 16 e.
Proof.
  induction n as [|n IH]; intros e He.
  - destruct e; [reflexivity|discriminate He].
  - destruct e as [|x [|y e]]; cbn [length] in He; try lia. cbn [sd]. rewrite !pval_cons, <- (IH e) by lia.
    change (1 + 2)%nat with (S (S 1)). change (0 + 2)%nat with (S (S 0)). rewrite !sd_shift. cbn [nth].
    change (1 / 2)%nat with 0%nat. change (0 / 2)%nat with 0%nat. change (256 ^ Z.of_nat 0) with 1. ring.
Qed.

Lemma base_loop_ok b e n : forall i h P, Forall (fun x => -8 <= x <= 8) e -> (i + 2 * n <= length e + 1)%nat -> length e = 64%nat ->
  on_curve P -> p3_rep h P ->
  exists h', base_loop b e n i h = Ok h' /\ p3_rep h' (ed_add P (ed_mul (sd e n i) ed_B)).
Proof.
  pose proof on_curve_B as CB.
  induction n as [|n IH]; intros i h P He Hi Le C H.
  - exists h. split; [reflexivity|]. cbn [sd]. rewrite ed_mul_0, ed_add_0_r. exact H.
  - cbn [base_loop sd]. rewrite idx_ok by lia. rewrite bind_ok.
    assert (Hd : -8 <= nth i e 0 <= 8) by (rewrite Forall_forall in He; apply He, nth_In; lia).
    assert (Hq : (i / 2 < 32)%nat) by (apply Nat.div_lt_upper_bound; lia).
    destruct (select_ok b (i / 2) _ Hq Hd) as (t & -> & Rt). rewrite bind_ok.
    destruct (ge_madd_ok b h t _ _ C (on_curve_mul _ _ CB) H Rt) as (r & -> & Rr). rewrite bind_ok.
    destruct (p1p1_to_p3_ok b r _ Rr) as (h1 & -> & R1). rewrite bind_ok.
    destruct (IH (i + 2)%nat h1 _ He ltac:(lia) Le (on_curve_add _ _ C (on_curve_mul _ _ CB)) R1) as (h' & -> & R').
    exists h'. split; [reflexivity|].
    rewrite ed_mul_add by exact CB. rewrite <- ed_add_assoc by auto using on_curve_mul. exact R'.
Qed.

Theorem from_scalarmult_base_ok b a : bytes a -> (32 <= length a)%nat -> nth 31 a 0 <= 127 ->
  exists h, from_scalarmult_base b a = Ok h /\ p3_rep h (ed_mul (le_decode (firstn 32 a)) ed_B).
Proof.
  intros Ha La Ht. pose proof on_curve_B as CB. unfold from_scalarmult_base.
  destruct (nibbles_ok a Ha La) as (Ln & Fn & Vn & Tn).
  assert (Hl : last (nibbles a) 0 <= 7).
  { assert (G : forall l : list Z, length l = 64%nat -> last l 0 = nth 63 l 0).
    { intros l Hl. destruct (exists_last (l := l)) as (l' & z & ->); [intros ->; discriminate Hl|].
      rewrite last_last. rewrite app_length in Hl. cbn [length] in Hl. rewrite app_nth2 by lia.
      replace (63 - length l')%nat with 0%nat by lia. reflexivity. }
    rewrite (G _ Ln), Tn. apply Z.lt_succ_r, Z.div_lt_upper_bound; lia. }
  destruct (recode_ok b (nibbles a) 0) as (e & -> & Le & Fe & Ve); [intros E; rewrite E in Ln; discriminate Ln|exact Fn|exact Hl|lia|].
  rewrite bind_ok. rewrite Ln in Le.
  destruct (base_loop_ok b e 32 1 _ _ Fe ltac:(lia) Le on_curve_zero p3_zero_rep) as (h1 & -> & R1). rewrite bind_ok.
  rewrite ed_add_0_l in R1. set (m := sd e 32 1) in *.
  destruct (p3_dbl_ok b h1 _ (on_curve_mul _ _ CB) R1) as (r1 & -> & Q1). rewrite bind_ok.
  destruct (p1p1_to_p2_ok b r1 _ Q1) as (s1 & -> & S1). rewrite bind_ok. rewrite <- ed_mul_add in S1 by exact CB.
  destruct (p2_dbl_ok b s1 _ (on_curve_mul _ _ CB) S1) as (r2 & -> & Q2). rewrite bind_ok.
  destruct (p1p1_to_p2_ok b r2 _ Q2) as (s2 & -> & S2). rewrite bind_ok. rewrite <- ed_mul_add in S2 by exact CB.
  destruct (p2_dbl_ok b s2 _ (on_curve_mul _ _ CB) S2) as (r3 & -> & Q3). rewrite bind_ok.
  destruct (p1p1_to_p2_ok b r3 _ Q3) as (s3 & -> & S3). rewrite bind_ok. rewrite <- ed_mul_add in S3 by exact CB.
  destruct (p2_dbl_ok b s3 _ (on_curve_mul _ _ CB) S3) as (r4 & -> & Q4). rewrite bind_ok.
  destruct (p1p1_to_p3_ok b r4 _ Q4) as (h2 & -> & R2). rewrite bind_ok. rewrite <- ed_mul_add in R2 by exact CB.
  destruct (base_loop_ok b e 32 0 _ _ Fe ltac:(lia) Le (on_curve_mul _ _ CB) R2) as (h3 & -> & R3).
  exists h3. split; [reflexivity|]. rewrite <- ed_mul_add in R3 by exact CB.
  pose proof (sd_total 32 e Le) as T. fold m in T. rewrite Ve, Vn in T.
  replace (le_decode (firstn 32 a)) with (m + m + (m + m) + (m + m + (m + m)) + (m + m + (m + m) + (m + m + (m + m))) + sd e 32 0)
    by lia. exact R3.
Qed.
