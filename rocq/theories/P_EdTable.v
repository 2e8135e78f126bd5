(** The tables of multiples of the base point, and its order. *)
From Verif Require Import BaseFacts M_Slp M_FeProg M_Curve25519 M_EdConst M_Ed25519 S_Field S_Edwards
  P_Field P_Slp P_Fe P_FeBytes P_Inv P_X25519 P_FieldInv P_Edwards P_Ge P_Ge2 P_EdWit.
From Coq Require Import ZifyBool.
Local Open Scope F_scope.

Definition tri : Type := (Z * Z * Z)%type.
Definition tri_rep (e : tri) (P : point) : Prop :=
  let '(yp, ym, t) := e in
  toF yp = snd P + fst P /\ toF ym = snd P - fst P /\ toF t = (1 + 1) * ed_d * (fst P * snd P).

(** ** Checks on integers modulo p *)
Definition is0 (x : Z) : bool := let r := red x in (r =? 0)%Z || (r =? p)%Z.
Lemma is0_ok x : is0 x = true -> toF x = 0.
Proof.
  unfold is0. cbv zeta. intros H. rewrite <- red_ok. apply orb_true_iff in H as [H|H]; apply Z.eqb_eq in H; rewrite H; [reflexivity|].
  apply toF_eq. reflexivity.
Qed.
Lemma is0_eq x y : is0 (x - y) = true -> toF x = toF y.
Proof. intros H. apply is0_ok in H. rewrite toF_sub in H. exact (fsub_eq0 _ _ H). Qed.

(** [e3] represents the sum of what [e1] and [e2] represent. *)
Definition chk_add (e1 e2 e3 : tri) : bool :=
  let '(yp1, ym1, t1) := e1 in
  let '(yp2, ym2, t2) := e2 in
  let '(yp3, ym3, t3) := e3 in
  (let k := mulr t1 (mulr (yp2 - ym2) (yp2 + ym2)) in
   let a := mulr yp1 yp2 in
   let c := mulr ym1 ym2 in
   is0 ((yp3 - ym3) * (8 + k) - 8 * (a - c)) &&
   is0 ((yp3 + ym3) * (8 - k) - 8 * (a + c)) &&
   is0 (2 * 121666 * t3 - (-121665) * ((yp3 - ym3) * (yp3 + ym3))))%Z.

Lemma chk_t yp ym t x y : toF yp = y + x -> toF ym = y - x ->
  toF (2 * 121666 * t) = toF (-121665 * ((yp - ym) * (yp + ym))) -> toF t = (1 + 1) * ed_d * (x * y).
Proof.
  intros P M H. rewrite !toF_mul, toF_sub, toF_add, P, M in H.
  apply (fmul_cancel (toF 2 * toF 121666)).
  { apply fmul_neq0; [exact f2_neq0|exact c121666_neq0]. }
  rewrite H. transitivity ((- toF 121665) * ((y + x - (y - x)) * (y + x + (y - x)))).
  { ring. }
  rewrite <- ed_d_def. ring.
Qed.

Lemma eight_neq0 : toF 8 <> 0. Proof. apply const_neq0. reflexivity. Qed.

Lemma chk_add_ok e1 e2 e3 P1 P2 : on_curve P1 -> on_curve P2 -> tri_rep e1 P1 -> tri_rep e2 P2 ->
  chk_add e1 e2 e3 = true -> tri_rep e3 (ed_add P1 P2).
Proof.
  destruct e1 as [ [yp1 ym1] t1], e2 as [ [yp2 ym2] t2], e3 as [ [yp3 ym3] t3], P1 as [x1 y1], P2 as [x2 y2].
  intros C1 C2 (A1 & S1 & T1) (A2 & S2 & T2) H. cbn [fst snd] in *.
  unfold chk_add in H. cbv zeta in H. apply andb_true_iff in H as [H H3]. apply andb_true_iff in H as [H1 H2].
  apply is0_eq in H1, H2, H3.
  pose proof (den_plus _ _ _ _ C1 C2) as Dp. pose proof (den_minus _ _ _ _ C1 C2) as Dm.
  destruct (ed_add_spec _ _ C1 C2) as (x & y & -> & EX & EY). cbn [fst snd] in EX, EY.
  repeat first [rewrite mulr_ok in H1 | rewrite toF_mul in H1 | rewrite toF_add in H1 | rewrite toF_sub in H1].
  repeat first [rewrite mulr_ok in H2 | rewrite toF_mul in H2 | rewrite toF_add in H2 | rewrite toF_sub in H2].
  rewrite A1, S1, A2, S2, T1 in H1, H2.
  clear T1 T2 A1 S1 A2 S2.
  assert (K : forall c : F, (1 + 1) * ed_d * (x1 * y1) * (c * (x2 * y2)) = c * (1 + 1) * (ed_d * (x1 * x2 * (y1 * y2)))) by (intros; ring).
  set (k := ed_d * (x1 * x2 * (y1 * y2))) in *.
  assert (X3 : toF yp3 - toF ym3 = (1 + 1) * x).
  { apply (fmul_cancel (toF 8 * (1 + k)) _ _ (fmul_neq0 _ _ eight_neq0 Dp)).
    transitivity ((toF yp3 - toF ym3) * (toF 8 + (1 + 1) * ed_d * (x1 * y1) * ((y2 + x2 - (y2 - x2)) * (y2 + x2 + (y2 - x2))))).
    { frepl ((y2 + x2 - (y2 - x2)) * (y2 + x2 + (y2 - x2))) with (toF 4 * (x2 * y2)). rewrite (K (toF 4)). ring. }
    rewrite H1. transitivity (toF 8 * (1 + 1) * (x * (1 + k))); [|ring]. rewrite EX. ring. }
  assert (Y3 : toF yp3 + toF ym3 = (1 + 1) * y).
  { apply (fmul_cancel (toF 8 * (1 - k)) _ _ (fmul_neq0 _ _ eight_neq0 Dm)).
    transitivity ((toF yp3 + toF ym3) * (toF 8 - (1 + 1) * ed_d * (x1 * y1) * ((y2 + x2 - (y2 - x2)) * (y2 + x2 + (y2 - x2))))).
    { frepl ((y2 + x2 - (y2 - x2)) * (y2 + x2 + (y2 - x2))) with (toF 4 * (x2 * y2)). rewrite (K (toF 4)). ring. }
    rewrite H2. transitivity (toF 8 * (1 + 1) * (y * (1 - k))); [|ring]. rewrite EY. ring. }
  assert (A3 : toF yp3 = y + x).
  { apply (fmul_cancel (1 + 1) _ _ f2_neq0). transitivity ((toF yp3 - toF ym3) + (toF yp3 + toF ym3)); [ring|]. rewrite X3, Y3. ring. }
  assert (S3 : toF ym3 = y - x).
  { apply (fmul_cancel (1 + 1) _ _ f2_neq0). transitivity ((toF yp3 + toF ym3) - (toF yp3 - toF ym3)); [ring|]. rewrite X3, Y3. ring. }
  unfold tri_rep. cbn [fst snd]. split; [exact A3|]. split; [exact S3|]. exact (chk_t _ _ _ _ _ A3 S3 H3).
Qed.

(** ** Rows and doublings *)
Fixpoint chk_row (b1 prev : tri) (es : list tri) : bool :=
  match es with
  | [] => true
  | e :: es' => chk_add b1 prev e && chk_row b1 e es'
  end.
Lemma chk_row_ok b1 P : on_curve P -> tri_rep b1 P -> forall es prev n, tri_rep prev (ed_mul n P) ->
  chk_row b1 prev es = true ->
  forall j, (j < length es)%nat -> tri_rep (nth j es (0, 0, 0)%Z) (ed_mul (n + 1 + Z.of_nat j) P).
Proof.
  intros C H1. induction es as [|e es IH]; intros prev n Hp H j Hj; cbn [length] in Hj; [lia|].
  cbn [chk_row] in H. apply andb_true_iff in H as [H H'].
  assert (He : tri_rep e (ed_mul (n + 1) P)).
  { rewrite ed_mul_succ by exact C. exact (chk_add_ok _ _ _ _ _ C (on_curve_mul _ _ C) H1 Hp H). }
  destruct j as [|j]; cbn [nth].
  - rewrite Z.add_0_r. exact He.
  - replace (n + 1 + Z.of_nat (S j))%Z with ((n + 1) + 1 + Z.of_nat j)%Z by lia.
    exact (IH e (n + 1)%Z He H' j ltac:(lia)).
Qed.
Fixpoint chk_dbls (prev : tri) (es : list tri) : bool :=
  match es with
  | [] => true
  | e :: es' => chk_add prev prev e && chk_dbls e es'
  end.
Lemma chk_dbls_ok es : forall prev P, on_curve P -> tri_rep prev P -> chk_dbls prev es = true ->
  tri_rep (last es prev) (ed_mul (2 ^ Z.of_nat (length es)) P).
Proof.
  induction es as [|e es IH]; intros prev P C Hp H.
  - cbn [length last]. change (2 ^ Z.of_nat 0)%Z with 1%Z. rewrite ed_mul_1. exact Hp.
  - cbn [chk_dbls] in H. apply andb_true_iff in H as [H H'].
    assert (He : tri_rep e (ed_mul 2 P)).
    { rewrite ed_mul_2 by exact C. exact (chk_add_ok _ _ _ _ _ C C Hp Hp H). }
    specialize (IH e _ (on_curve_mul 2 P C) He H'). rewrite ed_mul_mul in IH by exact C.
    replace (2 ^ Z.of_nat (length (e :: es)))%Z with (2 ^ Z.of_nat (length es) * 2)%Z
      by (cbn [length]; rewrite Nat2Z.inj_succ, Z.pow_succ_r by lia; ring).
    replace (last (e :: es) prev) with (last es e); [exact IH|].
    destruct es as [|e' es']; [reflexivity|]. cbn [last]. clear. revert e'. induction es' as [|a l IH]; intros e'; [reflexivity|]. apply IH.
Qed.

(** ** The table [BASE] *)
Definition tri_of (e : list (list Z)) : tri := (fval (nth 0 e []), fval (nth 1 e []), fval (nth 2 e [])).
Definition entry_bnd (e : list (list Z)) : bool :=
  bndb 1 (nth 0 e []) && bndb 1 (nth 1 e []) && bndb 1 (nth 2 e []).
Lemma pre_of_tri e P : entry_bnd e = true -> tri_rep (tri_of e) P -> pre_rep (precomp_of e) P.
Proof.
  unfold entry_bnd. intros H (A & S & T). apply andb_true_iff in H as [H H3]. apply andb_true_iff in H as [H1 H2].
  unfold pre_rep, precomp_of. cbn [yplusx yminusx xy2d].
  split; [exact (bndb_ok _ _ H1)|]. split; [exact (bndb_ok _ _ H2)|]. split; [exact (bndb_ok _ _ H3)|].
  split; [exact A|]. split; [exact S|exact T].
Qed.

Definition tri0 : tri := (0, 0, 0)%Z.
Fixpoint chk_table (rows W : list (list tri)) : bool :=
  match rows with
  | [] => true
  | row :: rows' =>
      match row with
      | [] => false
      | e1 :: es =>
          (length es =? 7)%nat && chk_row e1 e1 es &&
          match rows' with
          | [] => true
          | row' :: _ =>
              match W with
              | [] => false
              | w :: W' =>
                  (length w =? 4)%nat &&
                  chk_dbls (nth 6 es tri0) (w ++ [nth 0 row' tri0]) && chk_table rows' W'
              end
          end
      end
  end.
Lemma chk_table_ok P : on_curve P -> forall rows W i, chk_table rows W = true -> 
  tri_rep (nth 0 (nth 0 rows []) tri0) (ed_mul (256 ^ Z.of_nat i) P) ->
  forall k j, (k < length rows)%nat -> (j < 8)%nat ->
  tri_rep (nth j (nth k rows []) tri0) (ed_mul ((Z.of_nat j + 1) * 256 ^ Z.of_nat (i + k)) P).
Proof.
  intros C. induction rows as [|row rows IH]; intros W i H H0 k j Hk Hj; cbn [length] in Hk; [lia|].
  cbn [chk_table] in H. destruct row as [|e1 es]; [discriminate H|].
  apply andb_true_iff in H as [H H']. apply andb_true_iff in H as [Hl Hr]. apply Nat.eqb_eq in Hl.
  cbn [nth] in H0. pose proof (on_curve_mul (256 ^ Z.of_nat i) P C) as C1.
  assert (R : forall j, (j < 8)%nat -> tri_rep (nth j (e1 :: es) tri0) (ed_mul (Z.of_nat j + 1) (ed_mul (256 ^ Z.of_nat i) P))).
  { intros [|j'] Hj'; cbn [nth].
    - change (Z.of_nat 0 + 1)%Z with 1%Z. rewrite ed_mul_1. exact H0.
    - replace (Z.of_nat (S j') + 1)%Z with (1 + 1 + Z.of_nat j')%Z by lia.
      refine (chk_row_ok e1 _ C1 H0 es e1 1 _ Hr j' ltac:(lia)). rewrite ed_mul_1. exact H0. }
  destruct k as [|k].
  - cbn [nth]. rewrite Nat.add_0_r. rewrite <- ed_mul_mul by exact C. exact (R j Hj).
  - destruct rows as [|row' rows']; [cbn [length] in Hk; lia|].
    destruct W as [|w W]; [discriminate H'|]. apply andb_true_iff in H' as [H' Ht]. apply andb_true_iff in H' as [Hw Hd].
    apply Nat.eqb_eq in Hw. 
    pose proof (R 7%nat ltac:(lia)) as R7. cbn [nth] in R7.
    pose proof (chk_dbls_ok _ _ _ (on_curve_mul _ _ C1) R7 Hd) as N. rewrite app_length, Hw in N.
    rewrite last_last in N. rewrite !ed_mul_mul in N by (try apply on_curve_mul; exact C).
    assert (E : (2 ^ Z.of_nat (4 + length [nth 0 row' tri0]) * (Z.of_nat 7 + 1) * 256 ^ Z.of_nat i = 256 ^ Z.of_nat (S i))%Z).
    { rewrite (Nat2Z.inj_succ i), (Z.pow_succ_r 256 (Z.of_nat i) (Nat2Z.is_nonneg i)). change (Z.of_nat (4 + length [nth 0 row' tri0])) with 5%Z.
      change (2 ^ 5)%Z with 32%Z. change (Z.of_nat 7 + 1)%Z with 8%Z. ring. }
    rewrite E in N. clear E.
    change (nth (S k) ((e1 :: es) :: row' :: rows') []) with (nth k (row' :: rows') []).
    rewrite <- (Nat.add_succ_comm i k).
    exact (IH W (S i) Ht N k j (proj2 (Nat.succ_lt_mono _ _) Hk) Hj).
Qed.

Definition base_tris : list (list tri) := Eval vm_compute in map (map tri_of) BASE.
Lemma base_tris_eq : base_tris = map (map tri_of) BASE. Proof. vm_compute. reflexivity. Qed.
Lemma base_bnd : forallb (fun row => (length row =? 8)%nat && forallb entry_bnd row) BASE = true.
Proof. vm_compute. reflexivity. Qed.
Lemma base_chk : chk_table base_tris W_row = true.
Proof. vm_cast_no_check (@eq_refl bool true). Qed.

Transparent fdiv.
Lemma fdiv_def a c : a / c = a * finv c. Proof. reflexivity. Qed.
Opaque fdiv.
Definition chk_B (e : tri) : bool :=
  let '(yp, ym, t) := e in
  (is0 (yp - ym - 2 * 15112221349535400772501151409588531511454012693041857206046113283949847762202) &&
   is0 (5 * (yp + ym) - 8) && is0 (2 * 121666 * t - (-121665) * ((yp - ym) * (yp + ym))))%Z.
Lemma chk_B_ok e : chk_B e = true -> tri_rep e ed_B.
Proof.
  destruct e as [ [yp ym] t]. unfold chk_B. intros H. apply andb_true_iff in H as [H H3]. apply andb_true_iff in H as [H1 H2].
  apply is0_eq in H1, H2, H3. unfold ed_B.
  generalize dependent 15112221349535400772501151409588531511454012693041857206046113283949847762202%Z.
  intros xb H1. unfold tri_rep. cbn [fst snd].
  rewrite toF_sub, toF_mul in H1. rewrite toF_mul, toF_add in H2.
  assert (Y : toF yp + toF ym = toF 2 * fdiv (toF 4) (toF 5)).
  { apply (fmul_cancel (toF 5) _ _ five_neq0). rewrite H2. symmetry.
    transitivity (toF 8 * (toF 5 * finv (toF 5))); [rewrite fdiv_def; ring|]. rewrite (finv_r _ five_neq0). ring. }
  set (y := fdiv (toF 4) (toF 5)) in *. set (x := toF xb) in *.
  assert (A : toF yp = y + x).
  { apply (fmul_cancel (1 + 1) _ _ f2_neq0). transitivity ((toF yp - toF ym) + (toF yp + toF ym)); [ring|]. rewrite H1, Y. ring. }
  assert (S : toF ym = y - x).
  { apply (fmul_cancel (1 + 1) _ _ f2_neq0). transitivity ((toF yp + toF ym) - (toF yp - toF ym)); [ring|]. rewrite H1, Y. ring. }
  split; [exact A|]. split; [exact S|]. exact (chk_t _ _ _ _ _ A S H3).
Qed.
Lemma base_first : chk_B (nth 0 (nth 0 base_tris []) tri0) = true.
Proof. vm_compute. reflexivity. Qed.

Lemma base_tri i j : (i < 32)%nat -> (j < 8)%nat ->
  tri_rep (nth j (nth i base_tris []) tri0) (ed_mul ((Z.of_nat j + 1) * 256 ^ Z.of_nat i) ed_B).
Proof.
  intros Hi Hj. refine (chk_table_ok ed_B on_curve_B base_tris W_row 0 base_chk _ i j _ Hj).
  - change (256 ^ Z.of_nat 0)%Z with 1%Z. rewrite ed_mul_1. exact (chk_B_ok _ base_first).
  - exact Hi.
Qed.

(** [BASE[i][j]] is (j+1) 256^i B. *)
Theorem base_entry i j : (i < 32)%nat -> (j < 8)%nat -> exists row, nth_error BASE i = Some row /\
  pre_rep (precomp_of (nth j row [])) (ed_mul ((Z.of_nat j + 1) * 256 ^ Z.of_nat i) ed_B).
Proof.
  intros Hi Hj. assert (LB : length BASE = 32%nat) by reflexivity.
  destruct (nth_error BASE i) as [row|] eqn:E; [|apply nth_error_None in E; rewrite LB in E; lia].
  exists row. split; [reflexivity|].
  pose proof base_bnd as Hb. rewrite forallb_forall in Hb. specialize (Hb row (nth_error_In _ _ E)).
  apply andb_true_iff in Hb as [Hl Hb]. apply Nat.eqb_eq in Hl.
  rewrite forallb_forall in Hb. specialize (Hb (nth j row []) (nth_In row [] ltac:(rewrite Hl; exact Hj))).
  apply (pre_of_tri _ _ Hb).
  pose proof (base_tri i j Hi Hj) as H. rewrite base_tris_eq in H.
  assert (Er : nth i BASE [] = row) by exact (nth_error_nth BASE i [] E).
  rewrite (nth_indep _ [] (map tri_of [])) in H by (rewrite map_length, LB; exact Hi).
  rewrite map_nth, Er in H.
  rewrite (nth_indep _ tri0 (tri_of [])) in H by (rewrite map_length, Hl; exact Hj).
  rewrite map_nth in H. exact H.
Qed.

(** [BI[j]] is (2j+1) B. *)
Definition bi_tris : list tri := Eval vm_compute in map tri_of BI.
Lemma bi_tris_eq : bi_tris = map tri_of BI. Proof. vm_compute. reflexivity. Qed.
Lemma bi_bnd : forallb entry_bnd BI = true. Proof. vm_compute. reflexivity. Qed.
Lemma bi_chk : chk_B (nth 0 bi_tris tri0) && chk_row (nth 1 (nth 0 base_tris []) tri0) (nth 0 bi_tris tri0) (tail bi_tris) = true.
Proof. vm_compute. reflexivity. Qed.

Lemma chk_row_from b1 P Q : on_curve P -> on_curve Q -> tri_rep b1 P -> forall es prev n, tri_rep prev (ed_add (ed_mul n P) Q) ->
  chk_row b1 prev es = true ->
  forall j, (j < length es)%nat -> tri_rep (nth j es tri0) (ed_add (ed_mul (n + 1 + Z.of_nat j) P) Q).
Proof.
  intros C CQ H1. induction es as [|e es IH]; intros prev n Hp H j Hj; cbn [length] in Hj; [lia|].
  cbn [chk_row] in H. apply andb_true_iff in H as [H H'].
  assert (He : tri_rep e (ed_add (ed_mul (n + 1) P) Q)).
  { rewrite ed_mul_succ by exact C. rewrite ed_add_assoc by auto using on_curve_mul.
    exact (chk_add_ok _ _ _ _ _ C (on_curve_add _ _ (on_curve_mul _ _ C) CQ) H1 Hp H). }
  destruct j as [|j]; cbn [nth].
  - rewrite Z.add_0_r. exact He.
  - replace (n + 1 + Z.of_nat (S j))%Z with ((n + 1) + 1 + Z.of_nat j)%Z by lia.
    exact (IH e (n + 1)%Z He H' j ltac:(lia)).
Qed.
Theorem bi_entry j : (j < 8)%nat -> exists e, nth_error BI j = Some e /\
  pre_rep (precomp_of e) (ed_mul (2 * Z.of_nat j + 1) ed_B).
Proof.
  intros Hj. assert (LB : length BI = 8%nat) by reflexivity.
  destruct (nth_error BI j) as [e|] eqn:E; [|apply nth_error_None in E; rewrite LB in E; lia].
  exists e. split; [reflexivity|].
  pose proof bi_bnd as Hb. rewrite forallb_forall in Hb. specialize (Hb e (nth_error_In _ _ E)).
  apply (pre_of_tri _ _ Hb).
  assert (G : tri_rep (nth j bi_tris tri0) (ed_mul (2 * Z.of_nat j + 1) ed_B)).
  { pose proof bi_chk as K. apply andb_true_iff in K as [K1 K2]. apply chk_B_ok in K1.
    pose proof (base_tri 0 1 ltac:(lia) ltac:(lia)) as T2. change ((Z.of_nat 1 + 1) * 256 ^ Z.of_nat 0)%Z with 2%Z in T2.
    pose proof on_curve_B as CB. destruct j as [|j].
    - change (2 * Z.of_nat 0 + 1)%Z with 1%Z. rewrite ed_mul_1. exact K1.
    - assert (K0 : tri_rep (nth 0 bi_tris tri0) (ed_add (ed_mul 0 (ed_mul 2 ed_B)) ed_B))
        by (rewrite ed_mul_0, ed_add_0_l; exact K1).
      pose proof (chk_row_from _ _ _ (on_curve_mul 2 _ CB) CB T2 _ _ 0 K0 K2 j) as R.
      assert (LT : length (tail bi_tris) = 7%nat) by reflexivity. specialize (R ltac:(rewrite LT; lia)).
      rewrite ed_mul_mul in R by exact CB.
      assert (EM : ed_mul (2 * Z.of_nat (S j) + 1) ed_B = ed_add (ed_mul ((0 + 1 + Z.of_nat j) * 2) ed_B) ed_B).
      { rewrite <- (ed_mul_1 ed_B) at 3. rewrite <- ed_mul_add by exact CB. apply (f_equal (fun z => ed_mul z ed_B)).
        rewrite Nat2Z.inj_succ. ring. }
      rewrite EM. exact R. }
  rewrite bi_tris_eq in G. rewrite (nth_indep _ tri0 (tri_of [])) in G by (rewrite map_length, LB; exact Hj).
  rewrite map_nth, (nth_error_nth BI j [] E) in G. exact G.
Qed.

(** ** The order of the base point *)
Definition tri_neg (e : tri) : tri := let '(yp, ym, t) := e in (ym, yp, - t)%Z.
Lemma tri_neg_ok e P : tri_rep e P -> tri_rep (tri_neg e) (ed_opp P).
Proof.
  destruct e as [ [yp ym] t], P as [x y]. intros (A & S & T). unfold tri_rep, tri_neg, ed_opp. cbn [fst snd] in *.
  rewrite toF_opp, A, S, T. split; [ring|]. split; ring.
Qed.
Definition table_digit (i : nat) (v : Z) : tri :=
  if (0 <? v)%Z then nth (Z.to_nat (v - 1)) (nth i base_tris []) tri0
  else tri_neg (nth (Z.to_nat (- v - 1)) (nth i base_tris []) tri0).
Definition good_digit (i : nat) (v : Z) : bool := (i <? 32)%nat && negb (v =? 0)%Z && (-8 <=? v)%Z && (v <=? 8)%Z.
Lemma table_digit_ok i v : good_digit i v = true -> tri_rep (table_digit i v) (ed_mul (v * 256 ^ Z.of_nat i) ed_B).
Proof.
  unfold good_digit, table_digit. intros H. destruct (Z.ltb_spec 0 v).
  - pose proof (base_tri i (Z.to_nat (v - 1)) ltac:(lia) ltac:(lia)) as T.
    replace (Z.of_nat (Z.to_nat (v - 1)) + 1)%Z with v in T by lia. exact T.
  - pose proof (base_tri i (Z.to_nat (- v - 1)) ltac:(lia) ltac:(lia)) as T.
    replace (Z.of_nat (Z.to_nat (- v - 1)) + 1)%Z with (- v)%Z in T by lia.
    apply tri_neg_ok in T. rewrite <- ed_mul_opp in T. 
    replace (- (- v * 256 ^ Z.of_nat i))%Z with (v * 256 ^ Z.of_nat i)%Z in T by ring. exact T.
Qed.
Fixpoint chk_sum (acc : tri) (l : list (nat * Z * tri)) : bool :=
  match l with
  | [] => true
  | (i, v, e) :: l' => good_digit i v && chk_add acc (table_digit i v) e && chk_sum e l'
  end.
Definition sum_val (l : list (nat * Z * tri)) : Z :=
  fold_right (fun x s => let '(i, v, _) := x in v * 256 ^ Z.of_nat i + s)%Z 0%Z l.
Definition sum_last (acc : tri) (l : list (nat * Z * tri)) : tri := last (map snd l) acc.
Lemma last_cons_def {A} (l : list A) : forall a d, last (a :: l) d = last l a.
Proof. induction l as [|b l IH]; intros a d; [reflexivity|]. change (last (a :: b :: l) d) with (last (b :: l) d). now rewrite !IH. Qed.
Lemma chk_sum_ok l : forall acc n, tri_rep acc (ed_mul n ed_B) -> chk_sum acc l = true ->
  tri_rep (sum_last acc l) (ed_mul (n + sum_val l) ed_B).
Proof.
  pose proof on_curve_B as CB.
  induction l as [|[ [i v] e] l IH]; intros acc n Ha H.
  - unfold sum_last, sum_val. cbn [map last fold_right]. rewrite Z.add_0_r. exact Ha.
  - cbn [chk_sum] in H. apply andb_true_iff in H as [H H']. apply andb_true_iff in H as [Hg Hc].
    assert (He : tri_rep e (ed_mul (n + v * 256 ^ Z.of_nat i) ed_B)).
    { rewrite ed_mul_add by exact CB. exact (chk_add_ok _ _ _ _ _ (on_curve_mul _ _ CB) (on_curve_mul _ _ CB) Ha (table_digit_ok _ _ Hg) Hc). }
    specialize (IH e _ He H'). unfold sum_last in *. cbn [map snd]. rewrite last_cons_def.
    assert (EV : (n + sum_val ((i, v, e) :: l) = n + v * 256 ^ Z.of_nat i + sum_val l)%Z) by (unfold sum_val; cbn [fold_right]; ring).
    rewrite EV. exact IH.
Qed.
Definition tri_one : tri := (1, 1, 0)%Z.
Lemma tri_one_rep : tri_rep tri_one ed_zero.
Proof. unfold tri_rep, tri_one, ed_zero. cbn [fst snd]. change (toF 1) with f1. change (toF 0) with f0. split; [ring|]. split; ring. Qed.
Lemma tri_rep_inj e P Q : tri_rep e P -> tri_rep e Q -> P = Q.
Proof.
  destruct e as [ [yp ym] t], P as [x y], Q as [x' y']. intros (A & S & _) (A' & S' & _). cbn [fst snd] in *.
  rewrite A in A'. rewrite S in S'.
  assert (Y : y = y').
  { apply (fmul_cancel (1 + 1) _ _ f2_neq0). transitivity ((y + x) + (y - x)); [ring|]. rewrite A', S'. ring. }
  assert (X : x = x').
  { apply (fmul_cancel (1 + 1) _ _ f2_neq0). transitivity ((y + x) - (y - x)); [ring|]. rewrite A', S'. ring. }
  rewrite X, Y. reflexivity.
Qed.
Definition acc1 : tri := Eval vm_compute in sum_last tri_one W_odd.
Definition acc2 : tri := Eval vm_compute in last W_dbl acc1.
Lemma order_chk : chk_sum tri_one W_odd && chk_dbls acc1 W_dbl && chk_sum acc2 W_even = true.
Proof. vm_compute. reflexivity. Qed.
Lemma order_val : (16 * sum_val W_odd + sum_val W_even = L)%Z. Proof. vm_compute. reflexivity. Qed.

Theorem L_times_B : ed_mul L ed_B = ed_zero.
Proof.
  pose proof on_curve_B as CB. pose proof order_chk as K. apply andb_true_iff in K as [K K3]. apply andb_true_iff in K as [K1 K2].
  assert (T0 : tri_rep tri_one (ed_mul 0 ed_B)) by (rewrite ed_mul_0; exact tri_one_rep).
  pose proof (chk_sum_ok _ _ _ T0 K1) as T1. change (sum_last tri_one W_odd) with acc1 in T1. rewrite Z.add_0_l in T1.
  pose proof (chk_dbls_ok _ _ _ (on_curve_mul _ _ CB) T1 K2) as T2. change (last W_dbl acc1) with acc2 in T2.
  rewrite ed_mul_mul in T2 by exact CB. change (2 ^ Z.of_nat (length W_dbl))%Z with 16%Z in T2.
  pose proof (chk_sum_ok _ _ _ T2 K3) as T3. rewrite order_val in T3.
  change (sum_last acc2 W_even) with tri_one in T3.
  exact (tri_rep_inj _ _ _ T3 tri_one_rep).
Qed.
