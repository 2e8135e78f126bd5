(** Scalars: [sc_reduce] and [sc_muladd] compute the canonical residue modulo L. *)
From Verif Require Import BaseFacts M_Slp M_ScProg M_Curve25519 M_Ed25519 S_Edwards P_Slp P_Fe P_FeBytes.

(** ** Pieces of a body *)
Definition vals (xs : list positive) (s : env) : list Z := map (fun x => lookup x s) xs.

Lemma exec_app b p q : forall s, exec b (p ++ q) s = (let! s' := exec b p s in exec b q s').
Proof.
  induction p as [|[x e] p IH]; intros s; [reflexivity|]. cbn [app exec].
  destruct (eval b s e) as [v|]; cbn [bind]; [apply IH|reflexivity].
Qed.
Lemma iexec_app p q : forall s, iexec (p ++ q) s = iexec q (iexec p s).
Proof. induction p as [|[x e] p IH]; intros s; [reflexivity|]. cbn [app iexec]. apply IH. Qed.

Lemma env_ok_vals xs : forall is s, Forall2 inr is (vals xs s) -> env_ok (bind_ivls xs is) s.
Proof.
  induction xs as [|x xs IH]; intros is s H y j Hj; cbn [bind_ivls] in Hj.
  - rewrite PositiveMap.gempty in Hj. discriminate.
  - cbn [vals map] in H. inversion H as [|i v is' vs Hi HF]; subst.
    destruct (Pos.eq_dec y x) as [->|N].
    + rewrite PositiveMap.gss in Hj. injection Hj as <-. exact Hi.
    + rewrite PositiveMap.gso in Hj by assumption. exact (IH _ _ HF _ _ Hj).
Qed.

Definition piece (p : list stmt) (xs : list positive) (is : list ivl) (ys : list positive) (os : list ivl) : bool :=
  match acheck p (bind_ivls xs is) [] with
  | Some rs => acheck_outs rs (map V ys) os
  | None => false
  end.
Lemma piece_ok b p xs is ys os s : piece p xs is ys os = true -> Forall2 inr is (vals xs s) ->
  exec b p s = Ok (iexec p s) /\ Forall2 inr os (vals ys (iexec p s)).
Proof.
  unfold piece. intros H HI. destruct (acheck p (bind_ivls xs is) []) as [rs|] eqn:E; [|discriminate].
  destruct (acheck_sound b _ _ _ _ _ (env_ok_vals _ _ _ HI) (Forall_nil _) E) as [E1 HE].
  split; [exact E1|]. destruct (acheck_outs_sound b rs _ _ HE os H) as [_ R].
  rewrite map_map in R. exact R.
Qed.
Definition pcongr (m : Z) (p : list stmt) (P T : poly) : bool :=
  match wp m p P with Some R => pzero m (R ++ pscale (-1) T) | None => false end.
Lemma pcongr_ok m p P T s : m <> 0 -> pcongr m p P T = true -> eqm m (peval (iexec p s) P) (peval s T).
Proof.
  unfold pcongr. intros Hm H. destruct (wp m p P) as [R|] eqn:E; [|discriminate].
  eapply eqm_trans; [apply (wp_ok m _ Hm _ _ s E)|].
  pose proof (pzero_ok m s _ Hm H) as Hz. rewrite peval_app, pscale_ok in Hz.
  destruct Hz as [k Hk]. exists k. lia.
Qed.

(** ** The parts of the two programs *)
Definition sx24 : list positive := params sc_reduce_prog.
Definition sx12 : list positive := firstn 12 sx24.
Definition sx13 : list positive := firstn 13 sx24.
Definition ws24 : list Z := map (fun i => 2 ^ (21 * Z.of_nat i)) (seq 0 24).
Definition ws12 : list Z := firstn 12 ws24.
Definition ws13 : list Z := firstn 13 ws24.

Definition red_body : list stmt := body sc_reduce_prog.
Definition mul_len : nat := (length (body sc_muladd_prog) - length red_body)%nat.
Definition mul_body : list stmt := firstn mul_len (body sc_muladd_prog).
Lemma muladd_split : body sc_muladd_prog = mul_body ++ red_body.
Proof. vm_compute. reflexivity. Qed.

Definition tl_len : nat := (length red_body - 75)%nat.
Definition red1 : list stmt := firstn tl_len red_body.
Definition red2 : list stmt := firstn 36 (skipn tl_len red_body).
Definition red3 : list stmt := skipn 36 (skipn tl_len red_body).
Lemma red_split : red_body = red1 ++ red2 ++ red3.
Proof. vm_compute. reflexivity. Qed.

Definition d21 : ivl := (0, 2097151).
Definition in24 : list ivl := repeat (-2^31, 2^31) 24.
Definition is_red1 : list ivl := repeat (-2^36, 2^36) 11 ++ [(-1048576, 1048575); (0, 0)].
Definition is_red2 : list ivl := repeat d21 12 ++ [(-4, 4)].
Definition is_red3 : list ivl := repeat d21 11 ++ [(-2^30, 2^30)].
Definition is_mul : list ivl :=
  let l := repeat d21 11 ++ [(0, 33554431)] in l ++ l ++ l.

Lemma red1_bounded : piece red1 sx24 in24 sx13 is_red1 = true.
Proof. vm_compute. reflexivity. Qed.
Lemma red2_bounded : piece red2 sx13 is_red1 sx13 is_red2 = true.
Proof. vm_compute. reflexivity. Qed.
Lemma red3_bounded : piece red3 sx13 is_red2 sx12 is_red3 = true.
Proof. vm_compute. reflexivity. Qed.
Definition abc : list positive := params sc_muladd_prog.
Lemma mul_bounded : piece mul_body abc is_mul sx24 in24 = true.
Proof. vm_compute. reflexivity. Qed.

Lemma red1_congr : pcongr L red1 (wparams ws12 sx12) (wparams ws24 sx24) = true.
Proof. vm_compute. reflexivity. Qed.
(** Exact identities, as congruences modulo a number above every value. *)
Definition big : Z := 2 ^ 600.
Lemma red2_congr : pcongr big red2 (wparams ws13 sx13) (wparams ws12 sx12 ++ [(2^252, [nth 12 sx13 1%positive])]) = true.
Proof. vm_compute. reflexivity. Qed.
Lemma red3_congr : pcongr big red3 (wparams ws12 sx12)
  (wparams ws12 sx12 ++ [(2^252 - L, [nth 12 sx13 1%positive])]) = true.
Proof. vm_compute. reflexivity. Qed.
Definition as_ : list positive := firstn 12 abc.
Definition bs_ : list positive := firstn 12 (skipn 12 abc).
Definition cs_ : list positive := skipn 24 abc.
Lemma mul_congr : pcongr L mul_body (wparams ws24 sx24)
  (pmul (wparams ws12 as_) (wparams ws12 bs_) ++ wparams ws12 cs_) = true.
Proof. vm_compute. reflexivity. Qed.

(** ** Reduction *)
Definition num12 (v : list Z) : Z := wsum ws12 v.
Lemma wsum_num v : wsum ws12 v = num12 v. Proof. reflexivity. Qed.
Ltac inv_f2 :=
  repeat match goal with
  | H : Forall2 _ (_ :: _) _ |- _ => inversion H; subst; clear H
  | H : Forall2 _ [] _ |- _ => inversion H; subst; clear H
  end.
Lemma peval_wsum s wl xs : peval s (wparams wl xs) = wsum wl (vals xs s).
Proof. apply wparams_ok. Qed.

Lemma s12_val s : vals sx13 s = vals sx12 s ++ [lookup (nth 12 sx13 1%positive) s].
Proof. reflexivity. Qed.
Lemma peval_extra s P w x : peval s (P ++ [(w, [x])]) = peval s P + w * lookup x s.
Proof. rewrite peval_app, peval_cons, peval_nil. unfold meval. cbn [fst snd fold_right]. ring. Qed.

Lemma ws12_eq : ws12 = [1; 2^21; 2^42; 2^63; 2^84; 2^105; 2^126; 2^147; 2^168; 2^189; 2^210; 2^231].
Proof. reflexivity. Qed.
Lemma ws13_eq : ws13 = ws12 ++ [2^252].
Proof. reflexivity. Qed.
Lemma wsum_app w1 : forall v1 w2 v2, length w1 = length v1 -> wsum (w1 ++ w2) (v1 ++ v2) = wsum w1 v1 + wsum w2 v2.
Proof.
  induction w1 as [|w w1 IH]; intros [|v v1] w2 v2 H; cbn [length] in H; try lia; [reflexivity|].
  cbn [app wsum]. rewrite IH by lia. ring.
Qed.

Lemma eqm_small m x y : eqm m x y -> - m < x - y < m -> x = y.
Proof. intros [k Hk] H. assert (k = 0) by nia. lia. Qed.

Lemma list12 (v : list Z) : length v = 12%nat -> exists a b c d e f g h i j k l, v = [a;b;c;d;e;f;g;h;i;j;k;l].
Proof.
  intros H. do 12 (destruct v as [|? v]; [discriminate H|]). destruct v; [|discriminate H].
  repeat eexists.
Qed.
Lemma vals12 s : length (vals sx12 s) = 12%nat. Proof. reflexivity. Qed.

Lemma num_is_red1 v x : length v = 12%nat -> Forall2 inr is_red1 (v ++ [x]) -> - 2 ^ 252 < num12 v < 2 ^ 252 /\ x = 0.
Proof.
  intros Hl H. destruct (list12 v Hl) as (a&b&c&d&e&f&g&h&i&j&k&l&->). unfold is_red1 in H. cbn [repeat app] in H.
  inv_f2. repeat match goal with H : inr _ _ |- _ => unfold inr in H; cbn [fst snd] in H end.
  unfold num12. rewrite ws12_eq. cbn [wsum]. lia.
Qed.
Lemma num_is_red2 v x : length v = 12%nat -> Forall2 inr is_red2 (v ++ [x]) -> 0 <= num12 v < 2 ^ 252 /\ -4 <= x <= 4.
Proof.
  intros Hl H. destruct (list12 v Hl) as (a&b&c&d&e&f&g&h&i&j&k&l&->). unfold is_red2 in H. cbn [repeat app] in H.
  inv_f2. repeat match goal with H : inr _ _ |- _ => unfold inr in H; cbn [fst snd d21] in H end.
  unfold num12. rewrite ws12_eq. cbn [wsum]. lia.
Qed.
Lemma num_is_red3 v : Forall2 inr is_red3 v -> - 2 ^ 262 < num12 v < 2 ^ 262.
Proof.
  intros H. unfold is_red3 in H. cbn [repeat app] in H.
  inv_f2. repeat match goal with H : inr _ _ |- _ => unfold inr in H; cbn [fst snd d21] in H end.
  unfold num12. rewrite ws12_eq. cbn [wsum]. lia.
Qed.
(** Twelve limbs in range and a value below L. *)
Definition sc_ivls : list ivl := repeat d21 11 ++ [(0, 2097152)].
Lemma num_canon v : Forall2 inr is_red3 v -> 0 <= num12 v < L -> Forall2 inr sc_ivls v.
Proof.
  intros H. unfold is_red3 in H. cbn [repeat app] in H. unfold sc_ivls. cbn [repeat app].
  inv_f2. unfold num12. rewrite ws12_eq. cbn [wsum]. intros R.
  do 11 (constructor; [assumption|]). constructor; [|constructor].
  unfold inr, d21 in *. cbn [fst snd] in *. unfold L in R. lia.
Qed.

Lemma run_reduce_eq b v : run b sc_reduce_prog v = (let! s := exec b red_body (bind_args sx24 v) in evals b s (map V sx12)).
Proof. reflexivity. Qed.
Lemma run_muladd_eq b v : run b sc_muladd_prog v =
  (let! s := exec b (mul_body ++ red_body) (bind_args abc v) in evals b s (map V sx12)).
Proof. unfold run. rewrite muladd_split. reflexivity. Qed.
Local Opaque red1 red2 red3 red_body.
Lemma reduce_env b s : Forall2 inr in24 (vals sx24 s) ->
  exec b red_body s = Ok (iexec red_body s) /\
  Forall2 inr sc_ivls (vals sx12 (iexec red_body s)) /\
  num12 (vals sx12 (iexec red_body s)) = wsum ws24 (vals sx24 s) mod L.
Proof.
  intros H0. rewrite red_split, !exec_app, !iexec_app.
  destruct (piece_ok b _ _ _ _ _ s red1_bounded H0) as [E1 H1]. rewrite E1, bind_ok. clear E1.
  pose proof (pcongr_ok L _ _ _ s ltac:(discriminate) red1_congr) as C1.
  rewrite !peval_wsum, wsum_num in C1.
  set (s1 := iexec red1 s) in *. clearbody s1.
  rewrite !exec_app.
  destruct (piece_ok b _ _ _ _ _ s1 red2_bounded H1) as [E2 H2]. rewrite E2, bind_ok. clear E2.
  pose proof (pcongr_ok big _ _ _ s1 ltac:(discriminate) red2_congr) as C2.
  rewrite peval_extra, !peval_wsum, s12_val, ws13_eq, wsum_app in C2 by reflexivity.
  rewrite (wsum_num (vals sx12 s1)), (wsum_num (vals sx12 (iexec red2 s1))) in C2.
  set (s2 := iexec red2 s1) in *. clearbody s2.
  destruct (piece_ok b _ _ _ _ _ s2 red3_bounded H2) as [E3 H3]. rewrite E3. clear E3.
  pose proof (pcongr_ok big _ _ _ s2 ltac:(discriminate) red3_congr) as C3.
  rewrite peval_extra, !peval_wsum in C3.
  rewrite (wsum_num (vals sx12 s2)), (wsum_num (vals sx12 (iexec red3 s2))) in C3.
  set (s3 := iexec red3 s2) in *. clearbody s3.
  rewrite s12_val in H1, H2.
  destruct (num_is_red1 _ _ (vals12 _) H1) as [B1 Z1]. rewrite Z1 in C2. clear Z1 H1.
  destruct (num_is_red2 _ _ (vals12 _) H2) as [B2 Z2]. clear H2.
  pose proof (num_is_red3 _ H3) as B3. pose proof (num_canon _ H3) as K. clear H3.
  set (q := lookup (nth 12 sx13 1%positive) s2) in *. clearbody q. cbn [wsum] in C2.
  set (v1 := num12 (vals sx12 s1)) in *. set (v2 := num12 (vals sx12 s2)) in *. set (v3 := num12 (vals sx12 s3)) in *.
  set (t := wsum ws24 (vals sx24 s)) in *. clearbody v1 v2 t.
    apply eqm_small in C2; [|unfold big; lia]. apply eqm_small in C3; [|unfold big, L in *; lia].
  assert (R : 0 <= v3 < L) by (unfold L in *; lia).
  split; [reflexivity|]. split; [exact (K R)|].
  destruct C1 as [k1 C1]. apply Z.mod_unique with (q := q - k1); [left; exact R|lia].
Qed.

(** ** Storing the limbs *)
Lemma as_u8_lor64 k a h : 0 <= k <= 8 -> 0 <= a < 2 ^ k ->
  as_u8 (Z.lor a (shl64 h k)) = a + 2 ^ k * (h mod 2 ^ (8 - k)).
Proof.
  intros Hk Ha. unfold as_u8. change 256 with (2 ^ 8) at 1. rewrite <- Z.land_ones by lia.
  rewrite Z.land_lor_distr_l, !Z.land_ones by lia.
  assert (Ea : a mod 2 ^ 8 = a).
  { apply Z.mod_small. assert (2 ^ k <= 2 ^ 8) by (apply Z.pow_le_mono_r; lia). lia. }
  assert (Es : shl64 h k mod 2 ^ 8 = h mod 2 ^ (8 - k) * 2 ^ k).
  { unfold shl64, swrap. rewrite Z.shiftl_mul_pow2 by lia. change (2 ^ (64 - 1)) with (2 ^ 63).
    transitivity ((h * 2 ^ k) mod 2 ^ 8).
    - rewrite Zminus_mod. change (2 ^ 64) with (2 ^ 8 * 2 ^ 56). rewrite Z.rem_mul_r by lia.
      rewrite Z.add_mod by lia. rewrite (Z.mul_comm (2 ^ 8)), Z.mod_mul, Z.add_0_r, !Z.mod_mod by lia.
      rewrite <- Zminus_mod. f_equal. ring.
    - replace (2 ^ 8) with (2 ^ (8 - k) * 2 ^ k) by (rewrite <- Z.pow_add_r by lia; f_equal; lia).
      apply Z.mul_mod_distr_r; apply Z.pow_nonzero; lia. }
  rewrite Ea, Es, lor_add by lia. lia.
Qed.
Lemma split3 h a : 0 <= a -> h = h mod 2 ^ a + 2 ^ a * ((h / 2 ^ a) mod 256) + 2 ^ (a + 8) * (h / 2 ^ (a + 8)).
Proof.
  intros Ha. change 256 with (2 ^ 8).
  pose proof (mod_split h a 8 Ha ltac:(lia)).
  pose proof (Z.div_mod h (2 ^ (a + 8))) as H2.
  assert (2 ^ (a + 8) <> 0) by (apply Z.pow_nonzero; lia). lia.
Qed.

Lemma byte_sum k x y : 0 <= k <= 8 -> 0 <= x < 2 ^ k -> 0 <= y < 2 ^ (8 - k) -> byte_ok (x + 2 ^ k * y).
Proof.
  intros Hk Hx Hy. unfold byte_ok.
  assert (2 ^ k * 2 ^ (8 - k) = 256) by (rewrite <- Z.pow_add_r by lia; replace (k + (8 - k)) with 8 by lia; reflexivity).
  nia.
Qed.
Lemma sc_bytes_ok v : Forall2 inr sc_ivls v ->
  le_decode (sc_bytes v) = num12 v /\ bytes (sc_bytes v) /\ length (sc_bytes v) = 32%nat.
Proof.
  intros H. unfold sc_ivls in H. cbn [repeat app] in H. inv_f2.
  repeat match goal with H : inr _ _ |- _ => unfold inr, d21 in H; cbn [fst snd] in H end.
  match goal with |- context [sc_bytes [?a;?b;?c;?d;?e;?f;?g;?h;?i;?j;?k;?l]] =>
    rename a into h0; rename b into h1; rename c into h2; rename d into h3; rename e into h4;
    rename f into h5; rename g into h6; rename h into h7; rename i into h8; rename j into h9;
    rename k into h10; rename l into h11 end.
  assert (E : sc_bytes [h0;h1;h2;h3;h4;h5;h6;h7;h8;h9;h10;h11] =
    [h0 mod 256; (h0 / 2 ^ 8) mod 256; h0 / 2 ^ 16 + 2 ^ 5 * (h1 mod 2 ^ 3);
     (h1 / 2 ^ 3) mod 256; (h1 / 2 ^ 11) mod 256; h1 / 2 ^ 19 + 2 ^ 2 * (h2 mod 2 ^ 6);
     (h2 / 2 ^ 6) mod 256; h2 / 2 ^ 14 + 2 ^ 7 * (h3 mod 2 ^ 1);
     (h3 / 2 ^ 1) mod 256; (h3 / 2 ^ 9) mod 256; h3 / 2 ^ 17 + 2 ^ 4 * (h4 mod 2 ^ 4);
     (h4 / 2 ^ 4) mod 256; (h4 / 2 ^ 12) mod 256; h4 / 2 ^ 20 + 2 ^ 1 * (h5 mod 2 ^ 7);
     (h5 / 2 ^ 7) mod 256; h5 / 2 ^ 15 + 2 ^ 6 * (h6 mod 2 ^ 2);
     (h6 / 2 ^ 2) mod 256; (h6 / 2 ^ 10) mod 256; h6 / 2 ^ 18 + 2 ^ 3 * (h7 mod 2 ^ 5);
     (h7 / 2 ^ 5) mod 256; (h7 / 2 ^ 13) mod 256;
     h8 mod 256; (h8 / 2 ^ 8) mod 256; h8 / 2 ^ 16 + 2 ^ 5 * (h9 mod 2 ^ 3);
     (h9 / 2 ^ 3) mod 256; (h9 / 2 ^ 11) mod 256; h9 / 2 ^ 19 + 2 ^ 2 * (h10 mod 2 ^ 6);
     (h10 / 2 ^ 6) mod 256; h10 / 2 ^ 14 + 2 ^ 7 * (h11 mod 2 ^ 1);
     (h11 / 2 ^ 1) mod 256; (h11 / 2 ^ 9) mod 256; (h11 / 2 ^ 17) mod 256]).
  { unfold sc_bytes, get. cbn [nth]. cbv zeta.
    rewrite (as_u8_lor64 5 (Z.shiftr h0 16)) by (try apply (shiftr_small h0 16 5); lia).
    rewrite (as_u8_lor64 2 (Z.shiftr h1 19)) by (try apply (shiftr_small h1 19 2); lia).
    rewrite (as_u8_lor64 7 (Z.shiftr h2 14)) by (try apply (shiftr_small h2 14 7); lia).
    rewrite (as_u8_lor64 4 (Z.shiftr h3 17)) by (try apply (shiftr_small h3 17 4); lia).
    rewrite (as_u8_lor64 1 (Z.shiftr h4 20)) by (try apply (shiftr_small h4 20 1); lia).
    rewrite (as_u8_lor64 6 (Z.shiftr h5 15)) by (try apply (shiftr_small h5 15 6); lia).
    rewrite (as_u8_lor64 3 (Z.shiftr h6 18)) by (try apply (shiftr_small h6 18 3); lia).
    rewrite (as_u8_lor64 5 (Z.shiftr h8 16)) by (try apply (shiftr_small h8 16 5); lia).
    rewrite (as_u8_lor64 2 (Z.shiftr h9 19)) by (try apply (shiftr_small h9 19 2); lia).
    rewrite (as_u8_lor64 7 (Z.shiftr h10 14)) by (try apply (shiftr_small h10 14 7); lia).
    unfold as_u8. rewrite !Z.shiftr_div_pow2 by lia. reflexivity. }
  rewrite E. clear E.
  assert (Q : forall h k m, 0 <= k -> 0 <= m -> 0 <= h < 2 ^ (k + m) -> 0 <= h / 2 ^ k < 2 ^ m).
  { intros h k m Hk Hm Hh. rewrite <- Z.shiftr_div_pow2 by lia. now apply shiftr_small. }
  pose proof (Q h0 16 5 ltac:(lia) ltac:(lia) ltac:(lia)). pose proof (Q h1 19 2 ltac:(lia) ltac:(lia) ltac:(lia)).
  pose proof (Q h2 14 7 ltac:(lia) ltac:(lia) ltac:(lia)). pose proof (Q h3 17 4 ltac:(lia) ltac:(lia) ltac:(lia)).
  pose proof (Q h4 20 1 ltac:(lia) ltac:(lia) ltac:(lia)). pose proof (Q h5 15 6 ltac:(lia) ltac:(lia) ltac:(lia)).
  pose proof (Q h6 18 3 ltac:(lia) ltac:(lia) ltac:(lia)). pose proof (Q h7 13 8 ltac:(lia) ltac:(lia) ltac:(lia)).
  pose proof (Q h8 16 5 ltac:(lia) ltac:(lia) ltac:(lia)). pose proof (Q h9 19 2 ltac:(lia) ltac:(lia) ltac:(lia)).
  pose proof (Q h10 14 7 ltac:(lia) ltac:(lia) ltac:(lia)). pose proof (Q h11 17 5 ltac:(lia) ltac:(lia) ltac:(lia)) as B11.
  split; [|split; [|reflexivity]].
  - assert (M7 : (h7 / 2 ^ 13) mod 256 = h7 / 2 ^ 13) by (apply Z.mod_small; assumption).
    assert (M11 : (h11 / 2 ^ 17) mod 256 = h11 / 2 ^ 17) by (apply Z.mod_small; split; [apply B11|]; eapply Z.lt_trans; [apply B11|reflexivity]).
    rewrite M7, M11. clear.
    assert (P : forall a, 0 <= Z.of_nat a) by (intros; apply Nat2Z.is_nonneg).
    pose proof (split3 h0 8 (P 8%nat)) as S0. pose proof (split4 h1 3 (P 3%nat)) as S1.
    pose proof (split3 h2 6 (P 6%nat)) as S2. pose proof (split4 h3 1 (P 1%nat)) as S3.
    pose proof (split4 h4 4 (P 4%nat)) as S4. pose proof (split3 h5 7 (P 7%nat)) as S5.
    pose proof (split4 h6 2 (P 2%nat)) as S6. pose proof (split3 h7 5 (P 5%nat)) as S7.
    pose proof (split3 h8 8 (P 8%nat)) as S8. pose proof (split4 h9 3 (P 3%nat)) as S9.
    pose proof (split3 h10 6 (P 6%nat)) as S10. pose proof (split4 h11 1 (P 1%nat)) as S11.
    change (2 ^ 8) with 256 in S0 at 1. change (2 ^ 8) with 256 in S8 at 1.
    cbn [Z.add Pos.add Pos.succ Pos.add_carry] in S0, S1, S2, S3, S4, S5, S6, S7, S8, S9, S10, S11.
    rewrite !le_decode_cons. change (le_decode []) with 0. unfold num12. rewrite ws12_eq. cbn [wsum].
    revert S0 S1 S2 S3 S4 S5 S6 S7 S8 S9 S10 S11. clear P.
    repeat match goal with |- context [Z.modulo ?x ?y] => generalize (Z.modulo x y); intros ? end.
    repeat match goal with |- context [Z.div ?x ?y] => generalize (Z.div x y); intros ? end.
    intros -> -> -> -> -> -> -> -> -> -> -> ->. ring.
  - assert (M : forall x, byte_ok (x mod 256)) by (intros; apply Z.mod_pos_bound; lia).
    pose proof (Z.mod_pos_bound h1 (2 ^ 3) ltac:(lia)). pose proof (Z.mod_pos_bound h2 (2 ^ 6) ltac:(lia)).
    pose proof (Z.mod_pos_bound h3 (2 ^ 1) ltac:(lia)). pose proof (Z.mod_pos_bound h4 (2 ^ 4) ltac:(lia)).
    pose proof (Z.mod_pos_bound h5 (2 ^ 7) ltac:(lia)). pose proof (Z.mod_pos_bound h6 (2 ^ 2) ltac:(lia)).
    pose proof (Z.mod_pos_bound h7 (2 ^ 5) ltac:(lia)). pose proof (Z.mod_pos_bound h9 (2 ^ 3) ltac:(lia)).
    pose proof (Z.mod_pos_bound h10 (2 ^ 6) ltac:(lia)). pose proof (Z.mod_pos_bound h11 (2 ^ 1) ltac:(lia)).
    repeat (apply bytes_cons; split; [first [apply M | apply byte_sum; [clear; lia|assumption|assumption]]|]). apply bytes_nil.
Qed.

(** ** Loading the limbs *)
Lemma div_mod_mod x m k j : 0 <= k -> 0 <= j -> k + j <= m -> ((x mod 2 ^ m) / 2 ^ k) mod 2 ^ j = (x / 2 ^ k) mod 2 ^ j.
Proof.
  intros Hk Hj Hm. apply Z.bits_inj'. intros n Hn. destruct (Z.lt_ge_cases n j).
  - rewrite !Z.mod_pow2_bits_low by lia. rewrite <- !Z.shiftr_div_pow2, !Z.shiftr_spec by lia.
    apply Z.mod_pow2_bits_low. lia.
  - rewrite !Z.mod_pow2_bits_high by lia. reflexivity.
Qed.
Definition digit (N : Z) (e w : Z) : Z := (N / 2 ^ e) mod 2 ^ w.

Lemma load_shift N a m k : 0 <= a -> 0 <= k <= m -> m <= 32 ->
  swrap 64 (Z.shiftr ((N / 2 ^ a) mod 2 ^ m) k) = ((N / 2 ^ a) mod 2 ^ m) / 2 ^ k.
Proof.
  intros Ha Hk Hm. rewrite Z.shiftr_div_pow2 by lia. apply swrap64.
  assert (P : 0 < 2 ^ m) by (apply Z.pow_pos_nonneg; lia). assert (Q : 0 < 2 ^ k) by (apply Z.pow_pos_nonneg; lia).
  pose proof (Z.mod_pos_bound (N / 2 ^ a) (2 ^ m) P) as B.
  assert (M : 2 ^ m <= 2 ^ 32) by (apply Z.pow_le_mono_r; lia).
  split; [apply Z.div_pos; lia|]. apply Z.div_lt_upper_bound; [lia|]. nia.
Qed.
Lemma limb3_ok s n k : bytes s -> (n + 3 <= length s)%nat -> 0 <= k <= 3 ->
  limb3 s n k = Ok (digit (le_decode s) (8 * Z.of_nat n + k) 21).
Proof.
  intros Hs Hn Hk. unfold limb3. rewrite load_3_at_ok, bind_ok by assumption. f_equal.
  rewrite load_shift by lia. rewrite Z.land_comm. change 2097151 with (Z.ones 21). rewrite Z.land_ones by lia.
  rewrite div_mod_mod by lia. unfold digit. rewrite Z.pow_add_r, Z.div_div by (try apply Z.pow_nonzero; try apply Z.pow_pos_nonneg; lia).
  reflexivity.
Qed.
Lemma limb4_ok s n k : bytes s -> (n + 4 <= length s)%nat -> 0 <= k <= 7 ->
  limb4 s n k = Ok (digit (le_decode s) (8 * Z.of_nat n + k) 21).
Proof.
  intros Hs Hn Hk. unfold limb4. rewrite load_4_at_ok, bind_ok by assumption. f_equal.
  rewrite load_shift by lia. rewrite Z.land_comm. change 2097151 with (Z.ones 21). rewrite Z.land_ones by lia.
  rewrite div_mod_mod by lia. unfold digit. rewrite Z.pow_add_r, Z.div_div by (try apply Z.pow_nonzero; try apply Z.pow_pos_nonneg; lia).
  reflexivity.
Qed.
Lemma limb4_top_ok s n k : bytes s -> (n + 4 <= length s)%nat -> 0 <= k <= 7 ->
  limb4_top s n k = Ok (digit (le_decode s) (8 * Z.of_nat n + k) (32 - k)).
Proof.
  intros Hs Hn Hk. unfold limb4_top. rewrite load_4_at_ok, bind_ok by assumption. f_equal.
  rewrite load_shift by lia. unfold digit.
  rewrite Z.pow_add_r, <- Z.div_div by (try apply Z.pow_nonzero; try apply Z.pow_pos_nonneg; lia).
  set (x := le_decode s / 2 ^ (8 * Z.of_nat n)). rewrite <- (div_mod_mod x 32 k (32 - k)) by lia.
  symmetry. apply Z.mod_small. pose proof (Z.mod_pos_bound x (2 ^ 32) ltac:(lia)).
  split; [apply Z.div_pos; [lia|apply Z.pow_pos_nonneg; lia]|].
  apply Z.div_lt_upper_bound; [apply Z.pow_pos_nonneg; lia|]. rewrite <- Z.pow_add_r by lia.
  replace (k + (32 - k)) with 32 by lia. lia.
Qed.
Lemma limbs_0_10_ok s : bytes s -> (32 <= length s)%nat ->
  limbs_0_10 s = Ok (map (fun i => digit (le_decode s) (21 * Z.of_nat i) 21) (seq 0 11)).
Proof.
  intros Hs Hl. unfold limbs_0_10.
  rewrite !limb3_ok, !limb4_ok by (assumption || lia). rewrite !bind_ok. reflexivity.
Qed.
Lemma limbs12_ok s : bytes s -> (32 <= length s)%nat ->
  limbs12 s = Ok (map (fun i => digit (le_decode s) (21 * Z.of_nat i) 21) (seq 0 11) ++ [digit (le_decode s) 231 25]).
Proof.
  intros Hs Hl. unfold limbs12. rewrite limbs_0_10_ok, bind_ok by assumption.
  rewrite limb4_top_ok, bind_ok by (assumption || lia). reflexivity.
Qed.
Lemma limbs24_ok s : bytes s -> (64 <= length s)%nat ->
  limbs24 s = Ok (map (fun i => digit (le_decode s) (21 * Z.of_nat i) 21) (seq 0 23) ++ [digit (le_decode s) 483 29]).
Proof.
  intros Hs Hl. unfold limbs24. rewrite limbs_0_10_ok, bind_ok by (assumption || lia).
  rewrite !limb3_ok, !limb4_ok, limb4_top_ok by (assumption || lia). rewrite !bind_ok. reflexivity.
Qed.

Lemma digits_sum N n : wsum (map (fun i => 2 ^ (21 * Z.of_nat i)) (seq 0 n))
    (map (fun i => digit N (21 * Z.of_nat i) 21) (seq 0 n)) = N mod 2 ^ (21 * Z.of_nat n).
Proof.
  induction n as [|n IH].
  - cbn [seq map wsum]. symmetry. apply Z.mod_1_r.
  - rewrite seq_S, !map_app, wsum_app by (rewrite !map_length; reflexivity). rewrite IH. cbn [map wsum plus].
    replace (21 * Z.of_nat (S n)) with (21 * Z.of_nat n + 21) by lia. rewrite mod_split by lia. unfold digit. ring.
Qed.
Lemma digits_top N n w : 0 <= w -> wsum (map (fun i => 2 ^ (21 * Z.of_nat i)) (seq 0 (S n)))
    (map (fun i => digit N (21 * Z.of_nat i) 21) (seq 0 n) ++ [digit N (21 * Z.of_nat n) w]) = N mod 2 ^ (21 * Z.of_nat n + w).
Proof.
  intros Hw. rewrite seq_S, map_app, wsum_app by (rewrite !map_length; reflexivity).
  rewrite digits_sum. cbn [map wsum plus]. rewrite mod_split by lia. unfold digit. ring.
Qed.
Lemma digit_range N e w : 0 <= w -> 0 <= digit N e w <= 2 ^ w - 1.
Proof. intros Hw. unfold digit. pose proof (Z.mod_pos_bound (N / 2 ^ e) (2 ^ w) ltac:(apply Z.pow_pos_nonneg; lia)). lia. Qed.
Lemma digits_ivls N n w : 0 <= w ->
  Forall2 inr (repeat d21 n ++ [(0, 2 ^ w - 1)]) (map (fun i => digit N (21 * Z.of_nat i) 21) (seq 0 n) ++ [digit N (21 * Z.of_nat n) w]).
Proof.
  intros Hw. apply Forall2_app2.
  - generalize 0%nat. induction n as [|n IH]; intros j; cbn [repeat seq map]; constructor; [|apply IH].
    apply (digit_range N (21 * Z.of_nat j) 21). lia.
  - constructor; [|constructor]. apply digit_range. exact Hw.
Qed.

(** ** The two functions *)
Lemma Forall2_weaken is js : Forall2 (fun i j => subi i j = true) is js -> forall vs, Forall2 inr is vs -> Forall2 inr js vs.
Proof.
  induction 1 as [|i j is js Hs HF IH]; intros vs H; inversion H; subst; constructor; [|now apply IH].
  unfold subi, inr in *. rewrite andb_true_iff, !Z.leb_le in Hs. lia.
Qed.
Lemma sx24_nodup : NoDup sx24. Proof. apply nodupb_ok. vm_compute. reflexivity. Qed.
Lemma abc_nodup : NoDup abc. Proof. apply nodupb_ok. vm_compute. reflexivity. Qed.
Lemma vals_bind xs vs : NoDup xs -> length vs = length xs -> vals xs (bind_args xs vs) = vs.
Proof. intros. now apply lookup_params. Qed.
Lemma evals_vars b s xs : evals b s (map V xs) = Ok (vals xs s).
Proof. induction xs as [|x xs IH]; [reflexivity|]. cbn [map evals eval]. rewrite bind_ok, IH, bind_ok. reflexivity. Qed.
Lemma in24_eq : Forall2 (fun i j => subi i j = true) (repeat d21 23 ++ [(0, 2 ^ 29 - 1)]) in24.
Proof. unfold in24. cbn [repeat app]. repeat (constructor; [reflexivity|]). constructor. Qed.

Lemma sc_out v N : Forall2 inr sc_ivls v -> num12 v = N mod L -> sc_bytes v = le_encode 32 (N mod L).
Proof.
  intros H E. destruct (sc_bytes_ok v H) as (V & B & Hl).
  rewrite <- (le_encode_decode _ B), Hl, V, E. reflexivity.
Qed.

Local Opaque sc_reduce_prog sc_muladd_prog.
Lemma run_reduce b s : Forall2 inr in24 s ->
  exists v, run b sc_reduce_prog s = Ok v /\ sc_bytes v = le_encode 32 (wsum ws24 s mod L).
Proof.
  intros H. assert (Hl : length s = length sx24) by (apply Forall2_len in H; rewrite <- H; reflexivity).
  set (e := bind_args sx24 s). assert (Ev : vals sx24 e = s) by (apply vals_bind; [apply sx24_nodup|exact Hl]).
  rewrite <- Ev in H. destruct (reduce_env b e H) as (E1 & K & N). rewrite Ev in N.
  exists (vals sx12 (iexec red_body e)). split; [|now apply sc_out].
  rewrite run_reduce_eq. fold e. rewrite E1, bind_ok. apply evals_vars.
Qed.
Theorem sc_reduce_ok b s : bytes s -> length s = 64%nat ->
  sc_reduce b s = Ok (le_encode 32 (le_decode s mod L) ++ skipn 32 s).
Proof.
  intros Hs Hl. unfold sc_reduce. rewrite limbs24_ok, bind_ok by (assumption || lia).
  change (digit (le_decode s) 483 29) with (digit (le_decode s) (21 * Z.of_nat 23) 29).
  set (l := map (fun i => digit (le_decode s) (21 * Z.of_nat i) 21) (seq 0 23) ++ [digit (le_decode s) (21 * Z.of_nat 23) 29]).
  destruct (run_reduce b l) as (v & E & B).
  { apply (Forall2_weaken _ _ in24_eq). apply digits_ivls. lia. }
  rewrite E, bind_ok, B.
  unfold ws24, l. rewrite digits_top by lia.
  pose proof (le_decode_range s Hs) as R. unfold len in R. rewrite Hl in R.
  rewrite (Z.mod_small (le_decode s)); [reflexivity|]. exact R.
Qed.

Lemma vals_app xs ys s : vals (xs ++ ys) s = vals xs s ++ vals ys s.
Proof. apply map_app. Qed.
Lemma abc_split : abc = as_ ++ bs_ ++ cs_. Proof. reflexivity. Qed.
Local Opaque mul_body.
Lemma run_muladd b x y z : Forall2 inr is_mul (x ++ y ++ z) -> length x = 12%nat -> length y = 12%nat ->
  exists v, run b sc_muladd_prog (x ++ y ++ z) = Ok v /\ sc_bytes v = le_encode 32 ((num12 x * num12 y + num12 z) mod L).
Proof.
  intros H Lx Ly. assert (Hl : length (x ++ y ++ z) = length abc) by (apply Forall2_len in H; rewrite <- H; reflexivity).
  set (e := bind_args abc (x ++ y ++ z)).
  assert (Ev : vals abc e = x ++ y ++ z) by (apply vals_bind; [apply abc_nodup|exact Hl]).
  rewrite <- Ev in H. destruct (piece_ok b _ _ _ _ _ e mul_bounded H) as [E1 H1].
  pose proof (pcongr_ok L _ _ _ e ltac:(discriminate) mul_congr) as C.
  rewrite peval_app, pmul_ok, !peval_wsum in C.
  rewrite abc_split, !vals_app in Ev. apply app_len_inj in Ev as [Ex Ev]; [|rewrite Lx; reflexivity].
  apply app_len_inj in Ev as [Ey Ez]; [|rewrite Ly; reflexivity].
  rewrite Ex, Ey, Ez in C. rewrite (wsum_num x), (wsum_num y), (wsum_num z) in C.
  destruct (reduce_env b _ H1) as (E2 & K & N).
  exists (vals sx12 (iexec red_body (iexec mul_body e))). split.
  - rewrite run_muladd_eq. fold e. rewrite exec_app, E1, bind_ok, E2, bind_ok. apply evals_vars.
  - apply sc_out; [exact K|]. rewrite N. apply eqm_mod; [discriminate|]. exact C.
Qed.
Theorem sc_muladd_ok b x y z : bytes x -> bytes y -> bytes z ->
  (32 <= length x)%nat -> (32 <= length y)%nat -> (32 <= length z)%nat ->
  sc_muladd b x y z = Ok (le_encode 32
    ((le_decode (firstn 32 x) * le_decode (firstn 32 y) + le_decode (firstn 32 z)) mod L)).
Proof.
  intros Bx By Bz Lx Ly Lz. unfold sc_muladd. rewrite !limbs12_ok by assumption. rewrite !bind_ok.
  change 231 with (21 * Z.of_nat 11).
  set (dg := fun s => map (fun i => digit (le_decode s) (21 * Z.of_nat i) 21) (seq 0 11) ++ [digit (le_decode s) (21 * Z.of_nat 11) 25]).
  destruct (run_muladd b (dg x) (dg y) (dg z)) as (v & E & B).
  { unfold is_mul. apply Forall2_app2; [|apply Forall2_app2];
      [apply (digits_ivls (le_decode x) 11 25)|apply (digits_ivls (le_decode y) 11 25)|apply (digits_ivls (le_decode z) 11 25)]; lia. }
  { reflexivity. } { reflexivity. }
  fold (dg x) (dg y) (dg z). rewrite E, bind_ok, B. f_equal. f_equal. f_equal.
  assert (D : forall s, bytes s -> (32 <= length s)%nat -> num12 (dg s) = le_decode (firstn 32 s)).
  { intros s Hs Hl. unfold num12. transitivity (le_decode s mod 2 ^ (21 * Z.of_nat 11 + 25)).
    - apply (digits_top (le_decode s) 11 25). lia.
    - change (21 * Z.of_nat 11 + 25) with 256. rewrite <- (firstn_skipn 32 s) at 1. rewrite le_decode_app.
      pose proof (le_decode_range (firstn 32 s) (bytes_firstn 32 s Hs)) as R.
      unfold len in *. rewrite firstn_length_le in * by lia. change (256 ^ Z.of_nat 32) with (2 ^ 256) in *.
      rewrite (Z.mul_comm (2 ^ 256)), Z.mod_add by discriminate. apply Z.mod_small. exact R. }
  rewrite !D by assumption. reflexivity.
Qed.
