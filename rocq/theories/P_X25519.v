(** The Montgomery ladder of the code computes RFC 7748's X25519. *)
From Verif Require Import BaseFacts M_Slp M_FeProg M_Curve25519 S_Field S_X25519 P_Field P_Slp P_Fe P_FeBytes P_Inv P_Ghash.

Record lrel (st : ladder) (r : F * F * F * F * bool) : Prop := {
  r_x2 : bnd 1 (lx2 st) /\ fv (lx2 st) = fst (fst (fst (fst r)));
  r_z2 : bnd 1 (lz2 st) /\ fv (lz2 st) = snd (fst (fst (fst r)));
  r_x3 : bnd 1 (lx3 st) /\ fv (lx3 st) = snd (fst (fst r));
  r_z3 : bnd 1 (lz3 st) /\ fv (lz3 st) = snd (fst r);
  r_sw : lswap st = Z.b2z (snd r) }.

Lemma cswap_ok f g (c : bool) : bnd 1 f -> bnd 1 g ->
  exists f' g', fe_cswap f g (Z.b2z c) = (f', g') /\ bnd 1 f' /\ bnd 1 g' /\ (fv f', fv g') = cswap c (fv f) (fv g).
Proof.
  intros Hf Hg.
  assert (L : length f = length g) by now rewrite (bnd_length _ _ Hf), (bnd_length _ _ Hg).
  destruct c; cbn [Z.b2z cswap].
  - exists g, f. rewrite fe_cswap_1 by exact L. auto.
  - exists f, g. rewrite fe_cswap_0 by exact L. auto.
Qed.

Ltac find_bnd f k := match goal with H : bnd k f |- _ => idtac end.
Ltac fe_step :=
  match goal with
  | |- ex (fun _ => bind (fe_sub ?b ?f ?g) _ = _ /\ _) =>
      match goal with Hf : bnd ?k f, Hg : bnd ?j g |- _ =>
        let h := fresh "h" in let E := fresh "E" in let B := fresh "B" in let V := fresh "V" in
        destruct (fe_sub_ok b k j f g ltac:(lia) ltac:(lia) ltac:(lia) Hf Hg) as (h & E & B & V); rewrite E; clear E;
        let n := eval vm_compute in (k + j) in change (k + j) with n in B end
  | |- ex (fun _ => bind (fe_subtract_from ?b ?f ?g) _ = _ /\ _) =>
      match goal with Hf : bnd ?k f, Hg : bnd ?j g |- _ =>
        let h := fresh "h" in let E := fresh "E" in let B := fresh "B" in let V := fresh "V" in
        destruct (fe_subtract_from_ok b k j f g ltac:(lia) ltac:(lia) ltac:(lia) Hf Hg) as (h & E & B & V); rewrite E; clear E;
        let n := eval vm_compute in (k + j) in change (k + j) with n in B end
  | |- ex (fun _ => bind (fe_add ?b ?f ?g) _ = _ /\ _) =>
      match goal with Hf : bnd ?k f, Hg : bnd ?j g |- _ =>
        let h := fresh "h" in let E := fresh "E" in let B := fresh "B" in let V := fresh "V" in
        destruct (fe_add_ok b k j f g ltac:(lia) ltac:(lia) ltac:(lia) Hf Hg) as (h & E & B & V); rewrite E; clear E;
        let n := eval vm_compute in (k + j) in change (k + j) with n in B end
  | |- ex (fun _ => bind (fe_mul ?b ?f ?g) _ = _ /\ _) =>
      match goal with Hf : bnd ?k f, Hg : bnd ?j g |- _ =>
        let h := fresh "h" in let E := fresh "E" in let B := fresh "B" in let V := fresh "V" in
        destruct (fe_mul_ok b f g (bnd_weaken k 3 f ltac:(lia) Hf) (bnd_weaken j 3 g ltac:(lia) Hg)) as (h & E & B & V); rewrite E; clear E end
  | |- ex (fun _ => bind (fe_sq ?b ?f) _ = _ /\ _) =>
      match goal with Hf : bnd ?k f |- _ =>
        let h := fresh "h" in let E := fresh "E" in let B := fresh "B" in let V := fresh "V" in
        destruct (fe_sq_ok b f (bnd_weaken k 3 f ltac:(lia) Hf)) as (h & E & B & V); rewrite E; clear E end
  | |- ex (fun _ => bind (fe_mul121666 ?b ?f) _ = _ /\ _) =>
      match goal with Hf : bnd ?k f |- _ =>
        let h := fresh "h" in let E := fresh "E" in let B := fresh "B" in let V := fresh "V" in
        destruct (fe_mul121666_ok b f (bnd_weaken k 2 f ltac:(lia) Hf)) as (h & E & B & V); rewrite E; clear E end
  end; rewrite bind_ok.

Lemma b2z_xor a c : Z.lxor (Z.b2z a) (Z.b2z c) = Z.b2z (xorb a c).
Proof. now destruct a, c. Qed.

Lemma ladder_step_ok b x1 st r bit : bnd 1 x1 -> lrel st r ->
  exists st', ladder_step b x1 st (Z.b2z bit) = Ok st' /\ lrel st' (rfc_step (fv x1) bit r).
Proof.
  intros Hx1 [ [B1 V1] [B2 V2] [B3 V3] [B4 V4] S].
  destruct r as [ [ [ [x2 z2] x3] z3] sw]; cbn [fst snd] in *.
  unfold ladder_step. rewrite S, b2z_xor. clear S.
  destruct (cswap_ok (lx2 st) (lx3 st) (xorb sw bit) B1 B3) as (f2 & f3 & -> & Bf2 & Bf3 & C1).
  destruct (cswap_ok (lz2 st) (lz3 st) (xorb sw bit) B2 B4) as (g2 & g3 & -> & Bg2 & Bg3 & C2).
  cbn [rfc_step]. rewrite V1, V3 in C1. rewrite V2, V4 in C2. rewrite <- C1, <- C2. clear C1 C2 B1 B2 B3 B4 V1 V2 V3 V4.
  repeat fe_step.
  eexists. split; [reflexivity|].
  constructor; cbn [lx2 lz2 lx3 lz3 lswap fst snd]; try (split; [assumption|]); try reflexivity;
    repeat match goal with H : fv ?h = _ |- context [fv ?h] => rewrite H end; try ring.
Qed.

Lemma bit_b2z x n : Z.land (Z.shiftr x n) 1 = Z.b2z (Z.testbit x n).
Proof.
  change 1 with (Z.ones 1). rewrite Z.land_ones by lia. change (2 ^ 1) with 2.
  rewrite <- Z.bit0_mod, Z.shiftr_spec by lia. now rewrite Z.add_0_l.
Qed.

Lemma bit_e e pos : bytes e -> (pos / 8 < length e)%nat ->
  idx e (pos / 8) = Ok (nth (pos / 8) e 0) /\
  Z.land (Z.shiftr (nth (pos / 8) e 0) (Z.of_nat (Nat.land pos 7))) 1 = Z.b2z (Z.testbit (le_decode e) (Z.of_nat pos)).
Proof.
  intros He Hl. split.
  - unfold idx. now rewrite (nth_error_nth' e 0 Hl).
  - rewrite bit_b2z. f_equal. rewrite le_decode_testbit by (try assumption; lia).
    change 7%nat with (Nat.ones 3). rewrite Nat.land_ones. change (2 ^ 3)%nat with 8%nat.
    rewrite Nat2Z.inj_mod. change (Z.of_nat 8) with 8.
    assert (E : Z.to_nat (Z.of_nat pos / 8) = (pos / 8)%nat).
    { change 8 with (Z.of_nat 8). now rewrite <- Nat2Z.inj_div, Nat2Z.id. }
    now rewrite E.
Qed.

Lemma ladder_loop_ok b e x1 n : bytes e -> (n <= 8 * length e)%nat -> bnd 1 x1 -> forall st r, lrel st r ->
  exists st', ladder_loop b e x1 n st = Ok st' /\ lrel st' (rfc_loop (fv x1) (le_decode e) n r).
Proof.
  intros He. induction n as [|pos IH]; intros Hn Hx st r H; cbn [ladder_loop rfc_loop].
  - exists st. auto.
  - assert (Hl : (pos / 8 < length e)%nat) by (apply Nat.div_lt_upper_bound; lia).
    destruct (bit_e e pos He Hl) as [-> EB]. rewrite bind_ok. cbv zeta. rewrite EB.
    destruct (ladder_step_ok b x1 st r (Z.testbit (le_decode e) (Z.of_nat pos)) Hx H) as (st' & -> & H').
    rewrite bind_ok. apply IH; [lia|exact Hx|exact H'].
Qed.

Lemma upd_0 {A} (x y : A) l : upd (x :: l) 0 y = y :: l. Proof. reflexivity. Qed.
Lemma upd_mid {A} (l : list A) : forall i x y, length l = i -> upd (l ++ [x]) i y = l ++ [y].
Proof. induction l as [|a l IH]; intros [|i] x y H; cbn [length] in H; try lia; [reflexivity|]. cbn [app upd]. f_equal. apply IH. lia. Qed.
Lemma get_mid (l : list Z) : forall i x, length l = i -> get (l ++ [x]) i = x.
Proof. unfold get. intros i x <-. now rewrite app_nth2, Nat.sub_diag by lia. Qed.

(** A 32-byte string as first byte, middle and last byte. *)
Lemma split32 n : bytes n -> length n = 32%nat ->
  exists a m z, n = a :: m ++ [z] /\ byte_ok a /\ bytes m /\ byte_ok z /\ length m = 30%nat.
Proof.
  intros Hn Hl. destruct n as [|a r]; [discriminate Hl|]. cbn [length] in Hl.
  assert (r <> []) by (intros ->; discriminate Hl).
  destruct (exists_last H) as (m & z & ->). rewrite app_length in Hl. cbn [length] in Hl.
  rewrite bytes_cons, bytes_app, bytes_cons in Hn. destruct Hn as (? & ? & ? & _).
  exists a, m, z. repeat split; try assumption; try apply H0; try apply H2; lia.
Qed.
Lemma le_decode_split32 a m z : length m = 30%nat ->
  le_decode (a :: m ++ [z]) = a + 2 ^ 8 * le_decode m + 2 ^ 248 * z.
Proof.
  intros Hm. rewrite le_decode_cons, le_decode_app. unfold len. rewrite Hm, le_decode_cons. change (le_decode []) with 0.
  change (256 ^ Z.of_nat 30) with (2 ^ 240). lia.
Qed.

Lemma byte_bits (P : Z -> bool) : forallb P (map Z.of_nat (seq 0 256)) = true -> forall x, byte_ok x -> P x = true.
Proof.
  intros H x Hx. rewrite forallb_forall in H. apply H. apply in_map_iff. exists (Z.to_nat x).
  unfold byte_ok in Hx. split; [lia|]. apply in_seq. lia.
Qed.
Lemma land248 x : byte_ok x -> Z.land x 248 = 8 * (x / 8).
Proof. intros H. apply Z.eqb_eq. apply (byte_bits (fun x => Z.land x 248 =? 8 * (x / 8))); [reflexivity|exact H]. Qed.
Lemma clamp_top x : byte_ok x -> Z.lor (Z.land x 127) 64 = 64 + x mod 64.
Proof. intros H. apply Z.eqb_eq. apply (byte_bits (fun x => Z.lor (Z.land x 127) 64 =? 64 + x mod 64)); [reflexivity|exact H]. Qed.

Lemma clamp_ok n : bytes n -> length n = 32%nat ->
  bytes (clamp_x25519 n) /\ length (clamp_x25519 n) = 32%nat /\ le_decode (clamp_x25519 n) = decode_scalar n.
Proof.
  intros Hn Hl. destruct (split32 n Hn Hl) as (a & m & z & -> & Ha & Hm & Hz & Lm). clear Hn Hl.
  unfold clamp_x25519. rewrite upd_0. change (get (a :: m ++ [z]) 0) with a.
  change (?x :: m ++ [z]) with ((x :: m) ++ [z]).
  repeat (rewrite ?upd_mid, ?get_mid by (cbn [length]; lia)).
  rewrite land248, clamp_top by assumption. cbn [app].
  assert (A : 0 <= a / 8 < 32).
  { unfold byte_ok in Ha. split; [apply Z.div_pos; lia|apply Z.div_lt_upper_bound; lia]. }
  pose proof (Z.mod_pos_bound z 64 ltac:(lia)) as Z64.
  split; [|split].
  - apply bytes_cons. split; [unfold byte_ok; lia|]. apply bytes_app. split; [exact Hm|].
    apply bytes_cons. split; [unfold byte_ok; lia|apply bytes_nil].
  - cbn [length]. rewrite app_length, Lm. reflexivity.
  - unfold decode_scalar. rewrite !le_decode_split32 by exact Lm.
    pose proof (le_decode_range m Hm) as R. unfold len in R. rewrite Lm in R. change (256 ^ Z.of_nat 30) with (2 ^ 240) in R.
    set (M := le_decode m) in *. clearbody M.
    assert (E : (a + 2 ^ 8 * M + 2 ^ 248 * z) / 8 = a / 8 + 2 ^ 5 * M + 2 ^ 245 * z).
    { replace (a + 2 ^ 8 * M + 2 ^ 248 * z) with (a + (2 ^ 5 * M + 2 ^ 245 * z) * 8) by lia.
      rewrite Z.div_add by lia. lia. }
    rewrite E.
    assert (E2 : (a / 8 + 2 ^ 5 * M + 2 ^ 245 * z) mod 2 ^ 251 = a / 8 + 2 ^ 5 * M + 2 ^ 245 * (z mod 64)).
    { symmetry. apply Z.mod_unique with (q := z / 64). left. lia. pose proof (Z.div_mod z 64). lia. }
    rewrite E2. lia.
Qed.

Theorem scalarmult_ok b n u : bytes n -> bytes u -> length n = 32%nat -> length u = 32%nat ->
  scalarmult b n u = Ok (x25519 n u).
Proof.
  intros Hn Hu Ln Lu. unfold scalarmult. rewrite Ln, Lu. cbn [assertb]. change (assertb (32 =? 32)%nat) with (Ok tt). rewrite !bind_ok.
  destruct (clamp_ok n Hn Ln) as (Ce & Le & De). cbv zeta.
  destruct (fe_from_bytes_ok b u Hu Lu) as (x1 & -> & Bx & Vx). rewrite bind_ok.
  destruct (ladder_loop_ok b _ x1 255 Ce ltac:(lia) Bx
    {| lx2 := fe_one; lz2 := fe_zero; lx3 := x1; lz3 := fe_one; lswap := 0 |} (f1, f0, fv x1, f1, false)) as (st & -> & R).
  { constructor; cbn [lx2 lz2 lx3 lz3 lswap fst snd]; try apply fe_one_ok; try apply fe_zero_ok; auto. }
  rewrite bind_ok. unfold x25519, x25519_F, encode_u, decode_u. rewrite <- De, <- Vx.
  destruct (rfc_loop (fv x1) (le_decode (clamp_x25519 n)) 255 (f1, f0, fv x1, f1, false)) as [ [ [ [x2 z2] x3] z3] sw].
  destruct R as [ [B1 V1] [B2 V2] [B3 V3] [B4 V4] ->]. cbn [fst snd] in *.
  destruct (cswap_ok (lx2 st) (lx3 st) sw B1 B3) as (f2 & f3 & -> & Bf2 & Bf3 & C1).
  destruct (cswap_ok (lz2 st) (lz3 st) sw B2 B4) as (g2 & g3 & -> & Bg2 & Bg3 & C2).
  rewrite V1, V3 in C1. rewrite V2, V4 in C2. rewrite <- C1, <- C2.
  destruct (fe_invert_ok b g2 Bg2) as (h & -> & Bh & Vh). rewrite bind_ok.
  destruct (fe_mul_ok b f2 h (bnd_weaken 1 3 _ ltac:(lia) Bf2) (bnd_weaken 1 3 _ ltac:(lia) Bh)) as (w & -> & Bw & Vw). rewrite bind_ok.
  rewrite (fe_write_bytes_ok b w (bnd_weaken 1 3 _ ltac:(lia) Bw)), Vw, Vh. reflexivity.
Qed.
