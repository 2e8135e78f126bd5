(** Proofs about M_Aes: agreement with FIPS 197, invertibility. *)
From Verif Require Import BaseFacts M_Aes S_Gf2 S_Aes P_Gf2.
From Coq Require Import ZifyBool ZifyNat.

(** * Facts about bytes, by enumeration *)
Lemma in_all_bytes x : byte_ok x -> In x all_bytes.
Proof.
  intros H. unfold all_bytes. apply in_map_iff. exists (Z.to_nat x).
  unfold byte_ok in H. split; [lia|]. apply in_seq. lia.
Qed.
Lemma byte_forallb (f : Z -> bool) : forallb f all_bytes = true -> forall x, byte_ok x -> f x = true.
Proof. intros H x Hx. rewrite forallb_forall in H. apply H. now apply in_all_bytes. Qed.
Lemma byte_forallb2 (f : Z -> Z -> bool) : forallb (fun x => forallb (f x) all_bytes) all_bytes = true ->
  forall x y, byte_ok x -> byte_ok y -> f x y = true.
Proof. intros H x y Hx Hy. apply (byte_forallb (f x)); [|assumption]. apply (byte_forallb _ H x Hx). Qed.

Lemma byte_okb_ok x : byte_okb x = true -> byte_ok x.
Proof. unfold byte_okb, byte_ok. lia. Qed.

Lemma s_box_eq x : byte_ok x -> s_box x = SBOX x.
Proof.
  intros H. apply Z.eqb_eq. revert x H. apply (byte_forallb (fun x => s_box x =? SBOX x)). vm_compute. reflexivity.
Qed.
Lemma s_box_byte x : byte_ok x -> byte_ok (s_box x).
Proof.
  intros H. apply byte_okb_ok. revert x H. apply (byte_forallb (fun x => byte_okb (s_box x))). vm_compute. reflexivity.
Qed.
Lemma xtime_byte x : byte_ok x -> byte_ok (xtime x).
Proof.
  intros H. apply byte_okb_ok. revert x H. apply (byte_forallb (fun x => byte_okb (xtime x))). vm_compute. reflexivity.
Qed.
Lemma gmul1 x : byte_ok x -> gmul 1 x = x.
Proof. intros H. apply Z.eqb_eq. revert x H. apply (byte_forallb (fun x => gmul 1 x =? x)). vm_compute. reflexivity. Qed.
Lemma gmul2 x : byte_ok x -> gmul 2 x = xtime x.
Proof. intros H. apply Z.eqb_eq. revert x H. apply (byte_forallb (fun x => gmul 2 x =? xtime x)). vm_compute. reflexivity. Qed.
Lemma gmul3 x : byte_ok x -> gmul 3 x = Z.lxor (xtime x) x.
Proof. intros H. apply Z.eqb_eq. revert x H. apply (byte_forallb (fun x => gmul 3 x =? Z.lxor (xtime x) x)). vm_compute. reflexivity. Qed.
Lemma xtime_mulx x : byte_ok x -> xtime x = mulx 8 0x11b x.
Proof. intros H. apply Z.eqb_eq. revert x H. apply (byte_forallb (fun x => xtime x =? mulx 8 0x11b x)). vm_compute. reflexivity. Qed.
Lemma xtime_lxor x y : byte_ok x -> byte_ok y -> xtime (Z.lxor x y) = Z.lxor (xtime x) (xtime y).
Proof.
  intros Hx Hy. rewrite !xtime_mulx by (try apply byte_lxor; assumption). unfold mulx.
  rewrite Z.lxor_spec, <- lxor_double. destruct (Z.testbit x _), (Z.testbit y _); cbn [xorb].
  - rewrite (lxor_swap (2 * x)), Z.lxor_nilpotent, Z.lxor_0_r. reflexivity.
  - rewrite !Z.lxor_assoc. f_equal. apply Z.lxor_comm.
  - now rewrite Z.lxor_assoc.
  - reflexivity.
Qed.

Local Opaque s_box SBOX xtime gmul.

(** * The state *)
Lemma len16 {A} (l : list A) : length l = 16%nat -> exists a0 a1 a2 a3 a4 a5 a6 a7 a8 a9 a10 a11 a12 a13 a14 a15,
  l = [a0; a1; a2; a3; a4; a5; a6; a7; a8; a9; a10; a11; a12; a13; a14; a15].
Proof.
  intros H. do 16 (destruct l as [|? l]; [discriminate H|]). destruct l; [|discriminate H].
  repeat eexists.
Qed.
Ltac destruct16 l H :=
  let E := fresh in
  destruct (len16 l H) as (?a0&?a1&?a2&?a3&?a4&?a5&?a6&?a7&?a8&?a9&?a10&?a11&?a12&?a13&?a14&?a15&E); subst l.

Definition rep (s : astate) (l : list Z) : Prop :=
  length l = 16%nat /\ bytes l /\ forall r c, (r < 4)%nat -> (c < 4)%nat -> s r c = nth (r + 4 * c) l 0.

Ltac split_bytes := repeat match goal with
  | H : bytes (_ :: _) |- _ => apply bytes_cons in H; destruct H
  | H : bytes [] |- _ => clear H
  end.
Ltac bytes_list := repeat (apply bytes_cons; split; [assumption|]); apply bytes_nil.
Ltac cases4 r H := destruct r as [|[|[|[|r]]]]; [ | | | |exfalso; lia].
Ltac cases44 := let r := fresh "r" in let c := fresh "c" in let Hr := fresh in let Hc := fresh in
  intros r c Hr Hc; cases4 c Hc; cases4 r Hr.

Lemma rep_in l : length l = 16%nat -> bytes l -> rep (in_state l) l.
Proof. intros. split; [assumption|]. split; [assumption|]. intros. reflexivity. Qed.
Lemma rep_out s l : rep s l -> out_block s = l.
Proof.
  intros (H & _ & E). destruct16 l H.
  unfold out_block. cbn [flat_map map seq app].
  rewrite !E by lia. reflexivity.
Qed.

Lemma rep_sub s l : rep s l -> rep (SubBytes s) (sub_bytes l).
Proof.
  intros (H & B & E). split; [unfold sub_bytes; now rewrite map_length|]. split.
  - unfold sub_bytes, bytes. apply Forall_map. eapply Forall_impl; [|exact B]. apply s_box_byte.
  - intros r c Hr Hc. unfold SubBytes, sub_bytes. rewrite E by assumption.
    rewrite (nth_indep (map s_box l) 0 (s_box 0)) by (rewrite map_length; lia).
    rewrite map_nth. symmetry. apply s_box_eq. now apply bytes_nth.
Qed.

Lemma rep_shift s l : rep s l -> rep (ShiftRows s) (shift_rows l).
Proof.
  intros (H & B & E). destruct16 l H. cbn [shift_rows get nth upd]. split_bytes. split; [reflexivity|]. split.
  - bytes_list.
  - unfold ShiftRows. cases44; rewrite E by (try apply Nat.mod_upper_bound; lia); reflexivity.
Qed.

Lemma rep_mix s l : rep s l -> rep (MixColumns s) (mix_columns l).
Proof.
  intros (H & B & E). destruct16 l H. split_bytes.
  unfold mix_columns. cbn [chunks chunks_aux length firstn skipn map concat app].
  unfold mix_column, xtime_column, xor_column. cbn [get nth app]. split; [reflexivity|]. split.
  - repeat (apply bytes_cons; split; [repeat apply byte_lxor; try apply xtime_byte; assumption|]). apply bytes_nil.
  - unfold MixColumns, mix_coeff. cases44; cbn [nth Nat.add Nat.sub Nat.modulo Nat.divmod snd Nat.mul];
      rewrite !E by lia; cbn [nth Nat.add Nat.mul];
      rewrite ?gmul1, ?gmul2, ?gmul3 by assumption;
      apply Z.bits_inj'; intros n _; rewrite ?Z.lxor_spec;
      repeat match goal with |- context[Z.testbit ?x n] => destruct (Z.testbit x n) end; reflexivity.
Qed.

(** * The key schedule *)
Definition words_ok (w : list (list Z)) : Prop := Forall (fun x => length x = 4%nat /\ bytes x) w.

Lemma words_ok_concat_len w : words_ok w -> length (concat w) = (4 * length w)%nat.
Proof. induction 1 as [|x w [L _] _ IH]; [reflexivity|]. cbn [concat length]. rewrite app_length. lia. Qed.
Lemma words_ok_nth w k : words_ok w -> (k < length w)%nat -> length (nth k w []) = 4%nat /\ bytes (nth k w []).
Proof. intros H Hk. unfold words_ok in H. rewrite Forall_forall in H. apply H. now apply nth_In. Qed.
Lemma words_slice w z k : words_ok w -> (k < length w)%nat ->
  firstn 4 (skipn (4 * k) (concat w ++ z)) = nth k w [].
Proof.
  revert k. induction w as [|x w IH]; intros k Hw Hk; [cbn [length] in Hk; lia|].
  inversion Hw as [|? ? [L _] Hw']; subst. destruct k as [|k].
  - change (4 * 0)%nat with 0%nat. cbn [concat nth skipn]. rewrite <- app_assoc. rewrite firstn_app, L, Nat.sub_diag, firstn_O, app_nil_r.
    now apply firstn_all2; lia.
  - cbn [concat nth length] in *. rewrite <- app_assoc, skipn_app, (skipn_all2 x) by lia.
    rewrite app_nil_l, L. replace (4 * S k - 4)%nat with (4 * k)%nat by lia. apply IH; [assumption|lia].
Qed.
Lemma words_get w z k j : words_ok w -> (k < length w)%nat -> (j < 4)%nat ->
  get (concat w ++ z) (4 * k + j) = get (nth k w []) j.
Proof.
  intros Hw Hk Hj. rewrite <- (words_slice w z k) by assumption. unfold get.
  rewrite <- (firstn_skipn (4 * k) (concat w ++ z)) at 1.
  assert (L : length (firstn (4 * k) (concat w ++ z)) = (4 * k)%nat).
  { rewrite firstn_length, app_length, words_ok_concat_len by assumption. lia. }
  rewrite app_nth2 by lia. rewrite L. replace (4 * k + j - 4 * k)%nat with j by lia.
  rewrite <- (firstn_skipn 4 (skipn (4 * k) (concat w ++ z))) at 1.
  rewrite app_nth1; [reflexivity|].
  rewrite firstn_length, skipn_length, app_length, words_ok_concat_len by assumption. lia.
Qed.

Lemma upd_app_r {A} (l m : list A) j v : upd (l ++ m) (length l + j) v = l ++ upd m j v.
Proof. induction l as [|x l IH]; [reflexivity|]. cbn [app length Nat.add upd]. now rewrite IH. Qed.

Lemma len4 {A} (l : list A) : length l = 4%nat -> exists a b c d, l = [a; b; c; d].
Proof. intros H. do 4 (destruct l as [|? l]; [discriminate H|]). destruct l; [|discriminate H]. repeat eexists. Qed.


Section Sched.
Variable NK : nat.
Hypothesis HNK : (2 <= NK)%nat.

Lemma next_word_ok w : words_ok w -> (NK <= length w)%nat -> length (next_word NK w) = 4%nat.
Proof.
  intros Hw Hl. unfold next_word.
  destruct (words_ok_nth w (length w - 1) Hw ltac:(lia)) as [L1 B1].
  destruct (words_ok_nth w (length w - NK) Hw ltac:(lia)) as [L2 B2].
  destruct (len4 _ L1) as (t0&t1&t2&t3&->). destruct (len4 _ L2) as (u0&u1&u2&u3&->).
  destruct (_ =? _)%nat; [reflexivity|]. destruct (_ && _)%bool; reflexivity.
Qed.

Lemma SBOX_byte x : byte_ok x -> byte_ok (SBOX x).
Proof. intros. rewrite <- s_box_eq by assumption. now apply s_box_byte. Qed.

Lemma rcon_iter_byte n : byte_ok (Nat.iter n (gmul 2) 1).
Proof.
  induction n as [|n IH]; [unfold byte_ok; cbn [Nat.iter nat_rect]; lia|].
  cbn [Nat.iter nat_rect]. change (nat_rect _ _ _ n) with (Nat.iter n (gmul 2) 1).
  rewrite gmul2 by assumption. now apply xtime_byte.
Qed.

Lemma sched_step (w : list (list Z)) (z0 z1 z2 z3 : Z) z rcon :
  words_ok w -> (NK <= length w)%nat ->
  rcon = Nat.iter ((length w + NK - 1) / NK - 1) (gmul 2) 1 ->
  let i := length w in
  let schedule := concat w ++ z0 :: z1 :: z2 :: z3 :: z in
  let temp := firstn 4 (skipn (4 * (i - 1)) schedule) in
  exists temp' rcon',
    (if (i mod NK =? 0)%nat
        then
          let temp := skipn 1 temp ++ firstn 1 temp in
          let temp := sub_word temp in
          (upd temp 0 (Z.lxor (get temp 0) rcon), xtime rcon)
        else if (6 <? NK)%nat && (i mod NK =? 4)%nat
        then (sub_word temp, rcon)
        else (temp, rcon)) = (temp', rcon') /\
    rcon' = Nat.iter ((S i + NK - 1) / NK - 1) (gmul 2) 1 /\
    (let wr j s := upd s (4 * i + j) (Z.lxor (get s (4 * (i - NK) + j)) (get temp' j)) in
     wr 3%nat (wr 2%nat (wr 1%nat (wr 0%nat schedule)))) = concat (w ++ [next_word NK w]) ++ z /\
    words_ok (w ++ [next_word NK w]).
Proof.
  intros Hw Hl Hr i schedule temp.
  destruct (words_ok_nth w (i - 1) Hw ltac:(lia)) as [L1 B1].
  destruct (words_ok_nth w (i - NK) Hw ltac:(lia)) as [L2 B2].
  assert (Et : temp = nth (i - 1) w []) by (apply words_slice; [assumption|lia]).
  assert (Hi : (i / NK >= 1)%nat) by (apply Nat.div_le_lower_bound; lia).
  pose proof (Nat.div_mod i NK ltac:(lia)) as Hdm. pose proof (Nat.mod_upper_bound i NK ltac:(lia)) as Hmb.
  assert (Hnext : (if (i mod NK =? 0)%nat then i / NK = (i + NK - 1) / NK /\ (S i + NK - 1) / NK = S (i / NK)
                   else (i + NK - 1) / NK = S (i / NK) /\ (S i + NK - 1) / NK = S (i / NK))%nat).
  { assert (A : ((S i + NK - 1) / NK = S (i / NK))%nat).
    { replace (S i + NK - 1)%nat with (i + 1 * NK)%nat by lia. rewrite Nat.div_add by lia. lia. }
    destruct (Nat.eqb_spec (i mod NK) 0) as [E|E]; split; try exact A.
    - apply (Nat.div_unique _ NK _ (NK - 1)); lia.
    - symmetry. apply (Nat.div_unique _ NK _ (i mod NK - 1)); lia. }
  destruct (len4 _ L1) as (t0&t1&t2&t3&E1).
  destruct (len4 _ L2) as (u0&u1&u2&u3&E2).
  assert (Hgoal : forall y0 y1 y2 y3, byte_ok y0 -> byte_ok y1 -> byte_ok y2 -> byte_ok y3 ->
     next_word NK w = xorl [u0;u1;u2;u3] [y0;y1;y2;y3] ->
     (let wr j s := upd s (4 * i + j) (Z.lxor (get s (4 * (i - NK) + j)) (get [y0;y1;y2;y3] j)) in
     wr 3%nat (wr 2%nat (wr 1%nat (wr 0%nat schedule)))) = concat (w ++ [next_word NK w]) ++ z /\
     words_ok (w ++ [next_word NK w])).
  { intros y0 y1 y2 y3 Y0 Y1 Y2 Y3 En. rewrite E2 in B2. split_bytes. split.
    - unfold schedule. cbv zeta. replace (4 * i)%nat with (length (concat w)) by (apply words_ok_concat_len; assumption).
      rewrite words_get, upd_app_r by (try lia; assumption). cbn [upd].
      rewrite words_get, upd_app_r by (try lia; assumption). cbn [upd].
      rewrite words_get, upd_app_r by (try lia; assumption). cbn [upd].
      rewrite words_get, upd_app_r by (try lia; assumption). cbn [upd].
      rewrite E2, En. rewrite concat_app. cbn [concat xorl zipwith app get nth].
      rewrite <- app_assoc. reflexivity.
    - unfold words_ok. apply Forall_app. split; [assumption|]. constructor; [|constructor]. rewrite En. split; [reflexivity|].
      apply xorl_bytes; bytes_list. }
  rewrite Et, E1. rewrite E1 in B1. pose proof B1 as B1'. split_bytes.
  unfold next_word in Hgoal. fold i in Hgoal. rewrite E1, E2 in Hgoal.
  unfold next_word. fold i. rewrite E1, E2.
  destruct (Nat.eqb_spec (i mod NK) 0) as [E|E].
  - destruct Hnext as [Hn1 Hn2]. fold i in Hr. rewrite <- Hn1 in Hr. 
    eexists _, _. split; [reflexivity|]. split.
    + rewrite Hn2, Hr. rewrite <- gmul2 by apply rcon_iter_byte.
      replace (S (i / NK) - 1)%nat with (S (i / NK - 1)) by lia. reflexivity.
    + pose proof (rcon_iter_byte (i / NK - 1)) as Hrb. rewrite <- Hr in Hrb.
      cbn [skipn firstn app sub_word map upd get nth]. apply Hgoal.
      * apply byte_lxor; [now apply s_box_byte|assumption].
      * now apply s_box_byte.
      * now apply s_box_byte.
      * now apply s_box_byte.
      * unfold SubWord, RotWord, Rcon. rewrite <- Hr. cbn [skipn firstn app map xorl zipwith].
        rewrite !s_box_eq by assumption. rewrite !Z.lxor_0_r. reflexivity.
  - destruct Hnext as [Hn1 Hn2].
    destruct ((6 <? NK)%nat && (i mod NK =? 4)%nat)%bool.
    + eexists _, _. split; [reflexivity|]. split; [rewrite Hr; fold i; rewrite Hn1, Hn2; reflexivity|].
      cbn [sub_word map]. apply Hgoal; try (now apply s_box_byte).
      unfold SubWord. cbn [map]. rewrite !s_box_eq by assumption. reflexivity.
    + eexists _, _. split; [reflexivity|]. split; [rewrite Hr; fold i; rewrite Hn1, Hn2; reflexivity|].
      apply Hgoal; try assumption. reflexivity.
Qed.

Lemma expansion_ok n : forall w rcon, words_ok w -> (NK <= length w)%nat ->
  rcon = Nat.iter ((length w + NK - 1) / NK - 1) (gmul 2) 1 ->
  expansion_loop NK n (length w) (concat w ++ repeat 0 (4 * n)) rcon =
    concat (Nat.iter n (fun w => w ++ [next_word NK w]) w) /\
  words_ok (Nat.iter n (fun w => w ++ [next_word NK w]) w).
Proof.
  induction n as [|n IH]; intros w rcon Hw Hl Hr.
  - cbn [expansion_loop Nat.iter nat_rect repeat Nat.mul]. rewrite app_nil_r. auto.
  - replace (4 * S n)%nat with (S (S (S (S (4 * n)))))%nat by lia. cbn [repeat].
    destruct (sched_step w 0 0 0 0 (repeat 0 (4 * n)) rcon Hw Hl Hr) as (t' & r' & Et & Er & Ew & Hw').
    cbn [expansion_loop]. cbv zeta in Et, Er, Ew. rewrite Et. rewrite Ew.
    rewrite iter_succ_r.
    replace (S (length w)) with (length (w ++ [next_word NK w])) by (rewrite app_length; cbn [length]; lia).
    apply IH; [assumption|rewrite app_length; cbn [length]; lia|].
    rewrite Er. rewrite app_length. cbn [length]. do 3 f_equal. lia.
Qed.

Lemma key_expansion_ok key : length key = (4 * NK)%nat -> bytes key ->
  key_expansion NK key = Ok (concat (KeyExpansion NK key)) /\ words_ok (KeyExpansion NK key) /\
  length (KeyExpansion NK key) = (4 * (NK + 6 + 1))%nat.
Proof.
  intros Hk Hb. unfold key_expansion. rewrite Hk, Nat.eqb_refl. cbn [assertb bind].
  rewrite write_slice_ok by (rewrite repeat_length; lia). cbn [bind firstn app Nat.add].
  rewrite skipn_repeat.
  destruct (chunks_full 4 NK key ltac:(lia) ltac:(lia)) as [Hc1 Hc2].
  assert (Hw : words_ok (chunks 4 key)).
  { unfold words_ok. rewrite Forall_forall. intros x Hx. split.
    - rewrite Forall_forall in Hc1. auto.
    - pose proof (chunks_bytes 4 key ltac:(lia) Hb) as F. rewrite Forall_forall in F. auto. }
  destruct (expansion_ok (4 * (NK + 6 + 1) - NK) (chunks 4 key) 1 Hw ltac:(lia)) as [E W].
  { rewrite Hc2. assert ((NK + NK - 1) / NK = 1)%nat as ->; [|reflexivity].
    symmetry. apply (Nat.div_unique _ NK 1 (NK - 1)); lia. }
  rewrite concat_chunks in E by lia.
  change (KeyExpansion NK key) with (Nat.iter (4 * (NK + 6 + 1) - NK) (fun w => w ++ [next_word NK w]) (chunks 4 key)).
  split.
  - f_equal. rewrite <- E. rewrite Hc2. do 2 f_equal. f_equal. lia.
  - split; [assumption|].
    assert (forall n w, length (Nat.iter n (fun w => w ++ [next_word NK w]) w) = (length w + n)%nat) as HL.
    { induction n as [|n IHn]; intros w; [cbn [Nat.iter nat_rect]; lia|].
      rewrite iter_succ_r, IHn, app_length. cbn [length]. lia. }
    rewrite HL, Hc2. lia.
Qed.

Lemma rep_ark w s l round : words_ok w -> (4 * round + 4 <= length w)%nat -> rep s l ->
  rep (AddRoundKey w round s) (add_round_key (concat w) l round).
Proof.
  intros Hw Hr (H & B & E).
  assert (Lk : length (round_key (concat w) round) = 16%nat).
  { unfold round_key. rewrite firstn_length, skipn_length, words_ok_concat_len by assumption. lia. }
  assert (Bk : bytes (round_key (concat w) round)).
  { apply bytes_firstn, bytes_skipn, bytes_concat. eapply Forall_impl; [|exact Hw]. intros ? []; assumption. }
  split; [unfold add_round_key; rewrite xorl_length; lia|]. split; [now apply xorl_bytes|].
  assert (Ek : forall r c, (r < 4)%nat -> (c < 4)%nat ->
     nth r (nth (4 * round + c) w []) 0 = nth (r + 4 * c) (round_key (concat w) round) 0).
  { intros r c Hr' Hc. pose proof (words_get w [] (4 * round + c) r Hw ltac:(lia) Hr') as G.
    unfold get in G. rewrite app_nil_r in G. rewrite <- G. unfold round_key.
    assert (Hskip : length (firstn (16 * round) (concat w)) = (16 * round)%nat)
      by (rewrite firstn_length, words_ok_concat_len by assumption; lia).
    rewrite <- (firstn_skipn (16 * round) (concat w)) at 1. rewrite app_nth2 by lia. rewrite Hskip.
    replace (4 * (4 * round + c) + r - 16 * round)%nat with (r + 4 * c)%nat by lia.
    rewrite <- (firstn_skipn 16 (skipn (16 * round) (concat w))) at 1. rewrite app_nth1; [reflexivity|].
    fold (round_key (concat w) round). lia. }
  intros r c Hr' Hc. unfold AddRoundKey, add_round_key. rewrite Ek, E by assumption.
  revert Lk. generalize (round_key (concat w) round) as k. intros k Lk. clear Ek Bk E.
  destruct16 l H. destruct16 k Lk. revert r c Hr' Hc. cases44; reflexivity.
Qed.

Lemma rep_round w s l round : words_ok w -> (4 * round + 4 <= length w)%nat -> rep s l ->
  rep (Round w s round) (cipher_round (concat w) l round).
Proof. intros. unfold Round, cipher_round. apply rep_ark; [assumption..|]. now apply rep_mix, rep_shift, rep_sub. Qed.

Lemma permute_ok key input : length key = (4 * NK)%nat -> bytes key -> length input = 16%nat -> bytes input ->
  permute NK (concat (KeyExpansion NK key)) input = Cipher NK key input.
Proof.
  intros Hk Hb Hi Hbi. destruct (key_expansion_ok key Hk Hb) as (_ & Hw & Hl).
  unfold permute, Cipher. cbv zeta. set (w := KeyExpansion NK key) in *.
  symmetry. apply rep_out. apply rep_ark; [assumption|lia|]. apply rep_shift, rep_sub.
  assert (G : forall n start s l, (4 * (start + n) <= length w)%nat -> rep s l ->
     rep (fold_left (Round w) (seq start n) s) (fold_left (cipher_round (concat w)) (seq start n) l)).
  { induction n as [|n IHn]; intros start s l Hn Hr; [assumption|]. cbn [seq fold_left]. apply IHn; [lia|].
    apply rep_round; [assumption|lia|assumption]. }
  apply G; [lia|]. apply rep_ark; [assumption|lia|]. now apply rep_in.
Qed.
End Sched.

(** * Invertibility *)
From Coq Require Import Btauto.
Definition inv_table : list Z := [82; 9; 106; 213; 48; 54; 165; 56; 191; 64; 163; 158; 129; 243; 215; 251; 124; 227; 57; 130; 155; 47; 255; 135; 52; 142; 67; 68; 196; 222; 233; 203; 84; 123; 148; 50; 166; 194; 35; 61; 238; 76; 149; 11; 66; 250; 195; 78; 8; 46; 161; 102; 40; 217; 36; 178; 118; 91; 162; 73; 109; 139; 209; 37; 114; 248; 246; 100; 134; 104; 152; 22; 212; 164; 92; 204; 93; 101; 182; 146; 108; 112; 72; 80; 253; 237; 185; 218; 94; 21; 70; 87; 167; 141; 157; 132; 144; 216; 171; 0; 140; 188; 211; 10; 247; 228; 88; 5; 184; 179; 69; 6; 208; 44; 30; 143; 202; 63; 15; 2; 193; 175; 189; 3; 1; 19; 138; 107; 58; 145; 17; 65; 79; 103; 220; 234; 151; 242; 207; 206; 240; 180; 230; 115; 150; 172; 116; 34; 231; 173; 53; 133; 226; 249; 55; 232; 28; 117; 223; 110; 71; 241; 26; 113; 29; 41; 197; 137; 111; 183; 98; 14; 170; 24; 190; 27; 252; 86; 62; 75; 198; 210; 121; 32; 154; 219; 192; 254; 120; 205; 90; 244; 31; 221; 168; 51; 136; 7; 199; 49; 177; 18; 16; 89; 39; 128; 236; 95; 96; 81; 127; 169; 25; 181; 74; 13; 45; 229; 122; 159; 147; 201; 156; 239; 160; 224; 59; 77; 174; 42; 245; 176; 200; 235; 187; 60; 131; 83; 153; 97; 23; 43; 4; 126; 186; 119; 214; 38; 225; 105; 20; 99; 85; 33; 12; 125].
Definition inv_s_box (y : Z) : Z := nth (Z.to_nat y) inv_table 0.
Local Transparent s_box.
Lemma inv_s_box_l x : byte_ok x -> inv_s_box (s_box x) = x.
Proof. intros H. apply Z.eqb_eq. revert x H. apply (byte_forallb (fun x => inv_s_box (s_box x) =? x)). vm_compute. reflexivity. Qed.
Lemma inv_s_box_r x : byte_ok x -> s_box (inv_s_box x) = x.
Proof. intros H. apply Z.eqb_eq. revert x H. apply (byte_forallb (fun x => s_box (inv_s_box x) =? x)). vm_compute. reflexivity. Qed.
Lemma inv_s_box_byte x : byte_ok x -> byte_ok (inv_s_box x).
Proof. intros H. apply byte_okb_ok. revert x H. apply (byte_forallb (fun x => byte_okb (inv_s_box x))). vm_compute. reflexivity. Qed.
Local Opaque s_box inv_s_box.

Definition inv_sub_bytes (l : list Z) : list Z := map inv_s_box l.
Definition inv_shift_rows (l : list Z) : list Z := shift_rows (shift_rows (shift_rows l)).
Definition inv_mix_column (c : list Z) : list Z :=
  let m i j k := Z.lxor (Z.lxor (if i : bool then xtime (get c k) else 0) (if j : bool then xtime (xtime (get c k)) else 0))
                        (xtime (xtime (xtime (get c k)))) in
  let m9 k := Z.lxor (m false false k) (get c k) in
  let m11 k := Z.lxor (m true false k) (get c k) in
  let m13 k := Z.lxor (m false true k) (get c k) in
  let m14 k := m true true k in
  let row a b c d := Z.lxor (Z.lxor (m14 a) (m11 b)) (Z.lxor (m13 c) (m9 d)) in
  [row 0 1 2 3; row 1 2 3 0; row 2 3 0 1; row 3 0 1 2]%nat.
Definition inv_mix_columns (l : list Z) : list Z := concat (map inv_mix_column (chunks 4 l)).

Definition block (l : list Z) : Prop := length l = 16%nat /\ bytes l.

Ltac bool_eq := apply Z.bits_inj'; let n := fresh "n" in intros n _; rewrite ?Z.lxor_spec, ?Z.bits_0;
  repeat match goal with |- context[Z.testbit ?x n] => generalize (Z.testbit x n); intro end; btauto.
Ltac byte_tac := repeat (apply byte_lxor || apply xtime_byte || assumption || (unfold byte_ok; lia)).
Ltac xt := rewrite ?xtime_lxor by byte_tac.

Lemma inv_mix_l a b c d : byte_ok a -> byte_ok b -> byte_ok c -> byte_ok d ->
  inv_mix_column (mix_column [a; b; c; d]) = [a; b; c; d].
Proof.
  intros Ha Hb Hc Hd. unfold inv_mix_column, mix_column, xor_column, xtime_column. cbv zeta beta. cbn [get nth].
  repeat f_equal; xt; bool_eq.
Qed.
Lemma inv_mix_r a b c d : byte_ok a -> byte_ok b -> byte_ok c -> byte_ok d ->
  mix_column (inv_mix_column [a; b; c; d]) = [a; b; c; d].
Proof.
  intros Ha Hb Hc Hd. unfold inv_mix_column, mix_column, xor_column, xtime_column. cbv zeta beta. cbn [get nth]. rewrite !Z.lxor_0_l, !Z.lxor_0_r.
  repeat f_equal; xt; bool_eq.
Qed.
Lemma mix_column_bytes a b c d : byte_ok a -> byte_ok b -> byte_ok c -> byte_ok d -> bytes (mix_column [a;b;c;d]).
Proof.
  intros. unfold mix_column, xor_column, xtime_column. cbv zeta beta. cbn [get nth].
  repeat (apply bytes_cons; split; [byte_tac|]); apply bytes_nil.
Qed.
Lemma inv_mix_column_bytes a b c d : byte_ok a -> byte_ok b -> byte_ok c -> byte_ok d -> bytes (inv_mix_column [a;b;c;d]).
Proof.
  intros. unfold inv_mix_column. cbv zeta beta. cbn [get nth].
  repeat (apply bytes_cons; split; [byte_tac|]); apply bytes_nil.
Qed.

Local Opaque mix_column inv_mix_column.
Lemma mix_column_len c : length (mix_column c) = 4%nat. Proof. reflexivity. Qed.
Lemma inv_mix_column_len c : length (inv_mix_column c) = 4%nat. Proof. reflexivity. Qed.

Section Cols.
Variables f g : list Z -> list Z.
Hypothesis Lf : forall c, length (f c) = 4%nat.
Hypothesis Bf : forall a b c d, byte_ok a -> byte_ok b -> byte_ok c -> byte_ok d -> bytes (f [a;b;c;d]).
Hypothesis G : forall a b c d, byte_ok a -> byte_ok b -> byte_ok c -> byte_ok d -> g (f [a;b;c;d]) = [a;b;c;d].
Lemma cols_block l : block l -> block (concat (map f (chunks 4 l))).
Proof.
  intros [H B]. destruct16 l H. split_bytes. cbn [chunks chunks_aux length firstn skipn map concat app].
  split; [rewrite !app_length, !Lf; reflexivity|]. repeat (apply bytes_app; split); try (apply Bf; assumption). apply bytes_nil.
Qed.
Lemma cols_inv l : block l -> concat (map g (chunks 4 (concat (map f (chunks 4 l))))) = l.
Proof.
  clear Bf. intros [H B]. destruct16 l H. split_bytes.
  change (chunks 4 [a0;a1;a2;a3;a4;a5;a6;a7;a8;a9;a10;a11;a12;a13;a14;a15])
    with [[a0;a1;a2;a3];[a4;a5;a6;a7];[a8;a9;a10;a11];[a12;a13;a14;a15]]. cbn [map concat].
  rewrite !chunks_app by (try apply Lf; lia). rewrite chunks_nil. cbn [map concat].
  rewrite !G by assumption. reflexivity.
Qed.
End Cols.

Lemma mix_block l : block l -> block (mix_columns l).
Proof. apply cols_block; [apply mix_column_len|apply mix_column_bytes]. Qed.
Lemma inv_mix_block l : block l -> block (inv_mix_columns l).
Proof. apply cols_block; [apply inv_mix_column_len|apply inv_mix_column_bytes]. Qed.
Lemma inv_mix_mix l : block l -> inv_mix_columns (mix_columns l) = l.
Proof. apply cols_inv; [apply mix_column_len|apply inv_mix_l]. Qed.
Lemma mix_inv_mix l : block l -> mix_columns (inv_mix_columns l) = l.
Proof. apply cols_inv; [apply inv_mix_column_len|apply inv_mix_r]. Qed.

Lemma sub_block l : block l -> block (sub_bytes l).
Proof.
  intros [H B]. split; [unfold sub_bytes; now rewrite map_length|].
  apply Forall_map. eapply Forall_impl; [|exact B]. apply s_box_byte.
Qed.
Lemma inv_sub_block l : block l -> block (inv_sub_bytes l).
Proof.
  intros [H B]. split; [unfold inv_sub_bytes; now rewrite map_length|].
  apply Forall_map. eapply Forall_impl; [|exact B]. apply inv_s_box_byte.
Qed.
Lemma map_id_on (f : Z -> Z) l : bytes l -> (forall x, byte_ok x -> f x = x) -> map f l = l.
Proof. intros B H. induction B as [|x l Hx B IH]; [reflexivity|]. cbn [map]. now rewrite IH, H. Qed.
Lemma inv_sub_sub l : block l -> inv_sub_bytes (sub_bytes l) = l.
Proof. intros [_ B]. unfold inv_sub_bytes, sub_bytes. rewrite map_map. apply map_id_on; [assumption|apply inv_s_box_l]. Qed.
Lemma sub_inv_sub l : block l -> sub_bytes (inv_sub_bytes l) = l.
Proof. intros [_ B]. unfold inv_sub_bytes, sub_bytes. rewrite map_map. apply map_id_on; [assumption|apply inv_s_box_r]. Qed.

Lemma shift_block l : block l -> block (shift_rows l).
Proof. intros [H B]. destruct16 l H. split_bytes. split; [reflexivity|]. cbn [shift_rows get nth upd]. bytes_list. Qed.
Lemma shift4 l : length l = 16%nat -> shift_rows (shift_rows (shift_rows (shift_rows l))) = l.
Proof. intros H. destruct16 l H. reflexivity. Qed.


Section Inverse.
Variable NK : nat.
Variable sched : list Z.
Hypothesis Hs : length sched = (16 * (NK + 6 + 1))%nat.
Hypothesis Bs : bytes sched.

Lemma ark_block l r : (r <= NK + 6)%nat -> block l -> block (add_round_key sched l r).
Proof.
  intros Hr [H B]. split; [|apply xorl_bytes; [assumption|]; now apply bytes_firstn, bytes_skipn].
  unfold add_round_key, round_key. rewrite xorl_length, firstn_length, skipn_length. lia.
Qed.
Lemma ark_ark l r : (r <= NK + 6)%nat -> block l -> add_round_key sched (add_round_key sched l r) r = l.
Proof.
  intros Hr [H B]. apply xorl_cancel. unfold round_key. rewrite firstn_length, skipn_length. lia.
Qed.
Definition inv_round (l : list Z) (r : nat) : list Z :=
  inv_sub_bytes (inv_shift_rows (inv_mix_columns (add_round_key sched l r))).
Definition inv_permute (l : list Z) : list Z :=
  let l := inv_sub_bytes (inv_shift_rows (add_round_key sched l (NK + 6))) in
  let l := fold_left inv_round (rev (seq 1 (NK + 6 - 1))) l in
  add_round_key sched l 0.

Lemma inv_shift_block l : block l -> block (inv_shift_rows l).
Proof. clear. intros. now do 3 apply shift_block. Qed.
Lemma round_block l r : (r <= NK + 6)%nat -> block l -> block (cipher_round sched l r).
Proof. intros. apply ark_block; [assumption|]. now apply mix_block, shift_block, sub_block. Qed.
Lemma inv_round_block l r : (r <= NK + 6)%nat -> block l -> block (inv_round l r).
Proof. intros. now apply inv_sub_block, inv_shift_block, inv_mix_block, ark_block. Qed.
Lemma inv_round_l l r : (r <= NK + 6)%nat -> block l -> inv_round (cipher_round sched l r) r = l.
Proof.
  intros Hr H. unfold inv_round, cipher_round.
  rewrite ark_ark by (try assumption; now apply mix_block, shift_block, sub_block).
  rewrite inv_mix_mix by (now apply shift_block, sub_block).
  unfold inv_shift_rows. rewrite shift4 by (now apply sub_block). now apply inv_sub_sub.
Qed.
Lemma inv_round_r l r : (r <= NK + 6)%nat -> block l -> cipher_round sched (inv_round l r) r = l.
Proof.
  intros Hr H. unfold inv_round, cipher_round.
  rewrite sub_inv_sub by (now apply inv_shift_block, inv_mix_block, ark_block).
  unfold inv_shift_rows. rewrite shift4 by (now apply inv_mix_block, ark_block).
  rewrite mix_inv_mix by (now apply ark_block). now apply ark_ark.
Qed.
Lemma rounds_block rs : Forall (fun r => (r <= NK + 6)%nat) rs -> forall l, block l -> block (fold_left (cipher_round sched) rs l).
Proof. induction 1 as [|r rs Hr _ IH]; intros l Hl; [assumption|]. rewrite fold_left_cons'. apply IH. now apply round_block. Qed.
Lemma inv_rounds_block rs : Forall (fun r => (r <= NK + 6)%nat) rs -> forall l, block l -> block (fold_left inv_round rs l).
Proof. induction 1 as [|r rs Hr _ IH]; intros l Hl; [assumption|]. rewrite fold_left_cons'. apply IH. now apply inv_round_block. Qed.
Lemma rounds_inv rs : Forall (fun r => (r <= NK + 6)%nat) rs -> forall l, block l ->
  fold_left inv_round (rev rs) (fold_left (cipher_round sched) rs l) = l.
Proof.
  induction 1 as [|r rs Hr F IH]; intros l Hl; [reflexivity|]. rewrite fold_left_cons'. cbn [rev].
  rewrite fold_left_app, fold_left_cons', fold_left_nil'. rewrite IH by (now apply round_block). now apply inv_round_l.
Qed.
Lemma inv_rounds rs : Forall (fun r => (r <= NK + 6)%nat) rs -> forall l, block l ->
  fold_left (cipher_round sched) rs (fold_left inv_round (rev rs) l) = l.
Proof.
  induction 1 as [|r rs Hr F IH]; intros l Hl; [reflexivity|]. rewrite fold_left_cons'. cbn [rev].
  rewrite fold_left_app, fold_left_cons', fold_left_nil'.
  rewrite inv_round_r; [now apply IH|assumption|]. apply inv_rounds_block; [now apply Forall_rev|assumption].
Qed.
Lemma rounds_range : Forall (fun r => (r <= NK + 6)%nat) (seq 1 (NK + 6 - 1)).
Proof. clear. apply Forall_forall. intros r Hr. apply in_seq in Hr. lia. Qed.

Lemma permute_block l : block l -> block (permute NK sched l).
Proof.
  intros H. unfold permute. apply ark_block; [lia|]. apply shift_block, sub_block.
  apply rounds_block; [apply rounds_range|]. apply ark_block; [lia|assumption].
Qed.
Lemma inv_permute_block l : block l -> block (inv_permute l).
Proof.
  intros H. unfold inv_permute. apply ark_block; [lia|].
  apply inv_rounds_block; [apply Forall_rev, rounds_range|]. apply inv_sub_block, inv_shift_block. apply ark_block; [lia|assumption].
Qed.
Lemma inv_permute_l l : block l -> inv_permute (permute NK sched l) = l.
Proof.
  intros H. unfold permute, inv_permute.
  assert (B0 : block (add_round_key sched l 0)) by (apply ark_block; [lia|assumption]).
  assert (B1 : block (fold_left (cipher_round sched) (seq 1 (NK + 6 - 1)) (add_round_key sched l 0)))
    by (apply rounds_block; [apply rounds_range|assumption]).
  rewrite ark_ark by (try lia; now apply shift_block, sub_block).
  unfold inv_shift_rows. rewrite shift4 by (now apply sub_block). rewrite inv_sub_sub by assumption.
  rewrite rounds_inv by (try apply rounds_range; assumption). apply ark_ark; [lia|assumption].
Qed.
Lemma inv_permute_r l : block l -> permute NK sched (inv_permute l) = l.
Proof.
  intros H. unfold permute, inv_permute.
  assert (B0 : block (add_round_key sched l (NK + 6))) by (apply ark_block; [lia|assumption]).
  assert (B1 : block (inv_sub_bytes (inv_shift_rows (add_round_key sched l (NK + 6)))))
    by (now apply inv_sub_block, inv_shift_block).
  pose proof (inv_rounds_block _ (Forall_rev rounds_range) _ B1) as B2.
  rewrite ark_ark by (try lia; assumption).
  rewrite inv_rounds by (try apply rounds_range; assumption).
  rewrite sub_inv_sub by (now apply inv_shift_block). unfold inv_shift_rows. rewrite shift4 by (apply B0).
  apply ark_ark; [lia|assumption].
Qed.
End Inverse.

Lemma new_sched NK key st : (2 <= NK)%nat -> bytes key -> key_expansion NK key = Ok st ->
  length key = (4 * NK)%nat /\ length st = (16 * (NK + 6 + 1))%nat /\ bytes st.
Proof.
  intros HN B E. assert (L : length key = (4 * NK)%nat).
  { unfold key_expansion in E. destruct (Nat.eqb_spec (4 * NK) (length key)); [congruence|discriminate]. }
  destruct (key_expansion_ok NK HN key L B) as (E' & W & Lw). rewrite E in E'. injection E' as ->.
  split; [assumption|]. split.
  - rewrite words_ok_concat_len, Lw by assumption. lia.
  - apply bytes_concat. eapply Forall_impl; [|exact W]. intros ? []; assumption.
Qed.
