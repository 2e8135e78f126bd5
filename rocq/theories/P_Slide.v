(** The signed sliding-window recoding [slide]. *)
From Verif Require Import BaseFacts M_Slp M_FeProg M_Curve25519 M_Ed25519 P_X25519 P_Ge2 P_EdBase.
From Verif Require P_Ghash.
From Coq Require Import ZifyBool ZifyNat.

(** ** Values of digit lists *)
Lemma nth_skipn {A} (l : list A) i k d : nth k (skipn i l) d = nth (i + k) l d.
Proof. revert i. induction l as [|x l IH]; intros [|i]; try reflexivity; [destruct k; reflexivity|]. cbn [skipn]. rewrite IH. reflexivity. Qed.
Lemma pval_app l m : pval 2 (l ++ m) = pval 2 l + 2 ^ Z.of_nat (length l) * pval 2 m.
Proof.
  induction l as [|x l IH]; [cbn [app length]; change (pval 2 []) with 0; change (2 ^ Z.of_nat 0) with 1; lia|].
  cbn [app length]. rewrite !pval_cons, IH, Nat2Z.inj_succ, Z.pow_succ_r by lia. ring.
Qed.
Lemma get_split (r : list Z) i : (i < length r)%nat -> r = firstn i r ++ get r i :: skipn (S i) r.
Proof.
  revert i. induction r as [|x r IH]; intros i Hi; cbn [length] in Hi; [lia|]. destruct i as [|i]; [reflexivity|].
  cbn [firstn app skipn]. change (get (x :: r) (S i)) with (get r i). f_equal. apply IH. lia.
Qed.
Lemma get_upd_same (r : list Z) i v : (i < length r)%nat -> get (upd r i v) i = v.
Proof. revert i. induction r as [|x r IH]; intros [|i] Hi; cbn [length] in Hi; try lia; [reflexivity|]. cbn [upd]. apply (IH i). lia. Qed.
Lemma get_upd_other (r : list Z) i j v : i <> j -> get (upd r i v) j = get r j.
Proof.
  revert i j. induction r as [|x r IH]; intros [|i] [|j] H; try reflexivity; [congruence|]. cbn [upd].
  change (get (x :: upd r i v) (S j)) with (get (upd r i v) j). change (get (x :: r) (S j)) with (get r j). apply IH. congruence.
Qed.
Lemma upd_len (r : list Z) i v : length (upd r i v) = length r.
Proof. revert i. induction r as [|x r IH]; intros [|i]; cbn [upd length]; auto. Qed.
Lemma firstn_upd (r : list Z) i j v : (i <= j)%nat -> firstn i (upd r j v) = firstn i r.
Proof.
  revert i j. induction r as [|x r IH]; intros [|i] [|j] H; try reflexivity; [lia|]. cbn [upd firstn]. f_equal. apply IH. lia.
Qed.
Lemma pval_upd r i v : (i < length r)%nat -> pval 2 (upd r i v) = pval 2 r + (v - get r i) * 2 ^ Z.of_nat i.
Proof.
  revert i. induction r as [|x r IH]; intros [|i] Hi; cbn [length] in Hi; try lia; cbn [upd]; rewrite !pval_cons.
  - change (get (x :: r) 0) with x. change (2 ^ Z.of_nat 0) with 1. ring.
  - change (get (x :: r) (S i)) with (get r i). rewrite IH, Nat2Z.inj_succ, Z.pow_succ_r by lia. ring.
Qed.
Definition bit01 (x : Z) : Prop := x = 0 \/ x = 1.
Lemma pval_nonneg l : Forall bit01 l -> 0 <= pval 2 l.
Proof. induction 1 as [|x l Hx H IH]; [reflexivity|]. rewrite pval_cons. unfold bit01 in Hx. lia. Qed.

(** ** The carry loop *)
Lemma slide_carry_ok l : Forall bit01 l -> length (slide_carry l) = length l /\ Forall bit01 (slide_carry l) /\
  (pval 2 (slide_carry l) = pval 2 l + 1 \/ pval 2 l = 2 ^ Z.of_nat (length l) - 1).
Proof.
  induction 1 as [|x l Hx H (IL & IF & IV)]; [split; [reflexivity|]; split; [constructor|]; right; reflexivity|].
  cbn [slide_carry]. destruct Hx as [-> | ->]; cbn [Z.eqb].
  - split; [reflexivity|]. split; [constructor; [now right|assumption]|]. left. rewrite !pval_cons. ring.
  - split; [cbn [length]; lia|]. split; [constructor; [now left|assumption]|].
    cbn [length]. rewrite !pval_cons, Nat2Z.inj_succ, Z.pow_succ_r by lia. lia.
Qed.
Lemma slide_carry_head l : Forall bit01 l -> get l 0 <> 0 -> get (slide_carry l) 0 = 0.
Proof.
  intros H N. destruct l as [|x l]; [exfalso; apply N; reflexivity|]. inversion H as [|? ? Hx ?]; subst.
  cbn [slide_carry]. change (get (x :: l) 0) with x in N. destruct Hx as [-> | ->]; [congruence|reflexivity].
Qed.

(** ** Invariants *)
Definition odd_digit (x : Z) : Prop := (exists q, x = 2 * q + 1) /\ -15 <= x <= 15.
Definition digit_ok (x : Z) : Prop := x = 0 \/ odd_digit x.

Definition bits_from (i : nat) (r : list Z) : Prop := forall k, (i <= k < 256)%nat -> bit01 (get r k).
Definition zeros (i j : nat) (r : list Z) : Prop := forall k, (i <= k < j)%nat -> (k < 256)%nat -> get r k = 0.

Lemma bits_skipn i r : length r = 256%nat -> bits_from i r -> Forall bit01 (skipn i r).
Proof.
  intros L H. apply Forall_forall. intros x Hx. apply (In_nth _ _ 0) in Hx as (k & Hk & <-).
  rewrite skipn_length in Hk. rewrite nth_skipn. apply H. lia.
Qed.

(** The state of the inner loop before the step [b]. *)
Record inner_inv (a : Z) (i : nat) (r0 : list Z) (b : nat) (r : list Z) : Prop := {
  ii_len : length r = 256%nat;
  ii_x : odd_digit (get r i);
  ii_bits : bits_from (S i) r;
  ii_zero : zeros (S i) (i + Nat.min b 5) r;
  ii_val : pval 2 r = a;
  ii_pre : firstn i r = r0
}.


Lemma inner_step bd a i r0 b r : (i < 256)%nat -> 0 <= a < 2 ^ 253 -> - 2 ^ Z.of_nat i < pval 2 r0 ->
  (1 <= b <= 4)%nat -> (i + b < 256)%nat -> inner_inv a i r0 b r ->
  get r (i + b) <> 0 ->
  let x := get r i in let s := shl8 (get r (i + b)) (Z.of_nat b) in
  schk bd 8 (x + s) = Ok (x + s) /\ schk bd 8 (x - s) = Ok (x - s) /\
  (x + s <= 15 -> inner_inv a i r0 (S b) (upd (upd r i (x + s)) (i + b) 0)) /\
  (15 < x + s -> -15 <= x - s /\
    inner_inv a i r0 (S b) (firstn (i + b) (upd r i (x - s)) ++ slide_carry (skipn (i + b) (upd r i (x - s))))).
Proof.
  intros Hi Ha Hr0 Hb Hib [L X Bt Zr Vl Pr] N x s.
  assert (Y : get r (i + b) = 1) by (destruct (Bt (i + b)%nat ltac:(lia)); [contradiction|assumption]).
  assert (S2 : s = 2 ^ Z.of_nat b /\ exists h, s = 2 * h).
  { unfold s. rewrite Y. assert (C : (b = 1 \/ b = 2 \/ b = 3 \/ b = 4)%nat) by lia.
    destruct C as [-> |[-> |[-> | ->] ] ]; (split; [reflexivity|]); [exists 1|exists 2|exists 4|exists 8]; reflexivity. }
  destruct S2 as [S2 [h Sh]].
  assert (SB : 2 <= s <= 16).
  { rewrite S2. assert (C : (b = 1 \/ b = 2 \/ b = 3 \/ b = 4)%nat) by lia.
    repeat (destruct C as [-> | C]; [split; discriminate|]). rewrite C. split; discriminate. }
  destruct X as [[q Xq] XB]. fold x in Xq, XB.
  assert (PW : 2 ^ Z.of_nat (i + b) = 2 ^ Z.of_nat i * s) by (rewrite S2, Nat2Z.inj_add, Z.pow_add_r by lia; reflexivity).
  rewrite !schk_ok by lia. split; [reflexivity|]. split; [reflexivity|]. split.
  - intros Hs. constructor.
    + now rewrite !upd_len.
    + rewrite get_upd_other, get_upd_same by lia. split; [exists (q + h); lia|lia].
    + intros k Hk. destruct (Nat.eq_dec k (i + b)) as [-> |Nk].
      * rewrite get_upd_same by (rewrite upd_len; lia). now left.
      * rewrite !get_upd_other by lia. apply Bt. exact Hk.
    + intros k Hk Hk'. destruct (Nat.eq_dec k (i + b)) as [-> |Nk].
      * rewrite get_upd_same by (rewrite upd_len; lia). reflexivity.
      * rewrite !get_upd_other by lia. apply Zr; lia.
    + rewrite pval_upd by (rewrite upd_len; lia). rewrite pval_upd by lia. rewrite get_upd_other, Y by lia. fold x.
      rewrite PW, Vl. ring.
    + rewrite !firstn_upd by lia. exact Pr.
  - intros Hs. assert (Hv : -15 <= x - s) by lia. split; [exact Hv|].
    set (r1 := upd r i (x - s)).
    assert (L1 : length r1 = 256%nat) by (unfold r1; now rewrite upd_len).
    assert (B1 : bits_from (S i) r1).
    { intros k Hk. unfold r1. rewrite get_upd_other by lia. now apply Bt. }
    assert (F1 : Forall bit01 (skipn (i + b) r1)).
    { apply bits_skipn; [exact L1|]. intros k Hk. apply B1. lia. }
    destruct (slide_carry_ok _ F1) as (SL & SF & SV).
    assert (LF : length (firstn (i + b) r1) = (i + b)%nat) by (rewrite firstn_length; lia).
    assert (G1 : forall k, (k < i + b)%nat -> get (firstn (i + b) r1 ++ slide_carry (skipn (i + b) r1)) k = get r1 k).
    { intros k Hk. unfold get. rewrite app_nth1 by lia. rewrite <- (firstn_skipn (i + b) r1) at 2. rewrite app_nth1 by lia. reflexivity. }
    assert (G2 : forall k, (i + b <= k)%nat -> get (firstn (i + b) r1 ++ slide_carry (skipn (i + b) r1)) k = get (slide_carry (skipn (i + b) r1)) (k - (i + b))).
    { intros k Hk. unfold get. rewrite app_nth2 by lia. now rewrite LF. }
    assert (V1 : pval 2 r1 = a - s * 2 ^ Z.of_nat i).
    { unfold r1. rewrite pval_upd by lia. fold x. rewrite Vl. ring. }
    assert (VS : pval 2 (slide_carry (skipn (i + b) r1)) = pval 2 (skipn (i + b) r1) + 1).
    { destruct SV as [SV|SV]; [exact SV|exfalso].
      rewrite skipn_length, L1 in SV.
      (* all ones up to the top *)
      assert (E1 : pval 2 (firstn (i + b) r1) = pval 2 r0 + 2 ^ Z.of_nat i * (x - s)).
      { assert (EF : firstn (i + b) r1 = firstn i r1 ++ get r1 i :: firstn (b - 1) (skipn (S i) r1)).
        { rewrite (get_split r1 i ltac:(lia)) at 1. rewrite firstn_app, firstn_length, L1.
          replace (Nat.min i 256) with i by lia. rewrite firstn_firstn. replace (Nat.min (i + b) i) with i by lia.
          f_equal. replace (i + b - i)%nat with (S (b - 1)) by lia. reflexivity. }
        rewrite EF, pval_app, firstn_length, L1. replace (Nat.min i 256) with i by lia.
        rewrite pval_cons. unfold r1 at 1 2. rewrite firstn_upd by lia. rewrite Pr, get_upd_same by lia.
        assert (EZ : pval 2 (firstn (b - 1) (skipn (S i) r1)) = 0).
        { assert (G : forall l, (forall k, (k < length l)%nat -> nth k l 0 = 0) -> pval 2 l = 0).
          { clear. induction l as [|y l IH]; intros H; [reflexivity|]. rewrite pval_cons, IH.
            - pose proof (H 0%nat ltac:(cbn [length]; lia)) as H0. cbn [nth] in H0. lia.
            - intros k Hk. apply (H (S k)). cbn [length]. lia. }
          apply G. intros k Hk. rewrite firstn_length, skipn_length, L1 in Hk.
          replace (nth k (firstn (b - 1) (skipn (S i) r1)) 0) with (get r1 (S i + k)).
          - unfold r1. rewrite get_upd_other by lia. apply Zr; lia.
          - unfold get. rewrite <- nth_skipn. rewrite <- (firstn_skipn (b - 1) (skipn (S i) r1)) at 1.
            rewrite app_nth1 by (rewrite firstn_length, skipn_length; lia). reflexivity. }
        rewrite EZ. ring. }
      pose proof (f_equal (pval 2) (firstn_skipn (i + b) r1)) as EA. rewrite pval_app, LF, E1, SV, V1, PW in EA.
      assert (PT : 2 ^ Z.of_nat i * s * 2 ^ Z.of_nat (256 - (i + b)) = 2 ^ 256).
      { rewrite <- PW, <- Z.pow_add_r by lia. f_equal. lia. }
      assert (PB : 2 ^ Z.of_nat i * s <= 2 ^ 255) by (rewrite <- PW; apply Z.pow_le_mono_r; lia).
      assert (PI : 0 < 2 ^ Z.of_nat i) by (apply Z.pow_pos_nonneg; lia).
      assert (XP : 1 <= x) by lia.
      assert (2 ^ Z.of_nat i <= 2 ^ Z.of_nat i * x) by nia.
      clear - EA PT PB Hr0 Ha H. nia. }
    constructor.
    + rewrite app_length, LF, SL, skipn_length. lia.
    + rewrite G1 by lia. unfold r1. rewrite get_upd_same by lia. split; [exists (q - h); lia|lia].
    + intros k Hk. destruct (Nat.lt_ge_cases k (i + b)).
      * rewrite G1 by lia. apply B1. lia.
      * rewrite G2 by lia. rewrite Forall_forall in SF. apply SF, nth_In. rewrite SL, skipn_length. lia.
    + intros k Hk Hk'. destruct (Nat.lt_ge_cases k (i + b)).
      * rewrite G1 by lia. unfold r1. rewrite get_upd_other by lia. apply Zr; lia.
      * assert (k = i + b)%nat by lia. subst k. rewrite G2, Nat.sub_diag by lia. apply slide_carry_head; [exact F1|].
        unfold get. rewrite nth_skipn, Nat.add_0_r. change (nth (i + b) r1 0) with (get r1 (i + b)).
        unfold r1. rewrite get_upd_other, Y by lia. discriminate.
    + rewrite pval_app, LF, VS. pose proof (f_equal (pval 2) (firstn_skipn (i + b) r1)) as EA. rewrite pval_app, LF, V1 in EA.
      rewrite PW in *. lia.
    + rewrite firstn_app, LF. replace (i - (i + b))%nat with 0%nat by lia. cbn [firstn]. rewrite app_nil_r.
      rewrite firstn_firstn. replace (Nat.min i (i + b)) with i by lia. unfold r1. rewrite firstn_upd by lia. exact Pr.
Qed.

Lemma slide_inner_ok bd a i r0 : (i < 256)%nat -> 0 <= a < 2 ^ 253 -> - 2 ^ Z.of_nat i < pval 2 r0 ->
  forall n r, (n <= 6)%nat -> inner_inv a i r0 (7 - n) r ->
  exists r', slide_inner bd i n r = Ok r' /\ inner_inv a i r0 7 r'.
Proof.
  intros Hi Ha Hr0. induction n as [|n IH]; intros r Hn H.
  - exists r. split; [reflexivity|exact H].
  - cbn [slide_inner]. set (b := (7 - S n)%nat) in *.
    destruct (Nat.ltb_spec (i + b) 256) as [Hb|Hb].
    2: { exists r. split; [reflexivity|]. destruct H as [L X Bt Zr Vl Pr]. constructor; try assumption.
         intros k Hk Hk'. apply Zr; lia. }
    cbv zeta. destruct (Z.eqb_spec (get r (i + b)) 0) as [Y|Y]; cbn [negb].
    + apply IH; [lia|]. destruct H as [L X Bt Zr Vl Pr]. constructor; try assumption.
      intros k Hk Hk'. destruct (Nat.eq_dec k (i + b)) as [-> |Nk]; [exact Y|]. apply Zr; lia.
    + destruct (Nat.le_gt_cases b 4) as [Hb4|Hb4].
      * destruct (inner_step bd a i r0 b r Hi Ha Hr0 ltac:(lia) Hb H Y) as (E1 & E2 & K1 & K2). cbv zeta in E1, E2, K1, K2.
        rewrite E1, bind_ok. destruct (Z.leb_spec (get r i + shl8 (get r (i + b)) (Z.of_nat b)) 15) as [Hu|Hu].
        -- apply IH; [lia|]. replace (7 - n)%nat with (S b) by lia. exact (K1 Hu).
        -- rewrite E2, bind_ok. destruct (K2 Hu) as [Hv K]. rewrite (proj2 (Z.leb_le _ _) Hv).
           apply IH; [lia|]. replace (7 - n)%nat with (S b) by lia. exact K.
      * assert (Y1 : get r (i + b) = 1) by (destruct (ii_bits _ _ _ _ _ H (i + b)%nat ltac:(lia)); [contradiction|assumption]).
        destruct (ii_x _ _ _ _ _ H) as [_ XB].
        assert (S2 : shl8 (get r (i + b)) (Z.of_nat b) = 32 \/ shl8 (get r (i + b)) (Z.of_nat b) = 64).
        { rewrite Y1. assert (C : (b = 5 \/ b = 6)%nat) by lia. destruct C as [-> | ->]; [left|right]; reflexivity. }
        rewrite !schk_ok by lia. rewrite !bind_ok.
        rewrite !(proj2 (Z.leb_gt _ _)) by lia.
        exists r. split; [reflexivity|]. destruct H as [L X Bt Zr Vl Pr]. constructor; try assumption.
        intros k Hk Hk'. apply Zr; lia.
Qed.

Record outer_inv (a : Z) (i : nat) (r : list Z) : Prop := {
  oi_len : length r = 256%nat;
  oi_digits : forall k, (k < i)%nat -> digit_ok (get r k);
  oi_bits : bits_from i r;
  oi_val : pval 2 r = a;
  oi_gap : exists m, (i <= m)%nat /\ zeros i m r /\ - 2 ^ Z.of_nat m < pval 2 (firstn i r) < 2 ^ Z.of_nat m
}.

Lemma firstn_S_get (r : list Z) i : (i < length r)%nat -> firstn (S i) r = firstn i r ++ [get r i].
Proof.
  revert i. induction r as [|x r IH]; intros i Hi; cbn [length] in Hi; [lia|]. destruct i as [|i]; [reflexivity|].
  change (get (x :: r) (S i)) with (get r i). cbn [firstn app]. f_equal. apply IH. lia.
Qed.
Lemma pval_firstn_S r i : (i < length r)%nat -> pval 2 (firstn (S i) r) = pval 2 (firstn i r) + 2 ^ Z.of_nat i * get r i.
Proof.
  intros H. rewrite firstn_S_get, pval_app, firstn_length by exact H. replace (Nat.min i (length r)) with i by lia.
  rewrite pval_cons. change (pval 2 []) with 0. ring.
Qed.

Lemma slide_outer_ok bd a : 0 <= a < 2 ^ 253 -> forall n r, (n <= 256)%nat -> outer_inv a (256 - n) r ->
  exists r', slide_outer bd n r = Ok r' /\ outer_inv a 256 r'.
Proof.
  intros Ha. induction n as [|n IH]; intros r Hn H.
  - exists r. split; [reflexivity|exact H].
  - cbn [slide_outer]. set (i := (256 - S n)%nat) in *. assert (Hi : (i < 256)%nat) by lia.
    destruct H as [L Dg Bt Vl (m & Hm & Zr & Sm)].
    destruct (Z.eqb_spec (get r i) 0) as [E|E]; cbn [negb]; cbv zeta.
    + rewrite bind_ok. apply IH; [lia|]. replace (256 - n)%nat with (S i) by lia. constructor; try assumption.
      * intros k Hk. destruct (Nat.eq_dec k i) as [-> |Nk]; [left; exact E|apply Dg; lia].
      * intros k Hk. apply Bt. lia.
      * exists (Nat.max m (S i)). split; [lia|]. split; [intros k Hk Hk'; apply Zr; lia|].
        rewrite pval_firstn_S, E by lia.
        assert (2 ^ Z.of_nat m <= 2 ^ Z.of_nat (Nat.max m (S i))) by (apply Z.pow_le_mono_r; lia). lia.
    + assert (Em : m = i).
      { destruct (Nat.eq_dec m i); [assumption|]. exfalso. apply E. apply Zr; lia. }
      rewrite Em in Sm. clear Em.
      assert (X1 : get r i = 1) by (destruct (Bt i ltac:(lia)); [contradiction|assumption]).
      destruct (slide_inner_ok bd a i (firstn i r) Hi Ha ltac:(lia) 6 r ltac:(lia)) as (r' & -> & [L' X' Bt' Zr' Vl' Pr']).
      { constructor; [exact L| |intros k Hk; apply Bt; lia|intros k Hk; lia|exact Vl|reflexivity].
        rewrite X1. split; [exists 0; reflexivity|lia]. }
      rewrite bind_ok. apply IH; [lia|]. replace (256 - n)%nat with (S i) by lia. constructor; [exact L'| |exact Bt'|exact Vl'|].
      * intros k Hk. destruct (Nat.eq_dec k i) as [-> |Nk]; [right; exact X'|].
        replace (get r' k) with (get r k); [apply Dg; lia|].
        unfold get. rewrite <- (firstn_skipn i r), <- (firstn_skipn i r'). rewrite !app_nth1 by (rewrite firstn_length; lia). now rewrite Pr'.
      * exists (i + 5)%nat. split; [lia|]. split; [exact Zr'|].
        rewrite pval_firstn_S, Pr' by lia. destruct X' as [_ XB].
        rewrite Nat2Z.inj_add, Z.pow_add_r by lia. change (2 ^ Z.of_nat 5) with 32.
        assert (0 < 2 ^ Z.of_nat i) by (apply Z.pow_pos_nonneg; lia). clear - Sm XB H. nia.
Qed.

(** ** The bits *)
Lemma slide_bit x k : byte_ok x -> 0 <= k < 8 -> Z.land 1 (swrap 8 (Z.shiftr x k)) = Z.b2z (Z.testbit x k).
Proof.
  intros Hx Hk.
  assert (Q : forallb (fun k => Z.land 1 (swrap 8 (Z.shiftr x (Z.of_nat k))) =? Z.b2z (Z.testbit x (Z.of_nat k))) (seq 0 8) = true).
  { revert x Hx. apply byte_bits. vm_compute. reflexivity. }
  rewrite forallb_forall in Q. specialize (Q (Z.to_nat k) ltac:(apply in_seq; lia)). rewrite Z2Nat.id in Q by lia. now apply Z.eqb_eq.
Qed.
Lemma pval_bits n : forall N s, 0 <= N -> pval 2 (map (fun i => Z.b2z (Z.testbit N (Z.of_nat i))) (seq s n)) = (N / 2 ^ Z.of_nat s) mod 2 ^ Z.of_nat n.
Proof.
  induction n as [|n IH]; intros N s HN.
  - cbn [seq map]. change (pval 2 []) with 0. change (2 ^ Z.of_nat 0) with 1. now rewrite Z.mod_1_r.
  - cbn [seq map]. rewrite pval_cons, IH by exact HN.
    assert (Hs : 0 < 2 ^ Z.of_nat s) by (apply Z.pow_pos_nonneg; lia).
    assert (Hn : 0 < 2 ^ Z.of_nat n) by (apply Z.pow_pos_nonneg; lia).
    rewrite !Nat2Z.inj_succ, !Z.pow_succ_r by lia.
    rewrite Z.testbit_spec' by lia. set (M := N / 2 ^ Z.of_nat s).
    replace (N / (2 * 2 ^ Z.of_nat s)) with (M / 2) by (unfold M; rewrite Z.div_div by lia; f_equal; ring).
    symmetry. apply Z.rem_mul_r; lia.
Qed.
Lemma le_decode_firstn n a : bytes a -> (n <= length a)%nat -> le_decode (firstn n a) = le_decode a mod 2 ^ (8 * Z.of_nat n).
Proof.
  intros Ha Hn. rewrite <- (firstn_skipn n a) at 2. rewrite le_decode_app. unfold len. rewrite firstn_length.
  replace (Nat.min n (length a)) with n by lia. rewrite Z.pow_mul_r by lia. change (2 ^ 8) with 256.
  rewrite Z.mul_comm, Z.mod_add by (apply Z.pow_nonzero; lia). symmetry. apply Z.mod_small.
  pose proof (le_decode_range _ (bytes_firstn n a Ha)) as R. unfold len in R. rewrite firstn_length in R.
  replace (Nat.min n (length a)) with n in R by lia. exact R.
Qed.
Lemma slide_bits_ok a : bytes a -> (32 <= length a)%nat ->
  slide_bits a = Ok (map (fun i => Z.b2z (Z.testbit (le_decode a) (Z.of_nat i))) (seq 0 256)).
Proof.
  intros Ha La. unfold slide_bits.
  assert (G : forall l, Forall (fun i => i < 256)%nat l ->
    fold_right (fun i acc => let! x := idx a (i / 8) in let! r := acc in
      Ok (Z.land 1 (swrap 8 (Z.shiftr x (Z.of_nat (i mod 8)))) :: r)) (Ok []) l
    = Ok (map (fun i => Z.b2z (Z.testbit (le_decode a) (Z.of_nat i))) l)).
  { induction 1 as [|i l Hi H IH]; [reflexivity|]. cbn [fold_right map]. rewrite IH.
    assert (Hd : (i / 8 < length a)%nat) by (pose proof (Nat.div_lt_upper_bound i 8 32 ltac:(lia) ltac:(lia)); lia).
    rewrite idx_ok by exact Hd. rewrite !bind_ok. f_equal. f_equal.
    assert (Hb : byte_ok (nth (i / 8) a 0)) by (unfold bytes in Ha; rewrite Forall_forall in Ha; apply Ha, nth_In; exact Hd).
    pose proof (Nat.mod_upper_bound i 8 ltac:(lia)) as M8.
    rewrite slide_bit by (assumption || lia).
    rewrite (P_Ghash.le_decode_testbit a (Z.of_nat i)) by (assumption || lia).
    rewrite Nat2Z.inj_mod. change (Z.of_nat 8) with 8.
    assert (E : Z.to_nat (Z.of_nat i / 8) = (i / 8)%nat).
    { change 8 with (Z.of_nat 8). now rewrite <- Nat2Z.inj_div, Nat2Z.id. }
    now rewrite E. }
  apply G. apply Forall_forall. intros i Hi. apply in_seq in Hi. lia.
Qed.

Theorem slide_ok bd a : bytes a -> (32 <= length a)%nat -> le_decode (firstn 32 a) < 2 ^ 253 ->
  exists r, slide bd a = Ok r /\ length r = 256%nat /\ (forall k, digit_ok (get r k)) /\ pval 2 r = le_decode (firstn 32 a).
Proof.
  intros Ha La Ht. unfold slide. rewrite slide_bits_ok, bind_ok by assumption. set (r0 := map _ _).
  pose proof (le_decode_range a Ha) as R.
  assert (L0 : length r0 = 256%nat) by (unfold r0; now rewrite map_length, seq_length).
  assert (V0 : pval 2 r0 = le_decode (firstn 32 a)).
  { unfold r0. rewrite pval_bits by lia. rewrite le_decode_firstn by assumption. change (2 ^ Z.of_nat 0) with 1. now rewrite Z.div_1_r. }
  assert (H0 : outer_inv (le_decode (firstn 32 a)) (256 - 256) r0).
  { constructor; [exact L0|intros k Hk; lia| |exact V0|].
    - intros k Hk. unfold get, r0. rewrite (nth_indep _ 0 (Z.b2z (Z.testbit (le_decode a) (Z.of_nat 0)))) by (rewrite map_length, seq_length; lia).
      rewrite (map_nth (fun i => Z.b2z (Z.testbit (le_decode a) (Z.of_nat i)))). unfold bit01. destruct (Z.testbit _ _); [right|left]; reflexivity.
    - exists 0%nat. split; [lia|]. split; [intros k Hk; lia|]. cbn [Nat.sub firstn]. change (pval 2 []) with 0. change (2 ^ Z.of_nat 0) with 1. lia. }
  pose proof (le_decode_range _ (bytes_firstn 32 a Ha)) as RF.
  destruct (slide_outer_ok bd _ (conj (proj1 RF) Ht) 256 r0 ltac:(lia) H0) as (r & E & [L Dg _ Vl _]).
  exists r. split; [exact E|]. split; [exact L|]. split; [|exact Vl].
  intros k. destruct (Nat.lt_ge_cases k 256); [now apply Dg|]. left. unfold get. apply nth_overflow. lia.
Qed.
