(** The Poly1305 analogue of P_Forge: evaluation of polynomials over Z/(2^130 - 5). *)
From Verif Require Import BaseFacts S_Gcm S_ChaCha P_Ctr P_Roots P_Forge P_Gf128 P_Prime1305.
From Coq Require Import Ring Eqdep_dec Bool Znumtheory ZifyBool ZifyNat.

Local Notation P := P1305.
Lemma P_pos : 0 < P. Proof. unfold P1305. lia. Qed.

(** ** Z/P as a type *)
Record zp := Zp { zval : Z; zval_ok : (zval =? zval mod P) = true }.
Definition zmk (v : Z) : zp.
Proof. refine (Zp (v mod P) _). apply Z.eqb_eq. symmetry. apply Zmod_mod. Defined.
Lemma zp_ext x y : zval x = zval y -> x = y.
Proof. destruct x as [v Hv], y as [w Hw]. cbn [zval]. intros E. subst w. f_equal. apply UIP_dec. apply bool_dec. Qed.
Lemma zval_mod x : zval x mod P = zval x.
Proof. destruct x as [v H]. cbn [zval]. symmetry. now apply Z.eqb_eq. Qed.
Lemma zval_range x : 0 <= zval x < P.
Proof. rewrite <- zval_mod. apply Z.mod_pos_bound, P_pos. Qed.
Lemma zval_mk v : zval (zmk v) = v mod P. Proof. reflexivity. Qed.
Definition zp0 := zmk 0. Definition zp1 := zmk 1.
Definition zadd x y := zmk (zval x + zval y).
Definition zmul x y := zmk (zval x * zval y).
Definition zsub x y := zmk (zval x - zval y).
Definition zopp x := zmk (- zval x).
Lemma mk_add a b : zmk (a + b) = zadd (zmk a) (zmk b).
Proof. apply zp_ext. unfold zadd. rewrite !zval_mk. now rewrite <- Zplus_mod. Qed.
Lemma mk_mul a b : zmk (a * b) = zmul (zmk a) (zmk b).
Proof. apply zp_ext. unfold zmul. rewrite !zval_mk. now rewrite <- Zmult_mod. Qed.
Lemma mk_sub a b : zmk (a - b) = zsub (zmk a) (zmk b).
Proof. apply zp_ext. unfold zsub. rewrite !zval_mk. now rewrite <- Zminus_mod. Qed.
Lemma mk_val x : zmk (zval x) = x.
Proof. apply zp_ext. rewrite zval_mk. apply zval_mod. Qed.
Lemma mk_opp a : zmk (- a) = zopp (zmk a).
Proof. apply zp_ext. unfold zopp. rewrite !zval_mk. rewrite <- (Z.sub_0_l a), <- (Z.sub_0_l (a mod P)). rewrite Zminus_mod_idemp_r. reflexivity. Qed.
Lemma zp_ring : ring_theory zp0 zp1 zadd zmul zsub zopp (@eq zp).
Proof.
  constructor; intros;
  repeat match goal with x : zp |- _ => rewrite <- (mk_val x); generalize (zval x); clear x; intros x end;
  unfold zp0, zp1; rewrite <- ?mk_opp, <- ?mk_add, <- ?mk_mul, <- ?mk_sub, <- ?mk_add, <- ?mk_mul; f_equal; ring.
Qed.
Lemma zp_dec (x y : zp) : {x = y} + {x <> y}.
Proof. destruct (Z.eq_dec (zval x) (zval y)) as [E|N0]; [left; now apply zp_ext|right; congruence]. Qed.
Lemma zp_integral x y : zmul x y = zp0 -> x = zp0 \/ y = zp0.
Proof.
  intros H. apply (f_equal zval) in H. unfold zmul, zp0 in H. rewrite !zval_mk, Z.mod_0_l in H by (pose proof P_pos; lia).
  apply Z.mod_divide in H; [|pose proof P_pos; lia]. apply prime_mult in H; [|exact prime_P1305].
  pose proof (zval_range x). pose proof (zval_range y).
  assert (G : forall z, 0 <= zval z < P -> (P | zval z) -> z = zp0).
  { intros z Hz D. apply Z.mod_divide in D; [|pose proof P_pos; lia]. rewrite zval_mod in D. rewrite <- (mk_val z), D. reflexivity. }
  destruct H as [H|H]; [left|right]; apply G; assumption.
Qed.
Lemma zp_search (Q : zp -> Prop) : (forall x, Q x \/ ~ Q x) -> (exists x, Q x) \/ (forall x, ~ Q x).
Proof.
  intros D. destruct (search_below (fun v => Q (zmk v))) with (n := P) as [(v & Hv & H)|No].
  - intros v Hv. apply D.
  - pose proof P_pos. lia.
  - left. now exists (zmk v).
  - right. intros x Hx. apply (No (zval x) (zval_range x)). now rewrite mk_val.
Qed.
Notation zpeval := (peval zp zp0 zadd zmul).
Notation zpsub := (psub zp zsub zopp).

(** ** The accumulator is the value of a polynomial *)
Definition coef (B : list Z) : Z := le_decode (B ++ [1]).
Definition acc (r : Z) (l : list (list Z)) : Z := fold_left (fun a B => (r * (a + coef B)) mod P) l 0.
Definition zpoly (l : list (list Z)) : list zp := zp0 :: rev (map (fun B => zmk (coef B)) l).
Lemma acc_eval r l : acc r l = zval (zpeval (zpoly l) (zmk r)).
Proof.
  unfold zpoly. rewrite <- (fold_horner zp zp0 zp1 zadd zmul zsub zopp zp_ring (zmk r)). unfold acc.
  apply (fold_map_gen zval (fun B => zmk (coef B)) (fun a B => (r * (a + coef B)) mod P) (fun y a => zmul (zmk r) (zadd y a))) with (y := zp0).
  intros y c. unfold zmul, zadd. rewrite !zval_mk. rewrite Zplus_mod_idemp_r, <- Zmult_mod. reflexivity.
Qed.
Lemma acc_range r l : 0 <= acc r l < P.
Proof. rewrite acc_eval. apply zval_range. Qed.

Definition macb (A C : list Z) : list (list Z) := blocks A ++ blocks C ++ [le_encode 8 (len A) ++ le_encode 8 (len C)].
Lemma zero_pad_length l : exists k, length (zero_pad l) = (k * 16)%nat.
Proof.
  unfold zero_pad. rewrite app_length, repeat_length.
  pose proof (Nat.div_mod (length l) 16 ltac:(lia)). pose proof (Nat.mod_upper_bound (length l) 16 ltac:(lia)).
  destruct (Nat.eq_dec (length l mod 16) 0) as [E|E].
  - rewrite E. exists (length l / 16)%nat. change ((16 - 0) mod 16)%nat with O. lia.
  - exists (length l / 16 + 1)%nat. rewrite (Nat.mod_small (16 - _)) by lia. lia.
Qed.
Lemma mac_chunks A C : chunks 16 (mac_data A C) = macb A C.
Proof.
  unfold mac_data, macb, blocks. change (pad16 A) with (repeat 0 ((16 - length A mod 16) mod 16)).
  change (pad16 C) with (repeat 0 ((16 - length C mod 16) mod 16)).
  rewrite (app_assoc A). fold (zero_pad A). rewrite (app_assoc C). fold (zero_pad C).
  destruct (zero_pad_length A) as [ka Ha], (zero_pad_length C) as [kc Hc].
  rewrite (chunks_app_full 16 ka) by (lia || exact Ha). f_equal. rewrite (chunks_app_full 16 kc) by (lia || exact Hc). apply (f_equal (app (chunks 16 (zero_pad C)))).
  apply chunks_short; [discriminate|]. rewrite app_length, !le_encode_length. lia.
Qed.
Definition okb (B : list Z) : Prop := bytes B /\ length B = 16%nat.
Lemma lens_ok (A C : list Z) : okb (le_encode 8 (len A) ++ le_encode 8 (len C)).
Proof. split; [apply bytes_app; split; apply le_encode_bytes|]. now rewrite app_length, !le_encode_length. Qed.
Lemma macb_ok A C : bytes A -> bytes C -> Forall okb (macb A C).
Proof.
  intros HA HC. unfold macb. apply Forall_app. split; [now apply blocks_ok|]. apply Forall_app. split; [now apply blocks_ok|].
  constructor; [apply lens_ok|constructor].
Qed.
Lemma macb_length A C : Z.of_nat (length (macb A C)) = (len A + 15) / 16 + (len C + 15) / 16 + 1.
Proof. rewrite <- nblocks_eq. unfold nblocks, ghash_input, macb. now rewrite !app_length. Qed.
Lemma lens_inj (A C A' C' : list Z) : len A < 2 ^ 64 -> len C < 2 ^ 64 -> len A' < 2 ^ 64 -> len C' < 2 ^ 64 ->
  le_encode 8 (len A) ++ le_encode 8 (len C) = le_encode 8 (len A') ++ le_encode 8 (len C') -> length A = length A' /\ length C = length C'.
Proof.
  intros H1 H2 H3 H4 E.
  assert (G : forall x y, 0 <= x < 2 ^ 64 -> 0 <= y < 2 ^ 64 -> le_encode 8 x = le_encode 8 y -> x = y).
  { intros x y Hx Hy Exy. apply (f_equal le_decode) in Exy. rewrite !le_decode_encode in Exy. change (256 ^ Z.of_nat 8) with (2 ^ 64) in Exy.
    rewrite !Z.mod_small in Exy by assumption. exact Exy. }
  assert (E1 : le_encode 8 (len A) = le_encode 8 (len A')).
  { apply (f_equal (firstn 8)) in E. rewrite !firstn_app, !le_encode_length, !Nat.sub_diag, !firstn_O, !app_nil_r in E.
    rewrite !firstn_all2 in E by now rewrite le_encode_length. exact E. }
  rewrite E1 in E. apply app_inv_head in E.
  apply G in E1; [|unfold len in *; lia|unfold len in *; lia]. apply G in E; [|unfold len in *; lia|unfold len in *; lia].
  unfold len in *. lia.
Qed.
Lemma macb_inj A C A' C' : length A = length A' -> length C = length C' -> macb A C = macb A' C' -> A = A' /\ C = C'.
Proof.
  intros LA LC E. apply ghash_input_inj; try assumption. unfold macb in E. unfold ghash_input.
  rewrite !app_assoc in E. apply app_inj_tail in E. destruct E as [E _]. rewrite !app_assoc, E. unfold len. now rewrite LA, LC.
Qed.
Lemma coef_range B : okb B -> 2 ^ 128 <= coef B < 2 ^ 129.
Proof.
  intros [B1 B2]. unfold coef. rewrite le_decode_app. pose proof (le_decode_range B B1) as R. unfold len in *. rewrite B2 in *.
  change (256 ^ Z.of_nat 16) with (2 ^ 128) in *. change (le_decode [1]) with 1. lia.
Qed.
Lemma coef_inj B B' : okb B -> okb B' -> zmk (coef B) = zmk (coef B') -> B = B'.
Proof.
  intros H H' E. pose proof (coef_range B H). pose proof (coef_range B' H'). apply (f_equal zval) in E. rewrite !zval_mk in E.
  rewrite !Z.mod_small in E by (unfold P1305; lia). destruct H as [B1 B2], H' as [B1' B2']. unfold coef in E.
  rewrite !le_decode_app in E. unfold len in E. rewrite B2, B2' in E.
  rewrite <- (le_encode_decode B B1), <- (le_encode_decode B' B1'), B2, B2'. f_equal. lia.
Qed.
Lemma map_coef_inj : forall l l', Forall okb l -> Forall okb l' ->
  map (fun B => zmk (coef B)) l = map (fun B => zmk (coef B)) l' -> l = l'.
Proof.
  induction l as [|B l IH]; intros [|B' l'] F F' E; try discriminate; [reflexivity|].
  inversion_clear F as [|? ? F1 F2]. inversion_clear F' as [|? ? G1 G2]. cbn [map] in E. injection E as E1 E2.
  f_equal; [|now apply IH]. apply coef_inj; try assumption. apply zp_ext. exact E1.
Qed.

Section Two.
Variables A C A' C' : list Z.
Hypotheses (BA : bytes A) (BC : bytes C) (BA' : bytes A') (BC' : bytes C').
Hypotheses (LA : len A < 2 ^ 64) (LC : len C < 2 ^ 64) (LA' : len A' < 2 ^ 64) (LC' : len C' < 2 ^ 64).
Hypothesis Ne : (A, C) <> (A', C').
Let l := macb A C. Let l' := macb A' C'. Let N := Nat.max (length l) (length l').
Lemma forge1 d : exists bad, (length bad <= N)%nat /\ forall r, 0 <= r < P -> acc r l - acc r l' = d -> In r bad.
Proof.
  set (c := zpsub (zpsub (zpoly l) (zpoly l')) [zmk d]).
  destruct (roots_bound zp zp0 zp1 zadd zmul zsub zopp zp_ring zp_dec zp_integral zp_search (length c) c eq_refl) as (bad & Lb & Hb).
  - intros Hz. apply Ne. unfold c in Hz.
    pose proof (psub_zero zp zp0 zp1 zadd zmul zsub zopp zp_ring _ _ Hz) as Z1.
    set (m := map (fun B => zmk (coef B))) in *.
    assert (Z2 : forall i, nth i (zpsub (rev (m l)) (rev (m l'))) zp0 = zp0).
    { intros i. specialize (Z1 (S i)). unfold zpoly in Z1. fold m in Z1. cbn [psub nth] in Z1. rewrite Z1. now destruct i. }
    assert (Z3 : pzero zp zp0 (zpsub (rev (m l)) (rev (m l')))).
    { apply Forall_forall. intros x Hx. apply (In_nth _ _ zp0) in Hx. destruct Hx as (i & _ & <-). apply Z2. }
    pose proof (psub_zero zp zp0 zp1 zadd zmul zsub zopp zp_ring _ _ Z3) as Z4.
    assert (E0 : length A = length A' /\ length C = length C').
    { specialize (Z4 0%nat). unfold l, l', macb, m in Z4. rewrite !map_app, !rev_app_distr in Z4. cbn [map rev app nth] in Z4.
      apply lens_inj; try assumption. apply coef_inj; [apply lens_ok|apply lens_ok|exact Z4]. }
    destruct E0 as [EA EC].
    assert (Ell : l = l').
    { apply map_coef_inj; [now apply macb_ok|now apply macb_ok|]. fold m. rewrite <- (rev_involutive (m l)), <- (rev_involutive (m l')). f_equal.
      apply (nth_ext_len zp0); [|exact Z4]. unfold m. rewrite !rev_length, !map_length. unfold l, l'.
      apply Nat2Z.inj. rewrite !macb_length. unfold len. now rewrite EA, EC. }
    destruct (macb_inj A C A' C' EA EC Ell) as [-> ->]. reflexivity.
  - exists (map zval bad). split.
    + rewrite map_length. unfold c in Lb. rewrite !psub_length in Lb. unfold zpoly in Lb. cbn [length] in Lb.
      rewrite !rev_length, !map_length in Lb. unfold N. lia.
    + intros r Hr E. apply in_map_iff. exists (zmk r). split; [rewrite zval_mk; now apply Z.mod_small|]. apply Hb.
      unfold c. rewrite !(peval_psub zp zp0 zp1 zadd zmul zsub zopp zp_ring). 
      rewrite <- E, !acc_eval. rewrite mk_sub, !mk_val. cbn [peval]. rewrite <- (mk_val (zmk r)).
      set (u := zpeval (zpoly l) _). set (w := zpeval (zpoly l') _). apply zp_ext. unfold zsub, zadd, zmul, zp0.
      repeat rewrite zval_mk. rewrite Z.mod_0_l by (pose proof P_pos; lia). rewrite Z.mul_0_r, Z.mod_0_l by (pose proof P_pos; lia).
      rewrite Z.add_0_r, Zmod_mod, Z.sub_diag. reflexivity.
Qed.
(** The same for finitely many differences. *)
Lemma forge_list ds : exists bad, (length bad <= length ds * N)%nat /\
  forall r, 0 <= r < P -> In (acc r l - acc r l') ds -> In r bad.
Proof.
  induction ds as [|d ds (bad & Lb & Hb)].
  - exists []. split; [apply Nat.le_0_l|]. intros r _ [].
  - destruct (forge1 d) as (bad1 & L1 & H1). exists (bad1 ++ bad). split.
    + rewrite app_length. cbn [length Nat.mul]. lia.
    + intros r Hr [E|I]; apply in_app_iff; [left; now apply H1|right; now apply Hb].
Qed.
(** Differences modulo 2^128. *)
Definition cand (d : Z) : list Z := map (fun j => d mod 2 ^ 128 + j * 2 ^ 128) [-4; -3; -2; -1; 0; 1; 2; 3].
Lemma cand_ok d x : - P < x < P -> x mod 2 ^ 128 = d mod 2 ^ 128 -> In x (cand d).
Proof.
  intros Hx E. unfold cand. rewrite <- E. apply in_map_iff. exists (x / 2 ^ 128).
  pose proof (Z.div_mod x (2 ^ 128) ltac:(lia)) as D. pose proof (Z.mod_pos_bound x (2 ^ 128) ltac:(lia)) as M. split; [lia|].
  unfold P1305 in Hx. assert (H : -4 <= x / 2 ^ 128 <= 3) by lia.
  set (q := x / 2 ^ 128) in *. clearbody q. cbn [In]. lia.
Qed.
Lemma forge_mod ds : exists bad, (length bad <= 8 * length ds * N)%nat /\
  forall r, 0 <= r < P -> (exists d, In d ds /\ (acc r l - acc r l') mod 2 ^ 128 = d mod 2 ^ 128) -> In r bad.
Proof.
  destruct (forge_list (flat_map cand ds)) as (bad & Lb & Hb). exists bad. split.
  - assert (E : length (flat_map cand ds) = (8 * length ds)%nat).
    { clear. induction ds as [|d ds IH]; [reflexivity|]. cbn [flat_map]. rewrite app_length, IH. unfold cand. rewrite map_length. cbn [length]. lia. }
    rewrite E in Lb. exact Lb.
  - intros r Hr (d & I & E). apply Hb; [exact Hr|]. apply in_flat_map. exists d. split; [exact I|].
    pose proof (acc_range r l). pose proof (acc_range r l'). apply cand_ok; [lia|exact E].
Qed.
End Two.

(** ** The wrong final reduction changes the accumulator by one of few amounts. *)
Definition D3 : list Z := [-1; 0; 1].
Definition small_diffs : list Z := flat_map (fun a => flat_map (fun b => map (fun c => -5 + a + 256 * b + 65536 * c) D3) D3) D3.
Definition diffs : list Z := 0 :: map (fun v => faulty_acc v - v) [0; 1; 2; 3; 4] ++ small_diffs.
Lemma diffs_length : length diffs = 33%nat. Proof. reflexivity. Qed.
Lemma zip_diff : forall n x y, 0 <= y < 256 ^ Z.of_nat n ->
  forall m, (n <= m)%nat -> 0 <= x < 256 ^ Z.of_nat n ->
  exists e, length e = n /\ Forall (fun a => In a D3) e /\
    le_decode (zipwith (fun low top => 2 * (top / 2) + low mod 2) (le_encode m x) (le_encode m y)) = y + le_decode e.
Proof.
  induction n as [|n IH]; intros x y Hy m Hm Hx.
  - exists []. split; [reflexivity|]. split; [constructor|]. change (256 ^ Z.of_nat 0) with 1 in *. assert (x = 0) as -> by lia. assert (y = 0) as -> by lia.
    clear. induction m as [|m IH]; [reflexivity|]. cbn [le_encode zipwith]. rewrite le_decode_cons. change (0 / 256) with 0. rewrite IH. reflexivity.
  - destruct m as [|m]; [lia|]. rewrite Nat2Z.inj_succ, Z.pow_succ_r in Hx, Hy by lia.
    destruct (IH (x / 256) (y / 256)) with (m := m) as (e & Le & Fe & Ee); [lia|lia|lia|].
    exists (x mod 256 mod 2 - y mod 256 mod 2 :: e). split; [cbn [length]; lia|]. split.
    + constructor; [|exact Fe]. unfold D3. cbn [In]. lia.
    + cbn [le_encode zipwith]. rewrite !le_decode_cons, Ee. lia.
Qed.
Lemma faulty_diff v : 0 <= v < 2 ^ 22 + 5 -> In (faulty_acc v - v) diffs.
Proof.
  intros Hv. unfold diffs. right. apply in_app_iff. destruct (Z_lt_dec v 5) as [H|H].
  - left. apply in_map_iff. exists v. split; [reflexivity|]. cbn [In]. lia.
  - right. unfold faulty_acc. destruct (zip_diff 3 v (v - 5)) with (m := 16%nat) as (e & Le & Fe & Ee); [lia|lia|lia|].
    rewrite Ee. destruct e as [|a [|b [|c [|] ] ] ]; try discriminate Le.
    inversion_clear Fe as [|? ? Fa Fe1]. inversion_clear Fe1 as [|? ? Fb Fe2]. inversion_clear Fe2 as [|? ? Fc _].
    unfold small_diffs. apply in_flat_map. exists a. split; [exact Fa|]. apply in_flat_map. exists b. split; [exact Fb|].
    apply in_map_iff. exists c. split; [|exact Fc]. rewrite !le_decode_cons. change (le_decode []) with 0. lia.
Qed.
(** The amount by which two tags made with one s can differ, given the difference of the accumulators. *)
Definition pair_diffs (d : Z) : list Z := flat_map (fun a => map (fun b => d - a + b) diffs) diffs.
Lemma pair_diffs_length d : length (pair_diffs d) = 1089%nat. Proof. reflexivity. Qed.
Lemma tag_diff v v' w w' s d : (w = v \/ w = faulty_acc v /\ 0 <= v < 2 ^ 22 + 5) -> (w' = v' \/ w' = faulty_acc v' /\ 0 <= v' < 2 ^ 22 + 5) ->
  d = le_decode (le_encode 16 (w + s)) - le_decode (le_encode 16 (w' + s)) ->
  exists x, In x (pair_diffs d) /\ (v - v') mod 2 ^ 128 = x mod 2 ^ 128.
Proof.
  intros Hw Hw' ->. rewrite !le_decode_encode. change (256 ^ Z.of_nat 16) with (2 ^ 128).
  set (d := (w + s) mod 2 ^ 128 - (w' + s) mod 2 ^ 128).
  assert (I : In (w - v) diffs) by (destruct Hw as [-> | [-> H] ]; [left; lia|now apply faulty_diff]).
  assert (I' : In (w' - v') diffs) by (destruct Hw' as [-> | [-> H] ]; [left; lia|now apply faulty_diff]).
  exists (d - (w - v) + (w' - v')). split.
  - apply in_flat_map. exists (w - v). split; [exact I|]. apply in_map_iff. exists (w' - v'). split; [reflexivity|exact I'].
  - unfold d. pose proof (Z.div_mod (w + s) (2 ^ 128) ltac:(lia)) as E1. pose proof (Z.div_mod (w' + s) (2 ^ 128) ltac:(lia)) as E2.
    set (m1 := (w + s) mod 2 ^ 128) in *. set (m2 := (w' + s) mod 2 ^ 128) in *.
    set (q1 := (w + s) / 2 ^ 128) in *. set (q2 := (w' + s) / 2 ^ 128) in *.
    replace (v - v') with (m1 - m2 - (w - v) + (w' - v') + (q1 - q2) * 2 ^ 128) by lia. apply Z.mod_add. lia.
Qed.
Lemma clamp_range x : 0 <= clamp x < P.
Proof.
  unfold clamp. split; [apply Z.land_nonneg; right; lia|]. 
  apply Z.le_lt_trans with (2 ^ 124); [|unfold P1305; lia]. apply Z.lt_le_incl. apply range_testbit; [lia|apply Z.land_nonneg; right; lia|].
  intros n Hn. rewrite Z.land_spec. rewrite (testbit_high 0x0ffffffc0ffffffc0ffffffc0fffffff 124 n) by lia. apply andb_false_r.
Qed.
