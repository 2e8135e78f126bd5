(** poly1305.rs computes exactly [program_tag]. *)
From Verif Require Import BaseFacts M_Util M_ChaCha20 M_Poly1305 S_ChaCha S_PolyLazy P_Poly1305.
From Coq Require Import ZifyBool ZifyNat.

Lemma dec_div l k : bytes l -> le_decode l / 256 ^ Z.of_nat k = le_decode (skipn k l).
Proof.
  revert l; induction k as [|k IH]; intros l Bl.
  - change (256 ^ Z.of_nat 0) with 1. now rewrite Z.div_1_r.
  - destruct l as [|x l]; [change (le_decode []) with 0; apply Z.div_0_l; apply Z.pow_nonzero; lia|].
    apply bytes_cons in Bl as [Hx Bl]. cbn [skipn]. rewrite <- IH by assumption.
    rewrite Nat2Z.inj_succ, Z.pow_succ_r by lia. rewrite <- Z.div_div by (try apply Z.pow_pos_nonneg; lia).
    rewrite le_decode_cons. f_equal. rewrite Z.mul_comm, Z.div_add by lia. rewrite Z.div_small by exact Hx. lia.
Qed.
Lemma dec_get l k : bytes l -> (le_decode l / 256 ^ Z.of_nat k) mod 256 = get l k.
Proof.
  intros Bl. rewrite dec_div by assumption. revert l Bl; induction k as [|k IH]; intros [|x l] Bl; try reflexivity.
  - apply bytes_cons in Bl as [Hx Bl]. cbn [skipn]. rewrite le_decode_cons. change (get (x :: l) 0) with x.
    rewrite Z.mul_comm, Z.mod_add by lia. apply Z.mod_small, Hx.
  - apply bytes_cons in Bl as [Hx Bl]. apply (IH l Bl).
Qed.

Lemma wrap_eq r h : bytes r -> length r = 17%nat -> bytes h -> length h = 17%nat ->
  wrapQ r h = lazy_wrap (le_decode r) (le_decode h).
Proof.
  intros Br Lr Bh Lh. unfold lazy_wrap.
  rewrite (map_ext_in _ (fun j => get h j * le_decode (skipn (17 - j) r))).
  2:{ intros j _. now rewrite dec_get, dec_div by assumption. }
  clear Br Bh.
  do 17 (destruct r as [|? r]; [discriminate|]). destruct r; [|discriminate].
  do 17 (destruct h as [|? h]; [discriminate|]). destruct h; [|discriminate].
  unfold wrapQ. cbn [seq map Nat.add Nat.sub sumZ fold_right get nth le_decode skipn].
  repeat match goal with |- context [256 ^ Z.of_nat ?n] => let v := eval vm_compute in (256 ^ Z.of_nat n) in change (256 ^ Z.of_nat n) with v end.
  ring.
Qed.

Lemma squeeze_exact b hl h16 : length hl = 16%nat -> Forall (fun x => 0 <= x <= 416160000) hl -> 0 <= h16 <= 1300500 ->
  exists hl' h16', squeeze b (hl ++ [h16]) = Ok (hl' ++ [h16']) /\ bytes hl' /\ length hl' = 16%nat /\
    0 <= h16' <= 4 /\ le_decode (hl' ++ [h16']) = lazy_reduce (le_decode (hl ++ [h16])) /\
    0 <= le_decode (hl' ++ [h16']) < 2 ^ 130 + 2 ^ 22.
Proof.
  intros Lh Bh H16. unfold squeeze.
  destruct (squeeze_loop_ok b 416160000 [h16] ltac:(lia) hl 0 Bh ltac:(lia) ltac:(lia) ltac:(lia)) as (h1 & u1 & E & B1 & L1 & U1 & V1).
  rewrite Lh in E. rewrite E. cbn [bind]. rewrite get_last by lia.
  unfold len in V1. rewrite Lh in V1. change (256 ^ Z.of_nat 16) with (2 ^ 128) in V1.
  pose proof (dec_bound hl 416160000 ltac:(lia) Bh) as [D1 D2]. unfold len in D2. rewrite Lh in D2. change (256 ^ Z.of_nat 16) with (2 ^ 128) in D2.
  pose proof (dec16_range h1 B1 ltac:(lia)) as D3.
  assert (U1' : u1 <= 1632000) by lia.
  rewrite uchk_ok by lia. cbn [bind]. rewrite upd_last by lia. rewrite shr2, land3 by lia.
  set (v := u1 + h16) in *.
  pose proof (Z.div_mod v 4 ltac:(lia)) as Hv. pose proof (Z.mod_pos_bound v 4 ltac:(lia)).
  assert (0 <= v / 4 <= 733125) by (split; [apply Z.div_pos; lia|apply Z.div_le_upper_bound; lia]).
  rewrite uchk_ok by lia. cbn [bind].
  assert (B1' : Forall (fun x => 0 <= x <= 255) h1).
  { eapply Forall_impl; [|exact B1]. unfold byte_ok. intros; lia. }
  destruct (squeeze_loop_ok b 255 [v mod 4] ltac:(lia) h1 (5 * (v / 4)) B1' ltac:(lia) ltac:(lia) ltac:(lia)) as (h2 & u2 & E2 & B2 & L2 & U2 & V2).
  replace (length h1) with 16%nat in E2 by lia. rewrite E2. cbn [bind]. rewrite get_last by lia.
  unfold len in V2. replace (length h1) with 16%nat in V2 by lia. change (256 ^ Z.of_nat 16) with (2 ^ 128) in V2.
  pose proof (dec16_range h2 B2 ltac:(lia)) as D4.
  assert (u2 <= 1) by lia.
  rewrite uchk_ok by lia. cbn [bind]. rewrite upd_last by lia.
  exists h2, (v mod 4 + u2). split; [reflexivity|]. split; [assumption|]. split; [lia|]. split; [lia|].
  rewrite !dec_last by lia.
  assert (EY : le_decode hl + 2 ^ 128 * h16 = (le_decode h1 + 2 ^ 128 * (v mod 4)) + (v / 4) * 2 ^ 130) by (unfold v in *; lia).
  split; [|lia]. rewrite EY. unfold lazy_reduce.
  assert (RY : 0 <= le_decode h1 + 2 ^ 128 * (v mod 4) < 2 ^ 130) by (clear - D3 H; lia).
  set (Y := le_decode h1 + 2 ^ 128 * (v mod 4)) in *.
  rewrite (Z.mod_add Y (v / 4) (2 ^ 130)), (Z.div_add Y (v / 4) (2 ^ 130)) by lia.
  rewrite (Z.mod_small Y), (Z.div_small Y) by exact RY. unfold Y. lia.
Qed.

Definition PX (h : list Z) (w : Z) : Prop :=
  exists hl h16, h = hl ++ [h16] /\ bytes hl /\ length hl = 16%nat /\ 0 <= h16 <= 4 /\
    0 <= le_decode h < 2 ^ 130 + 2 ^ 22 /\ le_decode h = w.
Lemma PX_PI h w : PX h w -> PI h (w mod P1305).
Proof.
  intros (hl & h16 & E & B & L & H & R & V). exists hl, h16. repeat (split; [assumption|]). now rewrite V.
Qed.

Lemma mulmod_exact b r hl h16 : rk_ok r -> bytes hl -> length hl = 16%nat -> 0 <= h16 <= 10 ->
  exists h', mulmod b r (hl ++ [h16]) = Ok h' /\
    PX h' (lazy_reduce (le_decode r * le_decode (hl ++ [h16]) - (2 ^ 136 - 320) * lazy_wrap (le_decode r) (le_decode (hl ++ [h16])))).
Proof.
  intros [Lr Br] Bh Lh H16. unfold mulmod. set (h := hl ++ [h16]).
  assert (Hh : forall i, 0 <= get h i <= 300).
  { intros i. unfold h, get. destruct (Nat.lt_ge_cases i 16) as [Hi|Hi].
    - rewrite app_nth1 by lia. pose proof (get_bytes hl i Bh). unfold get in *. lia.
    - rewrite app_nth2 by lia. rewrite Lh. destruct (i - 16)%nat as [|[|?]]; cbn [nth]; lia. }
  assert (Hr : forall i, 0 <= get r i <= 255) by (intros; apply get_bytes, Br).
  rewrite mul_rows_ok; [|assumption|assumption|].
  2:{ apply Forall_forall. intros i Hi. apply in_seq in Hi. lia. }
  cbn [bind].
  assert (Es : map (row r h) (seq 0 17) = map (row r h) (seq 0 16) ++ [row r h 16]) by reflexivity.
  assert (Lh17 : length h = 17%nat) by (unfold h; rewrite app_length, Lh; reflexivity).
  assert (Bh17 : bytes h) by (apply bytes_app; split; [exact Bh|constructor; [unfold byte_ok; lia|constructor] ]).
  pose proof (rows_value r h Lr Lh17) as RV. rewrite (wrap_eq r h Br Lr Bh17 Lh17) in RV.
  rewrite Es in RV |- *.
  destruct (squeeze_exact b (map (row r h) (seq 0 16)) (row r h 16)) as (hl' & h16' & E & B' & L' & H16' & V' & R').
  - now rewrite map_length, seq_length.
  - apply Forall_map, Forall_forall. intros i Hi. apply in_seq in Hi. pose proof (row_bound r h Hr Hh i ltac:(lia)).
    assert (76500 * (Z.of_nat i + 1) + 24480000 * (16 - Z.of_nat i) <= 416160000) by lia. lia.
  - pose proof (row_bound r h Hr Hh 16 ltac:(lia)). lia.
  - rewrite E. eexists. split; [reflexivity|]. exists hl', h16'. split; [reflexivity|]. split; [assumption|]. split; [assumption|].
    split; [assumption|]. split; [exact R'|]. rewrite V'. f_equal. rewrite RV. unfold P1305. ring.
Qed.

Lemma process_exact b p blk w : rk_ok (pr p) -> PX (ph p) w -> bytes blk -> length blk = 16%nat ->
  exists h', poly_process b p blk = Ok {| pr := pr p; ph := h'; pconst := pconst p |} /\ PX h' (lazy_step (le_decode (pr p)) w blk).
Proof.
  intros Hr (hl & h16 & Eh & Bh & Lh & H16 & Rh & Vh) Bb Lb. unfold poly_process. rewrite Eh.
  destruct (poly_add_ok b hl h16 blk 1 Bh Lh Bb Lb ltac:(lia) ltac:(lia)) as (hl1 & h161 & E1 & B1 & L1 & H1 & V1).
  rewrite E1. cbn [bind].
  destruct (mulmod_exact b (pr p) hl1 h161 Hr B1 L1 ltac:(lia)) as (h' & E2 & P2). rewrite E2. cbn [bind].
  exists h'. split; [reflexivity|]. unfold lazy_step. cbv zeta.
  replace (w + le_decode (blk ++ [1])) with (le_decode (hl1 ++ [h161])); [exact P2|].
  rewrite V1, <- Vh, Eh, dec_last by assumption. rewrite (dec_last blk 1) by assumption. lia.
Qed.

Lemma chunks_exact b : forall cs p w, Forall bytes cs -> Forall (fun c => (0 < length c <= 16)%nat) cs ->
  rk_ok (pr p) -> PX (ph p) w ->
  exists h', poly_chunks b p cs = Ok {| pr := pr p; ph := h'; pconst := pconst p |} /\
    PX h' (fold_left (lazy_step (le_decode (pr p))) (map padded cs) w).
Proof.
  induction cs as [|c cs IH]; intros p v Bc Lc Hr HP; cbn [poly_chunks map fold_left].
  - exists (ph p). split; [destruct p; reflexivity|exact HP].
  - inversion_clear Bc. inversion_clear Lc.
    assert (Lp : length (padded c) = 16%nat) by (unfold padded; rewrite app_length, repeat_length; lia).
    destruct (process_exact b p (padded c) v Hr HP ltac:(now apply padded_bytes) Lp) as (h1 & E1 & P1).
    assert (E : (if (length c <? 16)%nat then let! buffer := write_slice (repeat 0 16) 0 c in poly_process b p buffer
                 else poly_process b p c) = poly_process b p (padded c)).
    { destruct (Nat.ltb_spec (length c) 16) as [Hlt|Hge].
      - rewrite write_slice_ok by (rewrite repeat_length; lia). cbn [bind firstn app Nat.add].
        rewrite skipn_repeat. reflexivity.
      - f_equal. unfold padded. replace (16 - length c)%nat with O by lia. cbn [repeat]. now rewrite app_nil_r. }
    rewrite E, E1. cbn [bind].
    destruct (IH {| pr := pr p; ph := h1; pconst := pconst p |} _ ltac:(assumption) ltac:(assumption) Hr P1) as (h2 & E2 & P2).
    cbn [pr ph pconst] in *. rewrite E2. exists h2. split; [reflexivity|]. exact P2.
Qed.

Lemma write_exact b p w : PX (ph p) w -> bytes (pconst p) -> length (pconst p) = 16%nat ->
  poly_write_value b p = Ok (le_encode 16 ((if w <? P1305 then w else faulty_acc (w - P1305)) + le_decode (pconst p))).
Proof.
  intros HX Bc Lc. pose proof (PX_PI _ _ HX) as HP.
  destruct (freeze_ok b (ph p) _ HP) as (hl & h16 & E & Bh & Lh & H16 & V & VF). unfold poly_write_value.
  rewrite E. cbn [bind].
  destruct (poly_add_ok b hl h16 (pconst p) 0 Bh Lh Bc Lc ltac:(lia) ltac:(lia)) as (hl1 & h161 & E1 & B1 & L1 & H1 & V1).
  rewrite E1. cbn [bind]. rewrite firstn_app, firstn_all2 by lia. replace (16 - length hl1)%nat with O by lia.
  cbn [firstn]. rewrite app_nil_r.
  assert (Em : map (fun x => x mod 256) hl1 = hl1).
  { clear - B1. induction B1 as [|x l Hx Hl IH]; [reflexivity|]. cbn [map]. rewrite IH, Z.mod_small by exact Hx. reflexivity. }
  rewrite Em. f_equal.
  destruct HX as (hl0 & h0 & Eh & Bh0 & Lh0 & H0 & Rh & Vh).
  destruct (Z.ltb_spec w P1305) as [Hlt|Hge].
  - rewrite (V ltac:(lia)) in V1. rewrite dec_last in V1 by assumption. apply (dec_16 hl1 h161); [assumption|assumption|lia].
  - specialize (VF ltac:(lia)). rewrite Vh in VF. rewrite !dec_last in V1 by assumption.
    apply (dec_16 hl1 (h161 - h16)); [assumption|assumption|lia].
Qed.

Lemma PX_0 : PX (repeat 0 17) 0.
Proof.
  exists (repeat 0 16), 0. split; [reflexivity|]. split; [apply bytesb_spec; reflexivity|]. split; [reflexivity|].
  split; [lia|]. split; [change (le_decode (repeat 0 17)) with 0; lia|reflexivity].
Qed.

(** The lazy accumulator is congruent to the RFC's. *)
Lemma lazy_mod r : forall cs w v, w mod P1305 = v -> fold_left (lazy_step r) cs w mod P1305 = fold_left (acc_step r) cs v.
Proof.
  induction cs as [|c cs IH]; intros w v E; cbn [fold_left]; [exact E|]. apply IH.
  unfold lazy_step, acc_step, lazy_reduce. cbv zeta. rewrite <- E. set (k := le_decode (c ++ [1])).
  set (q := lazy_wrap r (w + k)). set (y := r * (w + k) - (2 ^ 136 - 320) * q).
  pose proof (Z.div_mod y (2 ^ 130) ltac:(lia)) as D.
  replace (y mod 2 ^ 130 + 5 * (y / 2 ^ 130)) with (r * (w + k) + (- 64 * q - y / 2 ^ 130) * P1305) by (unfold y, P1305 in *; lia).
  rewrite Z_mod_plus_full. rewrite (Z.mul_mod r) by (unfold P1305; lia). rewrite (Z.mul_mod r (_ mod _ + _)) by (unfold P1305; lia).
  f_equal. f_equal. rewrite Z.add_mod_idemp_l by (unfold P1305; lia). reflexivity.
Qed.

Lemma poly1305_exact b key data ct : bytes key -> length key = 32%nat -> bytes data -> bytes ct ->
  len data < 2 ^ 64 -> len ct < 2 ^ 64 ->
  let r := clamp (le_decode (firstn 16 key)) in
  0 <= lazy_acc r (mac_data data ct) < 2 ^ 130 + 2 ^ 22 /\
  lazy_acc r (mac_data data ct) mod P1305 = poly1305_acc r (mac_data data ct) /\
  poly1305 b key data ct =
    Ok (if lazy_acc r (mac_data data ct) <? P1305 then poly1305_mac key (mac_data data ct)
        else le_encode 16 (faulty_acc (poly1305_acc r (mac_data data ct)) + le_decode (skipn 16 key))).
Proof.
  intros Bk Lk Bd Bc Ld Lc. cbv zeta.
  assert (EC : chunks 16 (mac_data data ct) =
    map padded (chunks 16 data) ++ map padded (chunks 16 ct) ++ [le_encode 8 (len data) ++ le_encode 8 (len ct)]).
  { set (lens := le_encode 8 (len data) ++ le_encode 8 (len ct)).
    assert (Ll : length lens = 16%nat) by (unfold lens; now rewrite app_length, !le_encode_length).
    unfold mac_data. destruct (pad_length data) as [k1 K1], (pad_length ct) as [k2 K2].
    fold lens. replace (data ++ pad16 data ++ ct ++ pad16 ct ++ lens) with ((data ++ pad16 data) ++ (ct ++ pad16 ct) ++ lens)
      by now rewrite <- !app_assoc.
    rewrite (chunks_app_full 16 k1) by (try lia; assumption).
    rewrite (chunks_app_full 16 k2 (ct ++ pad16 ct)) by (try lia; assumption).
    assert (lens <> []) by (intros Q; rewrite Q in Ll; discriminate).
    rewrite (chunks_short 16 lens) by (try lia; assumption). now rewrite !padded_chunks. }
  destruct (load_r_ok key Bk) as [Hr Hr16].
  assert (Er : le_decode (pr (poly_new key)) = clamp (le_decode (firstn 16 key))).
  { cbn [pr poly_new]. rewrite load_r_value by (try assumption; lia). reflexivity. }
  assert (EM : lazy_acc (clamp (le_decode (firstn 16 key))) (mac_data data ct) mod P1305 =
               poly1305_acc (clamp (le_decode (firstn 16 key))) (mac_data data ct)).
  { unfold lazy_acc, poly1305_acc. apply lazy_mod. reflexivity. }
  unfold poly1305.
  destruct (chunks_exact b (chunks 16 data) (poly_new key) 0) as (h1 & E1 & P1); try assumption.
  { apply chunks_bytes; [lia|assumption]. } { apply chunks_length_le; lia. } { apply PX_0. }
  rewrite E1. cbn [bind]. pose proof (len_nonneg data). pose proof (len_nonneg ct).
  rewrite !(Z.mod_small (len _) (2 ^ 64)) by lia. rewrite uchk_ok by lia. cbn [bind]. rewrite Z.add_0_l.
  destruct (chunks_exact b (chunks 16 ct) {| pr := pr (poly_new key); ph := h1; pconst := pconst (poly_new key) |} _
    ltac:(apply chunks_bytes; [lia|assumption]) ltac:(apply chunks_length_le; lia) Hr P1) as (h2 & E2 & P2).
  cbn [ph pconst] in *. change (pr {| pr := pr (poly_new key); ph := h1; pconst := pconst (poly_new key) |}) with (pr (poly_new key)) in *.
  rewrite E2. cbn [bind].
  set (lens := le_encode 8 (len data) ++ le_encode 8 (len ct)) in *.
  assert (Ll : length lens = 16%nat) by (unfold lens; now rewrite app_length, !le_encode_length).
  assert (Bl : bytes lens) by (apply bytes_app; split; apply le_encode_bytes).
  destruct (process_exact b {| pr := pr (poly_new key); ph := h2; pconst := pconst (poly_new key) |} lens _
    Hr P2 Bl Ll) as (h3 & E3 & P3).
  change (pr {| pr := pr (poly_new key); ph := h2; pconst := pconst (poly_new key) |}) with (pr (poly_new key)) in *.
  cbn [ph pconst] in E3. rewrite E3. cbn [bind].
  rewrite Er in P3.
  assert (EL : lazy_step (clamp (le_decode (firstn 16 key)))
     (fold_left (lazy_step (clamp (le_decode (firstn 16 key)))) (map padded (chunks 16 ct))
        (fold_left (lazy_step (clamp (le_decode (firstn 16 key)))) (map padded (chunks 16 data)) 0)) lens =
     lazy_acc (clamp (le_decode (firstn 16 key))) (mac_data data ct)).
  { unfold lazy_acc. rewrite EC, !fold_left_app. reflexivity. }
  rewrite EL in P3.
  assert (Rg : 0 <= lazy_acc (clamp (le_decode (firstn 16 key))) (mac_data data ct) < 2 ^ 130 + 2 ^ 22).
  { destruct P3 as (? & ? & ? & ? & ? & ? & R & V). rewrite V in R. exact R. }
  split; [exact Rg|]. split; [exact EM|].
  rewrite (write_exact b {| pr := pr (poly_new key); ph := h3; pconst := pconst (poly_new key) |} _ P3);
    [|apply bytes_skipn, Bk|cbn [pconst poly_new]; rewrite skipn_length; lia].
  f_equal. cbn [pconst poly_new]. unfold poly1305_mac.
  destruct (Z.ltb_spec (lazy_acc (clamp (le_decode (firstn 16 key))) (mac_data data ct)) P1305) as [Hlt|Hge].
  - rewrite <- EM, Z.mod_small by (clear -Rg Hlt; lia). reflexivity.
  - rewrite <- EM. do 3 f_equal. apply (Z.mod_unique _ _ 1); unfold P1305 in *; clear -Rg Hge; lia.
Qed.
