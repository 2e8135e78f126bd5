(** Poly1305: limb bounds, value modulo p, freeze, tag. *)
From Verif Require Import BaseFacts Mono M_Poly1305 S_ChaCha.
From Coq Require Import ZifyBool ZifyNat.

Lemma land255 x : 0 <= x -> Z.land x 255 = x mod 256.
Proof. intros. change 255 with (Z.ones 8). apply Z.land_ones. lia. Qed.
Lemma land3 x : 0 <= x -> Z.land x 3 = x mod 4.
Proof. intros. change 3 with (Z.ones 2). apply Z.land_ones. lia. Qed.
Lemma shr8 x : Z.shiftr x 8 = x / 256.
Proof. apply Z.shiftr_div_pow2. lia. Qed.
Lemma shr2 x : Z.shiftr x 2 = x / 4.
Proof. apply Z.shiftr_div_pow2. lia. Qed.

Lemma get_last (hl : list Z) h16 : length hl = 16%nat -> get (hl ++ [h16]) 16 = h16.
Proof. intros H. unfold get. rewrite app_nth2 by lia. rewrite H. reflexivity. Qed.
Lemma upd_last (hl : list Z) h16 v : length hl = 16%nat -> upd (hl ++ [h16]) 16 v = hl ++ [v].
Proof.
  intros H. do 16 (destruct hl as [|? hl]; [discriminate|]). destruct hl; [reflexivity|discriminate].
Qed.
Lemma dec_last (hl : list Z) h16 : length hl = 16%nat -> le_decode (hl ++ [h16]) = le_decode hl + 2 ^ 128 * h16.
Proof.
  intros H. rewrite le_decode_app. unfold len. rewrite H. change (256 ^ Z.of_nat 16) with (2 ^ 128).
  cbn [le_decode fold_right]. lia.
Qed.
Lemma dec16_range hl : bytes hl -> length hl = 16%nat -> 0 <= le_decode hl < 2 ^ 128.
Proof. intros B H. pose proof (le_decode_range hl B) as R. unfold len in R. rewrite H in R. exact R. Qed.

(** ** add *)
Lemma add_loop_ok b tl : forall h c u, bytes h -> bytes c -> length h = length c -> 0 <= u <= 2 ->
  exists h' u', add_loop b u (h ++ tl) c = Ok (h' ++ tl, u') /\ bytes h' /\ length h' = length h /\
    0 <= u' <= 2 /\ le_decode h' + 256 ^ len h * u' = le_decode h + le_decode c + u.
Proof.
  induction h as [|x h IH]; intros [|y c] u Bh Bc Hl Hu; cbn [length] in Hl; try lia.
  - exists [], u. change (256 ^ len (@nil Z)) with 1. change (le_decode []) with 0. split; [destruct tl; reflexivity|].
    split; [constructor|]. split; [reflexivity|]. split; lia.
  - apply bytes_cons in Bh as [Hx Bh]. apply bytes_cons in Bc as [Hy Bc]. unfold byte_ok in *.
    cbn [app add_loop]. rewrite uchk_ok by lia. cbn [bind]. rewrite uchk_ok by lia. cbn [bind].
    rewrite shr8, land255 by lia.
    assert (Hu2 : 0 <= (u + (x + y)) / 256 <= 2).
    { split; [apply Z.div_pos; lia|]. apply Z.div_le_upper_bound; lia. }
    destruct (IH c ((u + (x + y)) / 256) Bh Bc ltac:(lia) Hu2) as (h' & u' & E & B' & L' & U' & V').
    rewrite E. cbn [bind]. exists ((u + (x + y)) mod 256 :: h'), u'.
    split; [reflexivity|]. split; [apply bytes_cons; split; [unfold byte_ok; apply Z.mod_pos_bound; lia|assumption]|].
    split; [cbn [length]; lia|]. split; [assumption|].
    rewrite !le_decode_cons, len_cons, Z.pow_add_r by (pose proof (len_nonneg h); lia).
    change (256 ^ 1) with 256. pose proof (Z.div_mod (u + (x + y)) 256). lia.
Qed.

Lemma poly_add_ok b hl h16 c last : bytes hl -> length hl = 16%nat -> bytes c -> length c = 16%nat ->
  0 <= h16 <= 1000 -> 0 <= last < 256 ->
  exists hl' h16', poly_add b (hl ++ [h16]) c last = Ok (hl' ++ [h16']) /\ bytes hl' /\ length hl' = 16%nat /\
    h16 + last <= h16' <= h16 + last + 1 /\
    le_decode (hl' ++ [h16']) = le_decode (hl ++ [h16]) + le_decode c + 2 ^ 128 * last.
Proof.
  intros Bh Lh Bc Lc H16 Hlast. unfold poly_add.
  destruct (add_loop_ok b [h16] hl c 0 Bh Bc ltac:(lia) ltac:(lia)) as (h' & u' & E & B' & L' & U' & V').
  rewrite E. cbn [bind].
  pose proof (dec16_range _ Bh Lh). pose proof (dec16_range _ Bc Lc). pose proof (dec16_range h' B' ltac:(lia)).
  unfold len in V'. rewrite Lh in V'. change (256 ^ Z.of_nat 16) with (2 ^ 128) in V'.
  rewrite uchk_ok by lia. cbn [bind]. rewrite get_last by lia. rewrite uchk_ok by lia. cbn [bind].
  rewrite upd_last by lia. exists h', (h16 + (u' + last)). split; [reflexivity|]. split; [assumption|]. split; [lia|].
  rewrite !dec_last by lia. lia.
Qed.

(** ** mulmod *)
Definition sumZ (l : list Z) : Z := fold_right Z.add 0 l.
Lemma sumZ_bound l B : 0 <= B -> Forall (fun x => 0 <= x <= B) l -> 0 <= sumZ l <= B * len l.
Proof.
  intros HB. induction 1 as [|x l Hx Hl IH]; [cbn; lia|]. cbn [sumZ fold_right]. fold (sumZ l).
  rewrite len_cons. lia.
Qed.

Section Mul.
Variables (b : build) (r h : list Z).
Hypothesis Hr : forall i, 0 <= get r i <= 255.
Hypothesis Hh : forall i, 0 <= get h i <= 300.

Lemma mul_lo_ok i : forall js u, 0 <= u -> u + 76500 * len js < 2 ^ 32 ->
  mul_lo b r h i js u = Ok (u + sumZ (map (fun j => get h j * get r (i - j)) js)).
Proof.
  induction js as [|j js IH]; intros u Hu Hb; cbn [mul_lo map sumZ fold_right]; [f_equal; lia|].
  rewrite len_cons in Hb. pose proof (len_nonneg js).
  pose proof (Hr (i - j)). pose proof (Hh j).
  assert (0 <= get h j * get r (i - j) <= 76500) by nia.
  rewrite uchk_ok by lia. cbn [bind]. rewrite uchk_ok by lia. cbn [bind]. rewrite IH by lia.
  unfold sumZ. f_equal. lia.
Qed.
Lemma mul_hi_ok i : forall js u, 0 <= u -> u + 24480000 * len js < 2 ^ 32 ->
  mul_hi b r h i js u = Ok (u + sumZ (map (fun j => 320 * get h j * get r (i + 17 - j)) js)).
Proof.
  induction js as [|j js IH]; intros u Hu Hb; cbn [mul_hi map sumZ fold_right]; [f_equal; lia|].
  rewrite len_cons in Hb. pose proof (len_nonneg js).
  pose proof (Hr (i + 17 - j)). pose proof (Hh j).
  assert (0 <= 320 * get h j * get r (i + 17 - j) <= 24480000) by nia.
  rewrite uchk_ok by lia. cbn [bind]. rewrite uchk_ok by lia. cbn [bind]. rewrite uchk_ok by lia. cbn [bind].
  rewrite IH by lia. unfold sumZ. f_equal. lia.
Qed.

Definition row (i : nat) : Z :=
  sumZ (map (fun j => get h j * get r (i - j)) (seq 0 (i + 1)))
  + sumZ (map (fun j => 320 * get h j * get r (i + 17 - j)) (seq (i + 1) (17 - (i + 1)))).

Lemma row_bound i : (i < 17)%nat -> 0 <= row i <= 76500 * (Z.of_nat i + 1) + 24480000 * (16 - Z.of_nat i).
Proof.
  intros Hi. unfold row.
  pose proof (sumZ_bound (map (fun j => get h j * get r (i - j)) (seq 0 (i + 1))) 76500 ltac:(lia)) as B1.
  pose proof (sumZ_bound (map (fun j => 320 * get h j * get r (i + 17 - j)) (seq (i + 1) (17 - (i + 1)))) 24480000 ltac:(lia)) as B2.
  unfold len in B1, B2. rewrite map_length, seq_length in B1, B2.
  assert (F1 : Forall (fun x => 0 <= x <= 76500) (map (fun j => get h j * get r (i - j)) (seq 0 (i + 1)))).
  { apply Forall_map, Forall_forall. intros j _. pose proof (Hr (i - j)). pose proof (Hh j). nia. }
  assert (F2 : Forall (fun x => 0 <= x <= 24480000) (map (fun j => 320 * get h j * get r (i + 17 - j)) (seq (i + 1) (17 - (i + 1))))).
  { apply Forall_map, Forall_forall. intros j _. pose proof (Hr (i + 17 - j)). pose proof (Hh j). nia. }
  specialize (B1 F1). specialize (B2 F2). lia.
Qed.

Lemma mul_rows_ok is : Forall (fun i => (i < 17)%nat) is -> mul_rows b r h is = Ok (map row is).
Proof.
  induction 1 as [|i is Hi His IH]; cbn [mul_rows map]; [reflexivity|].
  pose proof (sumZ_bound (map (fun j => get h j * get r (i - j)) (seq 0 (i + 1))) 76500 ltac:(lia)) as B1.
  unfold len in B1. rewrite map_length, seq_length in B1.
  assert (F1 : Forall (fun x => 0 <= x <= 76500) (map (fun j => get h j * get r (i - j)) (seq 0 (i + 1)))).
  { apply Forall_map, Forall_forall. intros j _. pose proof (Hr (i - j)). pose proof (Hh j). nia. }
  specialize (B1 F1).
  rewrite mul_lo_ok by (unfold len; rewrite ?seq_length; lia). cbn [bind]. rewrite Z.add_0_l.
  rewrite mul_hi_ok by (unfold len; rewrite ?seq_length; lia). cbn [bind].
  rewrite IH. reflexivity.
Qed.
End Mul.

(** The carry of the wrapped limbs: 2^136 = 320 + 64 p. *)
Definition wrapQ (r h : list Z) : Z :=
  sumZ (map (fun i => 256 ^ Z.of_nat i * sumZ (map (fun j => get h j * get r (i + 17 - j)) (seq (i + 1) (17 - (i + 1))))) (seq 0 17)).

Lemma rows_value r h : length r = 17%nat -> length h = 17%nat ->
  le_decode (map (row r h) (seq 0 17)) = le_decode h * le_decode r - 64 * P1305 * wrapQ r h.
Proof.
  intros Lr Lh.
  do 17 (destruct r as [|? r]; [discriminate|]). destruct r; [|discriminate].
  do 17 (destruct h as [|? h]; [discriminate|]). destruct h; [|discriminate].
  unfold wrapQ, row, P1305.
  cbn [seq map Nat.add Nat.sub sumZ fold_right get nth le_decode].
  change (256 ^ Z.of_nat 0) with 1. 
  repeat match goal with |- context [256 ^ Z.of_nat ?n] => let v := eval vm_compute in (256 ^ Z.of_nat n) in change (256 ^ Z.of_nat n) with v end.
  change (2 ^ 130 - 5) with 1361129467683753853853498429727072845819.
  ring.
Qed.

(** ** squeeze *)
Lemma squeeze_loop_ok b B tl : 0 <= B -> forall h u, Forall (fun x => 0 <= x <= B) h -> 0 <= u -> u + B < 2 ^ 32 -> B + 2 ^ 24 < 2 ^ 32 ->
  exists h' u', squeeze_loop b (length h) u (h ++ tl) = Ok (h' ++ tl, u') /\ bytes h' /\ length h' = length h /\
    0 <= u' /\ le_decode h' + 256 ^ len h * u' = le_decode h + u.
Proof.
  intros HB. induction h as [|x h IH]; intros u Hh Hu Hb HB2; cbn [length squeeze_loop app].
  - exists [], u. change (256 ^ len (@nil Z)) with 1. change (le_decode []) with 0. split; [reflexivity|].
    split; [constructor|]. split; [reflexivity|]. split; lia.
  - inversion_clear Hh. rewrite uchk_ok by lia. cbn [bind]. rewrite shr8, land255 by lia.
    assert (Hu2 : 0 <= (u + x) / 256 <= 2 ^ 24).
    { split; [apply Z.div_pos; lia|]. apply Z.div_le_upper_bound; lia. }
    destruct (IH ((u + x) / 256)) as (h' & u' & E & B' & L' & U' & V'); auto; try lia.
    rewrite E. cbn [bind]. exists ((u + x) mod 256 :: h'), u'.
    split; [reflexivity|]. split; [apply bytes_cons; split; [unfold byte_ok; apply Z.mod_pos_bound; lia|assumption]|].
    split; [cbn [length]; lia|]. split; [assumption|].
    rewrite !le_decode_cons, len_cons, Z.pow_add_r by (pose proof (len_nonneg h); lia).
    change (256 ^ 1) with 256. pose proof (Z.div_mod (u + x) 256). lia.
Qed.

Lemma dec_bound l B : 0 <= B -> Forall (fun x => 0 <= x <= B) l -> 0 <= le_decode l /\ 255 * le_decode l <= B * (256 ^ len l - 1).
Proof.
  intros HB. induction 1 as [|x l Hx Hl IH].
  { change (256 ^ len (@nil Z)) with 1. change (le_decode []) with 0. lia. }
  rewrite le_decode_cons, len_cons, Z.pow_add_r by (pose proof (len_nonneg l); lia). change (256 ^ 1) with 256. nia.
Qed.

Lemma squeeze_ok b hl h16 : length hl = 16%nat -> Forall (fun x => 0 <= x <= 416160000) hl -> 0 <= h16 <= 1300500 ->
  exists hl' h16' k, squeeze b (hl ++ [h16]) = Ok (hl' ++ [h16']) /\ bytes hl' /\ length hl' = 16%nat /\
    0 <= h16' <= 4 /\ le_decode (hl' ++ [h16']) = le_decode (hl ++ [h16]) - k * P1305 /\
    le_decode (hl' ++ [h16']) < 2 ^ 130 + 2 ^ 22.
Proof.
  intros Lh Bh H16. unfold squeeze.
  destruct (squeeze_loop_ok b 416160000 [h16] ltac:(lia) hl 0 Bh ltac:(lia) ltac:(lia) ltac:(lia)) as (h1 & u1 & E & B1 & L1 & U1 & V1).
  rewrite Lh in E. rewrite E. cbn [bind]. rewrite get_last by lia.
  unfold len in V1. rewrite Lh in V1. change (256 ^ Z.of_nat 16) with (2 ^ 128) in V1.
  pose proof (dec_bound hl 416160000 ltac:(lia) Bh) as [D1 D2]. unfold len in D2. rewrite Lh in D2. change (256 ^ Z.of_nat 16) with (2 ^ 128) in D2.
  pose proof (dec16_range h1 B1 ltac:(lia)) as D3.
  assert (U1' : u1 <= 1632000) by lia.
  rewrite uchk_ok by lia. cbn [bind]. rewrite upd_last by lia. rewrite shr2, land3 by lia.
  set (v := u1 + h16) in *.
  pose proof (Z.div_mod v 4 ltac:(lia)) as Hv. pose proof (Z.mod_pos_bound v 4 ltac:(lia)).
  assert (0 <= v / 4 <= 733125) by (split; [apply Z.div_pos; lia|apply Z.div_le_upper_bound; lia]).
  rewrite uchk_ok by lia. cbn [bind].
  assert (B1' : Forall (fun x => 0 <= x <= 255) h1).
  { eapply Forall_impl; [|exact B1]. unfold byte_ok. intros; lia. }
  destruct (squeeze_loop_ok b 255 [v mod 4] ltac:(lia) h1 (5 * (v / 4)) B1' ltac:(lia) ltac:(lia) ltac:(lia)) as (h2 & u2 & E2 & B2 & L2 & U2 & V2).
  replace (length h1) with 16%nat in E2 by lia. rewrite E2. cbn [bind]. rewrite get_last by lia.
  unfold len in V2. replace (length h1) with 16%nat in V2 by lia. change (256 ^ Z.of_nat 16) with (2 ^ 128) in V2.
  pose proof (dec16_range h2 B2 ltac:(lia)) as D4.
  assert (u2 <= 1) by lia.
  rewrite uchk_ok by lia. cbn [bind]. rewrite upd_last by lia.
  exists h2, (v mod 4 + u2), (v / 4). split; [reflexivity|]. split; [assumption|]. split; [lia|]. split; [lia|].
  rewrite !dec_last by lia. unfold P1305. lia.
Qed.

(** ** The state between blocks *)
Definition rk_ok (r : list Z) : Prop := length r = 17%nat /\ bytes r.
Definition PI (h : list Z) (v : Z) : Prop :=
  exists hl h16, h = hl ++ [h16] /\ bytes hl /\ length hl = 16%nat /\ 0 <= h16 <= 4 /\
    0 <= le_decode h < 2 ^ 130 + 2 ^ 22 /\ le_decode h mod P1305 = v.

Lemma get_bytes r i : bytes r -> 0 <= get r i <= 255.
Proof. intros H. pose proof (bytes_nth r i H). unfold byte_ok, get in *. lia. Qed.

Lemma mulmod_ok b r hl h16 : rk_ok r -> get r 16 = 0 -> bytes hl -> length hl = 16%nat -> 0 <= h16 <= 10 ->
  exists h', mulmod b r (hl ++ [h16]) = Ok h' /\ PI h' ((le_decode r * le_decode (hl ++ [h16])) mod P1305).
Proof.
  intros [Lr Br] Hr16 Bh Lh H16. unfold mulmod. set (h := hl ++ [h16]).
  assert (Hh : forall i, 0 <= get h i <= 300).
  { intros i. unfold h, get. destruct (Nat.lt_ge_cases i 16) as [Hi|Hi].
    - rewrite app_nth1 by lia. pose proof (get_bytes hl i Bh). unfold get in *. lia.
    - rewrite app_nth2 by lia. rewrite Lh. destruct (i - 16)%nat as [|[|?]]; cbn [nth]; lia. }
  assert (Hr : forall i, 0 <= get r i <= 255) by (intros; apply get_bytes, Br).
  rewrite mul_rows_ok; [|assumption|assumption|].
  2:{ apply Forall_forall. intros i Hi. apply in_seq in Hi. lia. }
  cbn [bind].
  assert (Es : map (row r h) (seq 0 17) = map (row r h) (seq 0 16) ++ [row r h 16]) by reflexivity.
  pose proof (rows_value r h Lr) as RV. specialize (RV ltac:(unfold h; rewrite app_length, Lh; reflexivity)).
  rewrite Es in RV |- *.
  destruct (squeeze_ok b (map (row r h) (seq 0 16)) (row r h 16)) as (hl' & h16' & k & E & B' & L' & H16' & V' & R').
  - now rewrite map_length, seq_length.
  - apply Forall_map, Forall_forall. intros i Hi. apply in_seq in Hi. pose proof (row_bound r h Hr Hh i ltac:(lia)).
    assert (76500 * (Z.of_nat i + 1) + 24480000 * (16 - Z.of_nat i) <= 416160000) by lia. lia.
  - pose proof (row_bound r h Hr Hh 16 ltac:(lia)). lia.
  - rewrite E. eexists. split; [reflexivity|]. exists hl', h16'. split; [reflexivity|]. split; [assumption|]. split; [assumption|].
    split; [assumption|]. pose proof (dec16_range hl' B' L'). split; [rewrite dec_last in * by lia; lia|].
    rewrite V', RV. replace (le_decode h * le_decode r - 64 * P1305 * wrapQ r h - k * P1305)
      with (le_decode r * le_decode h + (- 64 * wrapQ r h - k) * P1305) by ring.
    apply Z_mod_plus_full.
Qed.

Lemma poly_process_ok b p blk v : rk_ok (pr p) -> get (pr p) 16 = 0 -> PI (ph p) v -> bytes blk -> length blk = 16%nat ->
  exists h', poly_process b p blk = Ok {| pr := pr p; ph := h'; pconst := pconst p |} /\
    PI h' ((le_decode (pr p) * (v + le_decode (blk ++ [1]))) mod P1305).
Proof.
  intros Hr Hr16 (hl & h16 & Eh & Bh & Lh & H16 & Rh & Vh) Bb Lb. unfold poly_process. rewrite Eh.
  destruct (poly_add_ok b hl h16 blk 1 Bh Lh Bb Lb ltac:(lia) ltac:(lia)) as (hl1 & h161 & E1 & B1 & L1 & H1 & V1).
  rewrite E1. cbn [bind].
  destruct (mulmod_ok b (pr p) hl1 h161 Hr Hr16 B1 L1 ltac:(lia)) as (h' & E2 & P2). rewrite E2. cbn [bind].
  exists h'. split; [reflexivity|]. rewrite V1 in P2. rewrite <- Eh in P2.
  replace ((le_decode (pr p) * (v + le_decode (blk ++ [1]))) mod P1305)
    with ((le_decode (pr p) * (le_decode (ph p) + le_decode blk + 2 ^ 128 * 1)) mod P1305); [exact P2|].
  rewrite dec_last by assumption. rewrite <- Vh.
  rewrite <- Z.mul_mod_idemp_r by (unfold P1305; lia).
  rewrite <- (Z.mul_mod_idemp_r _ (_ mod _ + _)) by (unfold P1305; lia).
  f_equal. f_equal. rewrite Z.add_mod_idemp_l by (unfold P1305; lia). f_equal. lia.
Qed.

(** ** Clamping *)
Lemma land_split x y m n : 0 <= x < 256 -> 0 <= m < 256 ->
  Z.land (x + 256 * y) (m + 256 * n) = Z.land x m + 256 * Z.land y n.
Proof.
  intros Hx Hm.
  assert (A : forall a b, 0 <= a < 256 -> a + 256 * b = Z.lor a (Z.shiftl b 8)).
  { intros a c Ha. rewrite Z.shiftl_mul_pow2 by lia. change (2 ^ 8) with 256. 
    symmetry. rewrite (Z.mul_comm c). apply Z.bits_inj_iff'. intros i Hi.
    destruct (Z.lt_ge_cases i 8) as [Hlt|Hge].
    - rewrite Z.lor_spec. rewrite (Z.mul_comm 256 c). change 256 with (2 ^ 8).
      rewrite (Z.mul_pow2_bits_low c 8 i) by lia. rewrite orb_false_r.
      rewrite <- (Z.mod_pow2_bits_low (a + c * 2 ^ 8) 8 i) by lia. rewrite Z.mod_add by lia.
      now rewrite Z.mod_small by lia.
    - rewrite Z.lor_spec. rewrite (testbit_high a 8 i) by lia. cbn [orb].
      rewrite (Z.mul_comm 256 c). change 256 with (2 ^ 8). replace i with (i - 8 + 8) by lia.
      rewrite <- !Z.div_pow2_bits by lia. rewrite Z.div_add by lia. rewrite Z.div_mul by lia.
      rewrite Z.div_small by lia. reflexivity. }
  rewrite !A; try assumption.
  2:{ change 256 with (2 ^ 8). apply land_range; lia. }
  apply Z.bits_inj_iff'. intros i Hi. rewrite Z.land_spec, !Z.lor_spec, Z.land_spec.
  destruct (Z.lt_ge_cases i 8) as [Hlt|Hge].
  - rewrite !(Z.shiftl_spec_low _ 8 i) by lia. now rewrite !orb_false_r.
  - rewrite (testbit_high x 8 i), (testbit_high m 8 i) by lia. cbn [andb orb].
    rewrite !Z.shiftl_spec by lia. now rewrite Z.land_spec.
Qed.

Lemma load_r_value key : bytes key -> (16 <= length key)%nat -> le_decode (load_r key) = clamp (le_decode (firstn 16 key)).
Proof.
  intros Bk Lk. unfold load_r, clamp.
  do 16 (destruct key as [|? key]; [cbn [length] in Lk; lia|]).
  cbn [firstn get nth].
  repeat match goal with H : bytes (_ :: _) |- _ => apply bytes_cons in H as [? H] end.
  assert (M : 0x0ffffffc0ffffffc0ffffffc0fffffff = le_decode [255;255;255;15;252;255;255;15;252;255;255;15;252;255;255;15]) by reflexivity.
  rewrite M. clear M. rewrite !le_decode_cons. change (le_decode []) with 0. unfold byte_ok in *.
  rewrite !land_split by lia. rewrite Z.land_0_r.
  assert (L : forall x, 0 <= x < 256 -> Z.land x 255 = x) by (intros; rewrite land255, Z.mod_small; lia).
  rewrite !L by assumption. rewrite !Z.mul_0_r, !Z.add_0_r. reflexivity.
Qed.

Lemma load_r_ok key : bytes key -> rk_ok (load_r key) /\ get (load_r key) 16 = 0.
Proof.
  intros Bk. split; [|reflexivity]. split; [reflexivity|]. unfold load_r.
  assert (G : forall i, byte_ok (get key i)) by (intros; apply bytes_nth, Bk).
  assert (A : forall i m, 0 <= m -> byte_ok (Z.land (get key i) m)).
  { intros i m Hm. unfold byte_ok. change 256 with (2 ^ 8). apply land_range; [lia|apply (G i)|assumption]. }
  repeat (apply bytes_cons; split; [first [apply G|apply A; lia|unfold byte_ok; lia]|]). apply bytes_nil.
Qed.

(** ** freeze and the final addition *)
Lemma zip_mask16 neg : 0 <= neg -> forall h ho, bytes h -> bytes ho -> length h = length ho ->
  bytes (zipwith (fun a o => Z.lxor a (Z.land neg (Z.lxor o a))) h ho) /\
  length (zipwith (fun a o => Z.lxor a (Z.land neg (Z.lxor o a))) h ho) = length h.
Proof.
  intros Hn. induction h as [|x h IH]; intros [|y ho] B1 B2 L; cbn [length] in L; try lia; cbn [zipwith length].
  - split; [constructor|reflexivity].
  - apply bytes_cons in B1 as [X1 B1]. apply bytes_cons in B2 as [X2 B2].
    destruct (IH ho B1 B2 ltac:(lia)) as [I1 I2]. split; [|lia]. apply bytes_cons. split; [|assumption].
    apply byte_lxor; [assumption|]. unfold byte_ok in *. rewrite Z.land_comm. change 256 with (2 ^ 8).
    apply land_range; [lia|apply lxor_range; lia|assumption].
Qed.
Lemma zip_ones : forall h ho, Forall (word_ok 32) h -> Forall (word_ok 32) ho -> length h = length ho ->
  zipwith (fun a o => Z.lxor a (Z.land (2 ^ 32 - 1) (Z.lxor o a))) h ho = ho.
Proof.
  induction h as [|x h IH]; intros [|y ho] B1 B2 L; cbn [length] in L; try lia; cbn [zipwith]; [reflexivity|].
  inversion_clear B1; inversion_clear B2. rewrite IH by (auto; lia). f_equal.
  change (2 ^ 32 - 1) with (Z.ones 32). rewrite Z.land_comm, Z.land_ones by lia.
  pose proof (lxor_range 32 y x ltac:(lia) ltac:(assumption) ltac:(assumption)) as R.
  rewrite Z.mod_small by exact R. rewrite (Z.lxor_comm y), <- Z.lxor_assoc, Z.lxor_nilpotent, Z.lxor_0_l. reflexivity.
Qed.

(** The mask -2 that arises when the limbs reach 2^130 - 5: bit 0 comes from the first list. *)
Lemma mask_bits x y : 0 <= x < 256 -> 0 <= y < 256 ->
  Z.lxor x (Z.land (2 ^ 32 - 2) (Z.lxor y x)) = 2 * (y / 2) + x mod 2.
Proof.
  intros Hx Hy. rewrite <- Z.bit0_mod. apply Z.bits_inj_iff'. intros i Hi.
  rewrite Z.lxor_spec, Z.land_spec, Z.lxor_spec.
  destruct (Z.eq_dec i 0) as [->|N].
  - rewrite Z.testbit_0_r. change (Z.testbit (2 ^ 32 - 2) 0) with false. cbn [andb]. apply xorb_false_r.
  - replace i with (Z.succ (i - 1)) at 5 by lia. rewrite Z.testbit_succ_r by lia.
    change (y / 2) with (y / 2 ^ 1). rewrite Z.div_pow2_bits by lia. replace (i - 1 + 1) with i by lia.
    destruct (Z.lt_ge_cases i 32) as [H|H].
    + assert (T : Z.testbit (2 ^ 32 - 2) i = true).
      { replace (2 ^ 32 - 2) with (2 * (2 ^ 31 - 1) + Z.b2z false) by reflexivity. replace i with (Z.succ (i - 1)) by lia.
        rewrite Z.testbit_succ_r by lia. change (2 ^ 31 - 1) with (Z.ones 31). apply Z.ones_spec_low. lia. }
      rewrite T. cbn [andb]. rewrite xorb_comm, xorb_assoc, xorb_nilpotent. apply xorb_false_r.
    + rewrite (testbit_high x 8 i), (testbit_high y 8 i) by lia. now rewrite andb_false_r.
Qed.
Lemma zip_mask2 : forall h ho, bytes h -> bytes ho -> length h = length ho ->
  zipwith (fun a o => Z.lxor a (Z.land (2 ^ 32 - 2) (Z.lxor o a))) h ho =
  zipwith (fun low top => 2 * (top / 2) + low mod 2) h ho.
Proof.
  induction h as [|x h IH]; intros [|y ho] B1 B2 L; cbn [length] in L; try lia; cbn [zipwith]; [reflexivity|].
  apply bytes_cons in B1 as [X1 B1]. apply bytes_cons in B2 as [X2 B2]. rewrite IH by (auto; lia).
  now rewrite mask_bits by assumption.
Qed.
Lemma dec_16 l h16 n : bytes l -> length l = 16%nat -> le_decode l + 2 ^ 128 * h16 = n -> l = le_encode 16 n.
Proof.
  intros B H E. apply le_decode_inj; [assumption|apply le_encode_bytes|now rewrite le_encode_length|].
  rewrite le_decode_encode. change (256 ^ Z.of_nat 16) with (2 ^ 128). rewrite <- E, Z.mul_comm, Z.mod_add by lia.
  symmetry. apply Z.mod_small. now apply dec16_range.
Qed.

Definition five : list Z := [5; 0; 0; 0; 0; 0; 0; 0; 0; 0; 0; 0; 0; 0; 0; 0].

Lemma freeze_ok b h v : PI h v ->
  exists hl h16, freeze b h = Ok (hl ++ [h16]) /\ bytes hl /\ length hl = 16%nat /\ 0 <= h16 < 512 /\
    (le_decode h < P1305 -> hl ++ [h16] = h) /\
    (P1305 <= le_decode h -> le_decode hl = faulty_acc (le_decode h - P1305)).
Proof.
  intros (hl & h16 & Eh & Bh & Lh & H16 & Rh & Vh). unfold freeze. rewrite Eh in *.
  destruct (poly_add_ok b hl h16 five 252 Bh Lh ltac:(apply bytesb_spec; reflexivity) eq_refl ltac:(lia) ltac:(lia))
    as (hl1 & h161 & E1 & B1 & L1 & H1 & V1).
  change [5; 0; 0; 0; 0; 0; 0; 0; 0; 0; 0; 0; 0; 0; 0; 0] with five. rewrite E1. cbn [bind].
  rewrite get_last by assumption. set (neg := (- Z.shiftr h161 7) mod 2 ^ 32).
  assert (Hneg : 0 <= neg) by (apply Z.mod_pos_bound; lia).
  rewrite zipwith_app by lia. cbn [zipwith].
  destruct (zip_mask16 neg Hneg hl1 hl B1 Bh ltac:(lia)) as [Z1 Z2].
  eexists _, _. split; [reflexivity|]. split; [exact Z1|]. split; [lia|]. split.
  - change 512 with (2 ^ 9). assert (0 <= h161 < 2 ^ 9) by lia. assert (0 <= h16 < 2 ^ 9) by lia. apply lxor_range; [lia|lia|]. rewrite Z.land_comm. apply land_range; [lia| |assumption].
    apply lxor_range; lia.
  - split.
    2:{ intros Hge. rewrite dec_last in Hge, Rh by assumption. rewrite !dec_last in V1 by assumption.
        change (le_decode five) with 5 in V1. unfold P1305 in Hge. pose proof (dec16_range hl1 B1 L1) as R1.
        assert (h161 = 256) by lia. subst h161.
        assert (En : neg = 2 ^ 32 - 2) by reflexivity. rewrite En, zip_mask2 by (assumption || lia).
        unfold faulty_acc. rewrite dec_last by assumption.
        set (w := le_decode hl + 2 ^ 128 * h16 - P1305). unfold P1305 in w.
        rewrite (dec_16 hl1 0 w B1 L1) by (unfold w; lia).
        rewrite (dec_16 hl (h16 - 4) (w - 5) Bh Lh) at 1 by (unfold w; lia). reflexivity. }
    intros Hlt. rewrite dec_last in Hlt by assumption. rewrite !dec_last in V1 by assumption.
    change (le_decode five) with 5 in V1. pose proof (dec16_range hl1 B1 L1). unfold P1305 in Hlt.
    assert (h161 <= 255) by lia.
    assert (Hs : Z.shiftr h161 7 = 1).
    { rewrite Z.shiftr_div_pow2 by lia. change (2 ^ 7) with 128. symmetry. apply (Z.div_unique _ _ 1 (h161 - 128)); lia. }
    assert (En : neg = 2 ^ 32 - 1) by (unfold neg; rewrite Hs; reflexivity).
    rewrite En. rewrite <- (zip_ones (hl1 ++ [h161]) (hl ++ [h16])).
    + rewrite zipwith_app by lia. reflexivity.
    + apply Forall_app. split; [|apply Forall_cons; [unfold word_ok; lia|constructor]].
      eapply Forall_impl; [|exact B1]. unfold byte_ok, word_ok. intros; lia.
    + apply Forall_app. split; [|apply Forall_cons; [unfold word_ok; lia|constructor]].
      eapply Forall_impl; [|exact Bh]. unfold byte_ok, word_ok. intros; lia.
    + rewrite !app_length. cbn [length]; lia.
Qed.

Lemma write_value_ok b p v : PI (ph p) v -> bytes (pconst p) -> length (pconst p) = 16%nat ->
  exists t, poly_write_value b p = Ok t /\ bytes t /\ length t = 16%nat /\
    (2 ^ 22 + 5 <= v -> t = le_encode 16 (v + le_decode (pconst p))) /\
    (t = le_encode 16 (v + le_decode (pconst p)) \/ t = le_encode 16 (faulty_acc v + le_decode (pconst p))).
Proof.
  intros HP Bc Lc. destruct (freeze_ok b (ph p) v HP) as (hl & h16 & E & Bh & Lh & H16 & V & VF). unfold poly_write_value.
  rewrite E. cbn [bind].
  destruct (poly_add_ok b hl h16 (pconst p) 0 Bh Lh Bc Lc ltac:(lia) ltac:(lia)) as (hl1 & h161 & E1 & B1 & L1 & H1 & V1).
  rewrite E1. cbn [bind]. rewrite firstn_app, firstn_all2 by lia. replace (16 - length hl1)%nat with O by lia.
  cbn [firstn]. rewrite app_nil_r.
  assert (Em : map (fun x => x mod 256) hl1 = hl1).
  { clear - B1. induction B1 as [|x l Hx Hl IH]; [reflexivity|]. cbn [map]. rewrite IH, Z.mod_small by exact Hx. reflexivity. }
  rewrite Em. exists hl1. split; [reflexivity|]. split; [assumption|]. split; [assumption|].
  destruct HP as (hl0 & h0 & Eh & Bh0 & Lh0 & H0 & Rh & Vh).
  assert (Good : le_decode (ph p) < P1305 -> hl1 = le_encode 16 (v + le_decode (pconst p))).
  { intros Hlt. rewrite (V Hlt) in V1. rewrite Z.mod_small in Vh by lia. rewrite Vh in V1. rewrite dec_last in V1 by assumption.
    apply (dec_16 hl1 h161); [assumption|assumption|lia]. }
  assert (Big : P1305 <= le_decode (ph p) -> v = le_decode (ph p) - P1305).
  { intros Hge. rewrite <- Vh. symmetry. apply (Z.mod_unique _ _ 1); unfold P1305 in *; lia. }
  split.
  - intros Hv. apply Good. destruct (Z.lt_ge_cases (le_decode (ph p)) P1305) as [|Hge]; [assumption|exfalso].
    specialize (Big Hge). unfold P1305 in *; lia.
  - destruct (Z.lt_ge_cases (le_decode (ph p)) P1305) as [Hlt|Hge]; [left; auto|right].
    specialize (VF Hge). rewrite <- (Big Hge) in VF. rewrite !dec_last in V1 by assumption.
    apply (dec_16 hl1 (h161 - h16)); [assumption|assumption|lia].
Qed.

(** Such a tag differs from the right one in its first byte. *)
Lemma faulty_first v s : le_encode 16 (faulty_acc v + s) <> le_encode 16 (v + s).
Proof.
  intros H. cbn [le_encode] in H. injection H as H _. revert H. unfold faulty_acc. cbn [le_encode zipwith]. rewrite le_decode_cons.
  generalize (le_decode (zipwith (fun low top => 2 * (top / 2) + low mod 2) (le_encode 15 (v / 256)) (le_encode 15 ((v - 5) / 256)))).
  intros r H. 
  pose proof (Z.div_mod v 256 ltac:(lia)). pose proof (Z.mod_pos_bound v 256 ltac:(lia)).
  pose proof (Z.div_mod (v - 5) 256 ltac:(lia)). pose proof (Z.mod_pos_bound (v - 5) 256 ltac:(lia)).
  set (a := v mod 256) in *. set (c := (v - 5) mod 256) in *. set (q := v / 256) in *. set (q' := (v - 5) / 256) in *.
  pose proof (Z.div_mod c 2 ltac:(lia)). pose proof (Z.mod_pos_bound c 2 ltac:(lia)).
  pose proof (Z.mod_pos_bound (v + s) 256 ltac:(lia)).
  pose proof (Z.div_mod (v + s) 256 ltac:(lia)).
  pose proof (Z.div_mod (2 * (c / 2) + a mod 2 + 256 * r + s) 256 ltac:(lia)).
  pose proof (Z.div_mod a 2 ltac:(lia)). pose proof (Z.mod_pos_bound a 2 ltac:(lia)).
  lia.
Qed.

(** ** Builds *)
Lemma add_loop_mono : forall h u c, rle (add_loop Checked u h c) (add_loop Unchecked u h c).
Proof. induction h as [|x h IH]; intros u [|y c]; cbn [add_loop]; mono. Qed.
Lemma poly_add_mono h c l : rle (poly_add Checked h c l) (poly_add Unchecked h c l).
Proof. unfold poly_add. pose proof add_loop_mono. mono. Qed.
Lemma mul_lo_mono r h i : forall js u, rle (mul_lo Checked r h i js u) (mul_lo Unchecked r h i js u).
Proof. induction js as [|j js IH]; intros u; cbn [mul_lo]; mono. Qed.
Lemma mul_hi_mono r h i : forall js u, rle (mul_hi Checked r h i js u) (mul_hi Unchecked r h i js u).
Proof. induction js as [|j js IH]; intros u; cbn [mul_hi]; mono. Qed.
Lemma mul_rows_mono r h is : rle (mul_rows Checked r h is) (mul_rows Unchecked r h is).
Proof. pose proof (mul_lo_mono r h). pose proof (mul_hi_mono r h). induction is as [|i is IH]; cbn [mul_rows]; mono. Qed.
Lemma squeeze_loop_mono : forall n u h, rle (squeeze_loop Checked n u h) (squeeze_loop Unchecked n u h).
Proof. induction n as [|n IH]; intros u [|x h]; cbn [squeeze_loop]; mono. Qed.
Lemma poly_process_mono p i : rle (poly_process Checked p i) (poly_process Unchecked p i).
Proof.
  unfold poly_process, mulmod, squeeze. pose proof poly_add_mono. pose proof squeeze_loop_mono. pose proof mul_rows_mono. mono.
Qed.
Lemma poly_chunks_mono cs : forall p, rle (poly_chunks Checked p cs) (poly_chunks Unchecked p cs).
Proof. pose proof poly_process_mono. induction cs as [|c cs IH]; intros p; cbn [poly_chunks]; mono. Qed.
Lemma poly1305_mono k d c : rle (poly1305 Checked k d c) (poly1305 Unchecked k d c).
Proof.
  unfold poly1305, poly_write_value, freeze. pose proof poly_process_mono. pose proof poly_chunks_mono. pose proof poly_add_mono. mono.
Qed.

(** ** Whole messages *)
Definition padded (c : list Z) : list Z := c ++ repeat 0 (16 - length c).

Lemma padded_chunks l : map padded (chunks 16 l) = chunks 16 (l ++ pad16 l).
Proof.
  induction l as [|l Hne IH] using (chunks_ind 16 ltac:(lia)); [reflexivity|].
  destruct (Nat.lt_ge_cases (length l) 16) as [Hlt|Hge].
  - assert (0 < length l)%nat by (destruct l; [congruence|cbn [length]; lia]).
    rewrite (chunks_short 16 l Hne) by lia. cbn [map]. unfold padded, pad16.
    rewrite (Nat.mod_small (length l)) by lia. rewrite (Nat.mod_small (16 - length l)) by lia.
    rewrite chunks_short; [reflexivity| |rewrite app_length, repeat_length; lia].
    destruct l; [congruence|discriminate].
  - rewrite (chunks_cons 16 l) by (try lia; assumption). cbn [map]. rewrite IH.
    assert (Lf : length (firstn 16 l) = 16%nat) by (rewrite firstn_length; lia).
    unfold padded at 1. rewrite Lf. cbn [Nat.sub repeat]. rewrite app_nil_r.
    assert (Ep : pad16 (skipn 16 l) = pad16 l).
    { unfold pad16. rewrite skipn_length. do 3 f_equal.
      replace (length l) with (length l - 16 + 1 * 16)%nat at 2 by lia. now rewrite Nat.mod_add by lia. }
    rewrite Ep. rewrite <- (chunks_app 16 (firstn 16 l)) by (try lia; assumption).
    rewrite app_assoc, firstn_skipn. reflexivity.
Qed.

Lemma pad_length l : exists k, length (l ++ pad16 l) = (k * 16)%nat.
Proof.
  unfold pad16. rewrite app_length, repeat_length.
  pose proof (Nat.div_mod (length l) 16 ltac:(lia)). pose proof (Nat.mod_upper_bound (length l) 16 ltac:(lia)).
  destruct (Nat.eq_dec (length l mod 16) 0) as [E|E].
  - rewrite E. exists (length l / 16)%nat. change ((16 - 0) mod 16)%nat with O. lia.
  - exists (length l / 16 + 1)%nat. rewrite (Nat.mod_small (16 - _)) by lia. lia.
Qed.

Lemma padded_bytes c : bytes c -> bytes (padded c).
Proof. intros H. apply bytes_app. split; [assumption|]. apply bytes_repeat. unfold byte_ok; lia. Qed.

Definition acc_step (r acc : Z) (blk : list Z) : Z := (r * (acc + le_decode (blk ++ [1]))) mod P1305.

Lemma poly_chunks_ok b : forall cs p v, Forall bytes cs -> Forall (fun c => (0 < length c <= 16)%nat) cs ->
  rk_ok (pr p) -> get (pr p) 16 = 0 -> PI (ph p) v ->
  exists h', poly_chunks b p cs = Ok {| pr := pr p; ph := h'; pconst := pconst p |} /\
    PI h' (fold_left (acc_step (le_decode (pr p))) (map padded cs) v).
Proof.
  induction cs as [|c cs IH]; intros p v Bc Lc Hr Hr16 HP; cbn [poly_chunks map fold_left].
  - exists (ph p). split; [destruct p; reflexivity|exact HP].
  - inversion_clear Bc. inversion_clear Lc.
    assert (Lp : length (padded c) = 16%nat) by (unfold padded; rewrite app_length, repeat_length; lia).
    destruct (poly_process_ok b p (padded c) v Hr Hr16 HP ltac:(now apply padded_bytes) Lp) as (h1 & E1 & P1).
    assert (E : (if (length c <? 16)%nat then let! buffer := write_slice (repeat 0 16) 0 c in poly_process b p buffer
                 else poly_process b p c) = poly_process b p (padded c)).
    { destruct (Nat.ltb_spec (length c) 16) as [Hlt|Hge].
      - rewrite write_slice_ok by (rewrite repeat_length; lia). cbn [bind firstn app Nat.add].
        rewrite skipn_repeat. reflexivity.
      - f_equal. unfold padded. replace (16 - length c)%nat with O by lia. cbn [repeat]. now rewrite app_nil_r. }
    rewrite E, E1. cbn [bind].
    destruct (IH {| pr := pr p; ph := h1; pconst := pconst p |} _ ltac:(assumption) ltac:(assumption) Hr Hr16 P1) as (h2 & E2 & P2).
    cbn [pr ph pconst] in *. rewrite E2. exists h2. split; [reflexivity|]. exact P2.
Qed.

Lemma PI_0 : PI (repeat 0 17) 0.
Proof.
  exists (repeat 0 16), 0. split; [reflexivity|]. split; [apply bytesb_spec; reflexivity|]. split; [reflexivity|].
  split; [lia|]. split; [change (le_decode (repeat 0 17)) with 0; lia|reflexivity].
Qed.

Lemma poly1305_ok b key data ct : bytes key -> length key = 32%nat -> bytes data -> bytes ct ->
  len data < 2 ^ 64 -> len ct < 2 ^ 64 ->
  exists t, poly1305 b key data ct = Ok t /\ bytes t /\ length t = 16%nat /\
    (2 ^ 22 + 5 <= poly1305_acc (clamp (le_decode (firstn 16 key))) (mac_data data ct) ->
     t = poly1305_mac key (mac_data data ct)) /\
    (t = poly1305_mac key (mac_data data ct) \/
     t = le_encode 16 (faulty_acc (poly1305_acc (clamp (le_decode (firstn 16 key))) (mac_data data ct)) + le_decode (skipn 16 key))).
Proof.
  intros Bk Lk Bd Bc Ld Lc. unfold poly1305.
  destruct (load_r_ok key Bk) as [Hr Hr16].
  destruct (poly_chunks_ok b (chunks 16 data) (poly_new key) 0) as (h1 & E1 & P1); try assumption.
  { apply chunks_bytes; [lia|assumption]. } { apply chunks_length_le; lia. } { apply PI_0. }
  rewrite E1. cbn [bind]. pose proof (len_nonneg data). pose proof (len_nonneg ct).
  rewrite !Z.mod_small by lia. rewrite uchk_ok by lia. cbn [bind]. rewrite Z.add_0_l.
  destruct (poly_chunks_ok b (chunks 16 ct) {| pr := pr (poly_new key); ph := h1; pconst := pconst (poly_new key) |} _
    ltac:(apply chunks_bytes; [lia|assumption]) ltac:(apply chunks_length_le; lia) Hr Hr16 P1) as (h2 & E2 & P2).
  cbn [pr ph pconst] in *. rewrite E2. cbn [bind].
  set (lens := le_encode 8 (len data) ++ le_encode 8 (len ct)).
  assert (Ll : length lens = 16%nat) by (unfold lens; now rewrite app_length, !le_encode_length).
  assert (Bl : bytes lens) by (apply bytes_app; split; apply le_encode_bytes).
  destruct (poly_process_ok b {| pr := pr (poly_new key); ph := h2; pconst := pconst (poly_new key) |} lens _
    Hr Hr16 P2 Bl Ll) as (h3 & E3 & P3).
  cbn [pr ph pconst] in *. rewrite E3. cbn [bind].
  destruct (write_value_ok b {| pr := pr (poly_new key); ph := h3; pconst := pconst (poly_new key) |} _ P3) as (t & E4 & B4 & L4 & V4 & D4).
  { apply bytes_skipn, Bk. } { cbn [pconst poly_new]. rewrite skipn_length. lia. }
  exists t. split; [exact E4|]. split; [assumption|]. split; [assumption|].
  assert (EA : poly1305_acc (clamp (le_decode (firstn 16 key))) (mac_data data ct) =
    (le_decode (pr (poly_new key)) * (fold_left (acc_step (le_decode (pr (poly_new key)))) (map padded (chunks 16 ct))
       (fold_left (acc_step (le_decode (pr (poly_new key)))) (map padded (chunks 16 data)) 0) + le_decode (lens ++ [1]))) mod P1305).
  { unfold poly1305_acc, mac_data. rewrite <- load_r_value by (try assumption; lia). cbn [pr poly_new].
    destruct (pad_length data) as [k1 K1], (pad_length ct) as [k2 K2].
    fold lens. replace (data ++ pad16 data ++ ct ++ pad16 ct ++ lens) with ((data ++ pad16 data) ++ (ct ++ pad16 ct) ++ lens)
      by now rewrite <- !app_assoc.
    rewrite (chunks_app_full 16 k1) by (try lia; assumption).
    rewrite (chunks_app_full 16 k2 (ct ++ pad16 ct)) by (try lia; assumption).
    assert (lens <> []) by (intros Q; rewrite Q in Ll; discriminate).
    rewrite (chunks_short 16 lens) by (try lia; assumption).
    rewrite !fold_left_app. cbn [fold_left]. rewrite !padded_chunks. reflexivity. }
  cbn [pconst poly_new] in V4, D4. rewrite <- EA in V4, D4. split; [exact V4|exact D4].
Qed.
