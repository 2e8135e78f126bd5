(** C93: privacy of GCM when the block cipher is an unknown function. *)
From Coq Require Import String.
From Verif Require Import Base Hex M_Aes M_Gcm S_Gcm T_Gcm.
From Verif Require BaseFacts.

(** A function from blocks to blocks. *)
Definition block_fn (f : list Z -> list Z) : Prop := forall x, is_block x -> is_block (f x).
(** A user's implementation of the trait [BlockCipher] whose [permute] is an arbitrary function: the key is the function. *)
Definition ideal : BlockCipher := {| bc_state := list Z -> list Z; bc_new := fun _ => Panic; bc_permute := fun f x => f x |}.

(** A query: nonce, associated data and two messages. *)
Record lr_query := { q_nonce : list Z; q_data : list Z; q_left : list Z; q_right : list Z }.
Definition q_msg (q : lr_query) (left : bool) : list Z := if left then q_left q else q_right q.
(** The attacker chooses each query with all earlier answers (ciphertext and tag, or a panic) in hand. *)
Definition reply : Type := res (list Z * list Z).
Definition attacker : Type := list reply -> lr_query.
(** The answer: [encrypt] of the left message, or of the right one. *)
Definition lr_answer (b : build) (left : bool) (f : list Z -> list Z) (q : lr_query) : reply :=
  gcm_encrypt ideal b f (q_msg q left) (q_nonce q) (q_data q) (repeat 0 (length (q_msg q left))).
(** The answers to the first [n] queries. *)
Fixpoint lr_run (b : build) (left : bool) (A : attacker) (f : list Z -> list Z) (n : nat) : list reply :=
  match n with
  | O => []
  | S n => lr_run b left A f n ++ [lr_answer b left f (A (lr_run b left A f n))]
  end.
(** Queries are within the documented limits, their two messages have one length, and no nonce is used twice,
    in any run of [n] queries. *)
Definition admissible (n : nat) (A : attacker) : Prop := forall tr, (length tr < n)%nat ->
  let q := A tr in
  gcm_nonce (q_nonce q) /\ gcm_data (q_data q) /\ gcm_message (q_left q) /\ gcm_message (q_right q) /\
  length (q_left q) = length (q_right q) /\
  forall i, (i < length tr)%nat -> q_nonce (A (firstn i tr)) <> q_nonce q.

(** ** The translation *)
Definition qbyte (x : list Z) (n : nat) (q : lr_query) : Z :=
  if list_eq_dec Z.eq_dec (firstn 12 x) (q_nonce q) then
    let c := be_decode (skipn 12 x) in
    if c <? 2 then 0
    else let m := (16 * Z.to_nat (c - 2) + n)%nat in Z.lxor (nth m (q_left q) 0) (nth m (q_right q) 0)
  else 0.
Definition dbyte (qs : list lr_query) (x : list Z) (n : nat) : Z := fold_right Z.lxor 0 (map (qbyte x n) qs).
Definition shift (qs : list lr_query) (f : list Z -> list Z) (x : list Z) : list Z :=
  map (fun n => Z.lxor (nth n (f x) 0) (dbyte qs x n)) (seq 0 16).
Definition queries (b : build) (left : bool) (A : attacker) (f : list Z -> list Z) (n : nat) : list lr_query :=
  map (fun i => A (lr_run b left A f i)) (seq 0 n).

Lemma run_length b l A f n : length (lr_run b l A f n) = n.
Proof. induction n as [|n IH]; [reflexivity|]. cbn [lr_run]. rewrite app_length, IH. cbn. lia. Qed.
Lemma run_firstn b l A f n : forall i, (i <= n)%nat -> firstn i (lr_run b l A f n) = lr_run b l A f i.
Proof.
  induction n as [|n IH]; intros i Hi.
  - assert (i = O) as -> by lia. reflexivity.
  - destruct (Nat.eq_dec i (S n)) as [->|Hne].
    + apply firstn_all2. now rewrite run_length.
    + cbn [lr_run]. rewrite firstn_app, run_length. replace (i - n)%nat with O by lia. rewrite firstn_O, app_nil_r. apply IH. lia.
Qed.

Lemma qbyte_byte N A tr x n : admissible N A -> (length tr < N)%nat -> byte_ok (qbyte x n (A tr)).
Proof.
  intros HA Ht. destruct (HA tr Ht) as (_ & _ & [Bl _] & [Br _] & _ & _). unfold qbyte.
  destruct list_eq_dec; [|unfold byte_ok; lia]. destruct (_ <? 2); [unfold byte_ok; lia|]. cbv zeta.
  apply BaseFacts.byte_lxor; apply BaseFacts.bytes_nth; assumption.
Qed.
Lemma dbyte_byte N A (trs : list (list reply)) x n : admissible N A -> (forall tr, In tr trs -> (length tr < N)%nat) -> byte_ok (dbyte (map A trs) x n).
Proof.
  intros HA. induction trs as [|tr trs IH]; intros Ht; [unfold dbyte, byte_ok; cbn; lia|].
  unfold dbyte in *. cbn [map fold_right]. apply BaseFacts.byte_lxor; [apply (qbyte_byte N); [assumption|apply Ht; now left]|].
  apply IH. intros tr' H. apply Ht. now right.
Qed.
Lemma queries_map b l A f n : queries b l A f n = map A (map (lr_run b l A f) (seq 0 n)).
Proof. unfold queries. now rewrite map_map. Qed.

Lemma shift_nth qs f x n : (n < 16)%nat -> nth n (shift qs f x) 0 = Z.lxor (nth n (f x) 0) (dbyte qs x n).
Proof.
  intros Hn. unfold shift. set (g := fun n => _).
  rewrite (nth_indep _ 0 (g O)) by (rewrite map_length, seq_length; lia).
  rewrite map_nth, seq_nth by lia. reflexivity.
Qed.
Lemma shift_length qs f x : length (shift qs f x) = 16%nat.
Proof. unfold shift. now rewrite map_length, seq_length. Qed.
Lemma shift_block b l A f n : admissible n A -> block_fn f -> block_fn (shift (queries b l A f n) f).
Proof.
  intros HA Hf x Hx. rewrite queries_map. split; [apply shift_length|]. unfold shift. apply Forall_forall. intros y Hy. apply in_map_iff in Hy.
  destruct Hy as (m & <- & Hm). apply BaseFacts.byte_lxor; [|apply (dbyte_byte n); [assumption|] ].
  2:{ intros tr Ht. apply in_map_iff in Ht. destruct Ht as (i & <- & Hi). apply in_seq in Hi. rewrite run_length. lia. }
  apply BaseFacts.bytes_nth. apply (Hf x Hx).
Qed.
Lemma shift_same qs f x : is_block (f x) -> (forall n, (n < 16)%nat -> dbyte qs x n = 0) -> shift qs f x = f x.
Proof.
  intros [L _] H. apply (nth_ext _ _ 0 0); [rewrite shift_length; lia|]. intros n Hn. rewrite shift_length in Hn.
  rewrite shift_nth, H by assumption. apply Z.lxor_0_r.
Qed.
Lemma shift_twice qs f x : is_block (f x) -> shift qs (shift qs f) x = f x.
Proof.
  intros [L _]. apply (nth_ext _ _ 0 0); [rewrite shift_length; lia|]. intros n Hn. rewrite shift_length in Hn.
  rewrite !shift_nth by assumption. rewrite Z.lxor_assoc, Z.lxor_nilpotent. apply Z.lxor_0_r.
Qed.

Lemma dbyte_zero qs x n : (forall q, In q qs -> qbyte x n q = 0) -> dbyte qs x n = 0.
Proof.
  intros H. unfold dbyte. induction qs as [|q qs IH]; [reflexivity|]. cbn [map fold_right].
  rewrite (H q (or_introl eq_refl)), IH; [reflexivity|]. intros q' Hq. apply H. now right.
Qed.
Lemma dbyte_app qs qs' x n : dbyte (qs ++ qs') x n = Z.lxor (dbyte qs x n) (dbyte qs' x n).
Proof.
  unfold dbyte. induction qs as [|q qs IH]; [reflexivity|]. cbn [app map fold_right]. rewrite IH. now rewrite Z.lxor_assoc.
Qed.

(** One query: two functions whose values differ by the difference of the messages give one answer. *)
Lemma answer_eq b l f f' q : block_fn f -> block_fn f' ->
  gcm_nonce (q_nonce q) -> gcm_data (q_data q) -> gcm_message (q_left q) -> gcm_message (q_right q) ->
  length (q_left q) = length (q_right q) ->
  f' (J0 (q_nonce q)) = f (J0 (q_nonce q)) -> f' (repeat 0 16) = f (repeat 0 16) ->
  (forall j n, (n < 16)%nat -> (16 * j < length (q_left q))%nat ->
     nth n (f' (counter_block (q_nonce q) j)) 0 =
     Z.lxor (nth n (f (counter_block (q_nonce q) j)) 0) (Z.lxor (nth (16 * j + n) (q_left q) 0) (nth (16 * j + n) (q_right q) 0))) ->
  lr_answer b (negb l) f' q = lr_answer b l f q.
Proof.
  intros Hf Hf' Hn Hd Hml Hmr Hl HJ H0 HC.
  assert (HE : block_cipher ideal f) by exact Hf. assert (HE' : block_cipher ideal f') by exact Hf'.
  assert (Hm : forall s, gcm_message (q_msg q s)) by (intros []; assumption).
  assert (HL : forall s, length (q_msg q s) = length (q_left q)) by (intros []; [reflexivity|now symmetry]).
  assert (HX : forall s m, Z.lxor (nth m (q_left q) 0) (nth m (q_right q) 0) = Z.lxor (nth m (q_msg q s) 0) (nth m (q_msg q (negb s)) 0)).
  { intros [] m; [reflexivity|]. apply Z.lxor_comm. }
  unfold lr_answer.
  assert (Dec : (b = Unchecked \/ len (q_left q) <= checked_limit) \/ (b = Checked /\ checked_limit < len (q_left q))) by (destruct b; [destruct (Z.le_gt_cases (len (q_left q)) checked_limit); tauto|left; left; reflexivity]).
  assert (HLL : forall s, len (q_msg q s) = len (q_left q)) by (intros s; unfold len; now rewrite HL).
  destruct Dec as [Dec|[-> Dec]].
  - assert (E1 := C30_gcm_is_sp800_38d ideal f HE b (q_nonce q) (q_data q) (q_msg q l) (repeat 0 (length (q_msg q l))) Hn Hd (Hm l) (repeat_length _ _)).
    assert (E2 := C30_gcm_is_sp800_38d ideal f' HE' b (q_nonce q) (q_data q) (q_msg q (negb l)) (repeat 0 (length (q_msg q (negb l)))) Hn Hd (Hm (negb l)) (repeat_length _ _)).
    rewrite HLL in E1, E2. specialize (E1 Dec). specialize (E2 Dec). cbv zeta in E1, E2.
    destruct (C35_counter_blocks_distinct _ _ HE _ _ _ _ _ _ _ (proj2 Hn) (proj1 Hd) (proj1 (Hm l)) E1) as (L1 & N1 & T1 & _).
    destruct (C35_counter_blocks_distinct _ _ HE' _ _ _ _ _ _ _ (proj2 Hn) (proj1 Hd) (proj1 (Hm (negb l))) E2) as (L2 & N2 & T2 & _).
    rewrite E1, E2. cbn [bc_permute ideal] in *.
    set (c1 := gcm_ciphertext f _ _) in *. set (c2 := gcm_ciphertext f' _ _) in *.
    assert (Ec : c2 = c1).
    { apply (nth_ext _ _ 0 0); [rewrite L1, L2, !HL; reflexivity|]. intros n Hlt. rewrite L2, HL in Hlt.
      rewrite N1, N2 by (rewrite HL; exact Hlt).
      pose proof (Nat.div_mod n 16 ltac:(lia)) as Dm. pose proof (Nat.mod_upper_bound n 16 ltac:(lia)) as Ub.
      rewrite HC by lia. rewrite <- Dm, (HX l).
      apply Z.bits_inj'. intros i _. rewrite !Z.lxor_spec. destruct (Z.testbit _ i), (Z.testbit _ i), (Z.testbit _ i); reflexivity. }
    rewrite Ec in *. rewrite T1, T2, HJ, H0. reflexivity.
  - assert (P : forall s g, block_fn g -> gcm_encrypt ideal Checked g (q_msg q s) (q_nonce q) (q_data q) (repeat 0 (length (q_msg q s))) = Panic).
    { intros s g Hg. destruct (gcm_encrypt ideal Checked g _ _ _ _) eqn:E; [|reflexivity]. exfalso.
      assert (NP : gcm_encrypt ideal Checked g (q_msg q s) (q_nonce q) (q_data q) (repeat 0 (length (q_msg q s))) <> Panic) by (rewrite E; discriminate).
      apply (C34_exact_limit_partial ideal g Hg _ _ _ _ Hn Hd (proj1 (Hm s)) (repeat_length _ _)) in NP. rewrite HLL in NP. unfold checked_limit in Dec. lia. }
    rewrite (P l f Hf), (P (negb l) f' Hf'). reflexivity.
Qed.

Lemma nonce_ctr nonce i : length nonce = 12%nat -> 0 <= i < 2 ^ 32 ->
  firstn 12 (nonce ++ be_encode 4 i) = nonce /\ be_decode (skipn 12 (nonce ++ be_encode 4 i)) = i.
Proof.
  intros L Hi. rewrite firstn_app, skipn_app, L, Nat.sub_diag, firstn_O, app_nil_r, skipn_O. split; [apply firstn_all2; lia|].
  rewrite skipn_all2 by lia. cbn [app]. rewrite BaseFacts.be_decode_encode. apply Z.mod_small. exact Hi.
Qed.
Lemma qbyte_low x n q : be_decode (skipn 12 x) < 2 -> qbyte x n q = 0.
Proof. intros H. unfold qbyte. destruct list_eq_dec; [|reflexivity]. cbv zeta. apply Z.ltb_lt in H. now rewrite H. Qed.

Lemma nonces_differ b l A f n i j : admissible n A -> (i < n)%nat -> (j < n)%nat -> i <> j -> q_nonce (A (lr_run b l A f i)) <> q_nonce (A (lr_run b l A f j)).
Proof.
  intros HA. assert (G : forall i j, (i < j)%nat -> (j < n)%nat -> q_nonce (A (lr_run b l A f i)) <> q_nonce (A (lr_run b l A f j))).
  { clear i j. intros i j Hij Hj. destruct (HA (lr_run b l A f j)) as (_ & _ & _ & _ & _ & H); [rewrite run_length; exact Hj|]. specialize (H i).
    rewrite run_length, run_firstn in H by lia. exact (H Hij). }
  intros Hi Hj Hne. destruct (Nat.lt_ge_cases i j) as [Hlt|Hge]; [now apply G|]. intros E. symmetry in E. revert E. apply G; lia.
Qed.

Lemma dbyte_counter b l A f n i j m : admissible n A -> (i < n)%nat -> (m < 16)%nat ->
  let q := A (lr_run b l A f i) in (16 * j < length (q_left q))%nat ->
  dbyte (queries b l A f n) (counter_block (q_nonce q) j) m = Z.lxor (nth (16 * j + m) (q_left q) 0) (nth (16 * j + m) (q_right q) 0).
Proof.
  intros HA Hi Hm q Hj. destruct (HA (lr_run b l A f i)) as ([Ln _] & _ & [_ Lm] & _); [now rewrite run_length|]. fold q in Ln, Lm.
  destruct (nonce_ctr (q_nonce q) (2 + Z.of_nat j) Ln) as [E1 E2]; [unfold len in Lm; lia|].
  assert (Z0 : forall k, (k < n)%nat -> k <> i -> qbyte (counter_block (q_nonce q) j) m (A (lr_run b l A f k)) = 0).
  { intros k Hkn Hk. unfold qbyte, counter_block. rewrite E1. destruct list_eq_dec as [E|E]; [|reflexivity].
    exfalso. revert E. apply (nonces_differ b l A f n); [assumption|assumption|assumption|]. intros E. now apply Hk. }
  unfold queries. assert (Sn : n = (i + S (n - i - 1))%nat) by lia. rewrite Sn, seq_app, map_app, dbyte_app. cbn [seq map Nat.add].
  rewrite dbyte_zero, Z.lxor_0_l.
  2:{ intros q' Hq. apply in_map_iff in Hq. destruct Hq as (k & <- & Hk). apply in_seq in Hk. apply Z0; lia. }
  change (A (lr_run b l A f i) :: ?t) with ([q] ++ t). rewrite dbyte_app.
  rewrite (dbyte_zero (map _ _)), Z.lxor_0_r.
  2:{ intros q' Hq. apply in_map_iff in Hq. destruct Hq as (k & <- & Hk). apply in_seq in Hk. apply Z0; lia. }
  unfold dbyte. cbn [map fold_right]. rewrite Z.lxor_0_r. unfold qbyte, counter_block. rewrite E1, E2.
  destruct list_eq_dec as [_|E]; [|now destruct E]. cbv zeta. destruct (2 + Z.of_nat j <? 2) eqn:E; [apply Z.ltb_lt in E; lia|].
  replace (2 + Z.of_nat j - 2) with (Z.of_nat j) by lia. now rewrite Nat2Z.id.
Qed.

(** The other side's run with the shifted function. *)
Lemma shifted_run b l A f n : admissible n A -> block_fn f -> forall i, (i <= n)%nat ->
  lr_run b (negb l) A (shift (queries b l A f n) f) i = lr_run b l A f i.
Proof.
  intros HA Hf. induction i as [|i IH]; intros Hi; [reflexivity|]. cbn [lr_run]. rewrite IH by lia. f_equal. f_equal.
  destruct (HA (lr_run b l A f i)) as (Hn & Hd & Hml & Hmr & Hl & _); [rewrite run_length; lia|].
  assert (Bz : is_block (repeat 0 16)) by ok_bytes.
  assert (BJ : is_block (J0 (q_nonce (A (lr_run b l A f i))))).
  { split; [unfold J0; rewrite app_length, (proj1 Hn); reflexivity|]. apply BaseFacts.bytes_app. split; [exact (proj2 Hn)|]. now apply BaseFacts.bytesb_spec. }
  apply answer_eq; try assumption.
  - now apply shift_block.
  - apply shift_same; [now apply Hf|]. intros m _. apply dbyte_zero. intros q _. apply qbyte_low.
    change (J0 ?x) with (x ++ be_encode 4 1). destruct (nonce_ctr (q_nonce (A (lr_run b l A f i))) 1 (proj1 Hn)) as [_ E]; [lia|]. rewrite E. lia.
  - apply shift_same; [now apply Hf|]. intros m _. apply dbyte_zero. intros q _. apply qbyte_low. reflexivity.
  - intros j m Hm Hj. rewrite shift_nth by assumption. now rewrite dbyte_counter by (try assumption; lia).
Qed.

(** ** C93: what an attacker sees of the left messages under the function [f], it sees of the right messages under the function
    [T true f]; and [T] is a bijection between functions, its inverse being the same construction with left and right exchanged.
    So with a uniformly random function the answers carry no information about which messages are encrypted. *)
Theorem C93_left_or_right : forall b A n, admissible n A ->
  exists T : bool -> (list Z -> list Z) -> list Z -> list Z, forall left f, block_fn f ->
    block_fn (T left f) /\
    lr_run b (negb left) A (T left f) n = lr_run b left A f n /\
    (forall x, is_block x -> T (negb left) (T left f) x = f x).
Proof.
  intros b A n HA. exists (fun l f => shift (queries b l A f n) f). intros l f Hf.
  split; [now apply shift_block|]. split; [now apply shifted_run|].
  intros x Hx. replace (queries b (negb l) A (shift (queries b l A f n) f) n) with (queries b l A f n).
  - apply shift_twice. now apply Hf.
  - unfold queries at 1 2. apply map_ext_in. intros i Hi. apply in_seq in Hi. rewrite shifted_run by (try assumption; lia). reflexivity.
Qed.
Print Assumptions C93_left_or_right.

(** Without interaction: for every function and every two lists of messages of the same lengths there is a function that turns
    the second list into the ciphertexts and tags of the first. *)
Theorem C93_any_messages : forall b (qs : list lr_query) f, block_fn f ->
  (forall q, In q qs -> gcm_nonce (q_nonce q) /\ gcm_data (q_data q) /\ gcm_message (q_left q) /\ gcm_message (q_right q) /\
     length (q_left q) = length (q_right q)) ->
  NoDup (map q_nonce qs) ->
  exists f', block_fn f' /\ map (lr_answer b false f') qs = map (lr_answer b true f) qs.
Proof.
  intros b qs f Hf Hq ND.
  assert (Bz : is_block (repeat 0 16)) by ok_bytes.
  exists (shift qs f).
  assert (DB : forall x n, byte_ok (dbyte qs x n)).
  { intros x n. clear ND. induction qs as [|q qs IH]; [unfold dbyte, byte_ok; cbn; lia|]. unfold dbyte. cbn [map fold_right].
    apply BaseFacts.byte_lxor; [|apply IH; intros q' Hq'; apply Hq; now right].
    destruct (Hq q (or_introl eq_refl)) as (_ & _ & [Bl _] & [Br _] & _). unfold qbyte. destruct list_eq_dec; [|unfold byte_ok; lia].
    cbv zeta. destruct (_ <? 2); [unfold byte_ok; lia|]. apply BaseFacts.byte_lxor; now apply BaseFacts.bytes_nth. }
  assert (HS : block_fn (shift qs f)).
  { intros x Hx. split; [apply shift_length|]. unfold shift. apply Forall_forall. intros y Hy. apply in_map_iff in Hy.
    destruct Hy as (n & <- & Hn). apply BaseFacts.byte_lxor; [|apply DB]. apply BaseFacts.bytes_nth. apply (Hf x Hx). }
  split; [exact HS|]. apply map_ext_in. intros q Hin. destruct (Hq q Hin) as (Hn & Hd & Hml & Hmr & Hl).
  assert (BJ : is_block (J0 (q_nonce q))).
  { split; [unfold J0; rewrite app_length, (proj1 Hn); reflexivity|]. apply BaseFacts.bytes_app. split; [exact (proj2 Hn)|]. now apply BaseFacts.bytesb_spec. }
  apply (answer_eq b true); try assumption.
  - apply shift_same; [now apply Hf|]. intros m _. apply dbyte_zero. intros q' _. apply qbyte_low.
    change (J0 ?x) with (x ++ be_encode 4 1). destruct (nonce_ctr (q_nonce q) 1 (proj1 Hn)) as [_ E]; [lia|]. rewrite E. lia.
  - apply shift_same; [now apply Hf|]. intros m _. apply dbyte_zero. intros q' _. apply qbyte_low. reflexivity.
  - intros j m Hm Hj. rewrite shift_nth by assumption. f_equal.
    destruct (nonce_ctr (q_nonce q) (2 + Z.of_nat j) (proj1 Hn)) as [E1 E2]; [destruct Hml as [_ Lm]; unfold len in Lm; lia|].
    apply in_split in Hin. destruct Hin as (q1 & q2 & ->). rewrite map_app in ND. cbn [map] in ND. apply NoDup_remove_2 in ND.
    assert (Z0 : forall q', In q' (q1 ++ q2) -> qbyte (counter_block (q_nonce q) j) m q' = 0).
    { intros q' Hq'. unfold qbyte, counter_block. rewrite E1. destruct list_eq_dec as [E|E]; [|reflexivity].
      exfalso. apply ND. rewrite <- map_app, E. now apply in_map. }
    change (q :: q2) with ([q] ++ q2). rewrite !dbyte_app, (dbyte_zero q1), (dbyte_zero q2), Z.lxor_0_l, Z.lxor_0_r.
    2,3: intros q' Hq'; apply Z0, in_or_app; auto.
    unfold dbyte. cbn [map fold_right]. rewrite Z.lxor_0_r. unfold qbyte, counter_block. rewrite E1, E2.
    destruct list_eq_dec as [_|E]; [|now destruct E]. cbv zeta. destruct (2 + Z.of_nat j <? 2) eqn:E; [apply Z.ltb_lt in E; lia|].
    replace (2 + Z.of_nat j - 2) with (Z.of_nat j) by lia. now rewrite Nat2Z.id.
Qed.
Print Assumptions C93_any_messages.

(** An attacker that counts its nonces up and chooses each query by the last tag: if its first byte is even it asks about
    "abc" or "xyz", otherwise about two empty messages with other data. *)
Definition ex_attacker : attacker := fun tr =>
  let even := match last tr Panic with Ok (_, t) => Z.even (nth 0 t 0) | Panic => true end in
  {| q_nonce := be_encode 12 (Z.of_nat (length tr)); q_data := if even then [] else [1; 2];
     q_left := if even then [97; 98; 99] else []; q_right := if even then [120; 121; 122] else [] |}.
Lemma ex_attacker_ok : admissible 1000 ex_attacker.
Proof.
  intros tr Ht. cbv zeta. unfold ex_attacker. cbn [q_nonce q_data q_left q_right]. cbv zeta. set (even := match last tr Panic with Ok _ => _ | Panic => _ end). clearbody even.
  split; [split; [apply BaseFacts.be_encode_length|apply BaseFacts.be_encode_bytes]|].
  split; [destruct even; ok_bytes|]. split; [destruct even; ok_bytes|]. split; [destruct even; ok_bytes|]. split; [destruct even; reflexivity|].
  intros i Hi E. rewrite firstn_length, Nat.min_l in E by lia. apply (f_equal be_decode) in E. rewrite !BaseFacts.be_decode_encode in E.
  change (256 ^ Z.of_nat 12) with (2 ^ 96) in E. rewrite !Z.mod_small in E by lia. lia.
Qed.
(** The attacker of the theorem exists, and its first question is about two different messages. *)
Example C93_ex : admissible 1000 ex_attacker /\ q_left (ex_attacker []) <> q_right (ex_attacker []) /\
  (exists f, block_fn f /\ block_fn (fun x => x) /\ lr_run Checked false ex_attacker f 1000 = lr_run Checked true ex_attacker (fun x => x) 1000) /\
  lr_answer Checked false (fun x => x) (ex_attacker []) <> lr_answer Checked true (fun x => x) (ex_attacker []).
Proof.
  split; [exact ex_attacker_ok|]. split; [discriminate|]. split.
  - destruct (C93_left_or_right Checked ex_attacker 1000 ex_attacker_ok) as [T H].
    assert (I : block_fn (fun x => x)) by (intros x Hx; exact Hx).
    destruct (H true (fun x => x) I) as (H1 & H2 & _). exists (T true (fun x => x)). split; [exact H1|]. split; [exact I|exact H2].
  - intros E. apply (f_equal (fun r => match r with Ok (c, _) => hd 0 c | Panic => 0 end)) in E. vm_compute in E. discriminate E.
Qed.
