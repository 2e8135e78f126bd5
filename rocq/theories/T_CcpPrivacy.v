(** C95: ChaCha20-Poly1305 uses its key only through keystream blocks, and with unknown blocks it hides the messages. *)
From Coq Require Import String.
From Verif Require Import Base Hex M_ChaCha20 M_Poly1305 S_ChaCha T_Ccp.
From Verif Require P_Ccp P_ChaCha BaseFacts.

(** A source of keystream blocks: block number and nonce give 64 bytes.  [fun c nonce => chacha20_block key c nonce] is one. *)
Definition blocks : Type := Z -> list Z -> list Z.
Definition good_blocks (F : blocks) : Prop :=
  forall c nonce, 0 <= c < 2 ^ 32 -> chacha_nonce nonce -> length (F c nonce) = 64%nat /\ bytes (F c nonce).
(** A message encrypted with the blocks 1, 2, ... of [F]; the tag is a function of the first half of block 0, the data and the ciphertext. *)
Definition seal (mac : list Z -> list Z -> list Z -> list Z) (F : blocks) (nonce data msg : list Z) : list Z * list Z :=
  let c := map (fun n => Z.lxor (nth n msg 0) (nth (n mod 64) (F (1 + Z.of_nat (n / 64)) nonce) 0)) (seq 0 (length msg)) in
  (c, mac (firstn 32 (F 0 nonce)) data c).

(** A query: nonce, associated data and two messages; the attacker sees all earlier answers. *)
Record lr_query := { q_nonce : list Z; q_data : list Z; q_left : list Z; q_right : list Z }.
Definition q_msg (q : lr_query) (left : bool) : list Z := if left then q_left q else q_right q.
Definition attacker : Type := list (list Z * list Z) -> lr_query.
(** The answers to the first [n] queries, when [enc nonce data msg] answers them and is asked about the left (the right) messages. *)
Fixpoint lr_run (enc : list Z -> list Z -> list Z -> list Z * list Z) (left : bool) (A : attacker) (n : nat) : list (list Z * list Z) :=
  match n with
  | O => []
  | S n => let tr := lr_run enc left A n in
           tr ++ [enc (q_nonce (A tr)) (q_data (A tr)) (q_msg (A tr) left)]
  end.
(** In any run of [n] queries: the two messages have one length, at most the limit, and no nonce is used twice. *)
Definition admissible (n : nat) (A : attacker) : Prop := forall tr, (length tr < n)%nat ->
  let q := A tr in
  chacha_nonce (q_nonce q) /\ is_slice (q_data q) /\ is_slice (q_left q) /\ is_slice (q_right q) /\
  len (q_left q) <= checked_limit /\ length (q_left q) = length (q_right q) /\
  forall i, (i < length tr)%nat -> q_nonce (A (firstn i tr)) <> q_nonce q.

(** ** The translation *)
Definition qbyte (c : Z) (nonce : list Z) (n : nat) (q : lr_query) : Z :=
  if list_eq_dec Z.eq_dec nonce (q_nonce q) then
    if c <? 1 then 0 else let m := (64 * Z.to_nat (c - 1) + n)%nat in Z.lxor (nth m (q_left q) 0) (nth m (q_right q) 0)
  else 0.
Definition dbyte (qs : list lr_query) (c : Z) (nonce : list Z) (n : nat) : Z := fold_right Z.lxor 0 (map (qbyte c nonce n) qs).
Definition shift (qs : list lr_query) (F : blocks) : blocks := fun c nonce =>
  map (fun n => Z.lxor (nth n (F c nonce) 0) (dbyte qs c nonce n)) (seq 0 64).

Lemma nth_map_seq (h : nat -> Z) m n : (n < m)%nat -> nth n (map h (seq 0 m)) 0 = h n.
Proof.
  intros H. rewrite (nth_indep _ 0 (h O)) by (rewrite map_length, seq_length; lia). rewrite map_nth, seq_nth by lia. reflexivity.
Qed.
Lemma shift_length qs F c nonce : length (shift qs F c nonce) = 64%nat.
Proof. unfold shift. now rewrite map_length, seq_length. Qed.
Lemma shift_nth qs F c nonce n : (n < 64)%nat -> nth n (shift qs F c nonce) 0 = Z.lxor (nth n (F c nonce) 0) (dbyte qs c nonce n).
Proof.
  intros Hn. unfold shift. set (g := fun n => _).
  rewrite (nth_indep _ 0 (g O)) by (rewrite map_length, seq_length; lia).
  rewrite map_nth, seq_nth by lia. reflexivity.
Qed.
Lemma shift_twice qs F c nonce : length (F c nonce) = 64%nat -> shift qs (shift qs F) c nonce = F c nonce.
Proof.
  intros L. apply (nth_ext _ _ 0 0); [rewrite shift_length; lia|]. intros n Hn. rewrite shift_length in Hn.
  rewrite !shift_nth by assumption. rewrite Z.lxor_assoc, Z.lxor_nilpotent. apply Z.lxor_0_r.
Qed.
Lemma dbyte_zero qs c nonce n : (forall q, In q qs -> qbyte c nonce n q = 0) -> dbyte qs c nonce n = 0.
Proof.
  intros H. unfold dbyte. induction qs as [|q qs IH]; [reflexivity|]. cbn [map fold_right].
  rewrite (H q (or_introl eq_refl)), IH; [reflexivity|]. intros q' Hq. apply H. now right.
Qed.
Lemma dbyte_app qs qs' c nonce n : dbyte (qs ++ qs') c nonce n = Z.lxor (dbyte qs c nonce n) (dbyte qs' c nonce n).
Proof.
  unfold dbyte. induction qs as [|q qs IH]; [reflexivity|]. cbn [app map fold_right]. rewrite IH. now rewrite Z.lxor_assoc.
Qed.
Lemma shift_0 qs F nonce : length (F 0 nonce) = 64%nat -> shift qs F 0 nonce = F 0 nonce.
Proof.
  intros L. apply (nth_ext _ _ 0 0); [rewrite shift_length; lia|]. intros n Hn. rewrite shift_length in Hn.
  rewrite shift_nth by assumption. rewrite dbyte_zero; [apply Z.lxor_0_r|]. intros q _. unfold qbyte. now destruct list_eq_dec.
Qed.

Section Run.
Variables (mac : list Z -> list Z -> list Z -> list Z) (A : attacker) (N : nat).
Hypothesis HA : admissible N A.
Definition run (F : blocks) (left : bool) (n : nat) := lr_run (seal mac F) left A n.
Definition queries (F : blocks) (left : bool) : list lr_query := map (fun i => A (run F left i)) (seq 0 N).

Lemma run_length F l n : length (run F l n) = n.
Proof. induction n as [|n IH]; [reflexivity|]. unfold run. cbn [lr_run]. cbv zeta. rewrite app_length. fold (run F l n). rewrite IH. cbn. lia. Qed.
Lemma run_firstn F l n : forall i, (i <= n)%nat -> firstn i (run F l n) = run F l i.
Proof.
  induction n as [|n IH]; intros i Hi.
  - assert (i = O) as -> by lia. reflexivity.
  - destruct (Nat.eq_dec i (S n)) as [->|Hne].
    + apply firstn_all2. now rewrite run_length.
    + unfold run at 1. cbn [lr_run]. cbv zeta. fold (run F l n). rewrite firstn_app, run_length. replace (i - n)%nat with O by lia. rewrite firstn_O, app_nil_r. apply IH. lia.
Qed.
Lemma nonces_differ F l i j : (i < N)%nat -> (j < N)%nat -> i <> j -> q_nonce (A (run F l i)) <> q_nonce (A (run F l j)).
Proof.
  assert (G : forall i j, (i < j)%nat -> (j < N)%nat -> q_nonce (A (run F l i)) <> q_nonce (A (run F l j))).
  { clear i j. intros i j Hij Hj. destruct (HA (run F l j)) as (_ & _ & _ & _ & _ & _ & H); [rewrite run_length; exact Hj|]. specialize (H i).
    rewrite run_length, run_firstn in H by lia. exact (H Hij). }
  intros Hi Hj Hne. destruct (Nat.lt_ge_cases i j) as [Hlt|Hge]; [now apply G|]. intros E. symmetry in E. revert E. apply G; lia.
Qed.
Lemma dbyte_byte F l c nonce n : byte_ok (dbyte (queries F l) c nonce n).
Proof.
  unfold queries, dbyte. assert (G : forall i, In i (seq 0 N) -> (i < N)%nat) by (intros i Hi; apply in_seq in Hi; lia).
  revert G. induction (seq 0 N) as [|i s IH]; intros G; [unfold byte_ok; cbn; lia|]. cbn [map fold_right].
  apply BaseFacts.byte_lxor; [|apply IH; intros j Hj; apply G; now right].
  destruct (HA (run F l i)) as (_ & _ & [Bl _] & [Br _] & _); [rewrite run_length; apply G; now left|].
  unfold qbyte. destruct list_eq_dec; [|unfold byte_ok; lia]. destruct (_ <? 1); [unfold byte_ok; lia|]. cbv zeta.
  apply BaseFacts.byte_lxor; apply BaseFacts.bytes_nth; assumption.
Qed.
Lemma shift_good F l : good_blocks F -> good_blocks (shift (queries F l) F).
Proof.
  intros HF c nonce Hc Hn. split; [apply shift_length|]. unfold shift. apply Forall_forall. intros y Hy. apply in_map_iff in Hy.
  destruct Hy as (n & <- & _). apply BaseFacts.byte_lxor; [|apply dbyte_byte]. apply BaseFacts.bytes_nth. now apply HF.
Qed.
Lemma dbyte_counter F l i j m : (i < N)%nat -> (m < 64)%nat ->
  let q := A (run F l i) in
  dbyte (queries F l) (1 + Z.of_nat j) (q_nonce q) m = Z.lxor (nth (64 * j + m) (q_left q) 0) (nth (64 * j + m) (q_right q) 0).
Proof.
  intros Hi Hm q.
  assert (Z0 : forall k, (k < N)%nat -> k <> i -> qbyte (1 + Z.of_nat j) (q_nonce q) m (A (run F l k)) = 0).
  { intros k Hkn Hk. unfold qbyte. destruct list_eq_dec as [E|E]; [|reflexivity].
    exfalso. revert E. apply nonces_differ; [assumption|assumption|]. intros E. now apply Hk. }
  unfold queries. assert (Sn : seq 0 N = seq 0 i ++ i :: seq (S i) (N - i - 1)).
  { replace N with (i + S (N - i - 1))%nat at 1 by lia. rewrite seq_app. reflexivity. }
  rewrite Sn, map_app, dbyte_app. cbn [map].
  rewrite dbyte_zero, Z.lxor_0_l.
  2:{ intros q' Hq. apply in_map_iff in Hq. destruct Hq as (k & <- & Hk). apply in_seq in Hk. apply Z0; lia. }
  change (A (run F l i) :: ?t) with ([q] ++ t). rewrite dbyte_app.
  rewrite (dbyte_zero (map _ _)), Z.lxor_0_r.
  2:{ intros q' Hq. apply in_map_iff in Hq. destruct Hq as (k & <- & Hk). apply in_seq in Hk. apply Z0; lia. }
  unfold dbyte. cbn [map fold_right]. rewrite Z.lxor_0_r. unfold qbyte.
  destruct list_eq_dec as [_|E]; [|now destruct E]. destruct (1 + Z.of_nat j <? 1) eqn:E; [apply Z.ltb_lt in E; lia|].
  replace (1 + Z.of_nat j - 1) with (Z.of_nat j) by lia. now rewrite Nat2Z.id.
Qed.

Lemma shifted_run F l : good_blocks F -> forall i, (i <= N)%nat -> run (shift (queries F l) F) (negb l) i = run F l i.
Proof.
  intros HF. induction i as [|i IH]; intros Hi; [reflexivity|]. unfold run. cbn [lr_run]. cbv zeta.
  fold (run (shift (queries F l) F) (negb l) i). fold (run F l i). rewrite IH by lia. f_equal. f_equal.
  pose proof (dbyte_counter F l i) as DC. cbv zeta in DC. destruct (HA (run F l i)) as (Hn & Hd & _ & _ & _ & Hl & _); [rewrite run_length; lia|].
  set (q := A (run F l i)) in *.
  assert (HL : length (q_msg q (negb l)) = length (q_msg q l)) by (destruct l; cbn; lia).
  assert (HX : forall m, Z.lxor (nth m (q_left q) 0) (nth m (q_right q) 0) = Z.lxor (nth m (q_msg q l) 0) (nth m (q_msg q (negb l)) 0)).
  { intros m. destruct l; [reflexivity|]. apply Z.lxor_comm. }
  unfold seal. cbv zeta. rewrite (shift_0 _ F (q_nonce q)) by (apply HF; [lia|assumption]). rewrite HL.
  match goal with |- (?c1, _) = (?c2, _) => assert (E : c1 = c2); [|now rewrite E] end.
  apply map_ext_in. intros n Hin. apply in_seq in Hin. pose proof (Nat.mod_upper_bound n 64 ltac:(lia)) as Ub. pose proof (Nat.div_mod n 64 ltac:(lia)) as Dm.
  rewrite shift_nth, DC, <- Dm, HX by lia.
  apply Z.bits_inj'. intros k _. rewrite !Z.lxor_spec. destruct (Z.testbit _ k), (Z.testbit _ k), (Z.testbit _ k); reflexivity.
Qed.
End Run.

Definition the_mac (k d c : list Z) : list Z := match poly1305 Unchecked k d c with Ok t => t | Panic => [] end.

(** [encrypt] is [seal] with the blocks of the key. *)
Lemma encrypt_seal key : chacha_key key -> forall b nonce data msg out, chacha_nonce nonce -> is_slice data -> is_slice msg ->
  length out = length msg -> len msg <= checked_limit ->
  ccp_encrypt b key msg nonce data out = Ok (seal the_mac (fun c nonce => chacha20_block key c nonce) nonce data msg).
Proof.
  intros [Hk Bk].
    intros b nonce data msg out [Hn Bn] [Bd Ld] [Bm Lm] Ho Hlim.
    destruct (P_Ccp.encrypt_ok key nonce Hk Hn Bk Bn msg data Bm Bd Ld Lm) as (t & _ & _ & _ & Et & E).
    rewrite E by (try assumption; right; exact Hlim). unfold seal. cbv zeta.
    match goal with |- Ok (?c1, _) = Ok (?c2, _) => assert (Ec : c1 = c2) end.
    { apply (nth_ext _ _ 0 0); [now rewrite P_Ccp.crypt_length, map_length, seq_length|].
      intros n Hlt. rewrite P_Ccp.crypt_length in Hlt. rewrite P_Ccp.crypt_nth by assumption.
      assert (M : (Z.of_nat n + 64) mod 2 ^ 38 = Z.of_nat n + 64).
      { apply Z.mod_small. unfold checked_limit, len in Hlim. clear - Hlim Hlt. lia. }
      rewrite M. clear M.
      rewrite nth_map_seq by assumption. apply (f_equal (Z.lxor (nth n msg 0))). unfold keystream_byte. 
      assert (M1 : (Z.of_nat n + 64) mod 64 = Z.of_nat (n mod 64)).
      { clear. rewrite Nat2Z.inj_mod. change (Z.of_nat 64) with 64. rewrite <- (Z.mod_add (Z.of_nat n) 1 64) by lia. reflexivity. }
      assert (M2 : (Z.of_nat n + 64) / 64 = 1 + Z.of_nat (n / 64)).
      { clear. rewrite Nat2Z.inj_div. change (Z.of_nat 64) with 64. rewrite Z.add_comm. exact (Z.div_add_l 1 64 (Z.of_nat n) ltac:(lia)). }
      rewrite M1, M2, Nat2Z.id. exact eq_refl. }
    rewrite <- Ec. unfold the_mac. specialize (Et Unchecked). unfold aead_tag in Et. rewrite (P_Ccp.otk_eq key nonce Hk Hn Bk Bn) in Et.
    unfold one_time_key in Et. rewrite Et. reflexivity.
Qed.

(** ** C95: there is one function [mac] such that [encrypt] with any key is [seal mac] of the key's ChaCha20 blocks; and for every
    source of blocks [F] there is another, [T true F], under which the right messages give the answers that the left messages
    give under [F]; [T] is a bijection of block sources. *)
Theorem C95_privacy : exists mac : list Z -> list Z -> list Z -> list Z,
  (forall key, chacha_key key -> good_blocks (fun c nonce => chacha20_block key c nonce) /\
     forall b nonce data msg out, chacha_nonce nonce -> is_slice data -> is_slice msg ->
     length out = length msg -> len msg <= checked_limit ->
     ccp_encrypt b key msg nonce data out = Ok (seal mac (fun c nonce => chacha20_block key c nonce) nonce data msg)) /\
  (forall A n, admissible n A ->
     exists T : bool -> blocks -> blocks, forall left F, good_blocks F ->
       good_blocks (T left F) /\
       lr_run (seal mac (T left F)) (negb left) A n = lr_run (seal mac F) left A n /\
       (forall c nonce, 0 <= c < 2 ^ 32 -> chacha_nonce nonce -> T (negb left) (T left F) c nonce = F c nonce)).
Proof.
  exists the_mac. split.
  - intros key [Hk Bk]. split.
    { intros c nonce Hc Hn. split; [apply P_ChaCha.block_length|apply P_ChaCha.block_bytes]. }
    now apply encrypt_seal.
  - intros A n HA. exists (fun l F => shift (queries the_mac A n F l) F). intros l F HF.
    split; [now apply shift_good|]. split; [now apply shifted_run|].
    intros c nonce Hc Hn.
    replace (queries the_mac A n (shift (queries the_mac A n F l) F) (negb l)) with (queries the_mac A n F l).
    + apply shift_twice. now apply HF.
    + unfold queries at 1 2. apply map_ext_in. intros i Hi. apply in_seq in Hi. rewrite shifted_run by (try assumption; lia). reflexivity.
Qed.
Print Assumptions C95_privacy.

(** An attacker that counts its nonces up and chooses each query by the last tag. *)
Definition ex_attacker : attacker := fun tr =>
  let even := Z.even (nth 0 (snd (last tr ([], []))) 0) in
  {| q_nonce := be_encode 12 (Z.of_nat (length tr)); q_data := if even then [] else [1; 2];
     q_left := if even then [97; 98; 99] else []; q_right := if even then [120; 121; 122] else [] |}.
Example C95_ex : admissible 1000 ex_attacker /\ q_left (ex_attacker []) <> q_right (ex_attacker []) /\
  good_blocks (fun c nonce => repeat 5 64) /\ chacha_key (repeat 1 32).
Proof.
  split; [|split; [discriminate|split] ].
  - intros tr Ht. cbv zeta. unfold ex_attacker. cbn [q_nonce q_data q_left q_right]. cbv zeta. set (even := Z.even _). clearbody even.
    split; [split; [apply BaseFacts.be_encode_length|apply BaseFacts.be_encode_bytes]|].
    split; [destruct even; ok_bytes|]. split; [destruct even; ok_bytes|]. split; [destruct even; ok_bytes|].
    split; [destruct even; vm_compute; discriminate|]. split; [destruct even; reflexivity|].
    intros i Hi E. rewrite firstn_length, Nat.min_l in E by lia. apply (f_equal be_decode) in E. rewrite !BaseFacts.be_decode_encode in E.
    change (256 ^ Z.of_nat 12) with (2 ^ 96) in E. rewrite !Z.mod_small in E by lia. lia.
  - intros c nonce _ _. split; [reflexivity|now apply BaseFacts.bytesb_spec].
  - ok_bytes.
Qed.
