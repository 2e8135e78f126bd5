(** Histories of the ChaCha20 [Stream]. *)
From Verif Require Import BaseFacts M_ChaCha20 S_ChaCha HistStream P_ChaCha.
From Coq Require Import ZifyBool ZifyNat.

Local Opaque chacha20_block.
Section S.
Variables key nonce : list Z.
Hypothesis Hk : length key = 32%nat.
Hypothesis Hn : length nonce = 12%nat.
Hypothesis Bk : bytes key.
Hypothesis Bn : bytes nonce.
Let ks := keystream_byte key nonce.
Definition ks_wrap (n : Z) : Z := keystream_byte key nonce (n mod 2 ^ 38).

Record SI (b : build) (s : stream) (n : Z) : Prop := {
  si_c : st_chacha s = chacha_words key nonce;
  si_ctr : w32 (st_counter s);
  si_blk : st_block s = chacha20_block key (st_counter s) nonce;
  si_idx : (st_index s <= 64)%nat;
  si_pos : match b with
           | Checked => st_counter s * 64 + Z.of_nat (st_index s) = n
           | Unchecked => (st_counter s * 64 + Z.of_nat (st_index s)) mod 2 ^ 38 = n mod 2 ^ 38
           end }.

Lemma stream_new_ok b : exists s, stream_new key nonce = Ok s /\ SI b s 0.
Proof.
  unfold stream_new. rewrite chacha_new_eq, Hk, Hn. cbn [Nat.eqb andb bind].
  eexists; split; [reflexivity|]. constructor; cbn [st_chacha st_counter st_block st_index].
  - reflexivity.
  - unfold w32; lia.
  - apply block_eq; auto. unfold w32; lia.
  - lia.
  - destruct b; reflexivity.
Qed.

(** Reading byte [i] of block [c]. *)
Lemma ks_at c i : w32 c -> 0 <= i < 64 -> ks_wrap (c * 64 + i) = get (chacha20_block key c nonce) (Z.to_nat i).
Proof.
  unfold w32. intros Hc Hi. unfold ks_wrap, keystream_byte. rewrite (Z.mod_small (c * 64 + i)) by lia.
  replace ((c * 64 + i) / 64) with c by (rewrite Z.add_comm, Z.div_add, Z.div_small; lia).
  replace ((c * 64 + i) mod 64) with i by (rewrite Z.add_comm, Z.mod_add, Z.mod_small; lia). reflexivity.
Qed.

Lemma next_ok b s n : SI b s n -> b = Unchecked \/ 0 <= n < 2 ^ 38 ->
  exists s', stream_next b s = Ok (ks_wrap n, s') /\ SI b s' (n + 1).
Proof.
  intros [Hc Hctr Hblk Hidx Hpos] Hb. unfold w32 in Hctr. unfold stream_next.
  destruct (Nat.eqb_spec (st_index s) 64) as [E|E].
  - assert (exists c, uchk b 32 (st_counter s + 1) = Ok c /\ c = (st_counter s + 1) mod 2 ^ 32 /\
        (b = Checked -> c = st_counter s + 1)) as (c & Ec & Ec2 & Ec3).
    { destruct b.
      - destruct Hb as [|Hb]; [discriminate|]. exists (st_counter s + 1).
        assert (st_counter s + 1 < 2 ^ 32) by lia.
        split; [apply uchk_ok; lia|]. split; [rewrite Z.mod_small; lia|auto].
      - eexists. split; [apply uchk_unchecked|]. split; [reflexivity|discriminate]. }
    rewrite Ec. cbn [bind st_index st_block].
    assert (Wc : w32 c) by (unfold w32; rewrite Ec2; apply Z.mod_pos_bound; lia).
    rewrite Hc, block_eq by assumption. rewrite block_length. cbn [Nat.ltb Nat.leb assertb bind].
    eexists. split; [f_equal; f_equal|].
    + pose proof (ks_at c 0 Wc ltac:(lia)) as K. rewrite Z.add_0_r in K. cbn [Z.to_nat] in K. rewrite <- K.
      unfold ks_wrap. f_equal. destruct b.
      * rewrite (Ec3 eq_refl). f_equal. lia.
      * rewrite Ec2. rewrite <- Hpos, E. unfold w32 in *.
        change (2 ^ 38) with (2 ^ 32 * 64). rewrite Z.mul_mod_distr_r, Z.mod_mod by lia.
        replace (st_counter s * 64 + Z.of_nat 64) with ((st_counter s + 1) * 64) by lia.
        rewrite Z.mul_mod_distr_r by lia. reflexivity.
    + constructor; cbn [st_chacha st_counter st_block st_index]; [first [exact Hc|reflexivity]|exact Wc|reflexivity|lia|].
      destruct b; [rewrite (Ec3 eq_refl); lia|].
      rewrite (Zplus_mod n 1), <- Hpos, E, <- Zplus_mod. rewrite Ec2.
      replace (st_counter s * 64 + Z.of_nat 64 + 1) with ((st_counter s + 1) * 64 + 1) by lia.
      rewrite (Zplus_mod _ (Z.of_nat 1)), (Zplus_mod ((st_counter s + 1) * 64)). f_equal. f_equal.
      change (2 ^ 38) with (2 ^ 32 * 64). rewrite !Z.mul_mod_distr_r, Z.mod_mod by lia. reflexivity.
  - cbn [bind]. rewrite Hblk, block_length.
    assert (Hlt : (st_index s <? 64)%nat = true) by (apply Nat.ltb_lt; lia).
    rewrite Hlt. cbn [assertb bind]. eexists. split; [f_equal; f_equal|].
    + pose proof (ks_at (st_counter s) (Z.of_nat (st_index s)) Hctr ltac:(lia)) as K. rewrite Nat2Z.id in K. rewrite <- K.
      unfold ks_wrap. f_equal. destruct b; [now rewrite Hpos|exact Hpos].
    + constructor; cbn [st_chacha st_counter st_block st_index]; [exact Hc|exact Hctr|reflexivity|lia|].
      destruct b; [lia|].
      rewrite Nat2Z.inj_succ. unfold Z.succ. rewrite Z.add_assoc, Zplus_mod, Hpos, <- Zplus_mod. reflexivity.
Qed.

Lemma next_panic s n : SI Checked s n -> 2 ^ 38 <= n -> stream_next Checked s = Panic.
Proof.
  intros [Hc Hctr Hblk Hidx Hpos] Hb. unfold w32 in Hctr. unfold stream_next.
  assert (st_index s = 64)%nat by lia. assert (st_counter s = 2 ^ 32 - 1) by lia.
  rewrite (proj2 (Nat.eqb_eq _ _)) by assumption. rewrite H0. reflexivity.
Qed.

Lemma process_loop_ok b : forall input output s n, length input = length output -> SI b s n ->
  b = Unchecked \/ (0 <= n /\ n + len input <= 2 ^ 38) ->
  exists s', process_loop b s output input =
    Ok (xorl input (map (fun j => ks_wrap (n + Z.of_nat j)) (seq 0 (length input))), s') /\ SI b s' (n + len input).
Proof.
  induction input as [|z input IH]; intros [|o output] s n Hl HS Hb; cbn [length] in Hl; try lia; cbn [process_loop].
  - exists s. rewrite len_nil, Z.add_0_r. auto.
  - rewrite len_cons in *. pose proof (len_nonneg input).
    destruct (next_ok b s n HS) as (s1 & E1 & S1).
    { destruct Hb; [auto|right; lia]. }
    rewrite E1. cbn [bind].
    destruct (IH output s1 (n + 1)) as (s2 & E2 & S2); [lia|assumption| |].
    { destruct Hb; [auto|right; lia]. }
    rewrite E2. cbn [bind]. exists s2. split.
    + f_equal. f_equal. cbn [length seq map xorl zipwith]. rewrite Z.add_0_r, Z.lxor_comm. f_equal.
      rewrite <- seq_shift, map_map. unfold xorl. f_equal. apply map_ext. intros j. f_equal. lia.
    + replace (n + (1 + len input)) with (n + 1 + len input) by lia. exact S2.
Qed.

Lemma process_ok b s n input output : length input = length output -> SI b s n ->
  b = Unchecked \/ (0 <= n /\ n + len input <= 2 ^ 38) ->
  exists s', stream_process b s input output =
    Ok (xorl input (map (fun j => ks_wrap (n + Z.of_nat j)) (seq 0 (length input))), s') /\ SI b s' (n + len input).
Proof.
  intros Hl HS Hb. unfold stream_process. rewrite (proj2 (Nat.eqb_eq _ _)) by assumption. cbn [assertb bind].
  apply process_loop_ok; assumption.
Qed.

Lemma process_loop_panic : forall input output s n, length input = length output -> SI Checked s n ->
  0 <= n <= 2 ^ 38 -> 2 ^ 38 < n + len input -> process_loop Checked s output input = Panic.
Proof.
  induction input as [|z input IH]; intros [|o output] s n Hl HS Hn0 Hbig; cbn [length] in Hl; try lia; cbn [process_loop].
  - rewrite len_nil in Hbig. lia.
  - rewrite len_cons in Hbig.
    destruct (Z.lt_ge_cases n (2 ^ 38)) as [Hlt|Hge].
    + destruct (next_ok Checked s n HS) as (s1 & E1 & S1); [right; lia|].
      rewrite E1. cbn [bind]. rewrite (IH output s1 (n + 1)); [reflexivity|lia|assumption|lia|lia].
    + rewrite (next_panic s n); auto; lia.
Qed.

Lemma run_op_ok b s n o : op_ok o -> SI b s n -> b = Unchecked \/ (0 <= n /\ n + op_size o <= 2 ^ 38) ->
  exists s', run_op b s o = Ok (expect_op ks_wrap n o, s') /\ SI b s' (n + op_size o).
Proof.
  intros Ho HS Hb. destruct o as [|i out|i out]; cbn [run_op op_size expect_op op_ok] in *.
  - destruct (next_ok b s n HS) as (s1 & E1 & S1); [destruct Hb; [auto|right; lia]|].
    rewrite E1. cbn [bind]. eauto.
  - destruct (process_ok b s n i out (proj2 Ho) HS Hb) as (s1 & E1 & S1). unfold stream_encrypt. rewrite E1. cbn [bind]. eauto.
  - destruct (process_ok b s n i out (proj2 Ho) HS Hb) as (s1 & E1 & S1). unfold stream_decrypt. rewrite E1. cbn [bind]. eauto.
Qed.

Lemma op_size_nonneg o : 0 <= op_size o.
Proof. destruct o; cbn; try apply len_nonneg; lia. Qed.
Lemma ops_size_nonneg ops : 0 <= ops_size ops.
Proof. induction ops as [|o ops IH]; cbn [ops_size]; [lia|]. pose proof (op_size_nonneg o). lia. Qed.

Lemma run_ops_ok b ops : forall s n, Forall op_ok ops -> SI b s n ->
  b = Unchecked \/ (0 <= n /\ n + ops_size ops <= 2 ^ 38) ->
  exists s', run_ops b s ops = Ok (expect_ops ks_wrap n ops, s') /\ SI b s' (n + ops_size ops).
Proof.
  induction ops as [|o ops IH]; intros s n Ho HS Hb; cbn [run_ops ops_size expect_ops] in *.
  - exists s. rewrite Z.add_0_r. auto.
  - inversion_clear Ho. pose proof (op_size_nonneg o). pose proof (ops_size_nonneg ops).
    destruct (run_op_ok b s n o) as (s1 & E1 & S1); auto; [destruct Hb; [auto|right; lia]|].
    rewrite E1. cbn [bind].
    destruct (IH s1 (n + op_size o)) as (s2 & E2 & S2); auto; [destruct Hb; [auto|right; lia]|].
    rewrite E2. cbn [bind]. exists s2. split; [reflexivity|].
    replace (n + (op_size o + ops_size ops)) with (n + op_size o + ops_size ops) by lia. exact S2.
Qed.

Lemma run_ops_panic ops : forall s n, Forall op_ok ops -> SI Checked s n -> 0 <= n <= 2 ^ 38 ->
  2 ^ 38 < n + ops_size ops -> run_ops Checked s ops = Panic.
Proof.
  induction ops as [|o ops IH]; intros s n Ho HS Hn0 Hbig; cbn [run_ops ops_size] in *; [lia|].
  inversion_clear Ho. pose proof (op_size_nonneg o).
  destruct (Z.le_gt_cases (n + op_size o) (2 ^ 38)) as [Hle|Hgt].
  - destruct (run_op_ok Checked s n o) as (s1 & E1 & S1); auto; [right; lia|].
    rewrite E1. cbn [bind]. rewrite (IH s1 (n + op_size o)); auto; lia.
  - assert (run_op Checked s o = Panic) as ->; [|reflexivity].
    destruct o as [|i out|i out]; cbn [run_op op_size op_ok] in *.
    + rewrite (next_panic s n); auto; lia.
    + unfold stream_encrypt, stream_process. rewrite (proj2 (Nat.eqb_eq _ _)) by tauto. cbn [assertb bind].
      rewrite (process_loop_panic i out s n); auto; tauto.
    + unfold stream_decrypt, stream_process. rewrite (proj2 (Nat.eqb_eq _ _)) by tauto. cbn [assertb bind].
      rewrite (process_loop_panic i out s n); auto; tauto.
Qed.

Lemma expect_ext f g ops : forall n, 0 <= n -> (forall m, 0 <= m < n + ops_size ops -> f m = g m) ->
  expect_ops f n ops = expect_ops g n ops.
Proof.
  induction ops as [|o ops IH]; intros n Hn0 H; cbn [expect_ops ops_size] in *; [reflexivity|].
  pose proof (op_size_nonneg o). pose proof (ops_size_nonneg ops). f_equal.
  - destruct o as [|i out|i out]; cbn [expect_op op_size] in *.
    + rewrite H by lia. reflexivity.
    + do 2 f_equal. apply map_ext_in. intros j Hj. apply in_seq in Hj. apply H. unfold len in *. lia.
    + do 2 f_equal. apply map_ext_in. intros j Hj. apply in_seq in Hj. apply H. unfold len in *. lia.
  - apply IH; [lia|]. intros m Hm. apply H. lia.
Qed.

Lemma stream_history b ops : Forall op_ok ops -> ops_size ops <= 2 ^ 38 ->
  exists s0 s, stream_new key nonce = Ok s0 /\ run_ops b s0 ops = Ok (expect_ops ks 0 ops, s).
Proof.
  intros Ho Hl. destruct (stream_new_ok b) as (s0 & E0 & S0).
  destruct (run_ops_ok b ops s0 0 Ho S0) as (s & E & S1); [right; lia|].
  exists s0, s. split; [exact E0|]. rewrite E. rewrite (expect_ext ks_wrap ks ops 0); [reflexivity|lia|].
  intros m Hm. unfold ks_wrap. rewrite Z.mod_small by lia. reflexivity.
Qed.

Lemma stream_past_end ops : Forall op_ok ops ->
  exists s0, stream_new key nonce = Ok s0 /\
  (2 ^ 38 < ops_size ops -> run_ops Checked s0 ops = Panic) /\
  (exists s, run_ops Unchecked s0 ops = Ok (expect_ops (fun n => ks (n mod 2 ^ 38)) 0 ops, s)).
Proof.
  intros Ho. destruct (stream_new_ok Checked) as (s0 & E0 & S0). destruct (stream_new_ok Unchecked) as (s0' & E0' & S0').
  rewrite E0 in E0'. injection E0' as <-.
  exists s0. split; [exact E0|]. split.
  - intros Hl. apply (run_ops_panic ops s0 0); auto; lia.
  - destruct (run_ops_ok Unchecked ops s0 0 Ho S0') as (s & E & S1); [auto|]. exists s. exact E.
Qed.

(** ** Round trip *)
Lemma expect_bytes f ops : Forall (fun o => o <> OpNext) ops -> forall n,
  concat (map out_bytes (expect_ops f n ops)) =
  xorl (concat (map op_input ops)) (map (fun j => f (n + Z.of_nat j)) (seq 0 (length (concat (map op_input ops))))).
Proof.
  induction 1 as [|o ops Ho Hops IH]; intros n; cbn [expect_ops map concat]; [reflexivity|].
  rewrite IH. rewrite app_length, seq_app, map_app.
  rewrite xorl_app by (now rewrite map_length, seq_length).
  f_equal.
  - destruct o; [congruence|reflexivity|reflexivity].
  - f_equal. rewrite Nat.add_0_l.
    assert (E : op_size o = Z.of_nat (length (op_input o))) by (destruct o; [congruence|reflexivity|reflexivity]).
    rewrite E. set (k := length (op_input o)).
    assert (G : forall m a, map (fun j => f (n + Z.of_nat k + Z.of_nat j)) (seq a m) = map (fun j => f (n + Z.of_nat j)) (seq (k + a) m)).
    { induction m as [|m IHm]; intros a; [reflexivity|]. cbn [seq map]. f_equal; [f_equal; lia|].
      rewrite <- Nat.add_succ_r. apply IHm. }
    specialize (G (length (concat (map op_input ops))) O). rewrite Nat.add_0_r in G. exact G.
Qed.

Lemma stream_roundtrip b b' enc dec outs s0 s :
  Forall op_ok enc -> Forall op_ok dec -> Forall (fun o => o <> OpNext) enc -> Forall (fun o => o <> OpNext) dec ->
  ops_size enc <= 2 ^ 38 ->
  stream_new key nonce = Ok s0 -> run_ops b s0 enc = Ok (outs, s) ->
  concat (map op_input dec) = concat (map out_bytes outs) ->
  exists outs' s', run_ops b' s0 dec = Ok (outs', s') /\
    concat (map out_bytes outs') = concat (map op_input enc).
Proof.
  intros He Hd Ne Nd Hl E0 Er Hcat.
  destruct (stream_history b enc He Hl) as (s1 & s2 & F0 & F1). rewrite E0 in F0. injection F0 as <-.
  rewrite Er in F1. injection F1 as -> _.
  assert (Hsz : forall ops, Forall (fun o => o <> OpNext) ops -> ops_size ops = len (concat (map op_input ops))).
  { induction 1 as [|o ops Ho Hops IH]; cbn [ops_size map concat]; [reflexivity|]. rewrite IH, len_app.
    destruct o; [congruence|reflexivity|reflexivity]. }
  rewrite expect_bytes in Hcat by assumption.
  set (m := concat (map op_input enc)) in *.
  set (str := map (fun j => ks (0 + Z.of_nat j)) (seq 0 (length m))) in *.
  assert (Hsl : length str = length m) by (unfold str; now rewrite map_length, seq_length).
  assert (Hdl : ops_size dec <= 2 ^ 38).
  { rewrite Hsz by assumption. rewrite Hsz in Hl by assumption. rewrite Hcat. unfold len in *.
    rewrite xorl_length, Hsl, Nat.min_id. exact Hl. }
  destruct (stream_history b' dec Hd Hdl) as (s1 & s3 & G0 & G1). rewrite E0 in G0. injection G0 as <-.
  exists (expect_ops ks 0 dec), s3. split; [exact G1|].
  rewrite expect_bytes by assumption. rewrite Hcat.
  rewrite xorl_length, Hsl, Nat.min_id. apply xorl_cancel. unfold str. rewrite map_length, seq_length. lia.
Qed.

Lemma encrypt_panics b s input output : stream_process b s input output = Panic \/ length input = length output.
Proof.
  unfold stream_process. destruct (Nat.eqb_spec (length input) (length output)); [auto|left; reflexivity].
Qed.

Lemma buffers_irrelevant b s input output output' : length output = length output' ->
  stream_process b s input output = stream_process b s input output'.
Proof.
  intros Hl. unfold stream_process. rewrite Hl.
  destruct (Nat.eqb_spec (length input) (length output')) as [He|He]; cbn [assertb bind]; [|reflexivity].
  clear Hk Hn Bk Bn. revert output output' s Hl He. induction input as [|z input IH]; intros [|o output] [|o' output'] s Hl He;
    cbn [length] in *; try lia; cbn [process_loop]; [reflexivity|].
  destruct (stream_next b s) as [[y s1]|]; cbn [bind]; [|reflexivity].
  rewrite (IH output output') by lia. reflexivity.
Qed.

(** ** The keystream read with [next] *)
Lemma keystream_nth N n : (n < 64 * N)%nat ->
  nth n (chacha20_keystream key nonce 0 N) 0 = ks (Z.of_nat n).
Proof.
  unfold chacha20_keystream. intros H.
  assert (G : forall N c n, (n < 64 * N)%nat ->
    nth n (concat (map (fun j => chacha20_block key (0 + Z.of_nat j) nonce) (seq c N))) 0 = ks (Z.of_nat (64 * c + n))).
  { clear. induction N as [|N IH]; intros c n Hn; [lia|]. cbn [seq map concat].
    destruct (Nat.lt_ge_cases n 64) as [Hlt|Hge].
    - rewrite app_nth1 by (rewrite block_length; lia). unfold ks, keystream_byte.
      replace (Z.of_nat (64 * c + n) / 64) with (Z.of_nat c).
      2:{ rewrite Nat2Z.inj_add, Nat2Z.inj_mul, Z.add_comm, Z.mul_comm, Z.div_add, Z.div_small by lia. lia. }
      replace (Z.of_nat (64 * c + n) mod 64) with (Z.of_nat n).
      2:{ rewrite Nat2Z.inj_add, Nat2Z.inj_mul, Z.add_comm, Z.mul_comm, Z.mod_add, Z.mod_small by lia. lia. }
      rewrite Nat2Z.id. reflexivity.
    - rewrite app_nth2 by (rewrite block_length; lia). rewrite block_length, IH by lia. do 2 f_equal. lia. }
  rewrite G by assumption. reflexivity.
Qed.

Lemma keystream_length N : length (chacha20_keystream key nonce 0 N) = (64 * N)%nat.
Proof.
  unfold chacha20_keystream.
  assert (G : forall c, length (concat (map (fun j => chacha20_block key (0 + Z.of_nat j) nonce) (seq c N))) = (64 * N)%nat).
  { induction N as [|N IH]; intros c; [reflexivity|].
    cbn [seq map concat]. rewrite app_length, IH, block_length. lia. }
  apply G.
Qed.

Lemma stream_take b n : Z.of_nat n <= 2 ^ 38 ->
  exists s0 s outs, stream_new key nonce = Ok s0 /\ run_ops b s0 (repeat OpNext n) = Ok (outs, s) /\
    concat (map out_bytes outs) = firstn n (chacha20_keystream key nonce 0 ((n + 63) / 64)).
Proof.
  intros Hl.
  assert (Hsz : ops_size (repeat OpNext n) = Z.of_nat n).
  { clear. induction n as [|n IH]; [reflexivity|]. cbn [repeat ops_size op_size]. rewrite IH. lia. }
  destruct (stream_history b (repeat OpNext n)) as (s0 & s & E0 & E1).
  - apply Forall_forall. intros o Ho. apply repeat_spec in Ho. subst o. exact I.
  - lia.
  - exists s0, s, (expect_ops ks 0 (repeat OpNext n)). split; [exact E0|]. split; [exact E1|].
    assert (G : forall n z, concat (map out_bytes (expect_ops ks z (repeat OpNext n))) = map (fun j => ks (z + Z.of_nat j)) (seq 0 n)).
    { clear. induction n as [|n IH]; intros z; [reflexivity|].
      cbn [repeat expect_ops map concat expect_op out_bytes app seq]. rewrite Z.add_0_r, IH. f_equal.
      rewrite <- seq_shift, map_map. apply map_ext. intros j. f_equal. cbn [op_size]. lia. }
    rewrite G.
    assert (HN : (n <= 64 * ((n + 63) / 64))%nat).
    { pose proof (Nat.mul_succ_div_gt (n + 63) 64 ltac:(lia)). lia. }
    apply nth_ext_Z.
    + rewrite map_length, seq_length, firstn_length, keystream_length. lia.
    + intros i Hi. rewrite map_length, seq_length in Hi. unfold get.
      rewrite (nth_indep _ 0 (ks (0 + Z.of_nat 0))) by (rewrite map_length, seq_length; lia).
      rewrite (map_nth (fun j => ks (0 + Z.of_nat j))), seq_nth by lia.
      set (K := chacha20_keystream key nonce 0 ((n + 63) / 64)).
      assert (E : nth i K 0 = nth i (firstn n K) 0).
      { rewrite <- (firstn_skipn n K) at 1. apply app_nth1. unfold K. rewrite firstn_length, keystream_length. lia. }
      rewrite <- E. unfold K. rewrite keystream_nth by lia. f_equal; lia.
Qed.

End S.

Lemma stream_new_panics key nonce : stream_new key nonce = Panic <-> length key <> 32%nat \/ length nonce <> 12%nat.
Proof.
  unfold stream_new. rewrite chacha_new_eq.
  destruct (Nat.eqb_spec (length key) 32); cbn [andb bind].
  - destruct (Nat.eqb_spec (length nonce) 12); cbn [bind]; split; intros H; try discriminate; auto.
    destruct H; congruence.
  - split; auto.
Qed.

From Verif Require Import M_Poly1305.
Lemma ccp_new_panics key : ccp_new key = Panic <-> length key <> 32%nat.
Proof.
  unfold ccp_new. destruct (Nat.eqb_spec 32 (length key)) as [E|E]; cbn [assertb bind]; split; try discriminate; try congruence.
Qed.
