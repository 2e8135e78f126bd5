(** Merkle-Damgard: a collision of the hash is a collision of the compression function inside the two computations. *)
From Verif Require Import BaseFacts M_Sha2 S_Sha2 S_Md P_Sha2 P_Sha2Stream P_Gf128 P_EdOrder.
From Coq Require Import ZifyBool ZifyNat.

Lemma SHA_chain V msg : SHA V msg = digest_part V (chain V (padded_blocks V msg)).
Proof. reflexivity. Qed.
Lemma chain_snoc V bs B : chain V (bs ++ [B]) = compress V (chain V bs) B.
Proof. unfold chain. now rewrite fold_left_app. Qed.

Lemma list_dec (x y : list Z) : {x = y} + {x <> y}.
Proof. apply (list_eq_dec Z.eq_dec). Qed.
Lemma collide_snoc V bs bs' C C' : collide V bs bs' -> collide V (bs ++ [C]) (bs' ++ [C']).
Proof.
  intros (pre & B & post & pre' & B' & post' & -> & -> & H). exists pre, B, (post ++ [C]), pre', B', (post' ++ [C']).
  rewrite <- !app_assoc. split; [reflexivity|]. split; [reflexivity|exact H].
Qed.
Lemma md_last V bs bs' B B' : chain V (bs ++ [B]) = chain V (bs' ++ [B']) -> (chain V bs, B) <> (chain V bs', B') ->
  collide V (bs ++ [B]) (bs' ++ [B']).
Proof. intros E N. exists bs, B, [], bs', B', []. rewrite !chain_snoc in E. repeat split; assumption. Qed.
Lemma md_same V : forall bs bs', length bs = length bs' -> bs <> bs' -> chain V bs = chain V bs' -> collide V bs bs'.
Proof.
  induction bs as [|B bs IH] using rev_ind; intros bs' L N E.
  - destruct bs'; [congruence|discriminate].
  - destruct bs' as [|B' bs' _] using rev_ind; [rewrite app_length in L; cbn in L; lia|].
    rewrite !app_length in L. cbn [length] in L.
    destruct (list_dec B B') as [->|NB].
    + destruct (list_dec (chain V bs) (chain V bs')) as [Ec|Nc].
      * apply collide_snoc. apply IH; [lia| |exact Ec]. intros ->. now apply N.
      * apply md_last; [exact E|congruence].
    + apply md_last; [exact E|congruence].
Qed.

Lemma skipn_add {T} (l : list T) : forall a b, skipn a (skipn b l) = skipn (b + a) l.
Proof. intros a b. revert a l. induction b as [|b IH]; intros a [|x l]; cbn [skipn Nat.add]; auto. now rewrite !skipn_nil. Qed.

Section Md.
Variables (P : sha_params) (A : algorithm) (V : variant).
Hypothesis M : matches P A V.
Let bb := block_bytes V.
Lemma pad_len msg : exists k, length (pad_with V (8 * len msg) msg) = (S k * bb)%nat.
Proof.
  pose proof (bb_pos P A V M) as Hbb. fold bb in Hbb.
  unfold pad_with. rewrite !app_length, repeat_length, be_encode_length. cbn [length].
  unfold zeros_needed. fold bb.
  set (n := (length msg + 1 + 2 * wbytes V)%nat).
  assert (Hn : (n = bb * (n / bb) + n mod bb)%nat) by (apply Nat.div_mod; lia).
  assert (Hm : (n mod bb < bb)%nat) by (apply Nat.mod_upper_bound; lia).
  assert (Hp : (0 < n)%nat) by (unfold n; lia).
  destruct (Nat.eq_dec (n mod bb) 0) as [E|E].
  - rewrite E, Nat.sub_0_r, Nat.mod_same by lia. destruct (n / bb)%nat as [|q] eqn:Eq; [nia|]. exists q. nia.
  - rewrite (Nat.mod_small (bb - n mod bb)) by lia. exists (n / bb)%nat. nia.
Qed.
Lemma last_block msg : exists bs B z, padded_blocks V msg = bs ++ [B] /\ length B = bb /\ B = z ++ be_encode (2 * wbytes V) (8 * len msg).
Proof.
  pose proof (bb_pos P A V M) as Hbb. fold bb in Hbb. pose proof (m_wpos _ _ _ M) as Hw.
  destruct (pad_len msg) as [k Hk]. set (l := pad_with V (8 * len msg) msg) in *.
  assert (E : l = firstn (k * bb) l ++ skipn (k * bb) l) by (symmetry; apply firstn_skipn).
  assert (L1 : length (firstn (k * bb) l) = (k * bb)%nat) by (rewrite firstn_length; lia).
  assert (L2 : length (skipn (k * bb) l) = bb) by (rewrite skipn_length; lia).
  set (B := skipn (k * bb) l) in *.
  exists (chunks bb (firstn (k * bb) l)), B, (firstn (bb - 2 * wbytes V) B). split; [|split; [exact L2|] ].
  - unfold padded_blocks. fold bb l. rewrite E at 1. rewrite (chunks_app_full bb k) by (lia || exact L1). f_equal.
    apply chunks_short; [|lia]. intros C. rewrite C in L2. cbn in L2. lia.
  - rewrite <- (firstn_skipn (bb - 2 * wbytes V) B) at 1. f_equal. unfold B. rewrite skipn_add.
    unfold l, pad_with. rewrite !app_assoc. set (pre := (_ ++ repeat 0 _)). fold l.
    assert (Lp : length pre = (k * bb + (bb - 2 * wbytes V))%nat).
    { assert (F : length l = (length pre + 2 * wbytes V)%nat).
      { unfold l, pad_with. rewrite !app_assoc. fold pre. rewrite app_length, be_encode_length. reflexivity. }
      unfold bb, block_bytes in *. lia. }
    rewrite <- Lp, skipn_app, skipn_all, Nat.sub_diag. reflexivity.
Qed.
Lemma blocks_count msg : (length (padded_blocks V msg) * bb = length (pad_with V (8 * len msg) msg))%nat.
Proof.
  pose proof (bb_pos P A V M) as Hbb. fold bb in Hbb. destruct (pad_len msg) as [k Hk].
  unfold padded_blocks. fold bb. destruct (chunks_full bb (S k) _ ltac:(lia) Hk) as [_ C]. rewrite C. lia.
Qed.
Lemma pad_inj msg msg' : length msg = length msg' -> padded_blocks V msg = padded_blocks V msg' -> msg = msg'.
Proof.
  pose proof (bb_pos P A V M) as Hbb. fold bb in Hbb.
  intros L E. unfold padded_blocks in E. apply (f_equal (@concat Z)) in E. rewrite !concat_chunks in E by (fold bb; lia).
  unfold pad_with in E. apply (f_equal (firstn (length msg))) in E.
  rewrite firstn_app, Nat.sub_diag, firstn_O, app_nil_r, firstn_all in E.
  rewrite L, firstn_app, Nat.sub_diag, firstn_O, app_nil_r, firstn_all in E. exact E.
Qed.

Lemma md_full msg msg' : len msg < 2 ^ 61 -> len msg' < 2 ^ 61 -> msg <> msg' ->
  chain V (padded_blocks V msg) = chain V (padded_blocks V msg') -> collide V (padded_blocks V msg) (padded_blocks V msg').
Proof.
  pose proof (m_wpos _ _ _ M) as Hw.
  intros H1 H2 N E. destruct (Nat.eq_dec (length msg) (length msg')) as [L|L].
  - apply md_same; [|intros C; apply N; now apply pad_inj|exact E].
    pose proof (blocks_count msg) as C1. pose proof (blocks_count msg') as C2. pose proof (bb_pos P A V M) as Hbb. fold bb in Hbb.
    assert (Lp : length (pad_with V (8 * len msg) msg) = length (pad_with V (8 * len msg') msg')).
    { unfold pad_with. rewrite !app_length, !be_encode_length, L. reflexivity. }
    nia.
  - destruct (last_block msg) as (bs & B & z & E1 & LB & EB). destruct (last_block msg') as (bs' & B' & z' & E1' & LB' & EB').
    rewrite E1, E1' in *. apply md_last; [exact E|]. intros C. injection C as _ C. apply L.
    rewrite EB, EB' in C. rewrite EB in LB. rewrite EB' in LB'. rewrite app_length, be_encode_length in LB, LB'.
    apply (f_equal (skipn (length z))) in C. rewrite skipn_app, skipn_all, Nat.sub_diag in C.
    replace (length z) with (length z') in C by lia. rewrite skipn_app, skipn_all, Nat.sub_diag in C. cbn [app skipn] in C.
    apply (f_equal be_decode) in C. rewrite !be_decode_encode in C.
    assert (G : 2 ^ 64 <= 256 ^ Z.of_nat (2 * wbytes V)).
    { change (2 ^ 64) with (256 ^ 8). apply Z.pow_le_mono_r; lia. }
    rewrite !Z.mod_small in C by (unfold len in *; lia). unfold len in C. lia.
Qed.
Lemma md msg msg' : len msg < 2 ^ 61 -> len msg' < 2 ^ 61 -> msg <> msg' -> SHA V msg = SHA V msg' ->
  collide V (padded_blocks V msg) (padded_blocks V msg') \/
  exists pre B pre' B', padded_blocks V msg = pre ++ [B] /\ padded_blocks V msg' = pre' ++ [B'] /\
    compress V (chain V pre) B <> compress V (chain V pre') B' /\
    digest_part V (compress V (chain V pre) B) = digest_part V (compress V (chain V pre') B').
Proof.
  intros H1 H2 N E. rewrite !SHA_chain in E.
  destruct (list_dec (chain V (padded_blocks V msg)) (chain V (padded_blocks V msg'))) as [Ec|Nc].
  - left. now apply md_full.
  - right. destruct (last_block msg) as (bs & B & _ & E1 & _). destruct (last_block msg') as (bs' & B' & _ & E1' & _).
    exists bs, B, bs', B'. rewrite E1, E1', !chain_snoc in Nc, E. repeat split; assumption.
Qed.
(** When the digest is the whole state the second case cannot arise. *)
Lemma serial_inj s s' : good_state V s -> good_state V s' -> flat_map (be_encode (wbytes V)) s = flat_map (be_encode (wbytes V)) s' -> s = s'.
Proof.
  intros [L F] [L' F'] E. revert s' L' F' E. rewrite <- L. clear L. induction s as [|x s IH]; intros [|y s'] L' F' E; try discriminate L'; [reflexivity|].
  inversion_clear F as [|? ? Fx Fs]. inversion_clear F' as [|? ? Fy Fs']. cbn [flat_map] in E.
  assert (Ex : be_encode (wbytes V) x = be_encode (wbytes V) y).
  { apply (f_equal (firstn (wbytes V))) in E. rewrite !firstn_app, !be_encode_length, !Nat.sub_diag, !firstn_O, !app_nil_r in E.
    rewrite !firstn_all2 in E by now rewrite be_encode_length. exact E. }
  rewrite Ex in E. apply app_inv_head in E. f_equal; [|apply IH; try assumption; now injection L'].
  apply (f_equal be_decode) in Ex. rewrite !be_decode_encode in Ex.
  assert (W : 256 ^ Z.of_nat (wbytes V) = 2 ^ wbits V).
  { rewrite (m_w8 _ _ _ M). change 256 with (2 ^ 8). rewrite <- Z.pow_mul_r by lia. reflexivity. }
  rewrite W in Ex. rewrite !Z.mod_small in Ex by assumption. exact Ex.
Qed.
Lemma chain_good msg : bytes msg -> good_state V (chain V (padded_blocks V msg)).
Proof.
  intros Hb. destruct (pad_len msg) as [k Hk].
  apply (fold_full_good P A V M (pad_with V (8 * len msg) msg) (S k)); [|exact Hk].
  unfold pad_with. rewrite !bytes_app. repeat split; auto.
  - repeat constructor; unfold byte_ok; lia.
  - apply bytes_repeat; unfold byte_ok; lia.
  - apply be_encode_bytes.
Qed.
Lemma md_whole msg msg' : digest_bytes V = (8 * wbytes V)%nat -> bytes msg -> bytes msg' -> len msg < 2 ^ 61 -> len msg' < 2 ^ 61 -> msg <> msg' ->
  SHA V msg = SHA V msg' -> collide V (padded_blocks V msg) (padded_blocks V msg').
Proof.
  intros D B1 B2 H1 H2 N E. apply md_full; try assumption. rewrite !SHA_chain in E. unfold digest_part in E.
  pose proof (chain_good msg B1) as G. pose proof (chain_good msg' B2) as G'.
  apply serial_inj; try assumption.
  assert (HF : forall l, length (flat_map (be_encode (wbytes V)) l) = (length l * wbytes V)%nat).
  { induction l as [|x l IH]; cbn [flat_map length]; [reflexivity|]. rewrite app_length, be_encode_length, IH. lia. }
  rewrite !firstn_all2 in E by (rewrite HF; destruct G as [G _], G' as [G' _]; rewrite ?G, ?G'; lia). exact E.
Qed.
End Md.

Lemma pigeon_ex (f : Z -> Z) m n : 0 <= n -> n < m -> (forall i, 0 <= f i < n) ->
  exists i j, 0 <= i < m /\ 0 <= j < m /\ i <> j /\ f i = f j.
Proof.
  intros Hn Hm Hf.
  destruct (search_below (fun i => exists j, 0 <= j < m /\ i <> j /\ f i = f j)) with (n := m) as [(i & Hi & j & Hj & N & E)|No].
  - intros i Hi. destruct (search_below (fun j => i <> j /\ f i = f j)) with (n := m) as [(j & Hj & H)|No].
    + intros j _. destruct (Z.eq_dec i j); [right; tauto|]. destruct (Z.eq_dec (f i) (f j)); [left; tauto|right; tauto].
    + lia.
    + left. exists j. tauto.
    + right. intros (j & Hj & H). exact (No j Hj H).
  - lia.
  - exists i, j. tauto.
  - exfalso. assert (C : m <= n); [|lia].
    apply (pigeon f); [lia|lia|intros i _; apply Hf|]. intros i j Hi Hj E. destruct (Z.eq_dec i j) as [|N]; [assumption|].
    exfalso. apply (No i Hi). exists j. tauto.
Qed.
(** Collisions exist: there are more 65-byte messages than digests. *)
Lemma collision_exists P A V : matches P A V -> exists m m', bytes m /\ bytes m' /\ length m = 65%nat /\ length m' = 65%nat /\ m <> m' /\ SHA V m = SHA V m'.
Proof.
  intros M. pose proof (m_dsle _ _ _ M) as Hd. set (f := fun i => le_decode (SHA V (le_encode 65 i))). set (n := 2 ^ 520).
  assert (Hf : forall i, 0 <= f i < 2 ^ 512).
  { intros i. unfold f. pose proof (le_decode_range _ (SHA_bytes V (8 * len (le_encode 65 i)) (le_encode 65 i))) as R.
    fold (SHA V (le_encode 65 i)) in R. split; [apply R|]. eapply Z.lt_le_trans; [apply R|].
    change (2 ^ 512) with (256 ^ 64). apply Z.pow_le_mono_r; [lia|]. unfold len, SHA, hash_with. rewrite firstn_length. lia. }
  destruct (pigeon_ex f n (2 ^ 512)) as (i & j & Hi & Hj & N & E); [apply Z.leb_le; reflexivity|apply Z.ltb_lt; reflexivity|exact Hf|].
  { exists (le_encode 65 i), (le_encode 65 j). repeat (split; [apply le_encode_bytes|]). rewrite !le_encode_length. split; [reflexivity|]. split; [reflexivity|].
    split.
    + intros C. apply N. apply (f_equal le_decode) in C. rewrite !le_decode_encode in C. change (256 ^ Z.of_nat 65) with n in C.
      rewrite !Z.mod_small in C by assumption. exact C.
    + unfold f in E. assert (L : length (SHA V (le_encode 65 i)) = length (SHA V (le_encode 65 j))).
      { unfold SHA. rewrite !(SHA_length P A V M) by apply le_encode_bytes. reflexivity. }
      rewrite <- (le_encode_decode (SHA V (le_encode 65 i))), <- (le_encode_decode (SHA V (le_encode 65 j))) by apply SHA_bytes.
      rewrite L, E. reflexivity. }
Qed.
