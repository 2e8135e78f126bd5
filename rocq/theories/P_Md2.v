(** Consequences of equal HMAC tags; length extension of the plain hashes. *)
From Verif Require Import Base BaseFacts M_Sha2 S_Sha2 S_Hmac S_Md Hist P_Sha2 P_Sha2Stream P_Hmac P_Md.

Lemma app_inj_len {A} (a a' c c' : list A) : length a = length a' -> a ++ c = a' ++ c' -> a = a' /\ c = c'.
Proof.
  revert a'. induction a as [|x a IH]; intros [|y a'] L E; try discriminate L; [auto|].
  cbn [app] in E. injection E as -> E. injection L as L. destruct (IH a' L E) as [-> ->]. auto.
Qed.
Lemma xorl_inj l l' m : length l = length l' -> (length l <= length m)%nat -> xorl l m = xorl l' m -> l = l'.
Proof. intros L Hl E. rewrite <- (xorl_cancel l m Hl), E. apply xorl_cancel. lia. Qed.

Section HM.
Context H V (S : sha2 H V).
Let B := block_bytes V.
Let K := hmac_key (SHA V) B.
Lemma key_len key : bytes key -> len key < 2 ^ 61 -> length (K key) = B /\ bytes (K key).
Proof. intros. destruct (sha2_contract H V S) as [R C]. now apply (hmac_key_length H V R C). Qed.
Lemma sha_len m : bytes m -> length (SHA V m) = digest_bytes V.
Proof. intros. destruct (sha2_contract H V S) as [R C]. now apply (hc_length _ _ _ C). Qed.
Lemma key_split key key' : bytes key -> bytes key' -> length key = length key' -> K key = K key' -> key = key' \/ SHA V key = SHA V key'.
Proof.
  intros Bk Bk' L E. unfold K, hmac_key in E. rewrite <- L in E.
  destruct (B <? length key)%nat eqn:Eb.
  - right. apply app_inj_len in E; [apply E|]. rewrite !sha_len by assumption. reflexivity.
  - left. apply app_inj_len in E; [apply E|exact L].
Qed.
Lemma hmac_collide key key' msg msg' : bytes key -> len key < 2 ^ 61 -> bytes key' -> len key' < 2 ^ 61 ->
  length key = length key' -> (key, msg) <> (key', msg') -> HMAC_SHA2 V key msg = HMAC_SHA2 V key' msg' ->
  (key <> key' /\ SHA V key = SHA V key') \/
  (inner_input V key msg <> inner_input V key' msg' /\ SHA V (inner_input V key msg) = SHA V (inner_input V key' msg')) \/
  (outer_input V key msg <> outer_input V key' msg' /\ SHA V (outer_input V key msg) = SHA V (outer_input V key' msg')).
Proof.
  intros Bk Lk Bk' Lk' L N E.
  destruct (key_len key Bk Lk) as [H1 _]. destruct (key_len key' Bk' Lk') as [H2 _].
  destruct (list_dec (outer_input V key msg) (outer_input V key' msg')) as [Eo|No]; [|right; right; split; [exact No|exact E] ].
  unfold outer_input in Eo. fold B in Eo. fold (K key) (K key') in Eo.
  assert (Lo : length (xorl (K key) (opad B)) = length (xorl (K key') (opad B))) by (rewrite !xorl_length, H1, H2; reflexivity).
  destruct (app_inj_len _ _ _ _ Lo Eo) as [Ek Ei].
  apply xorl_inj in Ek; [|congruence|unfold opad; rewrite repeat_length; lia].
  destruct (list_dec (inner_input V key msg) (inner_input V key' msg')) as [En|Nn]; [|right; left; split; assumption].
  unfold inner_input in En. fold B in En. fold (K key) (K key') in En. rewrite Ek in En. apply app_inv_head in En.
  left. assert (Nk : key <> key') by congruence. split; [exact Nk|].
  destruct (key_split key key' Bk Bk' L Ek) as [C|C]; [contradiction|exact C].
Qed.
Lemma inner_ok key msg : bytes key -> len key < 2 ^ 61 -> bytes msg -> Z.of_nat B + len msg < 2 ^ 61 ->
  bytes (inner_input V key msg) /\ len (inner_input V key msg) < 2 ^ 61.
Proof.
  intros Bk Lk Bm Lm. destruct (key_len key Bk Lk) as [H1 H2]. unfold inner_input. fold B. fold (K key). split.
  - apply bytes_app. split; [|exact Bm]. apply xorl_bytes; [exact H2|]. apply bytes_repeat. unfold byte_ok; lia.
  - rewrite len_app. unfold len at 1. rewrite xorl_length, H1. unfold ipad. rewrite repeat_length. lia.
Qed.
Lemma outer_ok key msg : bytes key -> len key < 2 ^ 61 -> bytes msg -> Z.of_nat B + len msg < 2 ^ 61 ->
  bytes (outer_input V key msg) /\ len (outer_input V key msg) < 2 ^ 61.
Proof.
  intros Bk Lk Bm Lm. destruct (key_len key Bk Lk) as [H1 H2]. destruct (inner_ok key msg Bk Lk Bm Lm) as [Bi _].
  destruct (sha2_contract H V S) as [R C]. pose proof (hc_block _ _ _ C). pose proof (hc_ds_range _ _ _ C). fold B in H0.
  unfold outer_input. fold B. fold (K key). split.
  - apply bytes_app. split; [apply xorl_bytes; [exact H2|]; apply bytes_repeat; unfold byte_ok; lia|]. apply SHA_bytes.
  - rewrite len_app. unfold len. rewrite xorl_length, H1, sha_len by exact Bi. unfold opad. rewrite repeat_length. lia.
Qed.
End HM.

(** ** Length extension *)
Section Ext.
Variables (P : sha_params) (A : algorithm) (V : variant).
Hypothesis M : matches P A V.
Hypothesis D : digest_bytes V = (8 * wbytes V)%nat.
Let bb := block_bytes V.
Lemma pad_glue m : pad_with V (8 * len m) m = m ++ glue V (length m).
Proof. reflexivity. Qed.
Lemma chunks_serial s : Forall (fun x => 0 <= x < 2 ^ wbits V) s ->
  map be_decode (chunks (wbytes V) (flat_map (be_encode (wbytes V)) s)) = s.
Proof.
  pose proof (m_wpos _ _ _ M) as Hw. induction 1 as [|x s Hx Hs IH]; [reflexivity|].
  cbn [flat_map]. rewrite chunks_app by (rewrite ?be_encode_length; lia). cbn [map]. rewrite IH, be_decode_encode. f_equal.
  assert (W : 256 ^ Z.of_nat (wbytes V) = 2 ^ wbits V).
  { rewrite (m_w8 _ _ _ M). change 256 with (2 ^ 8). rewrite <- Z.pow_mul_r by lia. reflexivity. }
  rewrite W. apply Z.mod_small. exact Hx.
Qed.
Lemma extend_ok m x : bytes m -> SHA V (m ++ glue V (length m) ++ x) = extend V (SHA V m) (length m) x.
Proof.
  pose proof (bb_pos P A V M) as Hbb. fold bb in Hbb.
  intros Bm. rewrite SHA_chain. unfold extend. set (n := length (m ++ glue V (length m) ++ x)).
  assert (En : (length m + length (glue V (length m)) + length x)%nat = n) by (unfold n; rewrite !app_length; lia).
  rewrite En. f_equal. unfold padded_blocks. rewrite pad_glue. fold n. rewrite <- !app_assoc.
  rewrite app_assoc. rewrite <- pad_glue. destruct (pad_len P A V M m) as [k Hk]. fold bb in Hk |- *.
  rewrite (chunks_app_full bb (S k)) by (assumption || lia). unfold chain. rewrite fold_left_app. f_equal.
  pose proof (chain_good P A V M m Bm) as [G1 G2]. unfold chain, padded_blocks in G1, G2. fold bb in G1, G2.
  rewrite SHA_chain. unfold chain, padded_blocks, digest_part. fold bb.
  set (s := fold_left (compress V) (chunks bb (pad_with V (8 * len m) m)) (IV V)) in *. symmetry.
  rewrite firstn_all2; [apply chunks_serial; exact G2|].
  assert (HF : forall l, length (flat_map (be_encode (wbytes V)) l) = (length l * wbytes V)%nat).
  { induction l as [|y l IH]; cbn [flat_map length]; [reflexivity|]. rewrite app_length, be_encode_length, IH. lia. }
  rewrite HF, G1, D. lia.
Qed.
End Ext.

Lemma glue_bytes V n : bytes (glue V n).
Proof.
  unfold glue. rewrite !bytes_app. split; [|split].
  - apply bytesb_spec. reflexivity.
  - apply bytes_repeat. unfold byte_ok; lia.
  - apply be_encode_bytes.
Qed.
Lemma glue_len P A V : matches P A V -> forall n, len (glue V n) < 2 ^ 10.
Proof.
  intros M n. pose proof (m_wpos _ _ _ M) as Hw. pose proof (bb_pos P A V M) as Hbb. unfold glue, len. rewrite !app_length, repeat_length, be_encode_length.
  unfold zeros_needed. pose proof (Nat.mod_upper_bound (block_bytes V - (n + 1 + 2 * wbytes V) mod block_bytes V) (block_bytes V)) as U.
  unfold block_bytes in *. cbn [length]. lia.
Qed.
(** Any function from byte strings to at most 64 bytes has a collision among the 65-byte strings. *)
Lemma any_collision (g : list Z -> list Z) k : (k <= 64)%nat -> (forall m, bytes m -> bytes (g m) /\ length (g m) = k) ->
  exists m m', bytes m /\ bytes m' /\ length m = 65%nat /\ length m' = 65%nat /\ m <> m' /\ g m = g m'.
Proof.
  intros Hk Hg. set (f := fun i => le_decode (g (le_encode 65 i))). set (n := 2 ^ 520).
  assert (Hf : forall i, 0 <= f i < 2 ^ 512).
  { intros i. unfold f. destruct (Hg (le_encode 65 i) (le_encode_bytes _ _)) as [Bg Lg].
    pose proof (le_decode_range _ Bg) as R. split; [apply R|]. eapply Z.lt_le_trans; [apply R|].
    change (2 ^ 512) with (256 ^ 64). apply Z.pow_le_mono_r; [lia|]. unfold len. rewrite Lg. lia. }
  destruct (pigeon_ex f n (2 ^ 512)) as (i & j & Hi & Hj & N & E); [apply Z.leb_le; reflexivity|apply Z.ltb_lt; reflexivity|exact Hf|].
  exists (le_encode 65 i), (le_encode 65 j). repeat (split; [apply le_encode_bytes|]). rewrite !le_encode_length. split; [reflexivity|]. split; [reflexivity|].
  split.
  - intros C. apply N. apply (f_equal le_decode) in C. rewrite !le_decode_encode in C. change (256 ^ Z.of_nat 65) with n in C.
    rewrite !Z.mod_small in C by assumption. exact C.
  - unfold f in E. destruct (Hg (le_encode 65 i) (le_encode_bytes _ _)) as [B1 L1]. destruct (Hg (le_encode 65 j) (le_encode_bytes _ _)) as [B2 L2].
    rewrite <- (le_encode_decode (g (le_encode 65 i))), <- (le_encode_decode (g (le_encode 65 j))) by assumption.
    rewrite L1, L2, E. reflexivity.
Qed.
Lemma hmac_collision_exists H V : sha2 H V -> forall key, bytes key -> len key < 2 ^ 60 ->
  exists m m', bytes m /\ bytes m' /\ length m = 65%nat /\ length m' = 65%nat /\ m <> m' /\ HMAC_SHA2 V key m = HMAC_SHA2 V key m'.
Proof.
  intros S key Bk Lk. destruct (sha2_contract H V S) as [R C]. pose proof (hc_ds_range _ _ _ C).
  apply (any_collision (HMAC_SHA2 V key) (digest_bytes V)); [lia|]. intros m Bm.
  assert (Lk' : len key < 2 ^ 61) by lia.
  destruct (key_len H V S key Bk Lk') as [H1 H2]. split; [apply SHA_bytes|]. unfold HMAC_SHA2, HMAC. apply (sha_len H V S).
  apply bytes_app. split; [apply xorl_bytes; [exact H2|]; apply bytes_repeat; unfold byte_ok; lia|apply SHA_bytes].
Qed.
