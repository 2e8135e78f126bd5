(** Property theorems C62-C64: collisions of SHA-2, HMAC and HKDF; length extension. *)
From Verif Require Import Base M_Sha2 M_Hmac M_Hkdf S_Sha2 S_Hmac S_Md Hist.
From Verif Require P_Sha2 P_Sha2Stream P_Hmac P_Md P_Md2 T_Hash BaseFacts.

(** ** C62: SHA-512 and SHA-256, whose digest is the whole chaining value *)
Theorem C62_collision_in_compression : forall H V, (H, V) = (Sha512, spec_sha512) \/ (H, V) = (Sha256, spec_sha256) ->
  forall b b' msg msg' d, bytes msg -> bytes msg' -> len msg < 2 ^ 61 -> len msg' < 2 ^ 61 ->
  hash_wrapper H b msg = Ok d -> hash_wrapper H b' msg' = Ok d -> msg <> msg' ->
  collide V (padded_blocks V msg) (padded_blocks V msg').
Proof.
  intros H V HV b b' msg msg' d B1 B2 L1 L2 E1 E2 N.
  assert (S : sha2 H V) by (destruct HV as [E|E]; injection E as -> ->; constructor).
  rewrite (T_Hash.C02_sha2_oneshot H V S) in E1, E2 by assumption. injection E1 as E1. injection E2 as E2.
  destruct (P_Sha2Stream.sha2_matches H V S) as (P & A & _ & M).
  apply (P_Md.md_whole P A V M); try assumption; [|congruence].
  destruct HV as [E|E]; injection E as _ ->; reflexivity.
Qed.
Print Assumptions C62_collision_in_compression.
(** All four: or the last compressions give different results that agree on the part kept as the digest. *)
Theorem C62_collision_all_variants : forall H V, sha2 H V ->
  forall b b' msg msg' d, bytes msg -> bytes msg' -> len msg < 2 ^ 61 -> len msg' < 2 ^ 61 ->
  hash_wrapper H b msg = Ok d -> hash_wrapper H b' msg' = Ok d -> msg <> msg' ->
  collide V (padded_blocks V msg) (padded_blocks V msg') \/
  exists pre B pre' B', padded_blocks V msg = pre ++ [B] /\ padded_blocks V msg' = pre' ++ [B'] /\
    compress V (chain V pre) B <> compress V (chain V pre') B' /\
    digest_part V (compress V (chain V pre) B) = digest_part V (compress V (chain V pre') B').
Proof.
  intros H V S b b' msg msg' d B1 B2 L1 L2 E1 E2 N.
  rewrite (T_Hash.C02_sha2_oneshot H V S) in E1, E2 by assumption. injection E1 as E1. injection E2 as E2.
  destruct (P_Sha2Stream.sha2_matches H V S) as (P & A & _ & M).
  apply (P_Md.md P A V M); try assumption. congruence.
Qed.
Print Assumptions C62_collision_all_variants.
(** The hypotheses are met: two messages with one digest exist (by counting; none is known). *)
Example C62_ex : forall H V, sha2 H V -> exists m m' d, bytes m /\ bytes m' /\ len m < 2 ^ 61 /\ len m' < 2 ^ 61 /\ m <> m' /\
  forall b, hash_wrapper H b m = Ok d /\ hash_wrapper H b m' = Ok d.
Proof.
  intros H V S. destruct (P_Sha2Stream.sha2_matches H V S) as (P & A & _ & M).
  destruct (P_Md.collision_exists P A V M) as (m & m' & B1 & B2 & L1 & L2 & N & E).
  assert (G1 : len m < 2 ^ 61) by (unfold len; rewrite L1; reflexivity). assert (G2 : len m' < 2 ^ 61) by (unfold len; rewrite L2; reflexivity).
  exists m, m', (SHA V m). repeat (split; [assumption|]). intros b. split; [|rewrite E]; apply (T_Hash.C02_sha2_oneshot H V S); assumption.
Qed.

(** ** C63 *)
(** [x] and [x'] are different and the hash function gives both the same digest. *)
Definition hash_collision (H : HashFunction) (x x' : list Z) : Prop :=
  x <> x' /\ exists d, forall b, hash_wrapper H b x = Ok d /\ hash_wrapper H b x' = Ok d.

Lemma to_collision H V : sha2 H V -> forall x x', bytes x -> bytes x' -> len x < 2 ^ 61 -> len x' < 2 ^ 61 ->
  x <> x' /\ SHA V x = SHA V x' -> hash_collision H x x'.
Proof.
  intros S x x' B1 B2 L1 L2 [N E]. split; [exact N|]. exists (SHA V x).
  intros b. split; [|rewrite E]; apply (T_Hash.C02_sha2_oneshot H V S); assumption.
Qed.
(** Equal tags for two different (key, message) pairs, the keys of one length, come with a collision of the hash among the strings
    HMAC hashes.  (Keys of different lengths can be equivalent: C08.) *)
Theorem C63_hmac_collision : forall H V, sha2 H V -> forall b b' key key' msg msg' t,
  bytes key -> len key < 2 ^ 61 -> bytes key' -> length key = length key' ->
  bytes msg -> Z.of_nat (BLOCK_SIZE H) + len msg < 2 ^ 61 -> bytes msg' -> Z.of_nat (BLOCK_SIZE H) + len msg' < 2 ^ 61 ->
  (key, msg) <> (key', msg') -> hmac_wrapper H b key msg = Ok t -> hmac_wrapper H b' key' msg' = Ok t ->
  hash_collision H key key' \/
  hash_collision H (inner_input V key msg) (inner_input V key' msg') \/
  hash_collision H (outer_input V key msg) (outer_input V key' msg').
Proof.
  intros H V S b b' key key' msg msg' t Bk Lk Bk' L Bm Lm Bm' Lm' N E1 E2.
  assert (Lk' : len key' < 2 ^ 61) by (unfold len in *; lia).
  rewrite (T_Hash.C06_hmac_wrappers H V S) in E1, E2 by assumption. injection E1 as E1. injection E2 as E2.
  rewrite (P_Hmac.block_size_eq H V S) in Lm, Lm'.
  destruct (P_Md2.inner_ok H V S key msg Bk Lk Bm Lm) as [Bi Li]. destruct (P_Md2.inner_ok H V S key' msg' Bk' Lk' Bm' Lm') as [Bi' Li'].
  destruct (P_Md2.outer_ok H V S key msg Bk Lk Bm Lm) as [Bo Lo]. destruct (P_Md2.outer_ok H V S key' msg' Bk' Lk' Bm' Lm') as [Bo' Lo'].
  destruct (P_Md2.hmac_collide H V S key key' msg msg' Bk Lk Bk' Lk' L N) as [C|[C|C] ]; [congruence|left|right; left|right; right];
    apply (to_collision H V S); assumption.
Qed.
Print Assumptions C63_hmac_collision.
(** HKDF-Expand: outputs of at least one digest that agree on the first digest, for different (prk, info). *)
Theorem C63_hkdf_collision : forall H V, sha2 H V -> forall b b' prk prk' info info' okm okm' out out',
  bytes prk -> len prk < 2 ^ 61 -> bytes prk' -> length prk = length prk' ->
  bytes info -> len info < 2 ^ 60 -> bytes info' -> len info' < 2 ^ 60 ->
  (DIGEST_SIZE H <= length okm)%nat -> (DIGEST_SIZE H <= length okm')%nat ->
  (prk, info) <> (prk', info') -> expand H b prk info okm = Ok out -> expand H b' prk' info' okm' = Ok out' ->
  firstn (DIGEST_SIZE H) out = firstn (DIGEST_SIZE H) out' ->
  hash_collision H prk prk' \/
  hash_collision H (inner_input V prk (info ++ [1])) (inner_input V prk' (info' ++ [1])) \/
  hash_collision H (outer_input V prk (info ++ [1])) (outer_input V prk' (info' ++ [1])).
Proof.
  intros H V S b b' prk prk' info info' okm okm' out out' Bp Lp Bp' L Bi Li Bi' Li' G G' N E1 E2 E.
  assert (Lp' : len prk' < 2 ^ 61) by (unfold len in *; lia).
  destruct (P_Sha2Stream.sha2_contract H V S) as [R C].
  pose proof (P_Sha2Stream.hc_ds _ _ _ C) as Hd. pose proof (P_Sha2Stream.hc_bs _ _ _ C) as Hb.
  pose proof (P_Sha2Stream.hc_ds_range _ _ _ C) as Hr. pose proof (P_Sha2Stream.hc_block _ _ _ C) as Hbl.
  assert (B1 : forall i, bytes i -> bytes (i ++ [1])).
  { intros i Hi. apply BaseFacts.bytes_app. split; [exact Hi|]. apply BaseFacts.bytesb_spec. reflexivity. }
  assert (L1 : forall i, len i < 2 ^ 60 -> Z.of_nat (BLOCK_SIZE H) + len (i ++ [1]) < 2 ^ 61).
  { intros i Hi. rewrite BaseFacts.len_app, Hb. change (len [1]) with 1. lia. }
  assert (T1 : forall b prk info okm out, bytes prk -> len prk < 2 ^ 61 -> bytes info -> len info < 2 ^ 60 ->
    (DIGEST_SIZE H <= length okm)%nat -> expand H b prk info okm = Ok out ->
    hmac_wrapper H Checked prk (info ++ [1]) = Ok (firstn (DIGEST_SIZE H) out)).
  { clear - S C Hd Hr B1 L1. intros b prk info okm out Bp Lp Bi Li G E.
    rewrite (T_Hash.C06_hmac_wrappers H V S) by (assumption || (apply B1; assumption) || (apply L1; assumption)).
    pose proof (T_Hash.C12_hkdf_prefix H V S b prk info okm (repeat 0 (DIGEST_SIZE H)) out Bp Lp Bi Li) as X.
    rewrite repeat_length in X. specialize (X G E).
    assert (Y : expand H Unchecked prk info (repeat 0 (DIGEST_SIZE H)) = Ok (firstn (DIGEST_SIZE H) out)).
    { destruct b; [|exact X]. pose proof (P_Hmac.hkdf_expand_checked H V S prk info (repeat 0 (DIGEST_SIZE H)) Bp Lp Bi Li) as Z1.
      rewrite repeat_length in Z1.
      destruct (le_lt_dec (DIGEST_SIZE H) (length prk)) as [Hp|Hp].
      - destruct (Z1 Hp) as [Z2 _]. rewrite Z2 in X by lia. rewrite <- X.
        rewrite (T_Hash.C10_hkdf_expand_unchecked H V S) by assumption. rewrite repeat_length.
        rewrite (proj2 (Nat.leb_le _ _) Hp). rewrite (proj2 (Nat.leb_le (DIGEST_SIZE H) (255 * DIGEST_SIZE H))) by lia. reflexivity.
      - exfalso. unfold expand in X. rewrite (proj2 (Nat.leb_gt _ _)) in X by exact Hp. discriminate X. }
    rewrite (T_Hash.C10_hkdf_expand_unchecked H V S) in Y by assumption. rewrite repeat_length in Y.
    destruct (DIGEST_SIZE H <=? length prk)%nat; [|discriminate Y].
    rewrite (proj2 (Nat.leb_le (DIGEST_SIZE H) (255 * DIGEST_SIZE H))) in Y by lia. cbn [andb] in Y. injection Y as Y. rewrite <- Y. f_equal.
    unfold HKDF_Expand_SHA2, HKDF_Expand. rewrite Hd in *.
    replace ((digest_bytes V + digest_bytes V - 1) / digest_bytes V)%nat with 1%nat
      by (apply (Nat.div_unique _ _ 1 (digest_bytes V - 1)); lia).
    cbn [seq map concat HKDF_T app]. rewrite app_nil_r. change (Z.of_nat 1) with 1.
    unfold HMAC_SHA2. symmetry. apply firstn_all2.
    unfold HMAC. rewrite (P_Md2.sha_len H V S); [lia|].
    apply (P_Md2.outer_ok H V S prk (info ++ [1]) Bp Lp (B1 _ Bi)). specialize (L1 _ Li). rewrite (P_Hmac.block_size_eq H V S) in L1. exact L1. }
  apply (C63_hmac_collision H V S Checked Checked prk prk' (info ++ [1]) (info' ++ [1]) (firstn (DIGEST_SIZE H) out)); try assumption;
    try (apply B1; assumption); try (apply L1; assumption).
  - intros X. apply N. injection X as -> X. apply app_inj_tail in X. destruct X as [-> _]. reflexivity.
  - now apply (T1 b prk info okm out).
  - rewrite E. now apply (T1 b' prk' info' okm' out').
Qed.
Print Assumptions C63_hkdf_collision.
(** The hypotheses are met: two messages with one tag under one key exist (by counting; none is known). *)
Example C63_ex : forall H V, sha2 H V -> exists msg msg', bytes msg /\ bytes msg' /\ length msg = 65%nat /\ length msg' = 65%nat /\
  msg <> msg' /\ forall b, exists t, hmac_wrapper H b [1] msg = Ok t /\ hmac_wrapper H b [1] msg' = Ok t.
Proof.
  intros H V S. destruct (P_Md2.hmac_collision_exists H V S [1]) as (m & m' & B1 & B2 & L1 & L2 & N & E);
    [apply BaseFacts.bytesb_spec; reflexivity|reflexivity|].
  destruct (P_Sha2Stream.sha2_contract H V S) as [R C]. pose proof (P_Sha2Stream.hc_block _ _ _ C) as Hbl.
  exists m, m'. repeat (split; [assumption|]). intros b. exists (HMAC_SHA2 V [1] m).
  assert (Bk : bytes [1]) by (apply BaseFacts.bytesb_spec; reflexivity).
  split; [|rewrite E]; apply (T_Hash.C06_hmac_wrappers H V S); try assumption; try reflexivity;
    rewrite (P_Hmac.block_size_eq H V S); unfold len; rewrite ?L1, ?L2; lia.
Qed.

(** ** C64 *)
(** From the digest and the length of an unknown message anyone can compute the digest of an extension of it: neither SHA-512 nor SHA-256 of
    secret ++ message is a MAC. *)
Theorem C64_length_extension : forall H V, (H, V) = (Sha512, spec_sha512) \/ (H, V) = (Sha256, spec_sha256) ->
  forall b b' msg x d, bytes msg -> bytes x -> len msg + len x < 2 ^ 61 - 2 ^ 10 ->
  hash_wrapper H b msg = Ok d ->
  hash_wrapper H b' (msg ++ glue V (length msg) ++ x) = Ok (extend V d (length msg) x).
Proof.
  intros H V HV b b' msg x d B1 B2 L2 E. assert (L1 : len msg < 2 ^ 61) by (unfold len in *; lia).
  assert (S : sha2 H V) by (destruct HV as [E'|E']; injection E' as -> ->; constructor).
  rewrite (T_Hash.C02_sha2_oneshot H V S) in E by (try assumption; lia). injection E as <-.
  destruct (P_Sha2Stream.sha2_matches H V S) as (P & A & _ & M).
  rewrite (T_Hash.C02_sha2_oneshot H V S).
  - f_equal. apply (P_Md2.extend_ok P A V M); [|assumption]. destruct HV as [E'|E']; injection E' as _ ->; reflexivity.
  - rewrite !BaseFacts.bytes_app. repeat split; try assumption. apply P_Md2.glue_bytes.
  - rewrite !BaseFacts.len_app. pose proof (P_Md2.glue_len P A V M (length msg)). lia.
Qed.
Print Assumptions C64_length_extension.
(** SHA-256("abc" ++ padding ++ "x") from SHA-256("abc"). *)
Goal extend spec_sha256 (SHA spec_sha256 [97; 98; 99]) 3 [120] = SHA spec_sha256 ([97; 98; 99] ++ glue spec_sha256 3 ++ [120]).
Proof. vm_compute. reflexivity. Abort.
Example C64_ex : bytes [97; 98; 99] /\ len [97; 98; 99] + len [120] < 2 ^ 61 - 2 ^ 10 /\ length (glue spec_sha256 3) = 61%nat.
Proof. split; [apply BaseFacts.bytesb_spec; reflexivity|]. split; reflexivity. Qed.
