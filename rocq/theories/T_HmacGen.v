(** HMAC and HKDF over a hash function supplied by the user of the crate. *)
From Verif Require Import Base M_Sha2 M_Hmac M_Hkdf S_Sha2 S_Hmac Hist HistGen.
From Verif Require BaseFacts P_Sha2 P_Sha2Stream P_HmacGen.

(** ** C86
    [HashFunction] is a public trait, and [Hmac], [hmac::verify], [hkdf::extract] and [hkdf::expand] are generic in it.
    [implements H b lim hash] (HistGen.v) says that the type [H] computes the function [hash] below [lim] bytes. *)
Theorem C86_hmac : forall H b lim hash, implements H b lim hash ->
  (DIGEST_SIZE H <= 64)%nat -> (DIGEST_SIZE H <= BLOCK_SIZE H)%nat -> forall key inputs,
  bytes key -> len key < lim -> Forall bytes inputs ->
  Z.of_nat (BLOCK_SIZE H) + Z.of_nat (DIGEST_SIZE H) + len (concat inputs) < lim ->
  hmac_tag_of H b key inputs = Ok (HMAC hash (BLOCK_SIZE H) key (concat inputs)).
Proof.
  intros H b lim hash C D DB key inputs Bk Lk Bi Li. pose proof (BaseFacts.len_nonneg (concat inputs)) as N.
  rewrite (P_HmacGen.tag_of_R H b lim hash C D) by
    (try assumption; try lia; rewrite (P_HmacGen.width_rfc H b lim hash C) by auto; lia).
  now rewrite (P_HmacGen.mac_rfc H b lim hash C) by auto.
Qed.
Print Assumptions C86_hmac.

Theorem C86_verify : forall H b lim hash, implements H b lim hash ->
  (DIGEST_SIZE H <= 64)%nat -> (DIGEST_SIZE H <= BLOCK_SIZE H)%nat -> forall key msg tg,
  bytes key -> len key < lim -> bytes msg ->
  Z.of_nat (BLOCK_SIZE H) + Z.of_nat (DIGEST_SIZE H) + len msg < lim ->
  hmac_verify H b key msg tg = Ok true /\ tg = HMAC hash (BLOCK_SIZE H) key msg \/
  hmac_verify H b key msg tg = Ok false /\ tg <> HMAC hash (BLOCK_SIZE H) key msg.
Proof.
  intros H b lim hash C D DB key msg tg Bk Lk Bi Li. pose proof (BaseFacts.len_nonneg msg) as N.
  destruct (P_HmacGen.verify_R H b lim hash C D) with (key := key) (msg := msg) (tg := tg) as (v & -> & Hv);
    try assumption; try lia.
  { rewrite (P_HmacGen.width_rfc H b lim hash C) by auto. lia. }
  rewrite (P_HmacGen.mac_rfc H b lim hash C) in Hv by auto. destruct v.
  - left. split; [reflexivity|]. now apply Hv.
  - right. split; [reflexivity|]. intros E. apply Hv in E. discriminate E.
Qed.
Print Assumptions C86_verify.

Theorem C86_extract : forall H b lim hash, implements H b lim hash ->
  (DIGEST_SIZE H <= 64)%nat -> (DIGEST_SIZE H <= BLOCK_SIZE H)%nat -> forall salt ikm prk,
  bytes salt -> len salt < lim -> bytes ikm ->
  Z.of_nat (BLOCK_SIZE H) + Z.of_nat (DIGEST_SIZE H) + len ikm < lim ->
  extract H b salt ikm prk =
    if (length prk =? DIGEST_SIZE H)%nat then Ok (HKDF_Extract hash (BLOCK_SIZE H) salt ikm) else Panic.
Proof.
  intros H b lim hash C D DB salt ikm prk Bk Lk Bi Li. pose proof (BaseFacts.len_nonneg ikm) as N.
  rewrite (P_HmacGen.extract_R H b lim hash C D) by
    (try assumption; try lia; rewrite (P_HmacGen.width_rfc H b lim hash C) by auto; lia).
  unfold HKDF_Extract. now rewrite (P_HmacGen.mac_rfc H b lim hash C) by auto.
Qed.
Print Assumptions C86_extract.

(** The limit in checked builds is that of C11. *)
Theorem C86_expand : forall H b lim hash, implements H b lim hash ->
  (0 < DIGEST_SIZE H <= 64)%nat -> (DIGEST_SIZE H <= BLOCK_SIZE H)%nat -> forall prk info okm,
  bytes prk -> len prk < lim -> bytes info ->
  Z.of_nat (BLOCK_SIZE H) + Z.of_nat (DIGEST_SIZE H) + len info + 1 < lim ->
  expand H b prk info okm =
    if (DIGEST_SIZE H <=? length prk)%nat && (length okm <=? 255 * DIGEST_SIZE H)%nat
       && (match b with Checked => (length okm <? 254 * DIGEST_SIZE H)%nat | Unchecked => true end)
    then Ok (HKDF_Expand hash (BLOCK_SIZE H) (DIGEST_SIZE H) prk info (length okm)) else Panic.
Proof.
  intros H b lim hash C D DB prk info okm Bk Lk Bi Li. pose proof (BaseFacts.len_nonneg info) as N.
  apply (P_HmacGen.expand_R H b lim hash C); try assumption; try (left; assumption); try lia.
  rewrite (P_HmacGen.width_rfc H b lim hash C) by (try assumption; try (left; assumption); lia). lia.
Qed.
Print Assumptions C86_expand.

(** A hash whose digest is longer than its block: keys of at most a block are as in RFC 2104; for a longer key the hashed key is
    used whole, as if the block were one digest long. *)
Theorem C86_digest_over_block : forall H b lim hash, implements H b lim hash ->
  (BLOCK_SIZE H < DIGEST_SIZE H <= 64)%nat -> forall key inputs, bytes key -> len key < lim -> Forall bytes inputs ->
  2 * Z.of_nat (DIGEST_SIZE H) + len (concat inputs) < lim ->
  hmac_tag_of H b key inputs =
    Ok (if (length key <=? BLOCK_SIZE H)%nat then HMAC hash (BLOCK_SIZE H) key (concat inputs)
        else HMAC hash (DIGEST_SIZE H) (hash key) (concat inputs)).
Proof.
  intros H b lim hash C D key inputs Bk Lk Bi Li. pose proof (BaseFacts.len_nonneg (concat inputs)) as N.
  pose proof (P_HmacGen.width_le H b lim hash C key Bk) as W.
  rewrite (P_HmacGen.tag_of_R H b lim hash C) by (try assumption; lia).
  destruct (Nat.leb_spec (length key) (BLOCK_SIZE H)).
  - now rewrite (P_HmacGen.mac_rfc H b lim hash C) by (try assumption; try (right; assumption); lia).
  - rewrite (P_HmacGen.mac_wide H b lim hash C) by (try assumption; lia). reflexivity.
Qed.
Print Assumptions C86_digest_over_block.

(** A digest of more than 64 bytes does not fit [Tag]: no tag is ever produced, whatever the type does. *)
Theorem C86_digest_over_64 : forall H b, (64 < DIGEST_SIZE H)%nat ->
  (forall key inputs, hmac_tag_of H b key inputs = Panic) /\
  (forall key msg tg, hmac_verify H b key msg tg = Panic) /\
  (forall salt ikm prk, extract H b salt ikm prk = Panic) /\
  (forall prk info okm, okm <> [] -> expand H b prk info okm = Panic).
Proof.
  intros H b D. repeat split; intros; [now apply P_HmacGen.tag_of_big|now apply P_HmacGen.verify_big|
    now apply P_HmacGen.extract_big|now apply P_HmacGen.expand_big].
Qed.
Print Assumptions C86_digest_over_64.
(** With an empty digest [expand] always panics. *)
Theorem C86_empty_digest : forall H b, DIGEST_SIZE H = 0%nat -> forall prk info okm, expand H b prk info okm = Panic.
Proof. intros H b D prk info okm. now apply P_HmacGen.expand_zero. Qed.
Print Assumptions C86_empty_digest.

(** The four types of the crate implement SHA-2 below 2^61 bytes. *)
Theorem C86_sha2_implements : forall H V, sha2 H V -> forall b, implements H b (2 ^ 61) (SHA V).
Proof.
  intros H V HV b. split.
  - intros inputs Bi Li.
    destruct (P_Sha2Stream.sha2_contract H V HV) as (R & C).
    destruct (P_Sha2Stream.hc_updates H V R C b inputs (hdefault H) [] (P_Sha2Stream.hc_default H V R C) Bi) as (s & E & Rs).
    { right. rewrite BaseFacts.len_nil. lia. }
    exists s. split; [exact E|]. intros out Ho. cbn [app] in Rs.
    rewrite (P_Sha2Stream.hc_write H V R C b s _ out Rs) by (right; exact Li).
    rewrite Ho, (P_Sha2Stream.hc_ds H V R C), Nat.eqb_refl. now rewrite P_Sha2Stream.SHA_eq.
  - intros m Bm. destruct (P_Sha2Stream.sha2_contract H V HV) as (R & C). rewrite (P_Sha2Stream.hc_ds H V R C).
    split; [apply (P_Sha2Stream.hc_length H V R C); exact Bm|apply P_Sha2Stream.SHA_bytes].
Qed.
Print Assumptions C86_sha2_implements.

(** A type of a user: two bytes of digest, blocks of four, the message is kept and summed with weights at the end. *)
Definition toy (m : list Z) : list Z :=
  [(len m + fold_right Z.add 0 m) mod 256; (fold_right (fun x a => 3 * a + x) 7 m) mod 256].
Definition Toy : HashFunction := {|
  hstate := list Z; DIGEST_SIZE := 2; BLOCK_SIZE := 4; hdefault := [];
  hupdate := fun _ s x => Ok (s ++ x);
  hwrite_digest := fun _ s out => if (length out =? 2)%nat then Ok (toy s) else Panic |}.
Example C86_ex : (forall b lim, implements Toy b lim toy) /\
  hmac_tag_of Toy Checked [1; 2; 3; 4; 5] [[10]; []; [20; 30]] = Ok (HMAC toy 4 [1; 2; 3; 4; 5] [10; 20; 30]) /\
  hmac_tag_of Toy Checked [1; 2; 3; 4; 5] [[10]; []; [20; 30]] = Ok [126; 81] /\
  expand Toy Checked [9; 9; 9] [1] (repeat 0 5) = Ok (HKDF_Expand toy 4 2 [9; 9; 9] [1] 5).
Proof.
  assert (U : forall b inputs s, hash_updates Toy b s inputs = Ok (s ++ concat inputs)).
  { intros b. induction inputs as [|i l IH]; intros s; cbn [hash_updates concat].
    - now rewrite app_nil_r.
    - cbn [hupdate Toy bind]. rewrite IH. now rewrite app_assoc. }
  assert (I : forall b lim, implements Toy b lim toy).
  { intros b lim. split.
    - intros inputs _ _. exists (concat inputs). split; [exact (U b inputs [])|]. intros out Ho. cbn [hwrite_digest Toy].
      cbn [DIGEST_SIZE Toy] in Ho. now rewrite Ho.
    - intros m _. split; [reflexivity|]. repeat constructor; apply Z.mod_pos_bound; lia. }
  split; [exact I|]. split; [vm_compute; reflexivity|]. split; vm_compute; reflexivity.
Qed.
