(** Model of src/hmac.rs. *)
From Verif Require Import Base M_Util M_Sha2.

(** hmac.rs:22-25 [Hmac<H>]. *)
Record hmac (H : HashFunction) := { inner : hstate H; outer : hstate H }.
Arguments inner {H}.
Arguments outer {H}.

(** hmac.rs:28-31 [Tag]. *)
Record tag := { t_buffer : list Z; t_size : nat }.

(** hmac.rs:124-136 [Deref] and [AsRef] for [Tag]: [&self.buffer[..self.size]]. *)
Definition tag_deref (t : tag) : res (list Z) := slice (t_buffer t) 0 (t_size t).

Section Hmac.
Variable H : HashFunction.

(** hmac.rs:106-111: feeding bytes one at a time. *)
Fixpoint update_each (b : build) (s : hstate H) (l : list Z) : res (hstate H) :=
  match l with
  | [] => Ok s
  | x :: l' => let! s' := hupdate H b s [x] in update_each b s' l'
  end.

(** hmac.rs:104-113 [keyed_hash_function].  The range [key.len()..BLOCK_SIZE]
    is empty when the key is not shorter. *)
Definition keyed_hash_function (b : build) (key : list Z) (pad : Z) : res (hstate H) :=
  let! s := update_each b (hdefault H) (map (fun x => Z.lxor x pad) key) in
  update_each b s (repeat pad (BLOCK_SIZE H - length key)).

(** hmac.rs:65-80 [new].  [hashed_key[..DIGEST_SIZE]] panics when
    [DIGEST_SIZE > 64]. *)
Definition hmac_new (b : build) (key : list Z) : res (hmac H) :=
  let! new_key :=
    if (BLOCK_SIZE H <? length key)%nat
    then
      let! out := slice (repeat 0 MAX_DIGEST_SIZE) 0 (DIGEST_SIZE H) in
      let! s := hupdate H b (hdefault H) key in
      hwrite_digest H b s out
    else Ok key in
  let! i := keyed_hash_function b new_key 0x36 in
  let! o := keyed_hash_function b new_key 0x5c in
  Ok {| inner := i; outer := o |}.

(** hmac.rs:83-85 [update]. *)
Definition hmac_update (b : build) (h : hmac H) (input : list Z) : res (hmac H) :=
  let! i := hupdate H b (inner h) input in
  Ok {| inner := i; outer := outer h |}.

(** hmac.rs:97-102 [write_tag]. *)
Definition write_tag (b : build) (h : hmac H) (output : list Z) : res (list Z) :=
  let! _ := assertb (DIGEST_SIZE H =? length output)%nat in
  let! output := hwrite_digest H b (inner h) output in
  let! o := hupdate H b (outer h) output in
  hwrite_digest H b o output.

(** hmac.rs:88-95 [tag]. *)
Definition hmac_tag (b : build) (h : hmac H) : res tag :=
  let buffer := repeat 0 MAX_DIGEST_SIZE in
  let! out := slice buffer 0 (DIGEST_SIZE H) in
  let! out := write_tag b h out in
  let! buffer := write_slice buffer 0 out in
  Ok {| t_buffer := buffer; t_size := DIGEST_SIZE H |}.

(** hmac.rs:33-41 [impl_wrapper!]. *)
Definition hmac_wrapper (b : build) (key message : list Z) : res (list Z) :=
  let! h := hmac_new b key in
  let! h := hmac_update b h message in
  write_tag b h (repeat 0 (DIGEST_SIZE H)).

(** hmac.rs:117-122 [verify]. *)
Definition hmac_verify (b : build) (key message tg : list Z) : res bool :=
  let! h := hmac_new b key in
  let! h := hmac_update b h message in
  let! t := hmac_tag b h in
  let! expected := tag_deref t in
  if (length expected =? length tg)%nat
  then let! d := verify_inner expected tg in Ok (d =? 0)
  else Ok false.

End Hmac.

(** hmac.rs:44-61. *)
Definition hmac_sha512 := hmac_wrapper Sha512.
Definition hmac_sha384 := hmac_wrapper Sha384.
Definition hmac_sha256 := hmac_wrapper Sha256.
Definition hmac_sha224 := hmac_wrapper Sha224.
