(** Histories of calls to the streaming interfaces, used to state theorems. *)
From Verif Require Import Base M_Sha2 M_Hmac S_Sha2.

(** Any sequence of [HashFunction::update] calls. *)
Fixpoint hash_updates (H : HashFunction) (b : build) (s : hstate H) (inputs : list (list Z)) : res (hstate H) :=
  match inputs with
  | [] => Ok s
  | i :: r => let! s' := hupdate H b s i in hash_updates H b s' r
  end.

(** Any sequence of [Hmac::update] calls. *)
Fixpoint hmac_updates (H : HashFunction) (b : build) (h : hmac H) (inputs : list (list Z)) : res (hmac H) :=
  match inputs with
  | [] => Ok h
  | i :: r => let! h' := hmac_update H b h i in hmac_updates H b h' r
  end.

(** The four hash types of the crate and the FIPS 180-4 algorithms they are named after. *)
Inductive sha2 : HashFunction -> variant -> Prop :=
| is_sha512 : sha2 Sha512 spec_sha512
| is_sha384 : sha2 Sha384 spec_sha384
| is_sha256 : sha2 Sha256 spec_sha256
| is_sha224 : sha2 Sha224 spec_sha224.

(** [Hmac::new(key)], any sequence of updates, [tag()], dereferenced. *)
Definition hmac_tag_of (H : HashFunction) (b : build) (key : list Z) (inputs : list (list Z)) : res (list Z) :=
  let! h := hmac_new H b key in
  let! h := hmac_updates H b h inputs in
  let! t := hmac_tag H b h in
  tag_deref t.
