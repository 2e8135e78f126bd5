(** Histories of calls in the leakage model, used to state theorems; the same
    histories as in Hist.v and HistStream.v. *)
From Verif Require Import Base M_Sha2 M_CtBase M_CtHash M_CtAead.

(** The four hash types of the crate: the parameters of their leakage model. *)
Inductive ct_hash : sha_params -> algorithm -> HashFunction -> Prop :=
| ct_sha512 : ct_hash P512 SHA512 Sha512
| ct_sha384 : ct_hash P512 SHA384 Sha384
| ct_sha256 : ct_hash P256 SHA256 Sha256
| ct_sha224 : ct_hash P256 SHA224 Sha224.

Section Ct.
Context {W : Type} (ops : WordOps W).
(** Any sequence of [HashFunction::update] calls, then [write_digest]. *)
Definition c_hash_history (P : sha_params) (alg : algorithm) (b : build) (inputs : list (list W)) (out : list W)
  : M (list W) :=
  let* s := c_updates ops P b (c_hdefault ops P alg) inputs in
  c_hwrite_digest ops P alg b s out.
(** [Hmac::new(key)], any sequence of updates, [tag()], dereferenced. *)
Fixpoint c_hmac_updates (P : sha_params) (b : build) (h : c_hmac (W := W)) (inputs : list (list W))
  : M (c_hmac (W := W)) :=
  match inputs with
  | [] => ret h
  | i :: r => let* h' := c_hmac_update ops P b h i in c_hmac_updates P b h' r
  end.
Definition c_hmac_tag_of (P : sha_params) (alg : algorithm) (b : build) (key : list W) (inputs : list (list W))
  : M (list W) :=
  let* h := c_hmac_new ops P alg b key in
  let* h := c_hmac_updates P b h inputs in
  let* t := c_hmac_tag ops P alg b h in
  c_tag_deref t.

(** Calls on a ChaCha20 [Stream]; [encrypt] and [decrypt] are the same function. *)
Inductive c_op := CNext | CProcess (input output : list W).
Inductive c_out := CByte (x : W) | CBuf (l : list W).
Definition c_run_op (b : build) (s : c_stream (W := W)) (o : c_op) : M (c_out * c_stream (W := W)) :=
  match o with
  | CNext => let* (x, s) := c_stream_next ops b s in ret (CByte x, s)
  | CProcess i out => let* (l, s) := c_stream_process ops b s i out in ret (CBuf l, s)
  end.
Fixpoint c_run_ops (b : build) (s : c_stream (W := W)) (l : list c_op) : M (list c_out * c_stream (W := W)) :=
  match l with
  | [] => ret ([], s)
  | o :: l' =>
      let* (x, s) := c_run_op b s o in
      let* (xs, s) := c_run_ops b s l' in
      ret (x :: xs, s)
  end.
(** [Stream::new], then any sequence of calls: what they return. *)
Definition c_stream_history (b : build) (key nonce : list W) (l : list c_op) : M (list c_out) :=
  let* s := c_stream_new ops key nonce in
  let* (xs, s) := c_run_ops b s l in
  ret xs.
End Ct.
