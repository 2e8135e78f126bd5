(** Histories of calls on a ChaCha20 [Stream], used to state theorems. *)
From Verif Require Import Base M_ChaCha20 S_ChaCha.

Inductive stream_op :=
| OpNext                                  (** [Iterator::next] *)
| OpEncrypt (input output : list Z)       (** [encrypt(input, &mut output)] *)
| OpDecrypt (input output : list Z).      (** [decrypt(input, &mut output)] *)

(** What a call makes visible: the byte returned, or the output buffer. *)
Inductive stream_out := OutByte (x : Z) | OutBuf (l : list Z).

Definition run_op (b : build) (s : stream) (o : stream_op) : res (stream_out * stream) :=
  match o with
  | OpNext => let! (x, s) := stream_next b s in Ok (OutByte x, s)
  | OpEncrypt i out => let! (l, s) := stream_encrypt b s i out in Ok (OutBuf l, s)
  | OpDecrypt i out => let! (l, s) := stream_decrypt b s i out in Ok (OutBuf l, s)
  end.

Fixpoint run_ops (b : build) (s : stream) (ops : list stream_op) : res (list stream_out * stream) :=
  match ops with
  | [] => Ok ([], s)
  | o :: ops' =>
      let! (x, s) := run_op b s o in
      let! (xs, s) := run_ops b s ops' in
      Ok (x :: xs, s)
  end.

(** Calls whose input are bytes and whose buffers have equal lengths. *)
Definition op_ok (o : stream_op) : Prop :=
  match o with
  | OpNext => True
  | OpEncrypt i out | OpDecrypt i out => bytes i /\ length i = length out
  end.

(** Keystream bytes used by a call / a history. *)
Definition op_size (o : stream_op) : Z :=
  match o with OpNext => 1 | OpEncrypt i _ | OpDecrypt i _ => len i end.
Fixpoint ops_size (ops : list stream_op) : Z :=
  match ops with [] => 0 | o :: ops' => op_size o + ops_size ops' end.

(** The expected observation of a call made at position [n] of a keystream [ks]. *)
Definition expect_op (ks : Z -> Z) (n : Z) (o : stream_op) : stream_out :=
  match o with
  | OpNext => OutByte (ks n)
  | OpEncrypt i _ | OpDecrypt i _ => OutBuf (xorl i (map (fun j => ks (n + Z.of_nat j)) (seq 0 (length i))))
  end.
Fixpoint expect_ops (ks : Z -> Z) (n : Z) (ops : list stream_op) : list stream_out :=
  match ops with
  | [] => []
  | o :: ops' => expect_op ks n o :: expect_ops ks (n + op_size o) ops'
  end.

(** The message encrypted by, and the bytes output by, a history. *)
Definition op_input (o : stream_op) : list Z :=
  match o with OpNext => [] | OpEncrypt i _ | OpDecrypt i _ => i end.
Definition out_bytes (o : stream_out) : list Z :=
  match o with OutByte x => [x] | OutBuf l => l end.
