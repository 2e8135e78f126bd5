(** Vocabulary of the theorems about panics that are caught. *)
From Verif Require Import Base M_ChaCha20 HistStream M_Unwind.

(** The buffer after a sequence of stores. *)
Definition store (out : list Z) (w : list (nat * Z)) : list Z :=
  fold_left (fun o iv => upd o (fst iv) (snd iv)) w out.
(** What the buffer can hold at some moment of a run: the call may be stopped between any two stores. *)
Definition moment {S A} (r : run S A) (out buf : list Z) : Prop :=
  exists k, buf = store out (firstn k (writes r)).

(** ** Histories of a stream whose user catches panics and goes on. *)
Inductive seen :=
| Returned (o : stream_out)
| Panicked (buf : list Z).     (* contents of the output buffer then; [] for [next] *)

Definition u_run_op (b : build) (s : stream) (o : stream_op) : seen * stream :=
  match o with
  | OpNext =>
      let r := u_next b s [] in
      (match outcome r with Ok x => Returned (OutByte x) | Panic => Panicked [] end, self_after r)
  | OpEncrypt i out | OpDecrypt i out =>
      let r := u_process b i s out in
      (match outcome r with Ok _ => Returned (OutBuf (out_after r)) | Panic => Panicked (out_after r) end, self_after r)
  end.
Fixpoint u_run_ops (b : build) (s : stream) (ops : list stream_op) : list seen :=
  match ops with
  | [] => []
  | o :: ops' => let (x, s) := u_run_op b s o in x :: u_run_ops b s ops'
  end.

(** What should be seen: the keystream [ks] ends at [limit]; position [n] is the
    next byte.  A call takes bytes from the keystream as long as there are any. *)
Definition expect_seen (ks : Z -> Z) (limit n : Z) (o : stream_op) : seen * Z :=
  match o with
  | OpNext => if n <? limit then (Returned (OutByte (ks n)), n + 1) else (Panicked [], n)
  | OpEncrypt i out | OpDecrypt i out =>
      let all := xorl i (map (fun j => ks (n + Z.of_nat j)) (seq 0 (length i))) in
      let m := Z.to_nat (limit - n) in
      if negb (length i =? length out)%nat then (Panicked out, n)
      else if n + len i <=? limit then (Returned (OutBuf all), n + len i)
      else (Panicked (firstn m all ++ skipn m out), limit)
  end.
Fixpoint expect_seens (ks : Z -> Z) (limit n : Z) (ops : list stream_op) : list seen :=
  match ops with
  | [] => []
  | o :: ops' => let (x, n) := expect_seen ks limit n o in x :: expect_seens ks limit n ops'
  end.
