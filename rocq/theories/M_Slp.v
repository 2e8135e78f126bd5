(** A small language for the straight-line signed arithmetic of
    src/curve25519.rs and src/ed25519.rs (field and scalar limb arithmetic).

    Every [+ - *] names the width of the Rust type it is computed in and panics
    or wraps exactly as Rust does in the given build mode ([schk]); [Shl]
    discards the bits shifted out; [As] is a truncating [as iN] cast;
    [i64::from] of an [i32] is the identity on values and is left out. *)
From Coq Require Export FMapPositive.
From Verif Require Import Base.

Inductive expr :=
| V (x : positive)                  (* local variable *)
| C (n : Z)                         (* integer literal *)
| Add (w : Z) (a b : expr)          (* a + b *)
| Sub (w : Z) (a b : expr)          (* a - b *)
| Mul (w : Z) (a b : expr)          (* a * b *)
| Shr (a : expr) (k : Z)            (* a >> k, arithmetic *)
| Shl (w : Z) (a : expr) (k : Z)    (* a << k *)
| As (w : Z) (a : expr).            (* a as i<w> *)
Coercion V : positive >-> expr.

(** [let x = e;], [x = e;]; [x += e] is [Let x (Add w x e)]. *)
Inductive stmt := Let (x : positive) (e : expr).

(** [e + e1 + e2 + ...], left to right. *)
Definition sum (w : Z) (e : expr) (es : list expr) : expr := fold_left (Add w) es e.

Definition env := PositiveMap.t Z.
Definition lookup (x : positive) (s : env) : Z :=
  match PositiveMap.find x s with Some v => v | None => 0 end.

Fixpoint eval (b : build) (s : env) (e : expr) : res Z :=
  match e with
  | V x => Ok (lookup x s)
  | C n => Ok n
  | Add w e1 e2 => let! v1 := eval b s e1 in let! v2 := eval b s e2 in schk b w (v1 + v2)
  | Sub w e1 e2 => let! v1 := eval b s e1 in let! v2 := eval b s e2 in schk b w (v1 - v2)
  | Mul w e1 e2 => let! v1 := eval b s e1 in let! v2 := eval b s e2 in schk b w (v1 * v2)
  | Shr e1 k => let! v := eval b s e1 in Ok (Z.shiftr v k)
  | Shl w e1 k => let! v := eval b s e1 in Ok (swrap w (Z.shiftl v k))
  | As w e1 => let! v := eval b s e1 in Ok (swrap w v)
  end.

Fixpoint exec (b : build) (p : list stmt) (s : env) : res env :=
  match p with
  | [] => Ok s
  | Let x e :: p' => let! v := eval b s e in exec b p' (PositiveMap.add x v s)
  end.

Fixpoint evals (b : build) (s : env) (es : list expr) : res (list Z) :=
  match es with
  | [] => Ok []
  | e :: es' => let! v := eval b s e in let! vs := evals b s es' in Ok (v :: vs)
  end.

(** Bind parameters, run the body, return the listed expressions. *)
Fixpoint bind_args (xs : list positive) (vs : list Z) : env :=
  match xs, vs with
  | x :: xs', v :: vs' => PositiveMap.add x v (bind_args xs' vs')
  | _, _ => PositiveMap.empty Z
  end.
Record prog := { params : list positive; body : list stmt; outs : list expr }.
Definition run (b : build) (p : prog) (vs : list Z) : res (list Z) :=
  let! s := exec b (body p) (bind_args (params p) vs) in
  evals b s (outs p).
