(** The hash functions of sha2.rs and [Hmac] of hmac.rs after a panic of [update] that is caught: [update] again, assignment by
    assignment to [self], in the style of M_Unwind.v (there is no output buffer here; [copy_from_slice] into [self.buffer] is
    one assignment, nothing can panic between its bytes). *)
From Verif Require Import Base M_Util M_Sha2 M_Hmac M_Unwind.

Definition set_len (p : processor) (l : Z) := {| p_state := p_state p; p_buffer := p_buffer p; p_offset := p_offset p; p_len := l |}.
Definition set_buffer (p : processor) (x : list Z) := {| p_state := p_state p; p_buffer := x; p_offset := p_offset p; p_len := p_len p |}.
Definition set_offset (p : processor) (n : nat) := {| p_state := p_state p; p_buffer := p_buffer p; p_offset := n; p_len := p_len p |}.
Definition set_state (p : processor) (x : list Z) := {| p_state := x; p_buffer := p_buffer p; p_offset := p_offset p; p_len := p_len p |}.

(** sha2.rs:411-418. *)
Fixpoint u_update_loop (P : sha_params) (cs : list (list Z)) : U processor unit :=
  match cs with
  | [] => retU tt
  | c :: cs' =>
      let~ p := get_self in
      if (length c <? length (p_buffer p))%nat
      then
        let~ buf := lift (write_slice (p_buffer p) 0 c) in
        let~ _ := set_self (set_buffer p buf) in
        let~ p := get_self in
        let~ _ := set_self (set_offset p (length c)) in
        u_update_loop P cs'
      else
        let~ _ := set_self (set_state p (process P (p_state p) c)) in
        u_update_loop P cs'
  end.

(** sha2.rs:396-419 [update]. [self.len += ...] panics, when it overflows and overflow is checked, before it assigns. *)
Definition u_update (P : sha_params) (b : build) (input : list Z) : U processor unit :=
  let~ p := get_self in
  let~ l := lift (uchk b 64 (p_len p + len input)) in
  let~ _ := set_self (set_len p l) in
  let~ p := get_self in
  let~ _ := lift (assertb (p_offset p <=? length (p_buffer p))%nat) in
  let buffer_space := (length (p_buffer p) - p_offset p)%nat in
  if (0 <? p_offset p)%nat
  then
    if (length input <? buffer_space)%nat
    then
      let~ buf := lift (write_slice (p_buffer p) (p_offset p) input) in
      let~ _ := set_self (set_buffer p buf) in
      let~ p := get_self in
      set_self (set_offset p (p_offset p + length input))
    else
      let~ buf := lift (write_slice (p_buffer p) (p_offset p) (firstn buffer_space input)) in
      let~ _ := set_self (set_buffer p buf) in
      let~ p := get_self in
      let~ _ := set_self (set_offset p 0) in
      let~ p := get_self in
      let~ _ := set_self (set_state p (process P (p_state p) (p_buffer p))) in
      let~ p := get_self in
      u_update_loop P (chunks (length (p_buffer p)) (skipn buffer_space input))
  else u_update_loop P (chunks (length (p_buffer p)) input).

(** A history of [update] calls on one value, each panic caught: whether each call panicked, and the value at the end. *)
Fixpoint u_updates (P : sha_params) (b : build) (p : processor) (inputs : list (list Z)) : list bool * processor :=
  match inputs with
  | [] => ([], p)
  | i :: l =>
      let r := u_update P b i p [] in
      let (v, q) := u_updates P b (self_after r) l in
      ((match outcome r with Ok _ => false | Panic => true end) :: v, q)
  end.

(** The same for an [Hmac], hmac.rs:83-85: [update] only touches the inner hash function. *)
Definition u_hmac_updates (P : sha_params) (alg : algorithm) (b : build) (h : hmac (impl_function P alg)) (inputs : list (list Z))
  : list bool * hmac (impl_function P alg) :=
  let (v, q) := u_updates P b (inner h) inputs in
  (v, {| inner := (q : hstate (impl_function P alg)); outer := outer h |}).
