(** What a call has done when it panics, or when it is stopped half way.

    The files M_*.v return [Panic] and forget what happened before.  Here the
    functions that write to a caller's buffer, or that change a [&mut self]
    which stays usable after a panic (caught by [catch_unwind], or in another
    thread), are transcribed again; a run keeps the writes made to the output
    buffer in program order, and the contents of the buffer and of [self] when
    the call returned or panicked.  Functions without such effects
    ([chacha_new], [hmac_tag], ...) are those of M_*.v, brought in by [lift].
    [copy_from_slice] and [write_uNN_into] are taken to write left to right. *)
From Verif Require Import Base M_Util M_Sha2 M_Hmac M_ChaCha20 M_Poly1305 M_Aes M_Ghash M_Gcm.

Record run (S A : Type) := mkRun {
  writes : list (nat * Z);    (* (index, byte) stored into the output buffer, in order *)
  self_after : S;
  out_after : list Z;
  outcome : res A }.
Arguments mkRun {S A}.
Arguments writes {S A}.
Arguments self_after {S A}.
Arguments out_after {S A}.
Arguments outcome {S A}.

Definition U (S A : Type) : Type := S -> list Z -> run S A.
Definition retU {S A} (a : A) : U S A := fun s o => mkRun [] s o (Ok a).
Definition bindU {S A B} (m : U S A) (k : A -> U S B) : U S B := fun s o =>
  let r := m s o in
  match outcome r with
  | Ok a =>
      let r' := k a (self_after r) (out_after r) in
      mkRun (writes r ++ writes r') (self_after r') (out_after r') (outcome r')
  | Panic => mkRun (writes r) (self_after r) (out_after r) Panic
  end.
Notation "'let~' x := e 'in' k" := (bindU e (fun x => k))
  (at level 200, x pattern, e at level 100, k at level 200, right associativity).
(** A computation without effects. *)
Definition lift {S A} (r : res A) : U S A := fun s o => mkRun [] s o r.
Definition get_self {S} : U S S := fun s o => mkRun [] s o (Ok s).
Definition set_self {S} (s : S) : U S unit := fun _ o => mkRun [] s o (Ok tt).
Definition get_out {S} : U S (list Z) := fun s o => mkRun [] s o (Ok o).
(** [output[i] = v]. *)
Definition put {S} (i : nat) (v : Z) : U S unit := fun s o =>
  if (i <? length o)%nat then mkRun [(i, v)] s (upd o i v) (Ok tt) else mkRun [] s o Panic.
(** [output[off..off + l.len()].copy_from_slice(l)]. *)
Fixpoint put_all {S} (off : nat) (l : list Z) : U S unit :=
  match l with
  | [] => retU tt
  | v :: l' => let~ _ := put off v in put_all (1 + off) l'
  end.

(** * src/chacha20.rs *)

(** chacha20.rs:65-74 [next], assignment by assignment. *)
Definition u_next (b : build) : U stream Z :=
  let~ s := get_self in
  let~ _ :=
    if (st_index s =? 64)%nat
    then
      let~ c := lift (uchk b 32 (st_counter s + 1)) in
      let~ _ := set_self {| st_chacha := st_chacha s; st_counter := c; st_block := st_block s; st_index := st_index s |} in
      let~ s := get_self in
      let~ _ := set_self {| st_chacha := st_chacha s; st_counter := st_counter s;
                            st_block := chacha_block (st_chacha s) (st_counter s); st_index := st_index s |} in
      let~ s := get_self in
      set_self {| st_chacha := st_chacha s; st_counter := st_counter s; st_block := st_block s; st_index := 0 |}
    else retU tt in
  let~ s := get_self in
  let~ _ := lift (assertb (st_index s <? length (st_block s))%nat) in
  let byte := get (st_block s) (st_index s) in
  let~ _ := set_self {| st_chacha := st_chacha s; st_counter := st_counter s; st_block := st_block s;
                        st_index := S (st_index s) |} in
  retU byte.

(** chacha20.rs:56-58: the loop; [n] slots of the output are left, the next one is [i]. *)
Fixpoint u_process_loop (b : build) (i n : nat) (input : list Z) : U stream unit :=
  match n, input with
  | S n', z :: input' =>
      let~ y := u_next b in
      let~ _ := put i (Z.lxor y z) in
      u_process_loop b (1 + i) n' input'
  | _, _ => retU tt
  end.
(** chacha20.rs:41-59 [encrypt], [decrypt], [process]. *)
Definition u_process (b : build) (input : list Z) : U stream unit :=
  let~ output := get_out in
  let~ _ := lift (assertb (length input =? length output)%nat) in
  u_process_loop b 0 (length output) input.

(** * src/poly1305.rs and src/gcm.rs; [self] is not mutable. *)

(** poly1305.rs:68-72 (= gcm.rs:93-97): [n] is the length of the output chunk, which starts at [off]. *)
Fixpoint u_xor_chunk (off n : nat) (block input_chunk : list Z) : U unit unit :=
  match block, input_chunk, n with
  | y :: block', z :: input', S n' =>
      let~ _ := put off (Z.lxor z y) in
      u_xor_chunk (1 + off) n' block' input'
  | _, _, _ => retU tt
  end.
(** poly1305.rs:64-73 (= gcm.rs:89-98); [outs] are the lengths of the output chunks left. *)
Fixpoint u_ctr_loop (b : build) (blk : Z -> list Z) (i : Z) (off : nat) (ins : list (list Z)) (outs : list nat) : U unit unit :=
  let~ inext := lift (uchk b 32 (i + 1)) in
  match ins, outs with
  | c :: ins', n :: outs' =>
      let~ _ := u_xor_chunk off n (blk i) c in
      u_ctr_loop b blk inext (n + off) ins' outs'
  | _, _ => retU tt
  end.
(** poly1305.rs:63-74 [process]. *)
Definition u_aead_process (b : build) (cipher input : list Z) : U unit unit :=
  let~ output := get_out in
  u_ctr_loop b (chacha_block cipher) 1 0 (chunks 64 input) (map (@length Z) (chunks 64 output)).
(** poly1305.rs:30-35 [encrypt]: the result is the tag. *)
Definition u_ccp_encrypt (b : build) (key input nonce data : list Z) : U unit (list Z) :=
  let~ output := get_out in
  let~ _ := lift (assertb (length input =? length output)%nat) in
  let~ cipher := lift (chacha_new key nonce) in
  let~ _ := u_aead_process b cipher input in
  let~ output := get_out in
  lift (aead_tag b cipher output data).
(** poly1305.rs:42-59 [decrypt]. *)
Definition u_ccp_decrypt (b : build) (key input nonce data tag : list Z) : U unit bool :=
  let~ output := get_out in
  let~ _ := lift (assertb (length output =? length input)%nat) in
  let~ cipher := lift (chacha_new key nonce) in
  let~ expected_tag := lift (aead_tag b cipher input data) in
  let~ ok := lift (verify_16 expected_tag tag) in
  if ok : bool
  then let~ _ := u_aead_process b cipher input in retU true
  else retU false.

Section Gcm.
Variable E : BlockCipher.
(** gcm.rs:88-99 [process]. *)
Definition u_gcm_process (b : build) (k : bc_state E) (counter input : list Z) : U unit unit :=
  let~ output := get_out in
  u_ctr_loop b (gcm_block E k counter) 2 0 (chunks 16 input) (map (@length Z) (chunks 16 output)).
(** gcm.rs:44-49 [encrypt]. *)
Definition u_gcm_encrypt (b : build) (k : bc_state E) (input nonce data : list Z) : U unit (list Z) :=
  let~ output := get_out in
  let~ _ := lift (check_bounds input output nonce data) in
  let~ ctr := lift (counter nonce) in
  let~ _ := u_gcm_process b k ctr input in
  let~ output := get_out in
  lift (gcm_tag E b k output data ctr).
(** gcm.rs:57-74 [decrypt]. *)
Definition u_gcm_decrypt (b : build) (k : bc_state E) (input nonce data tag : list Z) : U unit bool :=
  let~ output := get_out in
  let~ _ := lift (check_bounds output input nonce data) in
  let~ ctr := lift (counter nonce) in
  let~ expected_tag := lift (gcm_tag E b k input data ctr) in
  let~ ok := lift (verify_16 expected_tag tag) in
  if ok : bool
  then let~ _ := u_gcm_process b k ctr input in retU true
  else retU false.
End Gcm.

(** * src/sha2.rs *)

(** sha2.rs:126-129, 421-425 [write_digest]; the hash function is consumed. *)
Definition u_write_digest (P : sha_params) (alg : algorithm) (b : build) (p : processor) : U unit unit :=
  let~ output := get_out in
  let~ _ := lift (assertb (digest_size alg =? length output)%nat) in
  let~ p := lift (pad P b p) in
  let st := process P (p_state p) (p_buffer p) in
  let n := (length output / w_bytes P)%nat in
  let~ _ := lift (assertb (n <=? length st)%nat) in
  let~ _ := lift (assertb (n * w_bytes P =? length output)%nat) in
  put_all 0 (flat_map (be_encode (w_bytes P)) (firstn n st)).

(** * src/hmac.rs *)

(** hmac.rs:97-102 [write_tag], for [impl_function!] hash functions; the buffer also holds the inner digest. *)
Definition u_write_tag (P : sha_params) (alg : algorithm) (b : build) (h : hmac (impl_function P alg)) : U unit unit :=
  let~ output := get_out in
  let~ _ := lift (assertb (digest_size alg =? length output)%nat) in
  let~ _ := u_write_digest P alg b (inner h) in
  let~ output := get_out in
  let~ o := lift (hupdate (impl_function P alg) b (outer h) output) in
  u_write_digest P alg b o.

(** * src/hkdf.rs *)
Section Hkdf.
Variable H : HashFunction.
(** hkdf.rs:24-30 [extract]. *)
Definition u_extract (b : build) (salt ikm : list Z) : U unit unit :=
  let~ prk := get_out in
  let~ _ := lift (assertb (DIGEST_SIZE H =? length prk)%nat) in
  let~ h := lift (hmac_new H b salt) in
  let~ h := lift (hmac_update H b h ikm) in
  let~ t := lift (hmac_tag H b h) in
  let~ t := lift (tag_deref t) in
  let~ _ := lift (assertb (length prk =? length t)%nat) in
  put_all 0 t.
(** hkdf.rs:43-55: [cs] are the lengths of the chunks not yet written, the first one starts at [off]. *)
Fixpoint u_expand_loop (b : build) (prk info : list Z) (i : Z) (h : hmac H) (off : nat) (cs : list nat) : U unit unit :=
  let~ inext := lift (uchk b 8 (i + 1)) in
  match cs with
  | [] => retU tt
  | n :: cs' =>
      let~ h := lift (hmac_update H b h info) in
      let~ h := lift (hmac_update H b h [i]) in
      let~ t := lift (hmac_tag H b h) in
      let~ t := lift (tag_deref t) in
      if (n <? DIGEST_SIZE H)%nat
      then
        let~ t' := lift (slice t 0 n) in
        put_all off t'
      else
        let~ _ := lift (assertb (n =? length t)%nat) in
        let~ _ := put_all off t in
        let~ h := lift (hmac_new H b prk) in
        let~ h := lift (hmac_update H b h t) in
        u_expand_loop b prk info inext h (n + off) cs'
  end.
(** hkdf.rs:38-56 [expand]. *)
Definition u_expand (b : build) (prk info : list Z) : U unit unit :=
  let~ okm := get_out in
  let ds := DIGEST_SIZE H in
  let~ _ := lift (assertb (ds <=? length prk)%nat) in
  let~ _ := lift (assertb (length okm <=? 255 * ds)%nat) in
  let~ h := lift (hmac_new H b prk) in
  let~ _ := lift (assertb (0 <? ds)%nat) in
  u_expand_loop b prk info 1 h 0 (map (@length Z) (chunks ds okm)).
End Hkdf.
