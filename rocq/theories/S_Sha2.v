(** FIPS 180-4 (Secure Hash Standard), byte-string messages.
    Written from the standard; does not use the model in M_Sha2.v. *)
From Verif Require Import Base.

(** ** Constants (FIPS 180-4 sections 4.2.2, 4.2.3, 5.3.2-5.3.5) *)

Definition divides_none (n : Z) (ps : list Z) : bool := forallb (fun p => negb (n mod p =? 0)) ps.
(** [primes_below n]: sieve by trial division, in increasing order. *)
Definition primes_below (n : nat) : list Z :=
  fold_left (fun ps k => if divides_none k ps then ps ++ [k] else ps)
            (map (fun i => Z.of_nat i + 2) (seq 0 (n - 2))) [].
(** The first 80 primes (the 80th is 409). *)
Definition primes80 : list Z := Eval vm_compute in primes_below 410.

(** [iroot k bits x]: the largest r < 2^bits with r^k <= x. *)
Definition iroot (k : Z) (bits : nat) (x : Z) : Z :=
  fold_left (fun r i => let r' := r + 2 ^ (Z.of_nat i) in if r' ^ k <=? x then r' else r)
            (rev (seq 0 bits)) 0.
(** The first [n] bits of the fractional part of the [k]-th root of [p]. *)
Definition frac_root (k n p : Z) : Z := iroot k (Z.to_nat n + 10) (p * 2 ^ (k * n)) mod 2 ^ n.

Definition K_256 : list Z := Eval vm_compute in map (frac_root 3 32) (firstn 64 primes80).
Definition K_512 : list Z := Eval vm_compute in map (frac_root 3 64) primes80.
Definition IV_512 : list Z := Eval vm_compute in map (frac_root 2 64) (firstn 8 primes80).
Definition IV_384 : list Z := Eval vm_compute in map (frac_root 2 64) (firstn 8 (skipn 8 primes80)).
Definition IV_256 : list Z := Eval vm_compute in map (frac_root 2 32) (firstn 8 primes80).
(** "The second thirty-two bits of the fractional parts". *)
Definition IV_224 : list Z := Eval vm_compute in map (fun x => x mod 2 ^ 32) IV_384.

(** ** Variants *)
Record variant := {
  wbits : Z;                  (** word size in bits *)
  rounds : nat;
  Kt : list Z;
  Sigma0 : Z * Z * Z; Sigma1 : Z * Z * Z;   (** ROTR, ROTR, ROTR *)
  sigma0 : Z * Z * Z; sigma1 : Z * Z * Z;   (** ROTR, ROTR, SHR *)
  IV : list Z;
  digest_bytes : nat }.

Definition spec_sha512 := {| wbits := 64; rounds := 80; Kt := K_512;
  Sigma0 := (28, 34, 39); Sigma1 := (14, 18, 41); sigma0 := (1, 8, 7); sigma1 := (19, 61, 6);
  IV := IV_512; digest_bytes := 64 |}.
Definition spec_sha384 := {| wbits := 64; rounds := 80; Kt := K_512;
  Sigma0 := (28, 34, 39); Sigma1 := (14, 18, 41); sigma0 := (1, 8, 7); sigma1 := (19, 61, 6);
  IV := IV_384; digest_bytes := 48 |}.
Definition spec_sha256 := {| wbits := 32; rounds := 64; Kt := K_256;
  Sigma0 := (2, 13, 22); Sigma1 := (6, 11, 25); sigma0 := (7, 18, 3); sigma1 := (17, 19, 10);
  IV := IV_256; digest_bytes := 32 |}.
Definition spec_sha224 := {| wbits := 32; rounds := 64; Kt := K_256;
  Sigma0 := (2, 13, 22); Sigma1 := (6, 11, 25); sigma0 := (7, 18, 3); sigma1 := (17, 19, 10);
  IV := IV_224; digest_bytes := 28 |}.

Section Hash.
Variable V : variant.
Let ww := wbits V.
(** word and block size in bytes *)
Definition wbytes : nat := Z.to_nat (wbits V / 8).
Definition block_bytes : nat := 16 * wbytes.

(** ** Operations on words (section 3.2) *)
Definition wplus (x y : Z) : Z := (x + y) mod 2 ^ ww.
Definition SHR (n x : Z) : Z := x / 2 ^ n.
Definition ROTR (n x : Z) : Z := x / 2 ^ n + (x mod 2 ^ n) * 2 ^ (ww - n).

(** ** Functions (section 4.1) *)
Definition Ch (x y z : Z) : Z := Z.lxor (Z.land x y) (Z.land (Z.lnot x) z).
Definition Maj (x y z : Z) : Z := Z.lxor (Z.lxor (Z.land x y) (Z.land x z)) (Z.land y z).
Definition rot3 (c : Z * Z * Z) (x : Z) : Z :=
  let '(i, j, k) := c in Z.lxor (Z.lxor (ROTR i x) (ROTR j x)) (ROTR k x).
Definition rot2shr (c : Z * Z * Z) (x : Z) : Z :=
  let '(i, j, k) := c in Z.lxor (Z.lxor (ROTR i x) (ROTR j x)) (SHR k x).

(** ** Message schedule (sections 6.2.2, 6.4.2 step 1): W_t for a block of 16
    words.  [Wrev t] lists W_{t-1}, ..., W_0. *)
Fixpoint Wrev (t : nat) (block : list Z) : list Z :=
  match t with
  | O => []
  | S t' =>
      let prev := Wrev t' block in
      let Wt :=
        if (t' <? 16)%nat then nth t' block 0
        else wplus (wplus (rot2shr (sigma1 V) (nth 1 prev 0)) (nth 6 prev 0))
                 (wplus (rot2shr (sigma0 V) (nth 14 prev 0)) (nth 15 prev 0)) in
      Wt :: prev
  end.
Definition W (block : list Z) : list Z := rev (Wrev (rounds V) block).

(** ** Hash computation (steps 2-4) *)
Definition sha_step (kw : Z * Z) (v : list Z) : list Z :=
  match v with
  | [a; b; c; d; e; f; g; h] =>
      let T1 := wplus (wplus (wplus (wplus h (rot3 (Sigma1 V) e)) (Ch e f g)) (fst kw)) (snd kw) in
      let T2 := wplus (rot3 (Sigma0 V) a) (Maj a b c) in
      [wplus T1 T2; a; b; c; wplus d T1; e; f; g]
  | _ => v
  end.
Definition compress (H : list Z) (block : list Z) : list Z :=
  let M := map be_decode (chunks wbytes block) in
  let Ws := W M in
  let v := fold_left (fun v t => sha_step (nth t (Kt V) 0, nth t Ws 0) v) (seq 0 (rounds V)) H in
  zipwith wplus v H.

(** ** Padding (section 5.1) with a given length field, and the digest *)
Definition zeros_needed (n : nat) : nat :=
  (* smallest k with n + 1 + k + 2*wbytes = 0 mod block_bytes *)
  ((block_bytes - (n + 1 + 2 * wbytes) mod block_bytes) mod block_bytes)%nat.
Definition pad_with (bitlen : Z) (msg : list Z) : list Z :=
  msg ++ [0x80] ++ repeat 0 (zeros_needed (length msg)) ++ be_encode (2 * wbytes) bitlen.
Definition hash_with (bitlen : Z) (msg : list Z) : list Z :=
  firstn (digest_bytes V)
    (flat_map (be_encode wbytes) (fold_left compress (chunks block_bytes (pad_with bitlen msg)) (IV V))).
Definition SHA (msg : list Z) : list Z := hash_with (8 * len msg) msg.

End Hash.
