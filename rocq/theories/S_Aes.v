(** FIPS 197, written from the standard; does not use the model. *)
From Verif Require Import Base S_Gf2.

(** ** Section 4: GF(2^8), modulo x^8 + x^4 + x^3 + x + 1 *)
Definition gmul (a b : Z) : Z := fmul 8 0x11b a b.
Definition all_bytes : list Z := map Z.of_nat (seq 0 256).
(** The multiplicative inverse, 0 mapped to 0: b^254 = b^2 b^4 b^8 ... b^128 (C26 proves it is the inverse). *)
Definition ginv (b : Z) : Z :=
  let sq x := gmul x x in
  let b2 := sq b in let b4 := sq b2 in let b8 := sq b4 in let b16 := sq b8 in
  let b32 := sq b16 in let b64 := sq b32 in let b128 := sq b64 in
  gmul b2 (gmul b4 (gmul b8 (gmul b16 (gmul b32 (gmul b64 b128))))).

(** ** Section 5.1.1: SubBytes.  [affine] is equation (5.1). *)
Definition bit (x : Z) (i : Z) : Z := Z.b2z (Z.testbit x (i mod 8)).
Definition affine_bit (b : Z) (i : Z) : Z :=
  (bit b i + bit b (i + 4) + bit b (i + 5) + bit b (i + 6) + bit b (i + 7) + bit 0x63 i) mod 2.
Definition affine (b : Z) : Z :=
  fold_right Z.add 0 (map (fun i => affine_bit b (Z.of_nat i) * 2 ^ Z.of_nat i) (seq 0 8)).
Definition SBOX (x : Z) : Z := affine (ginv x).

(** ** Section 3.4: the state, 4 rows and 4 columns *)
Definition astate := nat -> nat -> Z.
Definition in_state (input : list Z) : astate := fun r c => nth (r + 4 * c) input 0.
Definition out_block (s : astate) : list Z :=
  flat_map (fun c => map (fun r => s r c) (seq 0 4)) (seq 0 4).

Definition SubBytes (s : astate) : astate := fun r c => SBOX (s r c).
(** Section 5.1.2 *)
Definition ShiftRows (s : astate) : astate := fun r c => s r ((c + r) mod 4)%nat.
(** Section 5.1.3: the columns are multiplied by the circulant matrix of 2 3 1 1. *)
Definition mix_coeff (r k : nat) : Z := nth ((k + 4 - r) mod 4)%nat [2; 3; 1; 1] 0.
Definition MixColumns (s : astate) : astate := fun r c =>
  Z.lxor (Z.lxor (Z.lxor (gmul (mix_coeff r 0) (s 0%nat c)) (gmul (mix_coeff r 1) (s 1%nat c)))
                 (gmul (mix_coeff r 2) (s 2%nat c))) (gmul (mix_coeff r 3) (s 3%nat c)).
(** Section 5.1.4: [w] is the list of the words of the key schedule. *)
Definition AddRoundKey (w : list (list Z)) (round : nat) (s : astate) : astate := fun r c =>
  Z.lxor (s r c) (nth r (nth (4 * round + c) w []) 0).

(** ** Section 5.2: key expansion *)
Definition RotWord (w : list Z) : list Z := skipn 1 w ++ firstn 1 w.
Definition SubWord (w : list Z) : list Z := map SBOX w.
(** Rcon[i] = [x^(i-1), 0, 0, 0] *)
Definition Rcon (i : nat) : list Z := [Nat.iter (i - 1) (gmul 2) 1; 0; 0; 0].
Definition next_word (Nk : nat) (w : list (list Z)) : list Z :=
  let i := length w in
  let temp := nth (i - 1) w [] in
  let temp :=
    if (i mod Nk =? 0)%nat then xorl (SubWord (RotWord temp)) (Rcon (i / Nk))
    else if (6 <? Nk)%nat && (i mod Nk =? 4)%nat then SubWord temp
    else temp in
  xorl (nth (i - Nk) w []) temp.
Definition KeyExpansion (Nk : nat) (key : list Z) : list (list Z) :=
  Nat.iter (4 * (Nk + 6 + 1) - Nk) (fun w => w ++ [next_word Nk w]) (chunks 4 key).

(** ** Section 5.1: the cipher, with [Nr = Nk + 6] rounds *)
Definition Round (w : list (list Z)) (s : astate) (round : nat) : astate :=
  AddRoundKey w round (MixColumns (ShiftRows (SubBytes s))).
Definition Cipher (Nk : nat) (key input : list Z) : list Z :=
  let Nr := (Nk + 6)%nat in
  let w := KeyExpansion Nk key in
  let s := AddRoundKey w 0 (in_state input) in
  let s := fold_left (Round w) (seq 1 (Nr - 1)) s in
  out_block (AddRoundKey w Nr (ShiftRows (SubBytes s))).
