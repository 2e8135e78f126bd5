(** C67-C69: X25519 on arbitrary public keys, on the curve or on its twist. *)
From Coq Require Import String.
From Verif Require Import Base Hex M_Curve25519 S_Field S_X25519 S_Edwards S_Twist.
From Verif Require P_X25519 P_X25519b P_Field BaseFacts P_Edwards P_Mont P_TwMont P_Twist P_TwLow P_TwDh P_EdBind T_X25519.

Lemma ok_inj {A} (x y : A) : Ok x = Ok y -> x = y.
Proof. intros H. inversion H. reflexivity. Qed.

(** C67: every public key is the u-coordinate of a point of edwards25519 or of its twist, and [dh] encodes the u-coordinate of the
    multiple of that point by the clamped secret key. *)
Theorem C67_dh_every_key : forall public_key, length public_key = 32%nat -> bytes public_key ->
  (exists P, on_curve P /\ decode_u public_key = mont_u P /\
     forall b secret_key, length secret_key = 32%nat -> bytes secret_key ->
       x_dh b public_key secret_key = Ok (le_encode 32 (fz (mont_u (ed_mul (decode_scalar secret_key) P))))) \/
  (exists P, tw_curve P /\ decode_u public_key = tw_u P /\
     forall b secret_key, length secret_key = 32%nat -> bytes secret_key ->
       x_dh b public_key secret_key = Ok (le_encode 32 (fz (tw_u (tw_mul (decode_scalar secret_key) P))))).
Proof.
  intros pk Lp Bp. destruct (P_Twist.every_u (decode_u pk)) as [(P & C & E)|(P & C & E)]; [left|right]; exists P; (split; [exact C|]); (split; [exact E|]);
    intros b sk Ls Bs; rewrite (T_X25519.C36_dh_is_x25519 b pk sk Lp Bp Ls Bs); unfold x25519; rewrite E.
  - rewrite (P_Mont.x25519_mul P _ C (P_Mont.decode_scalar_range sk) (proj2 (P_X25519b.decode_scalar_8 sk))). exact eq_refl.
  - rewrite (P_TwMont.tw_x25519_mul P _ C (P_Mont.decode_scalar_range sk) (proj2 (P_X25519b.decode_scalar_8 sk))). exact eq_refl.
Qed.
Print Assumptions C67_dh_every_key.
(** Two parties (or more, one after the other) that apply their secret keys to any public key agree, in either order. *)
Theorem C67_dh_commutes : forall b public_key sk1 sk2, length public_key = 32%nat -> bytes public_key ->
  length sk1 = 32%nat -> bytes sk1 -> length sk2 = 32%nat -> bytes sk2 ->
  exists s1 s2 shared, x_dh b public_key sk1 = Ok s1 /\ x_dh b public_key sk2 = Ok s2 /\
    x_dh b s1 sk2 = Ok shared /\ x_dh b s2 sk1 = Ok shared.
Proof.
  intros b pk a c Lp Bp La Ba Lc Bc. exists (x25519 a pk), (x25519 c pk), (x25519 c (x25519 a pk)).
  assert (Ln : forall k u, length (x25519 k u) = 32%nat) by (intros; apply BaseFacts.le_encode_length).
  assert (Bn : forall k u, bytes (x25519 k u)) by (intros; apply BaseFacts.le_encode_bytes).
  split; [exact (T_X25519.C36_dh_is_x25519 b pk a Lp Bp La Ba)|]. split; [exact (T_X25519.C36_dh_is_x25519 b pk c Lp Bp Lc Bc)|].
  split; [exact (T_X25519.C36_dh_is_x25519 b _ c (Ln a pk) (Bn a pk) Lc Bc)|].
  rewrite (T_X25519.C36_dh_is_x25519 b _ a (Ln c pk) (Bn c pk) La Ba). apply (f_equal Ok).
  assert (D : forall k u, decode_u (x25519 k u) = x25519_F (decode_scalar k) (decode_u u)).
  { intros k u. exact (P_Mont.decode_encode_u _). }
  unfold x25519 at 1 3. rewrite !D. apply (f_equal (fun t => le_encode 32 (fz t))). symmetry. exact (P_TwDh.x25519_comm a c (decode_u pk)).
Qed.
Print Assumptions C67_dh_commutes.
(** The key 2, 0, ... belongs to the twist only. *)
Example C67_ex : (exists P, tw_curve P /\ decode_u (2 :: repeat 0 31) = tw_u P) /\
  ~ exists P, on_curve P /\ decode_u (2 :: repeat 0 31) = mont_u P.
Proof.
  destruct P_TwDh.two_on_twist as (P & C & E). assert (D : decode_u (2 :: repeat 0 31) = tw_u P) by (rewrite E; exact eq_refl). split.
  - exists P. split; [exact C|exact D].
  - intros (Q & CQ & EQ). rewrite D in EQ. symmetry in EQ. pose proof (P_TwDh.both_zero Q P CQ C EQ) as Z.
    rewrite EQ, E in Z. apply (f_equal fz) in Z. discriminate Z.
Qed.

(** C68: the shared secret is 32 zero bytes exactly for the public keys that stand for one of the five u-coordinates of C43, whatever
    the secret key; every other public key gives a non-zero shared secret. *)
Theorem C68_zero_exactly_low_order : forall b pk sk,
  length pk = 32%nat -> bytes pk -> length sk = 32%nat -> bytes sk ->
  let u := (le_decode pk mod 2 ^ 255) mod (2 ^ 255 - 19) in
  x_dh b pk sk = Ok (repeat 0 32) <->
  (u = 0 \/ u = 1 \/ u = 2 ^ 255 - 20 \/
   u = 325606250916557431795983626356110631294008115727848805560023387167927233504 \/
   u = 39382357235489614581723060781553021112529911719440698176882885853963445705823).
Proof.
  intros b pk sk Lp Bp Ls Bs u. split.
  - intros H. rewrite (T_X25519.C36_dh_is_x25519 b pk sk Lp Bp Ls Bs) in H.
    assert (Z : x25519 sk pk = repeat 0 32) by exact (ok_inj _ _ H). clear H. unfold x25519, encode_u in Z.
    pose proof (P_TwLow.zero_low sk _ (P_EdBind.encode_u_zero _ Z)) as Z'. clear Z. rename Z' into Z.
    assert (EU : fz (decode_u pk) = u).
    { unfold decode_u, u. reflexivity. }
    rewrite <- EU. destruct Z as [Z|[Z|[Z|[Z|Z] ] ] ]; rewrite Z.
    + left. exact eq_refl.
    + right. left. exact eq_refl.
    + do 2 right. left. exact eq_refl.
    + do 3 right. left. exact eq_refl.
    + do 4 right. exact eq_refl.
  - exact (T_X25519.C43_low_order b pk sk Lp Bp Ls Bs).
Qed.
Print Assumptions C68_zero_exactly_low_order.
(** The public key 2, 0, ..., 0 of the twist does not give zero. *)
Example C68_ex : forall b, x_dh b (2 :: repeat 0 31) (repeat 7 32) <> Ok (repeat 0 32).
Proof.
  intros b H. apply C68_zero_exactly_low_order in H; [|reflexivity|now apply BaseFacts.bytesb_spec|reflexivity|now apply BaseFacts.bytesb_spec].
  assert (E : (le_decode (2 :: repeat 0 31) mod 2 ^ 255) mod (2 ^ 255 - 19) = 2) by reflexivity. cbv zeta in H. rewrite E in H.
  destruct H as [H|[H|[H|[H|H] ] ] ]; discriminate H.
Qed.

(** C69: whether two public keys give the same shared secret does not depend on the secret key: if they do for one, they do for all. *)
Theorem C69_same_secret_independent : forall b pk pk' sk sk',
  length pk = 32%nat -> bytes pk -> length pk' = 32%nat -> bytes pk' -> length sk = 32%nat -> bytes sk -> length sk' = 32%nat -> bytes sk' ->
  x_dh b pk sk = x_dh b pk' sk -> x_dh b pk sk' = x_dh b pk' sk'.
Proof.
  intros b pk pk' sk sk' Lp Bp Lp' Bp' Ls Bs Ls' Bs' H.
  rewrite (T_X25519.C36_dh_is_x25519 b pk sk Lp Bp Ls Bs), (T_X25519.C36_dh_is_x25519 b pk' sk Lp' Bp' Ls Bs) in H.
  rewrite (T_X25519.C36_dh_is_x25519 b pk sk' Lp Bp Ls' Bs'), (T_X25519.C36_dh_is_x25519 b pk' sk' Lp' Bp' Ls' Bs').
  assert (Z : x25519 sk pk = x25519 sk pk') by exact (ok_inj _ _ H). clear H. unfold x25519, encode_u in Z. pose proof (P_EdBind.encode_u_inj _ _ Z) as Z'.
  unfold x25519. rewrite (P_TwDh.x25519_indep sk sk' _ _ Z'). exact eq_refl.
Qed.
Print Assumptions C69_same_secret_independent.
(** 0 and 1 are different public keys that give the same shared secret; the base point gives another. *)
Example C69_ex : x_dh Checked (repeat 0 32) (repeat 7 32) = x_dh Checked (1 :: repeat 0 31) (repeat 7 32) /\
  x_dh Checked (repeat 0 32) (repeat 7 32) <> x_dh Checked (9 :: repeat 0 31) (repeat 7 32).
Proof.
  destruct T_X25519.C43_ex as (A & B & _). split; [rewrite A, B; exact eq_refl|]. intros H. rewrite A in H. symmetry in H.
  apply C68_zero_exactly_low_order in H; [|reflexivity|now apply BaseFacts.bytesb_spec|reflexivity|now apply BaseFacts.bytesb_spec].
  assert (E : (le_decode (9 :: repeat 0 31) mod 2 ^ 255) mod (2 ^ 255 - 19) = 9) by reflexivity. cbv zeta in H. rewrite E in H.
  destruct H as [H|[H|[H|[H|H] ] ] ]; discriminate H.
Qed.
