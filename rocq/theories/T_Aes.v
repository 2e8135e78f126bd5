(** C25-C28: AES. *)
From Coq Require Import String.
From Verif Require Import Base Hex M_Aes S_Gf2 S_Aes.
From Verif Require P_Aes BaseFacts.

(** C25: each of the three AES types computes the FIPS 197 cipher. *)
Theorem C25_aes_is_fips197 : forall (E : BlockCipher) (Nk : nat),
  (E, Nk) = (Aes128, 4%nat) \/ (E, Nk) = (Aes192, 6%nat) \/ (E, Nk) = (Aes256, 8%nat) ->
  forall key input, length key = (4 * Nk)%nat -> bytes key -> length input = 16%nat -> bytes input ->
  exists st, bc_new E key = Ok st /\ bc_permute E st input = Cipher Nk key input.
Proof.
  intros E Nk H key input Hk Hb Hi Hbi.
  assert (G : forall n, (2 <= n)%nat -> E = impl_cipher n -> Nk = n ->
    exists st, bc_new E key = Ok st /\ bc_permute E st input = Cipher Nk key input).
  { intros n Hn -> ->. exists (concat (KeyExpansion n key)). split.
    - apply (P_Aes.key_expansion_ok n Hn key Hk Hb).
    - apply (P_Aes.permute_ok n Hn key input Hk Hb Hi Hbi). }
  destruct H as [H|[H|H]]; injection H as -> ->; (eapply G; [|reflexivity|reflexivity]; lia).
Qed.
Print Assumptions C25_aes_is_fips197.

(** The three examples of FIPS 197 appendix C, computed on the model; with C25 they are values of [Cipher] too. *)
Definition aes_run (E : BlockCipher) (key input : list Z) : res (list Z) :=
  let! st := bc_new E key in Ok (bc_permute E st input).
Example C25_ex128 : aes_run Aes128 (h2b "000102030405060708090a0b0c0d0e0f") (h2b "00112233445566778899aabbccddeeff")
  = Ok (h2b "69c4e0d86a7b0430d8cdb78070b4c55a").
Proof. vm_compute. reflexivity. Qed.
Example C25_ex192 : aes_run Aes192 (h2b "000102030405060708090a0b0c0d0e0f1011121314151617") (h2b "00112233445566778899aabbccddeeff")
  = Ok (h2b "dda97ca4864cdfe06eaf70a0ec0d7191").
Proof. vm_compute. reflexivity. Qed.
Example C25_ex256 : aes_run Aes256 (h2b "000102030405060708090a0b0c0d0e0f101112131415161718191a1b1c1d1e1f") (h2b "00112233445566778899aabbccddeeff")
  = Ok (h2b "8ea2b7ca516745bfeafc49904b496089").
Proof. vm_compute. reflexivity. Qed.
Example C25_spec_ex : Cipher 4 (h2b "000102030405060708090a0b0c0d0e0f") (h2b "00112233445566778899aabbccddeeff")
  = h2b "69c4e0d86a7b0430d8cdb78070b4c55a".
Proof.
  destruct (C25_aes_is_fips197 Aes128 4 ltac:(auto) (h2b "000102030405060708090a0b0c0d0e0f") (h2b "00112233445566778899aabbccddeeff"))
    as (st & E1 & E2); [reflexivity|now apply BaseFacts.bytesb_spec|reflexivity|now apply BaseFacts.bytesb_spec|].
  pose proof C25_ex128 as E. unfold aes_run in E. rewrite E1 in E. cbn [bind] in E. rewrite E2 in E. congruence.
Qed.

(** C26: the S-box is the affine map of the inverse in GF(2^8); [ginv] is indeed the inverse. *)
Theorem C26_sbox : forall x, byte_ok x ->
  s_box x = affine (ginv x) /\ byte_ok (ginv x) /\ (if x =? 0 then ginv x = 0 else gmul x (ginv x) = 1).
Proof.
  intros x H. rewrite (P_Aes.s_box_eq x H). unfold SBOX. split; [reflexivity|].
  assert (E : (byte_okb (ginv x) && (if x =? 0 then ginv x =? 0 else gmul x (ginv x) =? 1))%bool = true).
  { revert x H. apply (P_Aes.byte_forallb (fun x => (byte_okb (ginv x) && (if x =? 0 then ginv x =? 0 else gmul x (ginv x) =? 1))%bool)).
    vm_compute. reflexivity. }
  apply andb_true_iff in E. destruct E as [E1 E2]. split; [now apply P_Aes.byte_okb_ok|].
  destruct (x =? 0); now apply Z.eqb_eq.
Qed.
Print Assumptions C26_sbox.
Example C26_ex : map s_box [0x00; 0x53; 0xff] = [0x63; 0xed; 0x16] /\ ginv 0x53 = 0xca.
Proof. vm_compute. auto. Qed.

(** C27: for every key, [permute] is a bijection of the 16-byte blocks. *)
Definition is_block (l : list Z) : Prop := length l = 16%nat /\ bytes l.
Theorem C27_permutation : forall E, E = Aes128 \/ E = Aes192 \/ E = Aes256 ->
  forall key st, bytes key -> bc_new E key = Ok st ->
  (forall x, is_block x -> is_block (bc_permute E st x)) /\
  (forall x y, is_block x -> is_block y -> bc_permute E st x = bc_permute E st y -> x = y) /\
  (forall y, is_block y -> exists x, is_block x /\ bc_permute E st x = y).
Proof.
  intros E H.
  assert (G : forall n, (2 <= n)%nat -> forall key st, bytes key -> bc_new (impl_cipher n) key = Ok st ->
  (forall x, is_block x -> is_block (bc_permute (impl_cipher n) st x)) /\
  (forall x y, is_block x -> is_block y -> bc_permute (impl_cipher n) st x = bc_permute (impl_cipher n) st y -> x = y) /\
  (forall y, is_block y -> exists x, is_block x /\ bc_permute (impl_cipher n) st x = y)).
  { intros n Hn key st Hb Hk. destruct (P_Aes.new_sched n key st Hn Hb Hk) as (L & Ls & Bs).
    split; [exact (P_Aes.permute_block n st Ls Bs)|]. split.
    - intros x y Hx Hy Exy. rewrite <- (P_Aes.inv_permute_l n st Ls Bs x Hx), <- (P_Aes.inv_permute_l n st Ls Bs y Hy).
      f_equal. exact Exy.
    - intros y Hy. exists (P_Aes.inv_permute n st y). split; [now apply (P_Aes.inv_permute_block n st Ls Bs)|].
      now apply (P_Aes.inv_permute_r n st Ls Bs). }
  destruct H as [-> | [-> | ->] ]; apply G; lia.
Qed.
Print Assumptions C27_permutation.
Example C27_ex : exists st, bc_new Aes128 (h2b "000102030405060708090a0b0c0d0e0f") = Ok st.
Proof. eexists. reflexivity. Qed.

(** C28: [new] panics exactly when the key length is wrong.  ([permute] is a total function of the model: it has no
    assertion and only constant-bound indexing into arrays; C27 shows its result is always a 16-byte block.) *)
Theorem C28_new_panics : forall E n, (E, n) = (Aes128, 16%nat) \/ (E, n) = (Aes192, 24%nat) \/ (E, n) = (Aes256, 32%nat) ->
  forall key, bc_new E key = Panic <-> length key <> n.
Proof.
  intros E n H key.
  assert (G : forall k, bc_new (impl_cipher k) key = Panic <-> length key <> (4 * k)%nat).
  { intros k. cbn [bc_new impl_cipher]. unfold key_expansion. destruct (Nat.eqb_spec (4 * k) (length key)) as [e|e].
    - cbn [assertb bind]. rewrite BaseFacts.write_slice_ok by (rewrite repeat_length; lia). cbn [bind].
      split; [discriminate|intros; congruence].
    - cbn [assertb bind]. split; [intros _; congruence|reflexivity]. }
  destruct H as [H|[H|H]]; injection H as -> ->; apply G.
Qed.
Print Assumptions C28_new_panics.
Example C28_ex : bc_new Aes128 (repeat 0 24) = Panic /\ (exists st, bc_new Aes192 (repeat 0 24) = Ok st).
Proof. split; [reflexivity|]. eexists. reflexivity. Qed.
