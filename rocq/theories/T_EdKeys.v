(** C70: the strings decoded as points against RFC 8032. *)
From Verif Require Import Base M_Ed25519 S_Field S_Edwards S_Ed25519.
From Verif Require BaseFacts P_EdNonCanon P_EdDecode T_Ed25519.

(** The numbers of the 26 strings: x = 0 with the sign bit (two), and y + p for the twelve y below 19 that are the y-coordinate of a
    point, with either sign bit. *)
Definition non_canonical : list Z :=
  [2 ^ 255 + 1; 2 ^ 255 + (p - 1)] ++
  map (fun y => p + y) [0; 1; 3; 4; 5; 6; 9; 10; 14; 15; 16; 18] ++
  map (fun y => 2 ^ 255 + p + y) [0; 1; 3; 4; 5; 6; 9; 10; 14; 15; 16; 18].
(** C70: the strings that decode as a point though RFC 8032 rejects them are exactly these 26. *)
Theorem C70_decoded_against_rfc : forall b s, length s = 32%nat -> bytes s ->
  ((exists h, from_bytes_negate b s = Ok (Some h)) /\ (forall P, ~ rfc_decodes s P) <-> In s (map (le_encode 32) non_canonical)).
Proof.
  intros b s Hl Hb. rewrite <- (P_EdNonCanon.lax_only_iff s Hl Hb).
  destruct (P_EdDecode.from_bytes_negate_ok b s Hb Hl) as (r & E & H). rewrite E. destruct r as [h|].
  - destruct H as (A & LA & _). split; (intros [_ N]; split; [|exact N]); [exists A; exact LA|exists h; exact eq_refl].
  - split; (intros [[h X] _]; exfalso); [discriminate X|exact (H h X)].
Qed.
Print Assumptions C70_decoded_against_rfc.
(** Hence a public key with which [verify] accepts anything is an RFC 8032 encoding or one of the 26. *)
Theorem C70_accepted_keys : forall b message sig pk,
  length pk = 32%nat -> bytes pk -> bytes sig -> bytes message -> len message < 2 ^ 61 - 64 ->
  ed_verify b message sig pk = Ok true ->
  (exists P, rfc_decodes pk P) \/ In pk (map (le_encode 32) non_canonical).
Proof.
  intros b m sig pk Hl Hb Bs Hm Lm HV. apply (T_Ed25519.C48_verify b m sig pk Hl Hb Bs Hm Lm) in HV.
  destruct HV as (_ & A & H). cbv zeta in H. destruct H as (LA & _).
  destruct (P_Ed25519.rfc_dec pk A Hb LA) as [R|N]; [left; exact R|right].
  apply (P_EdNonCanon.lax_only_iff pk Hl Hb). split; [exists A; exact LA|exact N].
Qed.
Print Assumptions C70_accepted_keys.
(** The 26 strings are distinct; p + 3 is one of them, p + 2 is not. *)
Example C70_ex : NoDup (map (le_encode 32) non_canonical) /\ length non_canonical = 26%nat /\
  In (le_encode 32 (p + 3)) (map (le_encode 32) non_canonical) /\ ~ In (le_encode 32 (p + 2)) (map (le_encode 32) non_canonical).
Proof.
  assert (D : forall n, In n non_canonical -> 0 <= n < 2 ^ 256).
  { intros n I. assert (F : forallb (fun n => andb (0 <=? n) (n <? 2 ^ 256)) non_canonical = true) by (vm_compute; reflexivity).
    pose proof (proj1 (forallb_forall _ _) F n I) as B. apply andb_prop in B. destruct B as [B1 B2]. split; [apply Z.leb_le; exact B1|apply Z.ltb_lt; exact B2]. }
  assert (J : forall m n, 0 <= m < 2 ^ 256 -> 0 <= n < 2 ^ 256 -> le_encode 32 m = le_encode 32 n -> m = n).
  { intros m n Hm Hn E. apply (f_equal le_decode) in E. rewrite !BaseFacts.le_decode_encode in E.
    change (256 ^ Z.of_nat 32) with (2 ^ 256) in E. rewrite !Z.mod_small in E by assumption. exact E. }
  split; [|split; [reflexivity|split] ].
  - assert (G : forall l, (forall n, In n l -> 0 <= n < 2 ^ 256) -> NoDup l -> NoDup (map (le_encode 32) l)).
    { induction l as [|x l IH]; intros R N; [constructor|]. inversion N as [|x' l' NI N']; subst. cbn [map]. constructor.
      - intros I. apply in_map_iff in I. destruct I as (y & E & I). apply NI. rewrite <- (J y x (R y (or_intror I)) (R x (or_introl eq_refl)) E). exact I.
      - apply IH; [intros n I; exact (R n (or_intror I))|exact N']. }
    apply (G _ D). assert (E : nodup Z.eq_dec non_canonical = non_canonical) by (vm_compute; reflexivity). rewrite <- E. apply NoDup_nodup.
  - apply in_map. unfold non_canonical. apply in_or_app. right. apply in_or_app. left. apply in_map_iff. exists 3. split; [exact eq_refl|cbn [In]; auto].
  - intros I. apply in_map_iff in I. destruct I as (y & E & I). apply J in E; [|exact (D y I)|split; [discriminate|reflexivity] ].
    rewrite E in I. clear -I. assert (F : existsb (Z.eqb (p + 2)) non_canonical = false) by (vm_compute; reflexivity).
    assert (T : existsb (Z.eqb (p + 2)) non_canonical = true) by (apply existsb_exists; exists (p + 2); split; [exact I|apply Z.eqb_refl]).
    rewrite F in T. discriminate T.
Qed.
