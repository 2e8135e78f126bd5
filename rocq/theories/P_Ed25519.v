(** Key generation, signing and verification. *)
From Verif Require Import BaseFacts M_Sha2 M_Curve25519 M_Ed25519 S_Field S_Edwards S_X25519 S_Ed25519 S_Sha2
  P_Field P_FieldInv P_Edwards P_Sha2 P_Sha2Stream P_X25519 P_X25519b P_Ge P_Ge2 P_EdTable P_EdBase P_EdDouble P_EdDecode P_Sc P_FeBytes.
From Verif Require P_Mont.
Local Opaque ed_mul ed_add ed_B ed_zero ed_opp ed_encode H512.

(** ** Hashes *)
Lemma H512_eq m : SHA spec_sha512 m = H512 m. Proof. reflexivity. Qed.
Lemma H512_bytes m : bytes (H512 m). Proof. rewrite <- H512_eq. apply SHA_bytes. Qed.
Lemma H512_length m : bytes m -> length (H512 m) = 64%nat.
Proof.
  intros Hm. rewrite <- H512_eq. apply (SHA_length P512 SHA512 spec_sha512 matches_sha512). exact Hm.
Qed.
Lemma updates_fold b parts : forall h : res (hstate Sha512),
  fold_left (fun h x => let! h := h in hupdate Sha512 b h x) parts h = (let! s := h in Hist.hash_updates Sha512 b s parts).
Proof.
  induction parts as [|x parts IH]; intros h; cbn [fold_left Hist.hash_updates].
  - destruct h; reflexivity.
  - rewrite IH. destruct h as [s|]; reflexivity.
Qed.
Lemma sha512_parts_ok b parts : Forall bytes parts -> len (concat parts) < 2 ^ 61 ->
  sha512_parts b parts = Ok (H512 (concat parts)).
Proof.
  intros Hb Hl. unfold sha512_parts. rewrite updates_fold, bind_ok.
  destruct (sha2_stream Sha512 spec_sha512 Hist.is_sha512 b parts Hb Hl) as (s & -> & W). rewrite bind_ok.
  rewrite (W (repeat 0 (DIGEST_SIZE Sha512))) by apply repeat_length. apply f_equal. apply H512_eq.
Qed.
Lemma sha512_ok b m : bytes m -> len m < 2 ^ 61 -> sha512 b m = Ok (H512 m).
Proof. intros Hb Hl. rewrite <- H512_eq. apply (sha2_oneshot Sha512 spec_sha512 Hist.is_sha512 b m Hb Hl). Qed.

(** ** Clamping *)
Lemma clamp_top63 x : byte_ok x -> Z.lor (Z.land x 63) 64 = 64 + x mod 64.
Proof. intros H. apply Z.eqb_eq. apply (byte_bits (fun x => Z.lor (Z.land x 63) 64 =? 64 + x mod 64)); [reflexivity|exact H]. Qed.
Lemma upd_mid' {A} (l : list A) r : forall i x y, length l = i -> upd (l ++ x :: r) i y = l ++ y :: r.
Proof. induction l as [|a l IH]; intros [|i] x y H; cbn [length] in H; try lia; [reflexivity|]. cbn [app upd]. f_equal. apply IH. lia. Qed.
Lemma get_mid' (l : list Z) r : forall i x, length l = i -> get (l ++ x :: r) i = x.
Proof. unfold get. intros i x <-. now rewrite app_nth2, Nat.sub_diag by lia. Qed.
Lemma clamp_ed_ok az : bytes az -> length az = 64%nat ->
  exists c, clamp_ed az = c ++ skipn 32 az /\ bytes c /\ length c = 32%nat /\ le_decode c = decode_scalar (firstn 32 az).
Proof.
  intros Hb Hl. exists (clamp_x25519 (firstn 32 az)).
  assert (Hf : bytes (firstn 32 az)) by now apply bytes_firstn.
  assert (Lf : length (firstn 32 az) = 32%nat) by (rewrite firstn_length_le; lia).
  split; [|now apply clamp_ok].
  rewrite <- (firstn_skipn 32 az) at 1. set (r := skipn 32 az). clearbody r.
  destruct (split32 _ Hf Lf) as (a & m & z & -> & Ha & Hm & Hz & Lm). clear Hf Lf Hb Hl.
  unfold clamp_ed, clamp_x25519. rewrite !upd_0. change (get (a :: m ++ [z]) 0) with a.
  cbn [app]. change (get (a :: (m ++ [z]) ++ r) 0) with a. rewrite !upd_0.
  rewrite <- app_assoc. cbn [app].
  change (?x :: m ++ z :: r) with ((x :: m) ++ z :: r). change (?x :: m ++ [z]) with ((x :: m) ++ [z]).
  repeat (rewrite ?upd_mid', ?get_mid' by (cbn [length]; lia)).
  rewrite clamp_top, clamp_top63 by assumption. cbn [app]. rewrite <- app_assoc. reflexivity.
Qed.
Lemma nth31_small c : bytes c -> (32 <= length c)%nat -> le_decode (firstn 32 c) < 2 ^ 255 -> nth 31 c 0 <= 127.
Proof.
  intros Hc Hl H. rewrite <- (firstn_skipn 32 c). set (r := skipn 32 c). clearbody r.
  assert (Lf : length (firstn 32 c) = 32%nat) by (rewrite firstn_length_le; lia).
  rewrite app_nth1 by lia. pose proof (sign_bit _ (bytes_firstn 32 c Hc) Lf) as S.
  rewrite Z.div_small in S by (split; [apply (le_decode_range _ (bytes_firstn 32 c Hc))|exact H]).
  rewrite Z.shiftr_div_pow2 in S by lia. apply Z.div_small_iff in S; [|discriminate]. change (2 ^ 7) with 128 in S. lia.
Qed.

(** ** Multiples of the base point *)
Lemma ed_mul_L n : ed_mul (n * L) ed_B = ed_zero.
Proof. rewrite <- (ed_mul_mul n L ed_B on_curve_B), L_times_B. apply ed_mul_zero. Qed.
Lemma ed_mul_eqm m n : m mod L = n mod L -> ed_mul m ed_B = ed_mul n ed_B.
Proof.
  intros H. assert (E : m = n + (m / L - n / L) * L).
  { pose proof (Z.div_mod m L ltac:(discriminate)). pose proof (Z.div_mod n L ltac:(discriminate)). clear -H H0 H1. lia. }
  rewrite E, (ed_mul_add _ _ ed_B on_curve_B), ed_mul_L. apply ed_add_0_r.
Qed.
Lemma ed_mul_modL n : ed_mul (n mod L) ed_B = ed_mul n ed_B.
Proof. apply ed_mul_eqm. apply Z.mod_mod. discriminate. Qed.
Lemma ed_mul_opp_r n P : on_curve P -> ed_mul n (ed_opp P) = ed_opp (ed_mul n P).
Proof.
  intros HP. rewrite <- ed_mul_opp. transitivity (ed_mul n (ed_mul (-1) P)).
  - apply f_equal. transitivity (ed_opp (ed_mul 1 P)); [rewrite ed_mul_1; exact eq_refl|]. symmetry. exact (ed_mul_opp 1 P).
  - rewrite (ed_mul_mul n (-1) P HP). apply (f_equal (fun k => ed_mul k P)). clear. lia.
Qed.

(** ** Encoding and decoding *)
Local Transparent ed_encode.
Lemma enc_bytes P : bytes (ed_encode P). Proof. apply le_encode_bytes. Qed.
Lemma enc_length P : length (ed_encode P) = 32%nat. Proof. apply le_encode_length. Qed.
Lemma enc_decode P : le_decode (ed_encode P) = fz (snd P) + 2 ^ 255 * (fz (fst P) mod 2).
Proof.
  unfold ed_encode. rewrite le_decode_encode. change (256 ^ Z.of_nat 32) with (2 ^ 256). apply Z.mod_small.
  pose proof (fz_range (snd P)) as R. unfold S_Field.p in R. destruct (mod2_01 (fz (fst P))) as [M|M]; rewrite M; clear -R; lia.
Qed.
Lemma rfc_of_encode P : on_curve P -> rfc_decodes (ed_encode P) P.
Proof.
  intros HP. unfold rfc_decodes. rewrite enc_decode. split; [apply enc_length|].
  pose proof (fz_range (snd P)) as R. unfold S_Field.p in *. set (y := fz (snd P)) in *. set (s := fz (fst P) mod 2) in *.
  assert (E1 : (y + 2 ^ 255 * s) mod 2 ^ 255 = y).
  { rewrite Z.mul_comm, Z.mod_add by discriminate. apply Z.mod_small. clear -R; lia. }
  assert (E2 : (y + 2 ^ 255 * s) / 2 ^ 255 = s).
  { rewrite Z.mul_comm, Z.div_add by discriminate. rewrite Z.div_small by (clear -R; lia). reflexivity. }
  rewrite E1, E2. split; [apply R|]. split; [exact HP|]. split; reflexivity.
Qed.
Lemma encode_of_rfc s P : bytes s -> rfc_decodes s P -> ed_encode P = s.
Proof.
  intros Hs (Hl & _ & _ & Y & X). apply le_decode_inj; [apply enc_bytes|exact Hs|rewrite enc_length; exact (eq_sym Hl)|].
  rewrite enc_decode, Y, X. pose proof (Z.div_mod (le_decode s) (2 ^ 255) ltac:(discriminate)) as D. clear -D. lia.
Qed.
Lemma rfc_lax s P : rfc_decodes s P -> lax_decodes s P.
Proof.
  intros (Hl & _ & C & Y & X). split; [exact Hl|]. split; [exact C|]. split; [rewrite <- Y; symmetry; apply toF_fz|]. right. exact X.
Qed.
Lemma enc_lax_unique P A : on_curve P -> lax_decodes (ed_encode P) A -> A = P.
Proof. intros HP H. exact (lax_unique _ _ _ (enc_bytes P) H (rfc_lax _ _ (rfc_of_encode P HP))). Qed.

(** ** The secret scalar and its public key *)
Local Opaque ed_encode decode_scalar.
Lemma decode_scalar_lt k : 0 <= decode_scalar k < 2 ^ 255.
Proof. exact (P_Mont.decode_scalar_range k). Qed.
Lemma len32_small (m : list Z) : length m = 32%nat -> len m < 2 ^ 61.
Proof. unfold len. intros ->. reflexivity. Qed.
Lemma firstn_app_eq {A} n (l r : list A) : length l = n -> firstn n (l ++ r) = l.
Proof. intros <-. rewrite firstn_app, Nat.sub_diag, firstn_all. cbn [firstn]. apply app_nil_r. Qed.
Lemma skipn_app_eq {A} n (l r : list A) : length l = n -> skipn n (l ++ r) = r.
Proof. intros <-. rewrite skipn_app, Nat.sub_diag, skipn_all. reflexivity. Qed.
Lemma base_ok b c r n : bytes c -> length c = 32%nat -> bytes r -> le_decode c = n -> n < 2 ^ 255 ->
  exists h, from_scalarmult_base b (c ++ r) = Ok h /\ p3_rep h (ed_mul n ed_B).
Proof.
  intros Hc Lc Hr E Hn.
  assert (Hb : bytes (c ++ r)) by (apply Forall_app; split; assumption).
  assert (Hl : (32 <= length (c ++ r))%nat) by (rewrite app_length; clear -Lc; lia).
  destruct (from_scalarmult_base_ok b (c ++ r) Hb Hl) as (h & E1 & E2).
  - apply nth31_small; [exact Hb|exact Hl|]. rewrite (firstn_app_eq 32 c r Lc), E. exact Hn.
  - exists h. split; [exact E1|]. rewrite (firstn_app_eq 32 c r Lc), E in E2. exact E2.
Qed.
Lemma secret_ok b sk : bytes sk -> length sk = 32%nat ->
  exists c, sha512 b sk = Ok (H512 sk) /\ clamp_ed (H512 sk) = c ++ ed_prefix sk /\ bytes c /\ length c = 32%nat /\
    le_decode c = ed_secret_scalar sk /\ bytes (ed_prefix sk) /\ length (ed_prefix sk) = 32%nat.
Proof.
  intros Hb Hl. destruct (clamp_ed_ok (H512 sk) (H512_bytes sk) (H512_length sk Hb)) as (c & E & Hc & Lc & Dc).
  exists c. split; [exact (sha512_ok b sk Hb (len32_small sk Hl))|]. split; [exact E|]. split; [exact Hc|]. split; [exact Lc|].
  split; [exact Dc|]. unfold ed_prefix. split; [apply bytes_skipn; apply H512_bytes|].
  rewrite skipn_length, (H512_length sk Hb). reflexivity.
Qed.
Lemma secret_range sk : 0 <= ed_secret_scalar sk < 2 ^ 255.
Proof. apply decode_scalar_lt. Qed.
Lemma ed_gen_pk_ok b sk : bytes sk -> length sk = 32%nat -> ed_gen_pk b sk = Ok (rfc_public_key sk).
Proof.
  intros Hb Hl. unfold ed_gen_pk. rewrite Hl. cbn [Nat.eqb assertb]. rewrite bind_ok.
  destruct (secret_ok b sk Hb Hl) as (c & -> & E & Hc & Lc & Dc & Hp & _). rewrite bind_ok. cbv zeta. rewrite E.
  destruct (base_ok b c (ed_prefix sk) _ Hc Lc Hp Dc (proj2 (secret_range sk))) as (h & -> & Rh). rewrite bind_ok.
  exact (p3_tobytes_ok b h _ Rh).
Qed.

(** ** Signing *)
Lemma L_bounds : 0 < L < 2 ^ 253. Proof. split; reflexivity. Qed.
Lemma modL_range n : 0 <= n mod L < L. Proof. apply Z.mod_pos_bound. reflexivity. Qed.
Lemma dec_enc32 n : 0 <= n < 2 ^ 256 -> le_decode (le_encode 32 n) = n.
Proof. intros H. rewrite le_decode_encode. apply Z.mod_small. exact H. Qed.
Lemma dec_modL n : le_decode (le_encode 32 (n mod L)) = n mod L.
Proof. apply dec_enc32. pose proof (modL_range n) as R. pose proof L_bounds as B. clear -R B. lia. Qed.
Lemma write_first {A} (x y z : list A) : length x = length z -> write_slice (x ++ y) 0 z = Ok (z ++ y).
Proof.
  intros H. rewrite write_slice_ok by (rewrite app_length; clear -H; lia). cbn [firstn Nat.add app].
  rewrite (skipn_app_eq (length z) x y H). reflexivity.
Qed.
Lemma write_second {A} (x y z : list A) : length y = length z -> write_slice (x ++ y) (length x) z = Ok (x ++ z).
Proof.
  intros H. rewrite write_slice_ok by (rewrite app_length; clear -H; lia).
  rewrite (firstn_app_eq (length x) x y eq_refl), skipn_all2, app_nil_r by (rewrite app_length; clear -H; lia). reflexivity.
Qed.
Lemma S_mod (a r k : Z) : (k mod L * a + r mod L) mod L = (r + k * a) mod L.
Proof.
  rewrite (Z.add_comm r), Z.add_mod, Z.mul_mod, !Z.mod_mod by discriminate.
  rewrite <- Z.mul_mod, <- Z.add_mod by discriminate. reflexivity.
Qed.
Lemma ed_sign_ok b msg sk : bytes sk -> length sk = 32%nat -> bytes msg -> len msg + 64 < 2 ^ 61 ->
  ed_sign b msg sk = Ok (rfc_sign msg sk).
Proof.
  intros Hb Hl Hm Lm. unfold ed_sign. rewrite Hl. cbn [Nat.eqb assertb]. rewrite bind_ok.
  destruct (secret_ok b sk Hb Hl) as (c & -> & E & Hc & Lc & Dc & Hp & Lp). rewrite bind_ok. cbv zeta. rewrite E.
  destruct (base_ok b c (ed_prefix sk) _ Hc Lc Hp Dc (proj2 (secret_range sk))) as (h & -> & Rh). rewrite bind_ok.
  rewrite (p3_tobytes_ok b h _ Rh), bind_ok. fold (rfc_public_key sk).
  assert (La : length (rfc_public_key sk) = 32%nat) by apply enc_length.
  assert (Ha : bytes (rfc_public_key sk)) by apply enc_bytes.
  rewrite (skipn_app_eq 32 c (ed_prefix sk) Lc).
  rewrite (sha512_parts_ok b [ed_prefix sk; msg]);
    [|apply Forall_cons; [exact Hp|apply Forall_cons; [exact Hm|apply Forall_nil]]
     |cbn [concat]; rewrite app_nil_r; unfold len in *; rewrite app_length, Lp; clear -Lm; lia].
  cbn [concat]. rewrite app_nil_r, bind_ok. set (nm := ed_prefix sk ++ msg).
  assert (Hnm : bytes nm) by (apply Forall_app; split; assumption).
  rewrite (sc_reduce_ok b (H512 nm) (H512_bytes nm) (H512_length nm Hnm)), bind_ok.
  change (repeat 0 64) with (repeat 0 32 ++ repeat 0 32).
  change 32%nat with (length (repeat 0 32)) at 3. rewrite (write_second (repeat 0 32) (repeat 0 32) (rfc_public_key sk)) by (rewrite La; reflexivity).
  rewrite bind_ok. set (r := le_decode (H512 nm)).
  assert (Hr : bytes (skipn 32 (H512 nm))) by (apply bytes_skipn; apply H512_bytes).
  pose proof (le_encode_bytes 32 (r mod L)) as Be. pose proof (le_encode_length 32 (r mod L)) as Le.
  destruct (base_ok b (le_encode 32 (r mod L)) (skipn 32 (H512 nm)) (r mod L) Be Le Hr (dec_modL r)) as (g & -> & Rg).
  { pose proof (modL_range r) as R. pose proof L_bounds as B. clear -R B. lia. }
  rewrite bind_ok, (p3_tobytes_ok b g _ Rg), bind_ok, ed_mul_modL. set (Rb := ed_encode (ed_mul r ed_B)).
  assert (LR : length Rb = 32%nat) by apply enc_length. assert (HR : bytes Rb) by apply enc_bytes.
  rewrite (write_first (repeat 0 32) (rfc_public_key sk) Rb) by (rewrite LR; reflexivity). rewrite bind_ok.
  assert (Hs : bytes (Rb ++ rfc_public_key sk)) by (apply Forall_app; split; assumption).
  rewrite (sha512_parts_ok b [Rb ++ rfc_public_key sk; msg]);
    [|apply Forall_cons; [exact Hs|apply Forall_cons; [exact Hm|apply Forall_nil]]
     |cbn [concat]; rewrite app_nil_r; unfold len in *; rewrite !app_length, La, LR; clear -Lm; lia].
  cbn [concat]. rewrite app_nil_r, bind_ok, <- app_assoc. set (km := Rb ++ rfc_public_key sk ++ msg).
  assert (Hkm : bytes km) by (apply Forall_app; split; [exact HR|apply Forall_app; split; assumption]).
  rewrite (sc_reduce_ok b (H512 km) (H512_bytes km) (H512_length km Hkm)), bind_ok. set (k := le_decode (H512 km)).
  pose proof (le_encode_bytes 32 (k mod L)) as Bk. pose proof (le_encode_length 32 (k mod L)) as Lk.
  rewrite sc_muladd_ok.
  2: { apply Forall_app; split; [exact Bk|apply bytes_skipn; apply H512_bytes]. }
  2: { apply Forall_app; split; assumption. }
  2: { apply Forall_app; split; [exact Be|exact Hr]. }
  2-4: rewrite app_length, ?Lk, ?Lc, ?Le; clear; lia.
  rewrite bind_ok, (firstn_app_eq 32 _ _ Lk), (firstn_app_eq 32 _ _ Lc), (firstn_app_eq 32 _ _ Le), !dec_modL, Dc, S_mod.
  rewrite <- LR at 1. rewrite (write_second Rb (rfc_public_key sk)) by (rewrite La, le_encode_length; reflexivity).
  exact eq_refl.
Qed.

(** ** Verification *)
Lemma land224 x : byte_ok x -> (Z.land x 224 =? 0) = (x <? 32).
Proof.
  intros H. apply eqb_prop. apply (byte_bits (fun x => Bool.eqb (Z.land x 224 =? 0) (x <? 32))); [reflexivity|exact H].
Qed.
Lemma le_decode_last l z : length l = 31%nat -> le_decode (l ++ [z]) = le_decode l + 2 ^ 248 * z.
Proof.
  intros H. rewrite le_decode_app. unfold len. rewrite H. cbn [le_decode]. change (256 ^ Z.of_nat 31) with (2 ^ 248).
  apply f_equal. apply f_equal. unfold le_decode. cbn [fold_right]. clear. lia.
Qed.
Lemma top_bits s : bytes s -> length s = 64%nat -> (Z.land (get s 63) 224 =? 0) = (le_decode (skipn 32 s) <? 2 ^ 253).
Proof.
  intros Hb Hl. pose proof (bytes_skipn 32 s Hb) as Hs.
  assert (Ls : length (skipn 32 s) = 32%nat) by (rewrite skipn_length, Hl; reflexivity).
  assert (G : get s 63 = get (skipn 32 s) 31).
  { unfold get. rewrite <- (firstn_skipn 32 s) at 1. rewrite app_nth2 by (rewrite firstn_length, Hl; cbn; lia).
    rewrite firstn_length, Hl. reflexivity. }
  rewrite G. clear G. generalize dependent (skipn 32 s). clear. intros s Hb Hl.
  destruct (exists_last (l := s)) as (l & z & ->); [now destruct s|].
  rewrite app_length in Hl. cbn [length] in Hl. assert (Ll : length l = 31%nat) by lia. clear Hl.
  rewrite get_mid' by exact Ll. apply Forall_app in Hb as [Hb Hz]. apply Forall_inv in Hz.
  rewrite (land224 z Hz), (le_decode_last l z Ll). pose proof (le_decode_range l Hb) as R. unfold len in R. rewrite Ll in R.
  change (256 ^ Z.of_nat 31) with (2 ^ 248) in R. apply eq_true_iff_eq. rewrite !Z.ltb_lt. clear -R. lia.
Qed.
Lemma ed_verify_ok b msg sig pk : bytes pk -> length pk = 32%nat -> bytes msg -> len msg + 64 < 2 ^ 61 -> bytes sig ->
  exists v, ed_verify b msg sig pk = Ok v /\ (v = true <-> ref10_verifies msg sig pk).
Proof.
  intros Hb Hl Hm Lm Hs. unfold ed_verify. rewrite Hl. cbn [Nat.eqb assertb]. rewrite bind_ok.
  destruct (Nat.eqb_spec (length sig) 64) as [Ls|Ls]; cbn [negb orb].
  2: { exists false. split; [reflexivity|]. split; [discriminate|]. intros (H & _). exact (False_ind _ (Ls H)). }
  rewrite (top_bits sig Hs Ls). destruct (Z.ltb_spec (le_decode (skipn 32 sig)) (2 ^ 253)) as [HS|HS]; cbn [negb].
  2: { exists false. split; [reflexivity|]. split; [discriminate|]. intros (_ & A & H). cbv zeta in H.
       destruct H as (_ & H & _). exact (False_ind _ (Zlt_not_le _ _ H HS)). }
  destruct (from_bytes_negate_ok b pk Hb Hl) as (o & -> & Ho). rewrite bind_ok.
  destruct o as [a|].
  2: { exists false. split; [reflexivity|]. split; [discriminate|]. intros (_ & A & H). cbv zeta in H.
       destruct H as (H & _). exact (False_ind _ (Ho A H)). }
  destruct Ho as (A & LA & RA). cbv zeta. set (R := firstn 32 sig). set (S := skipn 32 sig) in *.
  assert (HR : bytes R) by now apply bytes_firstn. assert (HSb : bytes S) by now apply bytes_skipn.
  assert (LR : length R = 32%nat) by (unfold R; rewrite firstn_length, Ls; reflexivity).
  assert (LS : length S = 32%nat) by (unfold S; rewrite skipn_length, Ls; reflexivity).
  rewrite (sha512_parts_ok b [R; pk; msg]);
    [|apply Forall_cons; [exact HR|apply Forall_cons; [exact Hb|apply Forall_cons; [exact Hm|apply Forall_nil]]]
     |cbn [concat]; rewrite app_nil_r; unfold len in *; rewrite !app_length, Hl, LR; clear -Lm; lia].
  cbn [concat]. rewrite app_nil_r, bind_ok. set (km := R ++ pk ++ msg).
  assert (Hkm : bytes km) by (apply Forall_app; split; [exact HR|apply Forall_app; split; assumption]).
  rewrite (sc_reduce_ok b (H512 km) (H512_bytes km) (H512_length km Hkm)), bind_ok. set (k := le_decode (H512 km)).
  pose proof (le_encode_bytes 32 (k mod L)) as Bk. pose proof (le_encode_length 32 (k mod L)) as Lk.
  assert (CA : on_curve A) by apply LA.
  destruct (from_double_scalarmult_ok b (le_encode 32 (k mod L) ++ skipn 32 (H512 km)) a (ed_opp A) S) as (r & -> & Rr);
    [|rewrite app_length, Lk; clear; lia| |exact HSb|exact LS|exact HS|exact (on_curve_opp A CA)|exact RA|].
  { apply Forall_app; split; [exact Bk|apply bytes_skipn; apply H512_bytes]. }
  { rewrite (firstn_app_eq 32 _ _ Lk), dec_modL. pose proof (modL_range k) as Rk. pose proof L_bounds as B. clear -Rk B. lia. }
  rewrite (firstn_app_eq 32 _ _ Lk), dec_modL in Rr.
  rewrite bind_ok, (p2_to_bytes_ok b r _ Rr), bind_ok. set (E := ed_encode _).
  destruct (verify_32_ok b E R) as (v & -> & Hv);
    [apply enc_bytes|exact HR|rewrite LR; apply enc_length|].
  rewrite bind_ok. exists (v =? 0). split; [reflexivity|]. rewrite Z.eqb_eq, Hv.
  assert (EE : E = ed_encode (ed_add (ed_mul (le_decode S) ed_B) (ed_opp (ed_mul (k mod L) A)))).
  { unfold E. apply f_equal. rewrite (ed_mul_opp_r _ A CA). apply ed_add_comm. }
  split.
  - intros H. split; [exact Ls|]. exists A. cbv zeta. split; [exact LA|]. split; [exact HS|]. exact (eq_trans (eq_sym EE) H).
  - intros (_ & A' & H). cbv zeta in H. destruct H as (LA' & _ & H).
    rewrite (lax_unique pk A' A Hb LA' LA) in H. exact (eq_trans EE H).
Qed.

(** ** Signing, then verifying *)
Lemma on_curve_mulB n : on_curve (ed_mul n ed_B).
Proof. exact (on_curve_mul n ed_B on_curve_B). Qed.
Lemma pk_rfc sk : rfc_decodes (rfc_public_key sk) (ed_mul (ed_secret_scalar sk) ed_B).
Proof. apply rfc_of_encode. apply on_curve_mulB. Qed.
(** The equation behind it: [S]B - [k]([a]B) = [r]B when S = r + k a modulo L. *)
Lemma sign_equation r k a :
  ed_add (ed_mul ((r + k * a) mod L) ed_B) (ed_opp (ed_mul (k mod L) (ed_mul a ed_B))) = ed_mul r ed_B.
Proof.
  rewrite ed_mul_modL, (ed_mul_mul (k mod L) a ed_B on_curve_B), <- ed_mul_opp.
  rewrite <- (ed_mul_add _ _ ed_B on_curve_B). apply ed_mul_eqm.
  pose proof (Z.div_mod k L ltac:(discriminate)) as D.
  replace (r + k * a + - (k mod L * a)) with (r + (k / L * a) * L); [apply Z.mod_add; discriminate|].
  clear -D. nia.
Qed.
Local Opaque rfc_public_key ed_secret_scalar.
Lemma verifies_sign msg sk : ref10_verifies msg (rfc_sign msg sk) (rfc_public_key sk).
Proof.
  unfold rfc_sign. cbv zeta. set (r := le_decode (H512 (ed_prefix sk ++ msg))). set (Rb := ed_encode (ed_mul r ed_B)).
  set (k := le_decode (H512 (Rb ++ rfc_public_key sk ++ msg))). set (S := (r + k * ed_secret_scalar sk) mod L).
  assert (LR : length Rb = 32%nat) by apply enc_length.
  split; [rewrite app_length, LR, le_encode_length; reflexivity|].
  exists (ed_mul (ed_secret_scalar sk) ed_B). cbv zeta.
  rewrite (firstn_app_eq 32 Rb (le_encode 32 S) LR), (skipn_app_eq 32 Rb (le_encode 32 S) LR).
  split; [exact (rfc_lax _ _ (pk_rfc sk))|].
  assert (ES : le_decode (le_encode 32 S) = S) by apply dec_modL. rewrite ES.
  split; [pose proof (modL_range (r + k * ed_secret_scalar sk)) as R; fold S in R; pose proof L_bounds as B; clear -R B; lia|].
  unfold Rb. apply f_equal. apply sign_equation.
Qed.

(** ** Relation with RFC 8032 *)
Lemma ed_mul_mod_order n A : on_curve A -> ed_mul L A = ed_zero -> ed_mul (n mod L) A = ed_mul n A.
Proof.
  intros CA HL. pose proof (Z.div_mod n L ltac:(discriminate)) as D.
  assert (E : n = n mod L + (n / L) * L) by (clear -D; lia).
  rewrite E at 2. rewrite (ed_mul_add _ _ A CA), <- (ed_mul_mul (n / L) L A CA), HL, ed_mul_zero, ed_add_0_r. exact eq_refl.
Qed.
Lemma ed_sub_eq P Q R : on_curve P -> on_curve Q -> on_curve R -> (ed_add P (ed_opp Q) = R <-> P = ed_add R Q).
Proof.
  intros CP CQ CR. pose proof (on_curve_opp Q CQ) as CO. split; intros H.
  - rewrite <- H, (ed_add_assoc P (ed_opp Q) Q CP CO CQ), (ed_opp_l Q CQ), ed_add_0_r. exact eq_refl.
  - rewrite H, (ed_add_assoc R Q (ed_opp Q) CR CQ CO), (ed_opp_r Q CQ), ed_add_0_r. exact eq_refl.
Qed.
Lemma ref10_rfc msg sig pk A : bytes sig -> bytes pk -> rfc_decodes pk A -> ed_mul L A = ed_zero ->
  (rfc_verifies msg sig pk <-> ref10_verifies msg sig pk /\ le_decode (skipn 32 sig) < L).
Proof.
  intros Hs Hb DA HL. assert (CA : on_curve A) by apply DA.
  pose proof (on_curve_mulB (le_decode (skipn 32 sig))) as CS.
  pose proof (on_curve_mul (le_decode (H512 (firstn 32 sig ++ pk ++ msg))) A CA) as CK.
  split.
  - intros (Ls & R & A' & H). cbv zeta in H. destruct H as (DR & DA' & HS & E).
    assert (EA : A' = A) by exact (lax_unique pk A' A Hb (rfc_lax _ _ DA') (rfc_lax _ _ DA)). rewrite EA in E.
    split; [|apply HS]. split; [exact Ls|]. exists A. cbv zeta. split; [exact (rfc_lax _ _ DA)|].
    split; [pose proof L_bounds as B; clear -HS B; lia|]. rewrite (ed_mul_mod_order _ A CA HL).
    assert (CR : on_curve R) by apply DR.
    transitivity (ed_encode R); [apply f_equal; exact (proj2 (ed_sub_eq _ _ _ CS CK CR) E)|].
    exact (encode_of_rfc _ _ (bytes_firstn 32 sig Hs) DR).
  - intros ((Ls & A' & H) & HS). cbv zeta in H. destruct H as (DA' & _ & E).
    assert (EA : A' = A) by exact (lax_unique pk A' A Hb DA' (rfc_lax _ _ DA)). rewrite EA in E.
    rewrite (ed_mul_mod_order _ A CA HL) in E. split; [exact Ls|].
    pose proof (on_curve_add _ _ CS (on_curve_opp _ CK)) as CR.
    refine (ex_intro _ (ed_add _ _) (ex_intro _ A _)). cbv zeta.
    split; [rewrite <- E; apply (rfc_of_encode _ CR)|]. split; [exact DA|].
    split; [split; [apply (le_decode_range _ (bytes_skipn 32 sig Hs))|exact HS]|].
    exact (proj1 (ed_sub_eq _ _ _ CS CK CR) eq_refl).
Qed.

(** ** Adding L to S *)
Lemma ref10_plus_L msg sig pk : bytes sig -> ref10_verifies msg sig pk -> le_decode (skipn 32 sig) + L < 2 ^ 253 ->
  ref10_verifies msg (firstn 32 sig ++ le_encode 32 (le_decode (skipn 32 sig) + L)) pk.
Proof.
  intros Hs (Ls & A & H) HL. cbv zeta in H. destruct H as (DA & _ & E).
  set (S := le_decode (skipn 32 sig)) in *. set (R := firstn 32 sig) in *.
  assert (S0 : 0 <= S) by (unfold S; apply (le_decode_range _ (bytes_skipn 32 sig Hs))).
  assert (LR : length R = 32%nat) by (unfold R; rewrite firstn_length, Ls; reflexivity).
  split; [rewrite app_length, LR, le_encode_length; reflexivity|]. exists A. cbv zeta.
  rewrite (firstn_app_eq 32 R _ LR), (skipn_app_eq 32 R _ LR), dec_enc32
    by (pose proof L_bounds as B; clear -S0 HL B; lia).
  split; [exact DA|]. split; [exact HL|].
  assert (EM : ed_mul (S + L) ed_B = ed_mul S ed_B).
  { apply ed_mul_eqm. replace (S + L) with (S + 1 * L) by (clear; lia). apply Z.mod_add. discriminate. }
  rewrite EM. exact E.
Qed.

(** ** Lax public keys *)
Local Transparent ed_zero.
Lemma lax_identity s : length s = 32%nat -> (le_decode s mod 2 ^ 255) mod p = 1 -> lax_decodes s ed_zero.
Proof.
  intros Hl H. split; [exact Hl|]. split; [exact on_curve_zero|].
  split; [apply (toF_eq 1); rewrite H; reflexivity|]. left. reflexivity.
Qed.
Local Opaque ed_zero.
Definition id_bytes : list Z := 1 :: repeat 0 31.
Local Transparent ed_encode ed_zero.
Lemma encode_zero : ed_encode ed_zero = id_bytes. Proof. reflexivity. Qed.
Local Opaque ed_encode ed_zero id_bytes.
Lemma identity_verifies msg pk j : length pk = 32%nat -> (le_decode pk mod 2 ^ 255) mod p = 1 ->
  0 <= j -> j * L < 2 ^ 253 -> ref10_verifies msg (id_bytes ++ le_encode 32 (j * L)) pk.
Proof.
  intros Hl H J0 JL. assert (LR : length id_bytes = 32%nat) by reflexivity.
  split; [rewrite app_length, LR, le_encode_length; reflexivity|]. exists ed_zero. cbv zeta.
  rewrite (firstn_app_eq 32 id_bytes (le_encode 32 (j * L)) LR), (skipn_app_eq 32 id_bytes (le_encode 32 (j * L)) LR), (dec_enc32 (j * L))
    by (pose proof L_bounds as B; clear -J0 JL B; nia).
  split; [exact (lax_identity pk Hl H)|]. split; [exact JL|].
  set (k := _ mod L). clearbody k.
  assert (E : ed_add (ed_mul (j * L) ed_B) (ed_opp (ed_mul k ed_zero)) = ed_zero).
  { rewrite (ed_mul_L j), (ed_mul_zero k), ed_opp_zero. exact (ed_add_0_r ed_zero). }
  exact (eq_trans (f_equal ed_encode E) encode_zero).
Qed.

(** The strings accepted as public keys against RFC 8032: at most 40. *)
Lemma lax_not_rfc s A : bytes s -> lax_decodes s A -> (forall P, ~ rfc_decodes s P) ->
  p <= le_decode s mod 2 ^ 255 \/ le_decode s = 2 ^ 255 + 1 \/ le_decode s = 2 ^ 255 + (p - 1).
Proof.
  intros Hb (Hl & C & Y & X) N. destruct (Z.lt_ge_cases (le_decode s mod 2 ^ 255) p) as [Hy|Hy]; [right|left; exact Hy].
  pose proof (Z.mod_pos_bound (le_decode s) (2 ^ 255) ltac:(reflexivity)) as R.
  assert (Yz : fz (snd A) = le_decode s mod 2 ^ 255).
  { rewrite Y, fz_toF. apply Z.mod_small. split; [apply R|exact Hy]. }
  assert (NP : fz (fst A) mod 2 <> le_decode s / 2 ^ 255).
  { intros E. apply (N A). split; [exact Hl|]. split; [exact Hy|]. split; [exact C|]. split; [exact Yz|exact E]. }
  destruct X as [X|X]; [|exact (False_ind _ (NP X))].
  rewrite X in NP. change (fz f0 mod 2) with 0 in NP.
  destruct (sign01 s Hb Hl) as [S|S]; [exact (False_ind _ (NP (eq_sym S)))|].
  pose proof (Z.div_mod (le_decode s) (2 ^ 255) ltac:(discriminate)) as D. rewrite S, <- Yz in D.
  destruct A as [x y]. cbn [fst snd] in *. unfold on_curve in C. rewrite X in C.
  assert (Q : fmul y y = fmul f1 f1).
  { transitivity (fsub (fmul y y) (fmul f0 f0)); [ring|]. rewrite C. ring. }
  apply fsq_eq in Q. destruct Q as [Q|Q]; rewrite Q in D; [left|right].
  - change (fz f1) with 1 in D. clear -D. lia.
  - change (fz (fopp f1)) with (p - 1) in D. clear -D. lia.
Qed.
Lemma rfc_sign_one s P : length s = 32%nat -> le_decode s = 2 ^ 255 + 1 -> ~ rfc_decodes s P.
Proof.
  intros Hl E (_ & _ & C & Y & X). rewrite E in X, Y. change ((2 ^ 255 + 1) / 2 ^ 255) with 1 in X.
  change ((2 ^ 255 + 1) mod 2 ^ 255) with 1 in Y. destruct P as [x y]. cbn [fst snd] in *.
  assert (Ey : y = f1) by (apply F_ext; rewrite Y; reflexivity). rewrite Ey in C. apply curve_root in C.
  assert (U : du f1 = f0) by (unfold du; ring). rewrite U in C.
  apply fmul_eq0 in C. destruct C as [C|C]; [exact (dv_neq0 f1 C)|]. apply fsq_eq0 in C. rewrite C in X. discriminate X.
Qed.
Lemma rfc_dec s A : bytes s -> lax_decodes s A -> (exists P, rfc_decodes s P) \/ (forall P, ~ rfc_decodes s P).
Proof.
  intros Hb LA. destruct LA as (Hl & C & Y & X).
  destruct (Z.lt_ge_cases (le_decode s mod 2 ^ 255) p) as [Hy|Hy].
  2: { right. intros P (_ & H & _). exact (Zlt_not_le _ _ H Hy). }
  destruct (Z.eq_dec (fz (fst A) mod 2) (le_decode s / 2 ^ 255)) as [E|E].
  - left. exists A. split; [exact Hl|]. split; [exact Hy|]. split; [exact C|]. split; [|exact E].
    rewrite Y, fz_toF. apply Z.mod_small. split; [apply Z.mod_pos_bound; reflexivity|exact Hy].
  - right. intros P H. apply E.
    assert (EA : P = A) by exact (lax_unique s P A Hb (rfc_lax _ _ H) (conj Hl (conj C (conj Y X)))).
    destruct H as (_ & _ & _ & _ & H). rewrite EA in H. exact H.
Qed.
Lemma lax_rfc_or s A : bytes s -> lax_decodes s A -> (exists P, rfc_decodes s P) \/
  p <= le_decode s mod 2 ^ 255 < 2 ^ 255 \/ le_decode s = 2 ^ 255 + 1 \/ le_decode s = 2 ^ 255 + (p - 1).
Proof.
  intros Hb LA. destruct (rfc_dec s A Hb LA) as [H|H]; [left; exact H|right].
  destruct (lax_not_rfc s A Hb LA H) as [G|G]; [left|right; exact G]. split; [exact G|]. apply Z.mod_pos_bound. reflexivity.
Qed.
Lemma lax_exists s x : bytes s -> length s = 32%nat -> on_curve (x, toF (le_decode s mod 2 ^ 255)) -> exists A, lax_decodes s A.
Proof.
  intros Hb Hl C. destruct (F_eq_dec x f0) as [X|X].
  - exists (x, toF (le_decode s mod 2 ^ 255)). split; [exact Hl|]. split; [exact C|]. split; [reflexivity|left; exact X].
  - destruct (Z.eq_dec (fz x mod 2) (le_decode s / 2 ^ 255)) as [E|E].
    + exists (x, toF (le_decode s mod 2 ^ 255)). split; [exact Hl|]. split; [exact C|]. split; [reflexivity|right; exact E].
    + exists (fopp x, toF (le_decode s mod 2 ^ 255)). split; [exact Hl|]. split; [exact (on_curve_opp _ C)|].
      split; [reflexivity|]. right. cbn [fst]. rewrite (fopp_parity x X). clear -E Hb Hl.
      destruct (sign01 s Hb Hl) as [G|G], (mod2_01 (fz x)) as [M|M]; rewrite G, M in *; clear -E; lia.
Qed.
