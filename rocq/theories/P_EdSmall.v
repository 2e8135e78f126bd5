(** The strings that the code decodes as points of order dividing 8. *)
From Verif Require Import BaseFacts S_Field S_Edwards S_Ed25519 S_X25519 P_Field P_FieldInv P_Edwards P_EdDecode P_Ed25519 P_Mont P_Twist P_EdBind
  P_EdOrder P_TwLow P_EdNonCanon.
From Coq Require Import Znumtheory.
Local Opaque ed_mul ed_add ed_zero ed_opp ed_d.
Local Open Scope F_scope.
Lemma low_y x y : on_curve (x, y) -> ed_mul 8 (x, y) = ed_zero -> y = 1 \/ y = - f1 \/ y = 0 \/ y = toF y8a \/ y = toF y8b.
Proof.
  intros C H. change 8%Z with (2 * 4)%Z in H. rewrite <- (ed_mul_mul 2 4 _ C) in H.
  apply (dbl_zero _ (on_curve_mul 4 _ C)) in H. change 4%Z with (2 * 2)%Z in H. rewrite <- (ed_mul_mul 2 2 _ C) in H.
  pose proof (on_curve_mul 2 _ C) as C2. pose proof (dbl_y x y C) as Y.
  pose proof (dbl_x0 x y C) as X. destruct (ed_mul 2 (x, y)) as [x2 y2]. cbn [fst snd] in *.
  destruct (dbl_x0 x2 y2 C2 H) as [E|E].
  - destruct (X E) as [Q|Q]; [|right; right; left; exact Q].
    destruct (x0_points _ _ C Q) as [R|R]; [left; exact R|right; left; exact R].
  - do 3 right. rewrite E in Y.
    assert (XX : x * x = - (y * y)).
    { transitivity (y * y + x * x - y * y); [ring|]. rewrite <- Y. ring. }
    unfold on_curve in C. rewrite XX in C. apply (y8_two y).
    transitivity (1 - (1 + ed_d * (- (y * y)) * (y * y))); [ring|]. rewrite <- C. ring.
Qed.
Lemma mul2_8 P : on_curve P -> ed_mul 2 P = ed_zero -> ed_mul 8 P = ed_zero.
Proof. intros C H. change 8%Z with (4 * 2)%Z. rewrite <- (ed_mul_mul 4 2 P C), H. apply ed_mul_zero. Qed.
Lemma y8b_ok : ed_d * (toF y8b * toF y8b) * (toF y8b * toF y8b) = 1 - (1 + 1) * (toF y8b * toF y8b).
Proof.
  rewrite y8b_neg. transitivity (ed_d * (toF y8a * toF y8a) * (toF y8a * toF y8a)); [ring|]. rewrite y8a_ok. ring.
Qed.
Lemma opp_8 P : on_curve P -> ed_mul 8 P = ed_zero -> ed_mul 8 (ed_opp P) = ed_zero.
Proof. intros C H. rewrite (ed_mul_opp_r 8 P C), H. apply ed_opp_zero. Qed.
Lemma opp_form x y : ed_opp (x, y) = (- x, y). Proof. Local Transparent ed_opp. reflexivity. Qed.
Local Opaque ed_opp.
Lemma same_y_8 x x' y : on_curve (x, y) -> on_curve (x', y) -> ed_mul 8 (x, y) = ed_zero -> ed_mul 8 (x', y) = ed_zero.
Proof.
  intros C C' H. destruct (same_y x x' y C C') as [E|E]; rewrite E; [exact H|]. rewrite <- opp_form. exact (opp_8 _ C H).
Qed.
Lemma i0_curve : on_curve (f_i, 0).
Proof. unfold on_curve. transitivity (- (f_i * f_i)); [ring|]. rewrite f_i_sq. change (fopp (toF 1)) with (- f1). ring. Qed.
Lemma y0_8 x : on_curve (x, 0) -> ed_mul 8 (x, 0) = ed_zero.
Proof.
  intros C. change 8%Z with (2 * (2 * 2))%Z. rewrite <- !ed_mul_mul by exact C. rewrite (ed_mul_mul 2 2 _ C). change (2 * 2)%Z with 4%Z.
  assert (Q : fst (ed_mul 2 (x, 0)) = 0).
  { rewrite (ed_mul_2 _ C). destruct (ed_add_spec _ _ C C) as (X & Y & E & EX & EY). rewrite E. cbn [fst snd] in *.
    transitivity (X * (1 + ed_d * (x * x * (0 * 0)))); [ring|]. rewrite EX. ring. }
  assert (Z4 : ed_mul 4 (x, 0) = ed_zero).
  { change 4%Z with (2 * 2)%Z. rewrite <- (ed_mul_mul 2 2 _ C). exact (x0_double _ (on_curve_mul 2 _ C) Q). }
  rewrite Z4. apply ed_mul_zero.
Qed.
Lemma y_low x y : on_curve (x, y) -> y = 1 \/ y = - f1 \/ y = 0 \/ y = toF y8a \/ y = toF y8b -> ed_mul 8 (x, y) = ed_zero.
Proof.
  intros C [E|[E|[E|[E|E] ] ] ].
  - apply (mul2_8 _ C), (x0_double _ C). apply (y_unit x y C). rewrite E. ring.
  - apply (mul2_8 _ C), (x0_double _ C). apply (y_unit x y C). rewrite E. ring.
  - rewrite E in *. exact (y0_8 x C).
  - rewrite E in *. destruct (order8 _ y8a_ok) as [C' O]. exact (same_y_8 _ _ _ C' C O).
  - rewrite E in *. destruct (order8 _ y8b_ok) as [C' O]. exact (same_y_8 _ _ _ C' C O).
Qed.
Local Close Scope F_scope.
(** The y-coordinates below 2^255. *)
Definition low_ys : list Z := [0; p; 1; p + 1; p - 1; y8a; y8b].
Definition low_keys : list Z := low_ys ++ map (fun y => 2 ^ 255 + y) low_ys.
Lemma low_ys_range y : In y low_ys -> 0 <= y < 2 ^ 255.
Proof.
  intros I. assert (F : forallb (fun n => andb (0 <=? n) (n <? 2 ^ 255)) low_ys = true) by (vm_compute; reflexivity).
  pose proof (proj1 (forallb_forall _ _) F y I) as B. apply andb_prop in B. destruct B as [B1 B2]. split; [apply Z.leb_le; exact B1|apply Z.ltb_lt; exact B2].
Qed.
Lemma mod_two n c : 0 <= n < 2 ^ 255 -> n mod p = c -> n = c \/ (n = p + c /\ c < 19).
Proof.
  intros R E. pose proof (Z.div_mod n p ltac:(discriminate)) as D. pose proof (Z.mod_pos_bound n p ltac:(reflexivity)) as M.
  rewrite E in *. assert (Q : n / p = 0 \/ n / p = 1) by (unfold p in *; clear -D M R; lia).
  destruct Q as [Q|Q]; rewrite Q in D; [left; clear -D; lia|right]. split; [clear -D; lia|]. unfold p in *. clear -D R. lia.
Qed.
Lemma toF_mod n v : toF n = v -> n mod p = fz v. Proof. intros <-. reflexivity. Qed.
Lemma big_c c : (19 <=? c) = true -> ~ c < 19. Proof. intros H G. apply Z.leb_le in H. clear -H G. lia. Qed.
Lemma low_ys_iff n : 0 <= n < 2 ^ 255 ->
  ((toF n = f1 \/ toF n = fopp f1 \/ toF n = f0 \/ toF n = toF y8a \/ toF n = toF y8b) <-> In n low_ys).
Proof.
  intros R. unfold low_ys. split.
  - intros [H|[H|[H|[H|H] ] ] ]; apply toF_mod in H.
    + change (fz f1) with 1 in H. destruct (mod_two n _ R H) as [E|[E _] ]; rewrite E.
      * right; right; left; reflexivity.
      * right; right; right; left; reflexivity.
    + change (fz (fopp f1)) with (p - 1) in H. destruct (mod_two n _ R H) as [E|[_ E] ]; [rewrite E; do 4 right; left; reflexivity|].
      exact (False_ind _ (big_c (p - 1) eq_refl E)).
    + change (fz f0) with 0 in H. destruct (mod_two n _ R H) as [E|[E _] ]; rewrite E.
      * left; reflexivity.
      * right; left. exact (eq_sym (Z.add_0_r p)).
    + change (fz (toF y8a)) with y8a in H. destruct (mod_two n _ R H) as [E|[_ E] ]; [rewrite E; do 5 right; left; reflexivity|].
      exact (False_ind _ (big_c y8a eq_refl E)).
    + change (fz (toF y8b)) with y8b in H. destruct (mod_two n _ R H) as [E|[_ E] ]; [rewrite E; do 6 right; left; reflexivity|].
      exact (False_ind _ (big_c y8b eq_refl E)).
  - intros [E|[E|[E|[E|[E|[E|[E|[] ] ] ] ] ] ] ]; rewrite <- E.
    + right; right; left. reflexivity.
    + right; right; left. apply F_ext. reflexivity.
    + left. reflexivity.
    + left. exact (toF_p 1).
    + right; left. apply F_ext. reflexivity.
    + do 3 right; left; reflexivity.
    + do 4 right; reflexivity.
Qed.
Lemma low_exists n : In n low_ys -> exists x, on_curve (x, toF n).
Proof.
  intros I. apply (low_ys_iff n (low_ys_range n I)) in I. destruct I as [E|[E|[E|[E|E] ] ] ]; rewrite E.
  - exists f0. apply x0_curve. ring.
  - exists f0. apply x0_curve. ring.
  - exists f_i. exact i0_curve.
  - eexists. exact (proj1 (order8 _ y8a_ok)).
  - eexists. exact (proj1 (order8 _ y8b_ok)).
Qed.
Theorem low_iff s : length s = 32%nat -> bytes s ->
  ((exists A, lax_decodes s A /\ ed_mul 8 A = ed_zero) <-> In s (map (le_encode 32) low_keys)).
Proof.
  intros Hl Hb. split.
  - intros ([x y] & LA & H8). pose proof LA as (_ & C & Y & _). cbn [snd] in Y. 
    pose proof (low_y x y C H8) as G. rewrite Y in G.
    pose proof (Z.mod_pos_bound (le_decode s) (2 ^ 255) ltac:(reflexivity)) as R. apply (low_ys_iff _ R) in G.
    rewrite <- (le_encode_decode s Hb), Hl. apply in_map. unfold low_keys. apply in_app_iff.
    pose proof (sign01 s Hb Hl) as S. pose proof (Z.div_mod (le_decode s) (2 ^ 255) ltac:(discriminate)) as D.
    clear -S D G. set (m := le_decode s mod 2 ^ 255) in *. clearbody m. destruct S as [S|S]; rewrite S in D.
    + left. replace (le_decode s) with m by (clear -D; lia). exact G.
    + right. apply in_map_iff. exists m. split; [clear -D; lia|exact G].
  - intros I. apply in_map_iff in I. destruct I as (n & E & I).
    assert (M : exists y, In y low_ys /\ (n = y \/ n = 2 ^ 255 + y)).
    { unfold low_keys in I. apply in_app_iff in I. destruct I as [I|I]; [exists n; split; [exact I|left; reflexivity]|].
      apply in_map_iff in I. destruct I as (y & Ey & I). exists y. split; [exact I|right; exact (eq_sym Ey)]. }
    destruct M as (y & Iy & Ny). pose proof (low_ys_range y Iy) as R.
    assert (DN : le_decode s = n).
    { rewrite <- E, le_decode_encode. apply Z.mod_small. change (256 ^ Z.of_nat 32) with (2 ^ 256). clear -R Ny. lia. }
    assert (My : le_decode s mod 2 ^ 255 = y).
    { rewrite DN. destruct Ny as [->| ->]; [apply Z.mod_small; exact R|].
      replace (2 ^ 255 + y) with (y + 1 * 2 ^ 255) by (clear; lia). rewrite Z.mod_add by discriminate. apply Z.mod_small. exact R. }
    destruct (low_exists y Iy) as [x C]. destruct (lax_exists s x Hb Hl) as [A LA]; [rewrite My; exact C|].
    exists A. split; [exact LA|]. destruct A as [x' y']. pose proof LA as (_ & CA & Y & _). cbn [snd] in Y. rewrite My in Y. rewrite Y in *.
    apply (y_low _ _ CA). exact (proj2 (low_ys_iff y R) Iy).
Qed.
Lemma mul_mod8 n A : on_curve A -> ed_mul 8 A = ed_zero -> ed_mul (n mod 8) A = ed_mul n A.
Proof.
  intros C H. transitivity (ed_add (ed_mul (n mod 8) A) (ed_mul (8 * (n / 8)) A)).
  - rewrite (mul8_zero A (8 * (n / 8)) C H). { exact (eq_sym (ed_add_0_r _)). }
    rewrite Z.mul_comm. apply Z.mod_mul. discriminate.
  - rewrite <- (ed_mul_add _ _ A C). f_equal. pose proof (Z.div_mod n 8 ltac:(discriminate)) as D. clear -D. lia.
Qed.
Theorem low_verifies msg sig pk A : bytes pk -> lax_decodes pk A -> ed_mul 8 A = ed_zero ->
  (ref10_verifies msg sig pk <->
   length sig = 64%nat /\ le_decode (skipn 32 sig) < 2 ^ 253 /\
   firstn 32 sig = ed_encode (ed_add (ed_mul (le_decode (skipn 32 sig)) ed_B)
     (ed_opp (ed_mul ((le_decode (H512 (firstn 32 sig ++ pk ++ msg)) mod L) mod 8) A)))).
Proof.
  intros Hb LA H8. pose proof LA as (_ & CA & _).
  pose proof (mul_mod8 (le_decode (H512 (firstn 32 sig ++ pk ++ msg)) mod L) A CA H8) as M.
  split.
  - intros (Ls & A' & H). cbv zeta in H. destruct H as (LA' & HS & E). rewrite (lax_unique pk A' A Hb LA' LA) in E.
    split; [exact Ls|]. split; [exact HS|]. rewrite M. exact (eq_sym E).
  - intros (Ls & HS & E). split; [exact Ls|]. exists A. cbv zeta. split; [exact LA|]. split; [exact HS|]. rewrite M in E. exact (eq_sym E).
Qed.
Theorem pk_not_low sk : ~ In (rfc_public_key sk) (map (le_encode 32) low_keys).
Proof.
  intros I. pose proof (P_Ed25519.pk_rfc sk) as R. pose proof (rfc_lax _ _ R) as LA.
  apply (low_iff _ (proj1 R) (P_Ed25519.enc_bytes _)) in I. destruct I as (A & LA' & H8).
  rewrite (lax_unique _ _ _ (P_Ed25519.enc_bytes _) LA' LA) in H8.
  rewrite (ed_mul_mul _ _ _ on_curve_B) in H8. apply order_B in H8.
  apply (fun D => Gauss L 8 _ D L_8) in H8. exact (clamped_not_L _ H8).
Qed.
Lemma sub_zero P k : ed_add P (ed_opp (ed_mul k ed_zero)) = P.
Proof. rewrite ed_mul_zero, ed_opp_zero. apply ed_add_0_r. Qed.
