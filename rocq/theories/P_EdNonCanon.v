(** The strings that the code decodes as points although RFC 8032 does not: exactly 26. *)
From Verif Require Import BaseFacts S_Field S_Edwards S_Ed25519 P_Field P_FieldInv P_Edwards P_EdDecode P_Ed25519 P_Mont P_Twist P_EdBind.
Local Opaque ed_d.
Local Open Scope F_scope.
(** [x^2 (b - a y^2) = b (y^2 - 1)] with [a = 121665], [b = 121666], checked on integers. *)
Definition root_ok (y x : Z) : bool := Z.eqb ((mulr x x * (121666 - 121665 * (y * y)) - 121666 * (y * y - 1)) mod p)%Z 0%Z.
Definition no_root_ok (y s : Z) : bool :=
  andb (Z.eqb ((mulr s s - 121665 * ((y * y - 1) * (121666 - 121665 * (y * y)))) mod p) 0) (negb (Z.eqb ((y * y - 1) mod p) 0))%Z.
Lemma toF_sub0 m n : ((m - n) mod p = 0)%Z -> toF m = toF n.
Proof. intros H. apply toF_eq. unfold p in *. clear -H. Z.div_mod_to_equations. lia. Qed.
Lemma root_curve y x : root_ok y x = true -> on_curve (toF x, toF y).
Proof.
  unfold root_ok. intros H. apply Z.eqb_eq in H. apply toF_sub0 in H. revert H. rewrite !toF_mul, !toF_sub, !toF_mul, mulr_ok.
  change (toF 1) with f1. pose proof ed_d_def as Ed. pose proof c121666_neq0 as Nb. set (a := toF 121665) in *. set (b := toF 121666) in *. clearbody a b.
  generalize (toF x) (toF y). clear x y. intros x y H. unfold on_curve. apply (fmul_cancel b); [exact Nb|].
  transitivity (b + (ed_d * b) * (x * x) * (y * y)); [|ring]. rewrite Ed.
  transitivity (b + b * (y * y - 1) - b * (x * x)); [ring|]. rewrite <- H. ring.
Qed.
Lemma no_root y s x : no_root_ok y s = true -> ~ on_curve (x, toF y).
Proof.
  unfold no_root_ok. intros H C. apply andb_prop in H. destruct H as [H N]. apply Z.eqb_eq in H. apply toF_sub0 in H.
  assert (N' : toF (y * y - 1) <> 0).
  { intros E. apply (f_equal fz) in E. change (((y * y - 1) mod p)%Z = 0%Z) in E. rewrite E in N. discriminate N. }
  revert H N'. clear N. rewrite !toF_mul, !toF_sub, !toF_mul, mulr_ok. change (toF 1) with f1. unfold on_curve in C. revert C.
  pose proof ed_d_def as Ed. pose proof c121666_neq0 as Nb. pose proof c121665_neq0 as Na.
  assert (NNd : NN = toF 121665 * toF 121666) by exact eq_refl. set (a := toF 121665) in *. set (b := toF 121666) in *. clearbody a b.
  generalize (toF s) (toF y). clear s y. intros s y C H N.
  assert (K : x * x * (b - a * (y * y)) = b * (y * y - 1)).
  { transitivity (b * (1 + ed_d * (x * x) * (y * y)) - b + b * (x * x) - x * x * (ed_d * b + a) * (y * y)); [ring|].
    rewrite <- C, Ed. ring. }
  (* s^2 b = a b (y^2-1) (b - a y^2) = a x^2 (b - a y^2)^2 *)
  assert (X : x * (b - a * (y * y)) <> 0).
  { intros E. apply (fmul_neq0 b (y * y - 1) Nb N). rewrite <- K.
    transitivity (x * (x * (b - a * (y * y)))); [ring|]. rewrite E. ring. }
  set (w := x * (b - a * (y * y))) in *.
  assert (G : b * (s * s) = a * (w * w)).
  { rewrite H. transitivity (a * (b * (y * y - 1)) * (b - a * (y * y))); [ring|]. rewrite <- K. unfold w. ring. }
  apply (NN_nonsquare (b * s / w)). rewrite NNd.
  transitivity (b * (b * (s * s)) / (w * w)); [field; exact X|]. rewrite G. field. exact X.
Qed.
Definition roots : list (Z * Z) := [
  (0, 19681161376707505956807079304988542015446066515923890162744021073123829784752);
  (1, 0);
  (3, 47490639360184182837601875270316946735278442122217188244898328344323804759522);
  (4, 31702771484534017269339373971739649995459835985599134064568305595915068745151);
  (5, 39662079413846548812394406357884595898465868971068617279194812783497449546402);
  (6, 44179385186637231197387423809866071544592466792969908008717492870455120005190);
  (9, 20998110467665258077629620998309994886851780706327836337918840104339545710600);
  (10, 33207867507306152740598547708713744163602291609520176848873678110386858952419);
  (14, 50846253492489715349487553736853302465683434727029469430224215734562421485833);
  (15, 55732238393510018740248637141718565550047250075628506353605146378834452627480);
  (16, 30423490184102983547751937222062317622425652989592655573890622631116622934896);
  (18, 24955915220342692964971208821014542627211739005308489835959708316178776387624)
]%Z.
Definition non_roots : list (Z * Z) := [
  (2, 35465865873822218320783693623442307772875480470743805988243934568518779923076);
  (7, 992394935158743767248302697225880687722776087742794823478510144443561671307);
  (8, 36312659851674566934357893879889126466291770967557336026928600766712706335529);
  (11, 25139968666532447673616633051921913541551626810033101881835726773376490884558);
  (12, 39050634634051564929942901243189059017972553729711789758460727503893036125716);
  (13, 31535983829007692219723173418442192259121302077053301464108856715982432751141);
  (17, 25253711062890955022529429281318569964549028539132524472571817397289429303046)
]%Z.
Lemma roots_ok : forallb (fun t => root_ok (fst t) (snd t)) roots = true. Proof. vm_compute. reflexivity. Qed.
Lemma non_roots_ok : forallb (fun t => no_root_ok (fst t) (snd t)) non_roots = true. Proof. vm_compute. reflexivity. Qed.
Local Close Scope F_scope.
Lemma small_y y : 0 <= y < 19 -> In y (map fst roots) \/ In y (map fst non_roots).
Proof. intros H. cbn [map fst roots non_roots In]. lia. Qed.
Lemma small_y_iff y : 0 <= y < 19 -> ((exists x, on_curve (x, toF y)) <-> In y (map fst roots)).
Proof.
  intros H. split.
  - intros [x C]. destruct (small_y y H) as [I|I]; [exact I|]. apply in_map_iff in I. destruct I as ((y' & s) & E & I). cbn [fst] in E. rewrite <- E in C.
    pose proof (proj1 (forallb_forall _ _) non_roots_ok _ I) as T. cbn [fst snd] in T. exact (False_ind _ (no_root y' s x T C)).
  - intros I. apply in_map_iff in I. destruct I as ((y' & s) & E & I). cbn [fst] in E. rewrite <- E. exists (toF s).
    apply root_curve. exact (proj1 (forallb_forall _ _) roots_ok _ I).
Qed.
(** ** The strings *)
Definition lax_ys : list Z := [0; 1; 3; 4; 5; 6; 9; 10; 14; 15; 16; 18].
Lemma lax_ys_ok : map fst roots = lax_ys. Proof. reflexivity. Qed.
Definition lax_only : list Z :=
  [2 ^ 255 + 1; 2 ^ 255 + (p - 1)] ++ map (fun y => p + y) lax_ys ++ map (fun y => 2 ^ 255 + p + y) lax_ys.
Lemma in_lax_only n : In n lax_only <->
  n = 2 ^ 255 + 1 \/ n = 2 ^ 255 + (p - 1) \/ (exists y, In y lax_ys /\ (n = p + y \/ n = 2 ^ 255 + p + y)).
Proof.
  unfold lax_only. rewrite !in_app_iff, !in_map_iff. split.
  - intros [H|[(y & E & I)|(y & E & I)] ].
    + destruct H as [H|[H|[] ] ]; [left|right; left]; exact (eq_sym H).
    + right. right. exists y. split; [exact I|]. left. exact (eq_sym E).
    + right. right. exists y. split; [exact I|]. right. exact (eq_sym E).
  - intros [H|[H|(y & I & [H|H])] ].
    + left. left. exact (eq_sym H).
    + left. right. left. exact (eq_sym H).
    + right. left. exists y. split; [exact (eq_sym H)|exact I].
    + right. right. exists y. split; [exact (eq_sym H)|exact I].
Qed.
Lemma lax_ys_range y : In y lax_ys -> 0 <= y < 19.
Proof. unfold lax_ys. cbn [In]. lia. Qed.
Lemma toF_p y : toF (p + y) = toF y.
Proof. apply toF_eq. rewrite Z.add_comm. replace (y + p) with (y + 1 * p) by (clear; lia). apply Z.mod_add. discriminate. Qed.
Lemma x0_curve y : fmul y y = f1 -> on_curve (f0, y).
Proof. intros E. unfold on_curve. transitivity (fmul y y); [ring|]. rewrite E. ring. Qed.
Lemma mod_cases y : 0 <= y < 19 -> (p + y) mod 2 ^ 255 = p + y /\ (2 ^ 255 + p + y) mod 2 ^ 255 = p + y.
Proof.
  intros R. split.
  - apply Z.mod_small. unfold p. lia.
  - replace (2 ^ 255 + p + y) with (p + y + 1 * 2 ^ 255) by (clear; lia). rewrite Z.mod_add by discriminate. apply Z.mod_small. unfold p. lia.
Qed.
Theorem lax_only_iff s : length s = 32%nat -> bytes s ->
  ((exists A, lax_decodes s A) /\ (forall P, ~ rfc_decodes s P) <-> In s (map (le_encode 32) lax_only)).
Proof.
  intros Hl Hb. split.
  - intros ((A & LA) & N). rewrite <- (le_encode_decode s Hb), Hl. apply in_map. apply in_lax_only.
    destruct (lax_not_rfc s A Hb LA N) as [G|[G|G] ]; [|left; exact G|right; left; exact G].
    right. right. pose proof (sign01 s Hb Hl) as S. pose proof (Z.div_mod (le_decode s) (2 ^ 255) ltac:(discriminate)) as D.
    pose proof (Z.mod_pos_bound (le_decode s) (2 ^ 255) ltac:(reflexivity)) as R.
    exists (le_decode s mod 2 ^ 255 - p).
    assert (R' : 0 <= le_decode s mod 2 ^ 255 - p < 19) by (unfold p in *; clear -G R; lia).
    split.
    + rewrite <- lax_ys_ok. apply (small_y_iff _ R'). destruct A as [x y]. exists x. destruct LA as (_ & C & Y & _). cbn [snd] in Y.
      rewrite Y in C. rewrite <- (toF_p (le_decode s mod 2 ^ 255 - p)).
      replace (p + (le_decode s mod 2 ^ 255 - p)) with (le_decode s mod 2 ^ 255) by (clear; lia). exact C.
    + set (n := le_decode s) in *. clearbody n. clear -D S. set (m := n mod 2 ^ 255) in *. clearbody m. 
      destruct S as [S|S]; rewrite S in D; [left|right]; lia.
  - intros I. apply in_map_iff in I. destruct I as (n & E & I).
    assert (DN : le_decode s = n).
    { rewrite <- E, le_decode_encode. apply Z.mod_small. change (256 ^ Z.of_nat 32) with (2 ^ 256). apply in_lax_only in I.
      destruct I as [I|[I|(y & I & [J|J])] ]; try (rewrite I; split; [discriminate|reflexivity]);
        apply lax_ys_range in I; rewrite J; unfold p; clear -I; lia. }
    apply in_lax_only in I. clear E. destruct I as [I|[I|(y & I & J)] ].
    + split.
      * apply (lax_exists s f0 Hb Hl). rewrite DN, I. change ((2 ^ 255 + 1) mod 2 ^ 255) with 1. apply x0_curve. change (toF 1) with f1. ring.
      * intros P. apply (rfc_sign_one s P Hl). rewrite DN. exact I.
    + split.
      * apply (lax_exists s f0 Hb Hl). rewrite DN, I. change ((2 ^ 255 + (p - 1)) mod 2 ^ 255) with (p - 1). apply x0_curve.
        apply F_ext. vm_compute. reflexivity.
      * intros P (_ & _ & C & Y & X). rewrite DN, I in Y, X. change ((2 ^ 255 + (p - 1)) mod 2 ^ 255) with (p - 1) in Y.
        change ((2 ^ 255 + (p - 1)) / 2 ^ 255) with 1 in X. destruct P as [x y]. cbn [fst snd] in *.
        assert (Ey : y = toF (-1)) by (apply F_ext; rewrite Y; reflexivity). rewrite Ey in C. 
        assert (X0 : x = f0). { apply (P_EdBind.y_unit x (toF (-1)) C). apply F_ext. vm_compute. reflexivity. }
        rewrite X0 in X. discriminate X.
    + pose proof (lax_ys_range y I) as R. destruct (mod_cases y R) as [M1 M2].
      assert (M : le_decode s mod 2 ^ 255 = p + y) by (rewrite DN; destruct J as [J|J]; rewrite J; [exact M1|exact M2]). split.
      * rewrite <- lax_ys_ok in I. apply (small_y_iff y R) in I. destruct I as [x C].
        apply (lax_exists s x Hb Hl). rewrite M, toF_p. exact C.
      * intros P (_ & H & _). rewrite M in H. clear -H R. lia.
Qed.
