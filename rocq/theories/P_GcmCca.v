(** The left-or-right game with decryption of C99: until something is accepted, it is a game of encryptions only. *)
From Verif Require Import Base Hex M_Aes M_Gcm S_Gcm T_Gcm T_Forge T_GcmPrivacy P_GcmExt S_GcmAuth P_GcmAuth.
From Verif Require BaseFacts S_GcmGame P_GcmGame.
From Verif Require Import S_GcmCca.

Definition cev (e : S_GcmGame.event) : event := match e with S_GcmGame.Answer r => Sealed r | S_GcmGame.Verdict _ => Opened None end.
(** The player of the forgery game. *)
Definition proj (l : bool) (P : adversary) : S_GcmGame.player := fun tr =>
  match P (map cev tr) with
  | LR nonce d ml mr => S_GcmGame.Encrypt nonce d (if l then ml else mr)
  | Open a => S_GcmGame.Decrypt a
  end.
Lemma proj_eq l P tr : proj l P tr = match P (map cev tr) with
      LR nonce d ml mr => S_GcmGame.Encrypt nonce d (if l then ml else mr) | Open a => S_GcmGame.Decrypt a end.
Proof. reflexivity. Qed.
Lemma proj_ok l b n m B P : adversary_ok b n m B P -> S_GcmGame.player_ok b n m B (proj l P).
Proof.
  intros [H1 H2]. split.
  - intros tr Ht. specialize (H1 (map cev tr)). rewrite map_length in H1. specialize (H1 Ht). unfold proj at 1.
    destruct (P (map cev tr)) as [nonce d ml mr|a] eqn:E.
    + destruct H1 as (Hn & Hd & Hl & Hr & Hlen & Hlim & HB & Fr).
      assert (Ll : len (if l then ml else mr) = len ml) by (unfold len; destruct l; congruence).
      split; [exact Hn|]. split; [exact Hd|]. split; [destruct l; [exact Hl|exact Hr]|]. split; [rewrite Ll; exact Hlim|]. split.
      * unfold hash_blocks in *. rewrite Ll. exact HB.
      * intros i n' d' m' Hi. unfold proj. rewrite <- firstn_map. destruct (P (firstn i (map cev tr))) as [n'' d'' ml' mr'|] eqn:E'; [|discriminate].
        intros [= -> _ _]. apply (Fr i n' d'' ml' mr'); [now rewrite map_length|exact E'].
    + destruct H1 as (Hn & Hd & Hc & HB & Hg). split; [exact Hn|]. split; [exact Hd|]. split; [exact Hc|]. split; [exact HB|].
      intros (i & m' & Hi & Em & En). apply Hg. unfold proj in Em. rewrite <- firstn_map in Em.
      destruct (P (firstn i (map cev tr))) as [n'' d'' ml' mr'|] eqn:E'; [|discriminate]. injection Em as -> -> _.
      exists i, ml', mr'. split; [now rewrite map_length|]. split; [exact E'|]. rewrite nth_error_map, En. reflexivity.
  - intros tr Ht. specialize (H2 (map cev tr)). rewrite map_length in H2. specialize (H2 Ht).
    rewrite (filter_ext_in (fun i => S_GcmGame.is_try (proj l P (firstn i tr))) (fun i => is_open (P (firstn i (map cev tr))))); [exact H2|].
    intros i _. unfold proj. rewrite <- firstn_map. now destruct (P (firstn i (map cev tr))).
Qed.
Lemma proj_asked l b n m B P : adversary_ok b n m B P -> forall tr, length tr = n -> forall k, (k <= n)%nat ->
  S_GcmGame.blocks_asked (proj l P) tr k = blocks_asked P (map cev tr) k.
Proof.
  intros [H1 _] tr Ht. induction k as [|k IH]; intros Hk; [reflexivity|]. cbn [S_GcmGame.blocks_asked blocks_asked]. rewrite IH by lia. f_equal.
  rewrite proj_eq, <- firstn_map. specialize (H1 (firstn k (map cev tr))). rewrite firstn_length, map_length in H1. specialize (H1 ltac:(lia)).
  destruct (P (firstn k (map cev tr))) as [nonce d ml mr|a]; [|reflexivity]. destruct H1 as (_ & _ & _ & _ & Hlen & _).
  destruct l; [reflexivity|]. now rewrite Hlen.
Qed.
Notation simP b f l P := (P_GcmGame.sim b f (proj l P)).
(** Either the player wins the forgery game, or the adversary's view is the simulated one. *)
Lemma play_sim b f l P n : S_GcmGame.won (S_GcmGame.play b f (proj l P) n) = true \/ lr_play b f l P n = map cev (simP b f l P n).
Proof.
  assert (H : S_GcmGame.won (S_GcmGame.play b f (proj l P) n) = true \/
    (S_GcmGame.play b f (proj l P) n = simP b f l P n /\ lr_play b f l P n = map cev (simP b f l P n))).
  { induction n as [|n IH]; [right; split; reflexivity|]. cbn [S_GcmGame.play lr_play P_GcmGame.sim]. unfold S_GcmGame.won in *. rewrite existsb_app.
    destruct IH as [IH|[IH1 IH2]]; [left; now rewrite IH|]. rewrite IH1, IH2. rewrite map_app. cbn [map].
    rewrite proj_eq. destruct (P (map cev (simP b f l P n))) as [nonce d ml mr|a].
    - right. split; reflexivity.
    - cbn [S_GcmGame.respond P_GcmGame.refuse answer cev existsb]. unfold accepted. destruct (gcm_decrypt _ _ _ _ _ _ _ _) as [[r [|]]|].
      + left. now rewrite !orb_true_r.
      + right. split; reflexivity.
      + right. split; reflexivity. }
  tauto.
Qed.

(** ** The translation between left and right *)
Lemma dbyte_nodup qs q j k : NoDup (map q_nonce qs) -> In q qs -> length (q_nonce q) = 12%nat -> 2 + Z.of_nat j < 2 ^ 32 ->
  dbyte qs (counter_block (q_nonce q) j) k = Z.lxor (nth (16 * j + k) (q_left q) 0) (nth (16 * j + k) (q_right q) 0).
Proof.
  intros ND Hq Ln Hj. destruct (nonce_ctr (q_nonce q) (2 + Z.of_nat j) Ln ltac:(lia)) as [E1 E2].
  change (q_nonce q ++ be_encode 4 (2 + Z.of_nat j)) with (counter_block (q_nonce q) j) in E1, E2.
  induction qs as [|q0 qs IH]; [destruct Hq|]. cbn [map] in ND. inversion ND as [|x y N1 N2]. subst x y.
  change (q0 :: qs) with ([q0] ++ qs). rewrite dbyte_app.
  assert (E0 : forall q', dbyte [q'] (counter_block (q_nonce q) j) k = qbyte (counter_block (q_nonce q) j) k q') by (intros q'; unfold dbyte; cbn [map fold_right]; apply Z.lxor_0_r).
  rewrite E0. destruct Hq as [->|Hq].
  - rewrite dbyte_zero; [rewrite Z.lxor_0_r|].
    + unfold qbyte. rewrite E1, E2. destruct list_eq_dec as [_|E]; [|now destruct E]. cbv zeta. destruct (2 + Z.of_nat j <? 2) eqn:E; [apply Z.ltb_lt in E; lia|].
      replace (2 + Z.of_nat j - 2) with (Z.of_nat j) by lia. now rewrite Nat2Z.id.
    + intros q' Hq'. unfold qbyte. rewrite E1. destruct list_eq_dec as [E|]; [|reflexivity]. exfalso. apply N1. rewrite E. now apply in_map.
  - rewrite (IH N2 Hq). unfold qbyte. rewrite E1. destruct list_eq_dec as [E|]; [|apply Z.lxor_0_l]. exfalso. apply N1. rewrite <- E. now apply in_map.
Qed.
Lemma dbyte_byte' qs x k : (forall q, In q qs -> bytes (q_left q) /\ bytes (q_right q)) -> byte_ok (dbyte qs x k).
Proof.
  induction qs as [|q qs IH]; intros H; [unfold dbyte, byte_ok; cbn; lia|]. unfold dbyte. cbn [map fold_right].
  apply BaseFacts.byte_lxor; [|apply IH; intros q' Hq; apply H; now right]. destruct (H q (or_introl eq_refl)) as [Bl Br].
  unfold qbyte. destruct list_eq_dec; [|unfold byte_ok; lia]. cbv zeta. destruct (_ <? 2); [unfold byte_ok; lia|].
  apply BaseFacts.byte_lxor; apply BaseFacts.bytes_nth; assumption.
Qed.

Section Shift.
Variables (b : build) (n m : nat) (B : Z) (P : adversary).
Hypothesis HP : adversary_ok b n m B P.
Definition lr_at (f : list Z -> list Z) (l : bool) (i : nat) : list lr_query :=
  match P (map cev (simP b f l P i)) with
  | LR nonce d ml mr => [{| q_nonce := nonce; q_data := d; q_left := ml; q_right := mr |}]
  | Open _ => []
  end.
Definition lrs (f : list Z -> list Z) (l : bool) (k : nat) : list lr_query := flat_map (lr_at f l) (seq 0 k).
Lemma lr_ok f l i nonce d ml mr : (i < n)%nat -> P (map cev (simP b f l P i)) = LR nonce d ml mr ->
  gcm_nonce nonce /\ gcm_data d /\ gcm_message ml /\ gcm_message mr /\ length ml = length mr /\
         (b = Unchecked \/ len ml <= checked_limit) /\ hash_blocks d ml <= B /\ fresh P (map cev (simP b f l P i)) nonce.
Proof. intros Hi E. pose proof (proj1 HP (map cev (simP b f l P i))) as H. rewrite map_length, P_GcmGame.sim_length, E in H. apply H. exact Hi. Qed.
Lemma lrs_in f l k q : In q (lrs f l k) -> exists i, (i < k)%nat /\ P (map cev (simP b f l P i)) = LR (q_nonce q) (q_data q) (q_left q) (q_right q).
Proof.
  intros I. apply in_flat_map in I. destruct I as (i & Hi & I). apply in_seq in Hi. exists i. split; [lia|]. unfold lr_at in I.
  destruct (P _); [|destruct I]. destruct I as [<-|[]]. reflexivity.
Qed.
Lemma lrs_nodup f l k : (k <= n)%nat -> NoDup (map q_nonce (lrs f l k)).
Proof.
  induction k as [|k IH]; intros Hk; [constructor|]. unfold lrs. rewrite seq_S, flat_map_app, map_app. cbn [Nat.add flat_map]. rewrite app_nil_r.
  fold (lrs f l k). unfold lr_at. destruct (P (map cev (simP b f l P k))) as [nonce d ml mr|a] eqn:Ep; [|cbn [map]; rewrite app_nil_r; apply IH; lia].
  cbn [map q_nonce]. apply P_GcmGame.NoDup_snoc; [apply IH; lia|].
  intros I. apply in_map_iff in I. destruct I as (q & Eq & Iq).
  destruct (lrs_in f l k q Iq) as (i & Hi & Ei). destruct (lr_ok f l k nonce d ml mr ltac:(lia) Ep) as (_ & _ & _ & _ & _ & _ & _ & Fr).
  apply (Fr i (q_nonce q) (q_data q) (q_left q) (q_right q)); [now rewrite map_length, P_GcmGame.sim_length| |exact Eq].
  rewrite firstn_map, P_GcmGame.sim_firstn by lia. exact Ei.
Qed.
Definition moved (f : list Z -> list Z) (l : bool) : list Z -> list Z := shift (lrs f l n) f.
Lemma moved_block f l : block_fn f -> block_fn (moved f l).
Proof.
  intros Hf x Hx. split; [apply shift_length|]. unfold moved, shift. apply Forall_forall. intros y Hy. apply in_map_iff in Hy.
  destruct Hy as (k & <- & _). apply BaseFacts.byte_lxor; [apply BaseFacts.bytes_nth; now apply Hf|]. apply dbyte_byte'. intros q Hq.
  destruct (lrs_in f l n q Hq) as (i & Hi & Ei). destruct (lr_ok f l i _ _ _ _ Hi Ei) as (_ & _ & Hl & Hr & _). split; [apply Hl|apply Hr].
Qed.
Lemma moved_sim f l : block_fn f -> forall i, (i <= n)%nat -> simP b (moved f l) (negb l) P i = simP b f l P i.
Proof.
  intros Hf. induction i as [|i IH]; intros Hi; [reflexivity|]. cbn [P_GcmGame.sim]. rewrite IH by lia. do 2 f_equal.
  rewrite !proj_eq. destruct (P (map cev (simP b f l P i))) as [nonce d ml mr|a] eqn:Ep; [|reflexivity].
  destruct (lr_ok f l i nonce d ml mr ltac:(lia) Ep) as (Hn & Hd & Hl & Hr & Hlen & _).
  set (q := {| q_nonce := nonce; q_data := d; q_left := ml; q_right := mr |}).
  assert (Hq : In q (lrs f l n)). { apply in_flat_map. exists i. split; [apply in_seq; lia|]. unfold lr_at. rewrite Ep. now left. }
  assert (E : lr_answer b (negb l) (moved f l) q = lr_answer b l f q).
  { apply answer_eq; try assumption.
    - now apply moved_block.
    - apply shift_same; [apply Hf, J0_block; exact Hn|]. intros k _. apply dbyte_zero. intros q' _. apply qbyte_low.
      change (J0 ?x) with (x ++ be_encode 4 1). destruct (nonce_ctr nonce 1 (proj1 Hn)) as [_ E]; [lia|]. cbn [q q_nonce]. rewrite E. lia.
    - apply shift_same; [apply Hf, zero_block|]. intros k _. apply dbyte_zero. intros q' _. apply qbyte_low. reflexivity.
    - intros j k Hk Hj. unfold moved. rewrite shift_nth by assumption. f_equal.
      apply dbyte_nodup; [now apply lrs_nodup|exact Hq|exact (proj1 Hn)|].
      cbn [q q_left] in Hj. destruct Hl as [_ Lm]. unfold len in Lm. lia. }
  cbn [P_GcmGame.refuse S_GcmGame.respond]. f_equal. exact E.
Qed.
Lemma moved_lrs f l : block_fn f -> lrs (moved f l) (negb l) n = lrs f l n.
Proof.
  intros Hf. unfold lrs. rewrite !flat_map_concat_map. f_equal. apply map_ext_in. intros i Hi. apply in_seq in Hi.
  unfold lr_at. rewrite moved_sim by (try assumption; lia). reflexivity.
Qed.
Lemma moved_twice f l x : block_fn f -> is_block x -> moved (moved f l) (negb l) x = f x.
Proof. intros Hf Hx. unfold moved at 1. rewrite moved_lrs by exact Hf. apply shift_twice. now apply Hf. Qed.
End Shift.

(** [decrypt] depends on the values at blocks only. *)
Lemma open_ext b f f' a : block_fn f -> block_fn f' -> (forall x, is_block x -> f' x = f x) ->
  gcm_nonce (a_nonce a) -> gcm_data (a_data a) -> gcm_message (a_ct a) -> b = Unchecked \/ len (a_ct a) <= checked_limit ->
  forall out, length out = length (a_ct a) ->
  gcm_decrypt ideal b f' (a_ct a) (a_nonce a) (a_data a) (a_tag a) out = gcm_decrypt ideal b f (a_ct a) (a_nonce a) (a_data a) (a_tag a) out.
Proof.
  intros Hf Hf' E Hn Hd Hc Hl out Ho.
  destruct (C32_decrypt_accepts_exactly ideal f Hf _ _ _ Hn Hd Hc) as (_ & Y & N & _).
  destruct (C32_decrypt_accepts_exactly ideal f' Hf' _ _ _ Hn Hd Hc) as (_ & Y' & N' & _).
  assert (R : right_tag f' a <-> right_tag f a) by (apply right_ext; try assumption; apply E; [apply zero_block|now apply J0_block]).
  unfold right_tag in R. change (bc_permute ideal f) with f in Y, N. change (bc_permute ideal f') with f' in Y', N'.
  destruct (list_eq_dec Z.eq_dec (a_tag a) (gcm_auth_tag f (a_nonce a) (a_data a) (a_ct a))) as [Et|Nt].
  - specialize (Y b out Ho Hl). rewrite <- Et in Y. rewrite Y.
    specialize (Y' b out Ho Hl). rewrite <- (proj2 R Et) in Y'. rewrite Y'.
    do 2 f_equal. apply ct_ctr; try assumption. intros j _. apply E. now apply ctr_block.
  - rewrite (N b out _ Ho Nt), (N' b out); [reflexivity|exact Ho|]. intros Et. apply Nt, R, Et.
Qed.
