(** The left-or-right game with decryption of C95: until something is accepted, it is a game of encryptions only. *)
From Verif Require Import Base M_ChaCha20 M_Poly1305 S_ChaCha T_Ccp T_Forge T_CcpPrivacy S_CcpAuth P_CcpAuth.
From Verif Require BaseFacts S_CcpGame P_CcpGame.
From Verif Require Import S_CcpCca.

Definition cev (e : S_CcpGame.event) : event := match e with S_CcpGame.Answer c t => Sealed c t | S_CcpGame.Verdict _ => Opened None end.
(** The player of the forgery game. *)
Definition proj (l : bool) (P : adversary) : S_CcpGame.player := fun tr =>
  match P (map cev tr) with
  | LR nonce d ml mr => S_CcpGame.Encrypt nonce d (if l then ml else mr)
  | Open a => S_CcpGame.Decrypt a
  end.
Lemma proj_ok l n m B P : adversary_ok n m B P -> S_CcpGame.player_ok n m B (proj l P).
Proof.
  intros [H1 H2]. split.
  - intros tr Ht. specialize (H1 (map cev tr)). rewrite map_length in H1. specialize (H1 Ht). unfold proj at 1.
    destruct (P (map cev tr)) as [nonce d ml mr|a] eqn:E.
    + destruct H1 as (Hn & Hd & Hl & Hr & Hlim & Hlen & HB & Fr).
      assert (Ll : len (if l then ml else mr) = len ml) by (unfold len; destruct l; congruence).
      repeat split; try apply Hn; try apply Hd; try (destruct l; first [apply Hl|apply Hr]); try (rewrite Ll; exact Hlim).
      * unfold hash_blocks in *. rewrite Ll. exact HB.
      * intros i n' d' m' Hi. unfold proj. rewrite <- firstn_map. destruct (P (firstn i (map cev tr))) as [n'' d'' ml' mr'|] eqn:E'; [|discriminate].
        intros [= -> _ _]. apply (Fr i n' d'' ml' mr'); [now rewrite map_length|exact E'].
    + destruct H1 as (Hn & Hd & Hc & HB & Hg). repeat split; try apply Hn; try apply Hd; try apply Hc; try exact HB.
      intros (i & m' & Hi & Em & En). apply Hg. unfold proj in Em. rewrite <- firstn_map in Em.
      destruct (P (firstn i (map cev tr))) as [n'' d'' ml' mr'|] eqn:E'; [|discriminate]. injection Em as -> -> _.
      exists i, ml', mr'. split; [now rewrite map_length|]. split; [exact E'|]. rewrite nth_error_map, En. reflexivity.
  - intros tr Ht. specialize (H2 (map cev tr)). rewrite map_length in H2. specialize (H2 Ht).
    rewrite (filter_ext_in (fun i => S_CcpGame.is_try (proj l P (firstn i tr))) (fun i => is_open (P (firstn i (map cev tr))))); [exact H2|].
    intros i _. unfold proj. rewrite <- firstn_map. now destruct (P (firstn i (map cev tr))).
Qed.
Notation simP F l P := (P_CcpGame.sim F (proj l P)).
(** Either the player wins the forgery game, or the adversary's view is the simulated one. *)
Lemma play_sim F l P n : S_CcpGame.won (S_CcpGame.play F (proj l P) n) = true \/ lr_play F l P n = map cev (simP F l P n).
Proof.
  assert (H : S_CcpGame.won (S_CcpGame.play F (proj l P) n) = true \/
    (S_CcpGame.play F (proj l P) n = simP F l P n /\ lr_play F l P n = map cev (simP F l P n))).
  { induction n as [|n IH]; [right; split; reflexivity|]. cbn [S_CcpGame.play lr_play P_CcpGame.sim]. unfold S_CcpGame.won in *. rewrite existsb_app.
    destruct IH as [IH|[IH1 IH2]]; [left; now rewrite IH|]. rewrite IH1, IH2. rewrite map_app. cbn [map].
    assert (EX : proj l P (simP F l P n) = match P (map cev (simP F l P n)) with
      LR nonce d ml mr => S_CcpGame.Encrypt nonce d (if l then ml else mr) | Open a => S_CcpGame.Decrypt a end) by reflexivity.
    rewrite EX. clear EX. destruct (P (map cev (simP F l P n))) as [nonce d ml mr|a].
    - right. split; [reflexivity|]. now do 2 f_equal.
    - cbn [S_CcpGame.respond P_CcpGame.refuse answer cev existsb]. destruct (accepted F a); [left; now rewrite !orb_true_r|right; split; reflexivity]. }
  tauto.
Qed.

(** ** The translation between left and right *)
Lemma dbyte_nodup qs q j k : NoDup (map q_nonce qs) -> In q qs ->
  dbyte qs (1 + Z.of_nat j) (q_nonce q) k = Z.lxor (nth (64 * j + k) (q_left q) 0) (nth (64 * j + k) (q_right q) 0).
Proof.
  intros ND Hq. induction qs as [|q0 qs IH]; [destruct Hq|]. cbn [map] in ND. inversion ND as [|x y N1 N2]. subst x y.
  change (q0 :: qs) with ([q0] ++ qs). rewrite dbyte_app.
  assert (E1 : forall q', dbyte [q'] (1 + Z.of_nat j) (q_nonce q) k = qbyte (1 + Z.of_nat j) (q_nonce q) k q') by (intros q'; unfold dbyte; cbn [map fold_right]; apply Z.lxor_0_r).
  rewrite E1. destruct Hq as [->|Hq].
  - rewrite dbyte_zero; [rewrite Z.lxor_0_r|].
    + unfold qbyte. destruct list_eq_dec as [_|E]; [|now destruct E]. destruct (1 + Z.of_nat j <? 1) eqn:E; [apply Z.ltb_lt in E; lia|].
      replace (1 + Z.of_nat j - 1) with (Z.of_nat j) by lia. now rewrite Nat2Z.id.
    + intros q' Hq'. unfold qbyte. destruct list_eq_dec as [E|]; [|reflexivity]. exfalso. apply N1. rewrite E. now apply in_map.
  - rewrite (IH N2 Hq). unfold qbyte. destruct list_eq_dec as [E|]; [|apply Z.lxor_0_l]. exfalso. apply N1. rewrite <- E. now apply in_map.
Qed.
Lemma dbyte_byte' qs c nonce k : (forall q, In q qs -> bytes (q_left q) /\ bytes (q_right q)) -> byte_ok (dbyte qs c nonce k).
Proof.
  induction qs as [|q qs IH]; intros H; [unfold dbyte, byte_ok; cbn; lia|]. unfold dbyte. cbn [map fold_right].
  apply BaseFacts.byte_lxor; [|apply IH; intros q' Hq; apply H; now right]. destruct (H q (or_introl eq_refl)) as [Bl Br].
  unfold qbyte. destruct list_eq_dec; [|unfold byte_ok; lia]. destruct (_ <? 1); [unfold byte_ok; lia|]. cbv zeta.
  apply BaseFacts.byte_lxor; apply BaseFacts.bytes_nth; assumption.
Qed.
Lemma seal_shift qs F q l : good_blocks F -> chacha_nonce (q_nonce q) -> length (q_left q) = length (q_right q) ->
  NoDup (map q_nonce qs) -> In q qs ->
  seal the_mac (shift qs F) (q_nonce q) (q_data q) (q_msg q (negb l)) = seal the_mac F (q_nonce q) (q_data q) (q_msg q l).
Proof.
  intros HF Hn Hl ND Hq.
  assert (HL : length (q_msg q (negb l)) = length (q_msg q l)) by (destruct l; cbn; lia).
  assert (HX : forall m, Z.lxor (nth m (q_left q) 0) (nth m (q_right q) 0) = Z.lxor (nth m (q_msg q l) 0) (nth m (q_msg q (negb l)) 0)).
  { intros m. destruct l; [reflexivity|]. apply Z.lxor_comm. }
  unfold seal. cbv zeta. rewrite (shift_0 _ F (q_nonce q)) by (apply HF; [lia|assumption]). rewrite HL.
  match goal with |- (?c1, _) = (?c2, _) => assert (E : c1 = c2); [|now rewrite E] end.
  apply map_ext_in. intros n Hin. apply in_seq in Hin. pose proof (Nat.mod_upper_bound n 64 ltac:(lia)) as Ub. pose proof (Nat.div_mod n 64 ltac:(lia)) as Dm.
  rewrite shift_nth, (dbyte_nodup qs q), <- Dm, HX by (assumption || lia).
  apply Z.bits_inj'. intros k _. rewrite !Z.lxor_spec. destruct (Z.testbit _ k), (Z.testbit _ k), (Z.testbit _ k); reflexivity.
Qed.

Section Shift.
Variables (n m : nat) (B : Z) (P : adversary).
Hypothesis HP : adversary_ok n m B P.
Definition lr_at (F : blocks) (l : bool) (i : nat) : list lr_query :=
  match P (map cev (simP F l P i)) with
  | LR nonce d ml mr => [{| q_nonce := nonce; q_data := d; q_left := ml; q_right := mr |}]
  | Open _ => []
  end.
Definition lrs (F : blocks) (l : bool) (k : nat) : list lr_query := flat_map (lr_at F l) (seq 0 k).
Lemma lr_ok F l i nonce d ml mr : (i < n)%nat -> P (map cev (simP F l P i)) = LR nonce d ml mr ->
  chacha_nonce nonce /\ is_slice d /\ is_slice ml /\ is_slice mr /\ len ml <= checked_limit /\
         length ml = length mr /\ hash_blocks d ml <= B /\ fresh P (map cev (simP F l P i)) nonce.
Proof. intros Hi E. pose proof (proj1 HP (map cev (simP F l P i))) as H. rewrite map_length, P_CcpGame.sim_length, E in H. apply H. exact Hi. Qed.
Lemma lrs_in F l k q : In q (lrs F l k) -> exists i, (i < k)%nat /\ P (map cev (simP F l P i)) = LR (q_nonce q) (q_data q) (q_left q) (q_right q).
Proof.
  intros I. apply in_flat_map in I. destruct I as (i & Hi & I). apply in_seq in Hi. exists i. split; [lia|]. unfold lr_at in I.
  destruct (P _); [|destruct I]. destruct I as [<-|[]]. reflexivity.
Qed.
Lemma lrs_nodup F l k : (k <= n)%nat -> NoDup (map q_nonce (lrs F l k)).
Proof.
  induction k as [|k IH]; intros Hk; [constructor|]. unfold lrs. rewrite seq_S, flat_map_app, map_app. cbn [Nat.add flat_map]. rewrite app_nil_r.
  fold (lrs F l k). unfold lr_at. destruct (P (map cev (simP F l P k))) as [nonce d ml mr|a] eqn:Ep; [|cbn [map]; rewrite app_nil_r; apply IH; lia].
  cbn [map q_nonce]. assert (Nin : ~ In nonce (map q_nonce (lrs F l k))).
  { intros I. apply in_map_iff in I. destruct I as (q & Eq & Iq).
    destruct (lrs_in F l k q Iq) as (i & Hi & Ei). destruct (lr_ok F l k nonce d ml mr ltac:(lia) Ep) as (_ & _ & _ & _ & _ & _ & _ & Fr).
    apply (Fr i (q_nonce q) (q_data q) (q_left q) (q_right q)); [now rewrite map_length, P_CcpGame.sim_length| |exact Eq].
    rewrite firstn_map, P_CcpGame.sim_firstn by lia. exact Ei. }
  specialize (IH ltac:(lia)). clear - IH Nin. induction IH as [|y z Hy ND IH]; [constructor; [easy|constructor]|]. cbn [app]. constructor.
  - intros I. apply in_app_iff in I. destruct I as [I|[->|[]]]; [now apply Hy|apply Nin; now left].
  - apply IH. intros I. apply Nin. now right.
Qed.
Definition moved_blocks (F : blocks) (l : bool) : blocks := shift (lrs F l n) F.
Lemma moved_good F l : good_blocks F -> good_blocks (moved_blocks F l).
Proof.
  intros HF c nonce Hc Hn. split; [apply shift_length|]. unfold moved_blocks, shift. apply Forall_forall. intros y Hy. apply in_map_iff in Hy.
  destruct Hy as (k & <- & _). apply BaseFacts.byte_lxor; [apply BaseFacts.bytes_nth; now apply HF|]. apply dbyte_byte'. intros q Hq.
  destruct (lrs_in F l n q Hq) as (i & Hi & Ei). destruct (lr_ok F l i _ _ _ _ Hi Ei) as (_ & _ & Hl & Hr & _). split; [apply Hl|apply Hr].
Qed.
Lemma moved_sim F l : good_blocks F -> forall i, (i <= n)%nat -> simP (moved_blocks F l) (negb l) P i = simP F l P i.
Proof.
  intros HF. induction i as [|i IH]; intros Hi; [reflexivity|]. cbn [P_CcpGame.sim]. rewrite IH by lia. do 2 f_equal.
  assert (EX : forall l', proj l' P (simP F l P i) = match P (map cev (simP F l P i)) with
    LR nonce d ml mr => S_CcpGame.Encrypt nonce d (if l' then ml else mr) | Open a => S_CcpGame.Decrypt a end) by reflexivity.
  rewrite !EX. clear EX. destruct (P (map cev (simP F l P i))) as [nonce d ml mr|a] eqn:Ep; [|reflexivity].
  destruct (lr_ok F l i nonce d ml mr ltac:(lia) Ep) as (Hn & Hd & Hl & Hr & Hlim & Hlen & _).
  set (q := {| q_nonce := nonce; q_data := d; q_left := ml; q_right := mr |}).
  assert (Hq : In q (lrs F l n)). { apply in_flat_map. exists i. split; [apply in_seq; lia|]. unfold lr_at. rewrite Ep. now left. }
  cbn [P_CcpGame.refuse S_CcpGame.respond].
  pose proof (seal_shift (lrs F l n) F q l HF Hn Hlen (lrs_nodup F l n (le_n n)) Hq) as E. unfold q_msg in E. cbn [q q_nonce q_data q_left q_right] in E.
  unfold moved_blocks. rewrite E. reflexivity.
Qed.
Lemma moved_lrs F l : good_blocks F -> lrs (moved_blocks F l) (negb l) n = lrs F l n.
Proof.
  intros HF. unfold lrs. rewrite !flat_map_concat_map. f_equal. apply map_ext_in. intros i Hi. apply in_seq in Hi.
  unfold lr_at. rewrite moved_sim by (try assumption; lia). reflexivity.
Qed.
Lemma moved_twice F l c nonce : good_blocks F -> 0 <= c < 2 ^ 32 -> chacha_nonce nonce ->
  moved_blocks (moved_blocks F l) (negb l) c nonce = F c nonce.
Proof. intros HF Hc Hn. unfold moved_blocks at 1. rewrite moved_lrs by exact HF. apply shift_twice. now apply HF. Qed.
End Shift.

(** What [decrypt] returns under a key. *)
From Verif Require P_Ccp.
Lemma decrypt_open key : chacha_key key -> forall b a out, chacha_nonce (a_nonce a) -> is_slice (a_data a) -> is_slice (a_ct a) ->
  length out = length (a_ct a) -> len (a_ct a) <= checked_limit -> let F := fun c nonce => chacha20_block key c nonce in
  ccp_decrypt b key (a_ct a) (a_nonce a) (a_data a) (a_tag a) out =
    Ok (if accepted F a then fst (seal the_mac F (a_nonce a) (a_data a) (a_ct a)) else out, accepted F a).
Proof.
  intros Hk b a out Hn Hd Hc Ho Hl F. destruct (decrypt_accepted key Hk b a out Hn Hd Hc Ho (or_intror Hl)) as (r & E).
  fold F in E. destruct Hk as [Lk Bk].
  assert (Ec : P_Ccp.crypt key (a_nonce a) (a_ct a) = fst (seal the_mac F (a_nonce a) (a_data a) (a_ct a))).
  { destruct (P_Ccp.encrypt_ok key (a_nonce a) Lk (proj1 Hn) Bk (proj2 Hn) (a_ct a) (a_data a) (proj1 Hc) (proj1 Hd) (proj2 Hd) (proj2 Hc)) as (t & _ & _ & _ & _ & Ee).
    specialize (Ee Unchecked out Ho (or_introl eq_refl)). rewrite (encrypt_seal key (conj Lk Bk)) in Ee by assumption. fold F in Ee.
    destruct (seal the_mac F (a_nonce a) (a_data a) (a_ct a)) as [c t']. injection Ee as -> _. reflexivity. }
  destruct (P_Ccp.decrypt_ok key (a_nonce a) Lk (proj1 Hn) Bk (proj2 Hn) (a_ct a) (a_data a) (proj1 Hc) (proj1 Hd) (proj2 Hd) (proj2 Hc)) as (t & _ & _ & _ & Ed & Ef).
  destruct (list_eq_dec Z.eq_dec (a_tag a) t) as [Et|Nt].
  - specialize (Ed b out Ho (or_intror Hl)). rewrite <- Et, E in Ed. rewrite E. injection Ed as Er Ea. rewrite Ea, Er, Ec. reflexivity.
  - specialize (Ef b out (a_tag a) Ho Nt). rewrite E in Ef. rewrite E. injection Ef as Er Ea. rewrite Ea, Er. reflexivity.
Qed.
