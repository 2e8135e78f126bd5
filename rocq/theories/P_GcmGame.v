(** The interactive game of C99: what a player sees does not depend on the hash key, or on the block under the nonce it tries. *)
From Verif Require Import Base Hex M_Aes M_Gcm S_Gcm T_Gcm T_Forge T_GcmPrivacy P_GcmExt S_GcmAuth S_GcmGame P_GcmAuth.
From Verif Require BaseFacts P_Gcm.

Notation zb := (repeat 0 16).
Local Opaque GHASH.
Definition mkq (nonce d m : list Z) : lr_query := {| q_nonce := nonce; q_data := d; q_left := m; q_right := m |}.
Lemma respond_mkq b f nonce d m : respond b f (Encrypt nonce d m) = Answer (lr_answer b true f (mkq nonce d m)).
Proof. reflexivity. Qed.

(** The game in which every attempt is refused. *)
Definition refuse (b : build) (f : list Z -> list Z) (m : move) : event := match m with Encrypt _ _ _ => respond b f m | Decrypt _ => Verdict false end.
Fixpoint sim (b : build) (f : list Z -> list Z) (P : player) (n : nat) : list event :=
  match n with O => [] | S n => sim b f P n ++ [refuse b f (P (sim b f P n))] end.
Lemma sim_length b f P n : length (sim b f P n) = n.
Proof. induction n as [|n IH]; [reflexivity|]. cbn [sim]. rewrite app_length, IH. cbn [length]. lia. Qed.
Lemma sim_firstn b f P n : forall i, (i <= n)%nat -> firstn i (sim b f P n) = sim b f P i.
Proof.
  induction n as [|n IH]; intros i Hi.
  - assert (i = O) as -> by lia. reflexivity.
  - destruct (Nat.eq_dec i (S n)) as [->|Hne].
    + apply firstn_all2. now rewrite sim_length.
    + cbn [sim]. rewrite firstn_app, sim_length. replace (i - n)%nat with O by lia. rewrite firstn_O, app_nil_r. apply IH. lia.
Qed.
Lemma sim_nth b f P n i : (i < n)%nat -> nth_error (sim b f P n) i = Some (refuse b f (P (sim b f P i))).
Proof.
  intros Hi. assert (Fs : firstn (S i) (sim b f P n) = sim b f P (S i)) by (apply sim_firstn; lia).
  rewrite <- (firstn_skipn (S i) (sim b f P n)), Fs. rewrite nth_error_app1 by (rewrite sim_length; lia). cbn [sim].
  rewrite nth_error_app2, sim_length, Nat.sub_diag by (rewrite sim_length; lia). reflexivity.
Qed.
(** The first accepted attempt is accepted in the simulation. *)
Lemma win_sim b f P n : won (play b f P n) = true ->
  exists s a, (s < n)%nat /\ P (sim b f P s) = Decrypt a /\ accepted b f a = true.
Proof.
  assert (G : forall k, won (play b f P k) = true \/ play b f P k = sim b f P k ->
    won (play b f P (S k)) = true \/ play b f P (S k) = sim b f P (S k)).
  { intros k. cbn [play sim]. unfold won. rewrite existsb_app. intros [H|H]; [left; now rewrite H|]. rewrite H.
    destruct (P (sim b f P k)) as [nn d m|a]; cbn [refuse]; [right; reflexivity|]. cbn [respond existsb].
    destruct (accepted b f a); [left; now rewrite !orb_true_r|right; reflexivity]. }
  induction n as [|n IH]; [discriminate|]. intros Hw.
  destruct (won (play b f P n)) eqn:E.
  - destruct (IH eq_refl) as (s & a & Hs & H). exists s, a. split; [lia|exact H].
  - assert (Es : play b f P n = sim b f P n).
    { clear IH Hw. assert (D : won (play b f P n) = true \/ play b f P n = sim b f P n).
      { clear E. induction n as [|n IH]; [right; reflexivity|]. now apply G. }
      destruct D as [D|D]; [congruence|exact D]. }
    cbn [play] in Hw. unfold won in *. rewrite existsb_app, E in Hw. cbn [orb existsb] in Hw. rewrite Es in Hw.
    exists n. destruct (P (sim b f P n)) as [nn d m|a]; [cbn [respond] in Hw; discriminate|].
    exists a. split; [lia|]. split; [reflexivity|]. cbn [respond] in Hw. now destruct (accepted b f a).
Qed.
Lemma NoDup_snoc {A} (l : list A) x : NoDup l -> ~ In x l -> NoDup (l ++ [x]).
Proof.
  intros ND. induction ND as [|y l Hy ND IH]; intros Hx; [constructor; [easy|constructor]|].
  cbn [app]. constructor.
  - intros I. apply in_app_iff in I. destruct I as [I|[->|[]]]; [now apply Hy|apply Hx; now left].
  - apply IH. intros I. apply Hx. now right.
Qed.

Section Game.
Variables (b : build) (n m : nat) (B : Z) (P : player).
Hypothesis HP : player_ok b n m B P.
Variable s : nat.
Hypothesis Hs : (s < n)%nat.

Definition dummy : attempt := {| a_nonce := repeat 0 12; a_data := []; a_ct := []; a_tag := [] |}.
Definition att (f : list Z -> list Z) : attempt := match P (sim b f P s) with Decrypt a => a | _ => dummy end.
Definition queries_at (f : list Z -> list Z) (i : nat) : list lr_query := match P (sim b f P i) with Encrypt nonce d c => [mkq nonce d c] | _ => [] end.
Definition qs (f : list Z -> list Z) : list lr_query := flat_map (queries_at f) (seq 0 s).
Definition known (f : list Z -> list Z) : bool := if in_dec (list_eq_dec Z.eq_dec) (a_nonce (att f)) (map q_nonce (qs f)) then true else false.
Definition rho (f : list Z -> list Z) (h : list Z) : list Z -> list Z :=
  if known f then rekey (qs f) f h else set_at f (J0 (a_nonce (att f))) h.
Definition old (f : list Z -> list Z) : list Z := if known f then f zb else f (J0 (a_nonce (att f))).

Lemma att_nonce f : gcm_nonce (a_nonce (att f)).
Proof.
  unfold att. pose proof (proj1 HP (sim b f P s)) as H. rewrite sim_length in H. specialize (H Hs).
  destruct (P (sim b f P s)); [split; [reflexivity|now apply BaseFacts.bytesb_spec]|apply H].
Qed.
Lemma query_at f i nonce d c : (i < n)%nat -> P (sim b f P i) = Encrypt nonce d c ->
  gcm_nonce nonce /\ gcm_data d /\ gcm_message c /\ (b = Unchecked \/ len c <= checked_limit) /\ hash_blocks d c <= B /\ fresh P (sim b f P i) nonce.
Proof. intros Hi E. pose proof (proj1 HP (sim b f P i)) as H. rewrite sim_length, E in H. apply H. exact Hi. Qed.
Lemma qs_in f k q : In q (flat_map (queries_at f) (seq 0 k)) -> exists i, (i < k)%nat /\
  q = mkq (q_nonce q) (q_data q) (q_left q) /\ P (sim b f P i) = Encrypt (q_nonce q) (q_data q) (q_left q).
Proof.
  intros I. apply in_flat_map in I. destruct I as (i & Hi & I). apply in_seq in Hi. exists i. split; [lia|]. unfold queries_at in I.
  destruct (P (sim b f P i)); [|destruct I]. destruct I as [<-|[]]. split; reflexivity.
Qed.
Lemma in_qs f i nonce d c : (i < s)%nat -> P (sim b f P i) = Encrypt nonce d c -> In (mkq nonce d c) (qs f).
Proof. intros Hi Ep. apply in_flat_map. exists i. split; [apply in_seq; lia|]. unfold queries_at. rewrite Ep. now left. Qed.
Lemma qs_nodup f k : (k <= n)%nat -> NoDup (map q_nonce (flat_map (queries_at f) (seq 0 k))).
Proof.
  induction k as [|k IH]; intros Hk; [constructor|]. rewrite seq_S, flat_map_app, map_app. cbn [Nat.add flat_map]. rewrite app_nil_r.
  unfold queries_at at 2. destruct (P (sim b f P k)) as [nonce d c|a] eqn:Ep; [|cbn [map]; rewrite app_nil_r; apply IH; lia].
  cbn [map]. apply NoDup_snoc; [apply IH; lia|]. intros I. apply in_map_iff in I. destruct I as (q & Eq & Iq).
  destruct (qs_in f k q Iq) as (i & Hi & _ & Ei). destruct (query_at f k nonce d c ltac:(lia) Ep) as (_ & _ & _ & _ & _ & Fr).
  apply (Fr i (q_nonce q) (q_data q) (q_left q)); [now rewrite sim_length|rewrite sim_firstn by lia; exact Ei|exact Eq].
Qed.
Lemma qs_good f : good_queries (qs f).
Proof.
  split; [apply qs_nodup; lia|]. intros q Hq. destruct (qs_in f s q Hq) as (i & Hi & _ & Ei).
  destruct (query_at f i _ _ _ ltac:(lia) Ei) as (Hn & Hd & Hm & _). tauto.
Qed.
Lemma rho_block f h : block_fn f -> is_block h -> block_fn (rho f h).
Proof.
  intros Hf Hh. unfold rho. destruct (known f); [now apply rekey_block|].
  intros x Hx. unfold set_at. destruct list_eq_dec; [assumption|now apply Hf].
Qed.
Lemma new_J f q : known f = false -> In q (qs f) -> J0 (q_nonce q) <> J0 (a_nonce (att f)).
Proof.
  intros K Hq E. apply J0_inj in E; [|exact (proj1 (proj1 (proj2 (qs_good f) q Hq)))|exact (proj1 (att_nonce f))].
  unfold known in K. destruct in_dec as [|N]; [discriminate|]. apply N. rewrite <- E. now apply in_map.
Qed.
Lemma rho_answer f h i nonce d c : block_fn f -> is_block h -> (i < s)%nat -> P (sim b f P i) = Encrypt nonce d c ->
  lr_answer b true (rho f h) (mkq nonce d c) = lr_answer b true f (mkq nonce d c).
Proof.
  intros Hf Hh Hi Ep. pose proof (in_qs f i nonce d c Hi Ep) as Hq.
  destruct (query_at f i nonce d c ltac:(lia) Ep) as (Hn & Hd & Hm & Hl & _).
  pose proof (rho_block f h Hf Hh) as Hr. revert Hr. unfold rho. destruct (known f) eqn:K; intros Hr.
  - apply rekey_answer; try assumption. apply qs_good.
  - pose proof (att_nonce f) as Hna. apply answer_ext; try assumption; try reflexivity.
    + apply set_other. exact (new_J f _ K Hq).
    + apply set_other. intros E. symmetry in E. revert E. apply J0_zero. exact (proj1 Hna).
    + intros k Hk. apply set_other. apply ctr_J0; [exact (proj1 Hn)|exact (proj1 Hna)|now apply (msg_ctr c)].
Qed.
Lemma rho_sim f h : block_fn f -> is_block h -> forall i, (i <= s)%nat -> sim b (rho f h) P i = sim b f P i.
Proof.
  intros Hf Hh. induction i as [|i IH]; intros Hi; [reflexivity|]. cbn [sim]. rewrite IH by lia. do 2 f_equal.
  destruct (P (sim b f P i)) as [nonce d c|a] eqn:Ep; [|reflexivity]. cbn [refuse]. rewrite !respond_mkq. f_equal.
  now apply (rho_answer f h i).
Qed.
Lemma rho_att f h : block_fn f -> is_block h -> att (rho f h) = att f.
Proof. intros Hf Hh. unfold att. now rewrite rho_sim. Qed.
Lemma rho_qs f h : block_fn f -> is_block h -> qs (rho f h) = qs f.
Proof.
  intros Hf Hh. unfold qs. rewrite !flat_map_concat_map. f_equal. apply map_ext_in. intros i Hi. apply in_seq in Hi.
  unfold queries_at. rewrite rho_sim by (try assumption; lia). reflexivity.
Qed.
Lemma rho_known f h : block_fn f -> is_block h -> known (rho f h) = known f.
Proof. intros Hf Hh. unfold known. now rewrite rho_qs, rho_att. Qed.
Lemma rho_old f h : block_fn f -> is_block h -> old (rho f h) = h.
Proof.
  intros Hf Hh. unfold old. rewrite rho_att, rho_known by assumption. unfold rho. destruct (known f); [apply rekey_zero|].
  unfold set_at. destruct list_eq_dec as [_|N]; [reflexivity|now destruct N].
Qed.
Lemma rho_back f h x : block_fn f -> is_block h -> is_block x -> rho (rho f h) (old f) x = f x.
Proof.
  intros Hf Hh Hx. unfold rho at 1. rewrite rho_att, rho_qs, rho_known by assumption. unfold old, rho. destruct (known f) eqn:K.
  - apply rekey_back; try assumption. apply qs_good.
  - unfold set_at. destruct list_eq_dec as [->|N]; reflexivity.
Qed.
Lemma rho_bad f : block_fn f -> P (sim b f P s) = Decrypt (att f) -> exists bad : list (list Z), Z.of_nat (length bad) <= B /\
  forall h, is_block h -> right_tag (rho f h) (att f) -> In h bad.
Proof.
  intros Hf Ep. set (a := att f) in *. pose proof (proj1 HP (sim b f P s)) as H. rewrite sim_length, Ep in H.
  destruct (H Hs) as (Hna & Hda & Hca & HB & Hrep). clear H.
  destruct (known f) eqn:K.
  - pose proof K as K'. unfold known in K'. destruct in_dec as [I|]; [clear K'|discriminate]. fold a in I.
    apply in_map_iff in I. destruct I as (q & Eq & Hq). destruct (qs_in f s q Hq) as (i & Hi & Em & Ei).
    destruct (query_at f i _ _ _ ltac:(lia) Ei) as (Hn & Hd & Hm & Lq & HBq & _).
    set (c := gcm_ciphertext f (q_nonce q) (q_left q)). set (t := xorl (f (J0 (q_nonce q))) (GHASH (f zb) (hinput f q))).
    assert (Ans : forall h, is_block h -> lr_answer b true (rho f h) q = Ok (c, t)).
    { intros h Hh. rewrite Em. rewrite (rho_answer f h i) by assumption. rewrite <- Em. now apply answer_val. }
    destruct (ct_message f (q_nonce q) (q_left q) Hf Hn Hm) as [Hc Lc]. fold c in Hc, Lc.
    assert (Dec : (a_data a, a_ct a) = (q_data q, c) \/ (a_data a, a_ct a) <> (q_data q, c)).
    { destruct (list_eq_dec Z.eq_dec (a_data a) (q_data q)) as [->|]; [destruct (list_eq_dec Z.eq_dec (a_ct a) c) as [->|]; [now left|]|]; right; congruence. }
    destruct Dec as [D|D].
    + injection D as Ed Ec. exists []. split; [cbn [length]; pose proof (hash_blocks_pos (a_data a) (a_ct a)); lia|]. intros h Hh R. exfalso. apply Hrep.
      exists i, (q_left q). split; [now rewrite sim_length|]. split; [rewrite sim_firstn by lia; rewrite <- Eq, Ed; exact Ei|].
      rewrite sim_nth by exact Hi. rewrite Ei. cbn [refuse]. rewrite respond_mkq, <- Em, answer_val by assumption. fold c t. rewrite Ec. do 4 f_equal.
      pose proof (Ans h Hh) as Ah. rewrite answer_val in Ah by (try assumption; now apply rho_block). injection Ah as Ac At.
      red in R. rewrite R, tag_eq by (try assumption; now apply rho_block). rewrite <- Eq, Ed, Ec, <- At. unfold hinput. now rewrite Ac.
    + destruct (C60_gcm_forgery_after_encrypt (q_data q) c t (a_data a) (a_ct a) (a_tag a) Hd Hc Hda Hca D) as (bad & Lb & Hbad).
      exists bad. split.
      { unfold hash_blocks in *. rewrite Lc in Lb. lia. }
      intros h Hh R. pose proof (rho_block f h Hf Hh) as Hr.
      destruct (C32_decrypt_accepts_exactly ideal (rho f h) Hr _ _ _ Hna Hda Hca) as (_ & Dx & _).
      specialize (Dx Unchecked (repeat 0 (length (a_ct a))) (repeat_length _ _) (or_introl eq_refl)). change (bc_permute ideal (rho f h)) with (rho f h) in Dx.
      red in R. rewrite <- R in Dx. rewrite <- Eq in Dx.
      pose proof (Ans h Hh) as Ah. unfold lr_answer in Ah. cbn [q_msg] in Ah.
      assert (I : In (bc_permute ideal (rho f h) zb) bad) by (eapply Hbad; [exact Hr| | |exact Ah|exact Dx]; [exact (proj2 Hn)|exact (proj1 Hm)]).
      change (bc_permute ideal (rho f h)) with (rho f h) in I. unfold rho in I. rewrite K, rekey_zero in I. exact I.
  - exists [xorl (a_tag a) (GHASH (f zb) (ghash_input (a_data a) (a_ct a)))].
    split; [cbn [length]; pose proof (hash_blocks_pos (a_data a) (a_ct a)); lia|]. intros h Hh R. left.
    red in R. rewrite tag_eq in R by (try assumption; now apply rho_block). unfold rho in R. rewrite K in R. fold a in R.
    rewrite (set_other f _ h zb) in R by (intros E; symmetry in E; revert E; apply J0_zero; exact (proj1 Hna)).
    rewrite R. unfold set_at. destruct list_eq_dec as [_|N]; [|now destruct N]. apply xorl_back; [assumption|apply ghash_block].
Qed.
Lemma accepted_right f a : block_fn f -> gcm_nonce (a_nonce a) -> gcm_data (a_data a) -> gcm_message (a_ct a) -> accepted b f a = true -> right_tag f a.
Proof.
  intros Hf Hna Hda Hca. unfold accepted. destruct (gcm_decrypt _ _ _ _ _ _ _ _) as [[r ok]|] eqn:E; [|discriminate]. intros ->.
  exact (proj2 (gcm_accept_inv ideal f Hf _ _ _ _ _ _ _ (proj2 Hna) Hda Hca E)).
Qed.
(** Everything depends on the values at blocks only. *)
Section Ext.
Variables f f' : list Z -> list Z.
Hypotheses (Hf : block_fn f) (Hf' : block_fn f') (E : forall x, is_block x -> f' x = f x).
Lemma sim_ext : forall i, (i <= n)%nat -> sim b f' P i = sim b f P i.
Proof.
  induction i as [|i IH]; intros Hi; [reflexivity|]. cbn [sim]. rewrite IH by lia. do 2 f_equal.
  destruct (P (sim b f P i)) as [nonce d c|a] eqn:Ep; [|reflexivity]. cbn [refuse].
  destruct (query_at f i nonce d c ltac:(lia) Ep) as (Hn & Hd & Hm & Hl & _). rewrite !respond_mkq. f_equal.
  apply answer_ext; try assumption; try reflexivity; [| |intros j _]; apply E; [now apply J0_block|apply zero_block|now apply ctr_block].
Qed.
Lemma att_ext : att f' = att f.
Proof. unfold att. now rewrite sim_ext by lia. Qed.
Lemma qs_ext : qs f' = qs f.
Proof.
  unfold qs. rewrite !flat_map_concat_map. f_equal. apply map_ext_in. intros i Hi. apply in_seq in Hi.
  unfold queries_at. rewrite sim_ext by lia. reflexivity.
Qed.
Lemma known_ext : known f' = known f.
Proof. unfold known. now rewrite qs_ext, att_ext. Qed.
Lemma old_ext : old f' = old f.
Proof. unfold old. rewrite known_ext, att_ext. rewrite !E; [reflexivity|apply J0_block, att_nonce|apply zero_block]. Qed.
Lemma rho_ext h x : is_block x -> rho f' h x = rho f h x.
Proof.
  intros Hx. unfold rho. rewrite known_ext, att_ext, qs_ext. destruct (known f).
  - unfold rekey. destruct list_eq_dec; [reflexivity|]. destruct (find _ _) as [q|] eqn:Ef; [|now apply E].
    destruct (find_some _ _ Ef) as [Hq _]. destruct (proj2 (qs_good f) q Hq) as (Hn & Hd & Hm).
    assert (Eh : hinput f' q = hinput f q).
    { unfold hinput. f_equal. apply ct_ctr; try assumption. intros j _. apply E. now apply ctr_block. }
    rewrite Eh, (E x Hx), (E zb zero_block). reflexivity.
  - unfold set_at. destruct list_eq_dec; [reflexivity|now apply E].
Qed.
End Ext.
End Game.
