(** The interactive game of C95: what a player sees does not depend on the point under the nonce it tries. *)
From Verif Require Import Base M_ChaCha20 M_Poly1305 S_ChaCha T_Ccp T_Forge T_CcpPrivacy S_CcpAuth S_CcpGame P_CcpAuth.
From Verif Require BaseFacts P_Forge2.

Definition mkq (nonce d m : list Z) : lr_query := {| q_nonce := nonce; q_data := d; q_left := m; q_right := m |}.
Lemma seal_mkq F nonce d m : seal the_mac F nonce d m = (ct_of F (mkq nonce d m), the_mac (firstn 32 (F 0 nonce)) d (ct_of F (mkq nonce d m))).
Proof. reflexivity. Qed.

(** The game in which every attempt is refused. *)
Definition refuse (F : blocks) (m : move) : event := match m with Encrypt _ _ _ => respond F m | Decrypt _ => Verdict false end.
Fixpoint sim (F : blocks) (P : player) (n : nat) : list event :=
  match n with O => [] | S n => sim F P n ++ [refuse F (P (sim F P n))] end.
Lemma sim_length F P n : length (sim F P n) = n.
Proof. induction n as [|n IH]; [reflexivity|]. cbn [sim]. rewrite app_length, IH. cbn [length]. lia. Qed.
Lemma sim_firstn F P n : forall i, (i <= n)%nat -> firstn i (sim F P n) = sim F P i.
Proof.
  induction n as [|n IH]; intros i Hi.
  - assert (i = O) as -> by lia. reflexivity.
  - destruct (Nat.eq_dec i (S n)) as [->|Hne].
    + apply firstn_all2. now rewrite sim_length.
    + cbn [sim]. rewrite firstn_app, sim_length. replace (i - n)%nat with O by lia. rewrite firstn_O, app_nil_r. apply IH. lia.
Qed.
Lemma sim_nth F P n i : (i < n)%nat -> nth_error (sim F P n) i = Some (refuse F (P (sim F P i))).
Proof.
  intros Hi. assert (Fs : firstn (S i) (sim F P n) = sim F P (S i)) by (apply sim_firstn; lia).
  rewrite <- (firstn_skipn (S i) (sim F P n)), Fs. rewrite nth_error_app1 by (rewrite sim_length; lia). cbn [sim].
  rewrite nth_error_app2, sim_length, Nat.sub_diag by (rewrite sim_length; lia). reflexivity.
Qed.
(** The first accepted attempt is accepted in the simulation. *)
Lemma win_sim F P n : won (play F P n) = true ->
  exists s a, (s < n)%nat /\ P (sim F P s) = Decrypt a /\ accepted F a = true.
Proof.
  assert (G : forall k, won (play F P k) = true \/ play F P k = sim F P k ->
    won (play F P (S k)) = true \/ play F P (S k) = sim F P (S k)).
  { intros k. cbn [play sim]. unfold won. rewrite existsb_app. intros [H|H]; [left; now rewrite H|]. rewrite H.
    destruct (P (sim F P k)) as [nn d m|a]; cbn [refuse]; [right; reflexivity|]. cbn [respond existsb].
    destruct (accepted F a); [left; now rewrite !orb_true_r|right; reflexivity]. }
  induction n as [|n IH]; [discriminate|]. intros Hw.
  destruct (won (play F P n)) eqn:E.
  - destruct (IH eq_refl) as (s & a & Hs & H). exists s, a. split; [lia|exact H].
  - assert (Es : play F P n = sim F P n).
    { clear IH Hw. assert (D : won (play F P n) = true \/ play F P n = sim F P n).
      { clear E. induction n as [|n IH]; [right; reflexivity|]. now apply G. }
      destruct D as [D|D]; [congruence|exact D]. }
    cbn [play] in Hw. unfold won in *. rewrite existsb_app, E in Hw. cbn [orb existsb] in Hw. rewrite Es in Hw.
    exists n. destruct (P (sim F P n)) as [nn d m|a]; [cbn [respond] in Hw; destruct (seal _ _ _ _ _); discriminate|].
    exists a. split; [lia|]. split; [reflexivity|]. cbn [respond] in Hw. now destruct (accepted F a).
Qed.

Section Game.
Variables (n m : nat) (B : Z) (P : player).
Hypothesis HP : player_ok n m B P.
Variable s : nat.
Hypothesis Hs : (s < n)%nat.

Definition dummy : attempt := {| a_nonce := repeat 0 12; a_data := []; a_ct := []; a_tag := [] |}.
Definition att (F : blocks) : attempt := match P (sim F P s) with Decrypt a => a | _ => dummy end.
Definition queries_at (F : blocks) (i : nat) : list lr_query := match P (sim F P i) with Encrypt nonce d c => [mkq nonce d c] | _ => [] end.
(** The query under a nonce, before step [s]. *)
Definition query_of (F : blocks) (nonce : list Z) : option lr_query :=
  find (fun q => if list_eq_dec Z.eq_dec (q_nonce q) nonce then true else false) (flat_map (queries_at F) (seq 0 s)).
Definition rho (F : blocks) (h : list Z) : blocks :=
  let nonce := a_nonce (att F) in let k := firstn 32 (F 0 nonce) in
  with_otk F nonce (match query_of F nonce with
                    | Some q => moved k (q_data q) (ct_of F q) h
                    | None => firstn 16 k ++ h
                    end).
Definition old (F : blocks) : list Z :=
  let nonce := a_nonce (att F) in let k := firstn 32 (F 0 nonce) in
  match query_of F nonce with Some _ => firstn 16 k | None => skipn 16 k end.

Lemma att_nonce F : chacha_nonce (a_nonce (att F)).
Proof.
  unfold att. pose proof (proj1 HP (sim F P s)) as H. rewrite sim_length in H. specialize (H Hs).
  destruct (P (sim F P s)); [split; [reflexivity|now apply BaseFacts.bytesb_spec]|apply H].
Qed.
Lemma query_at F i nonce d c : (i < n)%nat -> P (sim F P i) = Encrypt nonce d c ->
  chacha_nonce nonce /\ is_slice d /\ is_slice c /\ len c <= checked_limit /\ hash_blocks d c <= B /\ fresh P (sim F P i) nonce.
Proof. intros Hi E. pose proof (proj1 HP (sim F P i)) as H. rewrite sim_length, E in H. apply H. exact Hi. Qed.
Lemma query_some F nonce q : query_of F nonce = Some q -> q_nonce q = nonce /\ exists i, (i < s)%nat /\
  q = mkq (q_nonce q) (q_data q) (q_left q) /\ P (sim F P i) = Encrypt (q_nonce q) (q_data q) (q_left q).
Proof.
  intros E. apply find_some in E. destruct E as [I E]. destruct list_eq_dec as [En|]; [|discriminate]. split; [exact En|].
  apply in_flat_map in I. destruct I as (i & Hi & I). apply in_seq in Hi. exists i. split; [lia|]. unfold queries_at in I.
  destruct (P (sim F P i)); [|destruct I]. destruct I as [<-|[]]. split; reflexivity.
Qed.
Lemma query_none F nonce i d c : query_of F nonce = None -> (i < s)%nat -> P (sim F P i) = Encrypt nonce d c -> False.
Proof.
  intros E Hi Ep. pose proof (find_none _ _ E (mkq nonce d c)) as N. cbv beta in N. cbn [q_nonce mkq] in N.
  destruct list_eq_dec as [_|NE]; [|now destruct NE]. discriminate N. apply in_flat_map. exists i. split; [apply in_seq; lia|].
  unfold queries_at. rewrite Ep. now left.
Qed.
Lemma query_unique F nonce q i d c : query_of F nonce = Some q -> (i < s)%nat -> P (sim F P i) = Encrypt nonce d c -> q = mkq nonce d c.
Proof.
  intros E Hi Ep. destruct (query_some F nonce q E) as (Eq & i' & Hi' & Ei' & Ep'). rewrite Eq in *.
  assert (U : forall i j d1 c1 d2 c2, (i < j)%nat -> (j < s)%nat -> P (sim F P i) = Encrypt nonce d1 c1 -> P (sim F P j) = Encrypt nonce d2 c2 -> False).
  { intros a b d1 c1 d2 c2 Hab Hb E1 E2. destruct (query_at F b nonce d2 c2 ltac:(lia) E2) as (_ & _ & _ & _ & _ & Fr).
    apply (Fr a nonce d1 c1); [rewrite sim_length; exact Hab|rewrite sim_firstn by lia; exact E1|reflexivity]. }
  destruct (Nat.lt_trichotomy i i') as [L|[->|L]].
  - exfalso. exact (U i i' _ _ _ _ L Hi' Ep Ep').
  - rewrite Ei'. rewrite Ep in Ep'. injection Ep' as <- <-. reflexivity.
  - exfalso. exact (U i' i _ _ _ _ L Hi Ep' Ep).
Qed.
Lemma key_ok F h : good_blocks F -> b16 h -> let nonce := a_nonce (att F) in let k := firstn 32 (F 0 nonce) in
  let k' := match query_of F nonce with Some q => moved k (q_data q) (ct_of F q) h | None => firstn 16 k ++ h end in
  length k' = 32%nat /\ bytes k'.
Proof.
  intros HF Hh nonce k k'. destruct (otk_ok 0%nat 0%nat (fun _ => mkq [] [] []) F nonce HF (att_nonce F)) as [L Bk]. fold k in L, Bk. unfold k'. destruct query_of as [q|].
  - destruct (moved_ok k (q_data q) (ct_of F q) h Hh) as (Lm & Bm & _). split; assumption.
  - split; [rewrite app_length, firstn_length, L, (proj1 Hh); reflexivity|]. apply BaseFacts.bytes_app. split; [now apply BaseFacts.bytes_firstn|exact (proj2 Hh)].
Qed.
Lemma otk_good' F : good_blocks F -> let k := firstn 32 (F 0 (a_nonce (att F))) in length k = 32%nat /\ bytes k.
Proof. intros HF. exact (otk_ok 0%nat 0%nat (fun _ => mkq [] [] []) F _ HF (att_nonce F)). Qed.
Lemma rho_good F h : good_blocks F -> b16 h -> good_blocks (rho F h).
Proof. intros HF Hh. destruct (key_ok F h HF Hh) as [L Bk]. unfold rho. now apply otk_good. Qed.
Lemma rho_sim F h : good_blocks F -> b16 h -> forall i, (i <= s)%nat -> sim (rho F h) P i = sim F P i.
Proof.
  intros HF Hh. induction i as [|i IH]; intros Hi; [reflexivity|]. cbn [sim]. rewrite IH by lia. do 2 f_equal.
  destruct (P (sim F P i)) as [nonce d c|a] eqn:Ep; [|reflexivity]. cbn [refuse respond].
  destruct (query_at F i nonce d c ltac:(lia) Ep) as (Hn & Hd & Hm & Hl & _). rewrite !seal_mkq.
  destruct (key_ok F h HF Hh) as [Lk Bk]. destruct (otk_good' F HF) as [L0 B0].
  unfold rho. rewrite ct_of_otk. f_equal.
  destruct (list_eq_dec Z.eq_dec nonce (a_nonce (att F))) as [En|Nn]; [|now rewrite otk_other].
  rewrite En in *. rewrite otk_at by exact Lk. destruct (query_of F (a_nonce (att F))) as [q'|] eqn:Eq.
  - rewrite (query_unique F (a_nonce (att F)) q' i d c Eq ltac:(lia) Ep). cbn [q_data mkq].
    apply moved_tag; try assumption. now apply ct_of_slice.
  - exfalso. apply (query_none F _ i d c Eq); [lia|exact Ep].
Qed.
Lemma rho_att F h : good_blocks F -> b16 h -> att (rho F h) = att F.
Proof. intros HF Hh. unfold att. rewrite rho_sim by (try assumption; lia). reflexivity. Qed.
Lemma rho_query F h nonce : good_blocks F -> b16 h -> query_of (rho F h) nonce = query_of F nonce.
Proof.
  intros HF Hh. unfold query_of. f_equal. rewrite !flat_map_concat_map. f_equal. apply map_ext_in. intros i Hi. apply in_seq in Hi.
  unfold queries_at. rewrite rho_sim by (try assumption; lia). reflexivity.
Qed.
Lemma rho_key F h : good_blocks F -> b16 h -> let nonce := a_nonce (att F) in let k := firstn 32 (F 0 nonce) in
  firstn 32 (rho F h 0 nonce) = match query_of F nonce with Some q => moved k (q_data q) (ct_of F q) h | None => firstn 16 k ++ h end.
Proof. intros HF Hh nonce k. destruct (key_ok F h HF Hh) as [Lk Bk]. unfold rho. now apply otk_at. Qed.
Lemma rho_old F h : good_blocks F -> b16 h -> old (rho F h) = h.
Proof.
  intros HF Hh. unfold old. rewrite rho_att, rho_query, rho_key by assumption. destruct query_of as [q|].
  - exact (proj2 (proj2 (moved_ok _ _ _ h Hh))).
  - apply skip_app16. rewrite firstn_length, (proj1 (otk_good' F HF)). reflexivity.
Qed.
Lemma rho_ct F h q : ct_of (rho F h) q = ct_of F q.
Proof. unfold rho. apply ct_of_otk. Qed.
Lemma rho_back F h c nonce : good_blocks F -> b16 h -> 0 <= c < 2 ^ 32 -> chacha_nonce nonce -> rho (rho F h) (old F) c nonce = F c nonce.
Proof.
  intros HF Hh Hc Hn. unfold rho at 1. rewrite rho_att, rho_query, rho_key by assumption.
  destruct (key_ok F h HF Hh) as [Lk Bk]. destruct (otk_good' F HF) as [L0 B0].
  assert (L64 : length (F 0 (a_nonce (att F))) = 64%nat) by (apply HF; [lia|apply att_nonce]).
  unfold old. destruct (query_of F (a_nonce (att F))) as [q|] eqn:Eq.
  - rewrite rho_ct. rewrite moved_back by assumption. unfold rho. rewrite Eq, otk_twice by exact Lk. now apply otk_same.
  - unfold rho. rewrite Eq, otk_twice by exact Lk. rewrite firstn_app, firstn_length, L0. change (16 - Nat.min 16 32)%nat with O.
    rewrite firstn_O, app_nil_r, firstn_firstn. change (Nat.min 16 16) with 16%nat. rewrite firstn_skipn. now apply otk_same.
Qed.
(** In the orbit of [F], an attempt under a nonce already used has the right tag for few points, under a new nonce for one pad. *)
Lemma rho_bad F : good_blocks F -> P (sim F P s) = Decrypt (att F) ->
  (exists bad : list Z, Z.of_nat (length bad) <= 8712 * B /\ forall h, b16 h -> accepted (rho F h) (att F) = true -> In (point h) bad) \/
  (exists g : list Z, forall h, b16 h -> accepted (rho F h) (att F) = true -> h = g).
Proof.
  intros HF Ep. set (a := att F) in *. pose proof (proj1 HP (sim F P s)) as H. rewrite sim_length, Ep in H.
  destruct (H Hs) as (Hna & Hda & Hca & HB & Hrep). clear H.
  destruct (otk_good' F HF) as [L0 B0]. fold a in L0, B0. set (k := firstn 32 (F 0 (a_nonce a))) in *.
  assert (Acc : forall h, b16 h -> accepted (rho F h) a = true -> a_tag a = the_mac (match query_of F (a_nonce a) with
      Some q => moved k (q_data q) (ct_of F q) h | None => firstn 16 k ++ h end) (a_data a) (a_ct a)).
  { intros h Hh E. unfold accepted in E. destruct list_eq_dec as [Et|]; [|discriminate]. rewrite Et. f_equal. exact (rho_key F h HF Hh). }
  destruct (query_of F (a_nonce a)) as [q|] eqn:Eq; [left|right].
  - destruct (query_some F _ q Eq) as (En & i & Hi & Em & Ei). rewrite En in Ei. destruct (query_at F i _ _ _ ltac:(lia) Ei) as (Hn & Hd & Hm & Hl & HBq & _).
    set (c := ct_of F q) in *. assert (Hc : is_slice c) by (apply ct_of_slice; rewrite ?En; assumption).
    destruct (list_eq_dec (list_eq_dec Z.eq_dec) [a_data a; a_ct a] [q_data q; c]) as [E2|N2].
    + exists []. split; [cbn [length]; pose proof (hash_blocks_pos 0%nat (fun _ => mkq [] [] []) (a_data a) (a_ct a)); lia|]. intros h Hh E. exfalso. apply Hrep. injection E2 as Ed Ec.
      exists i, (q_left q). split; [now rewrite sim_length|]. split; [rewrite sim_firstn by lia; rewrite Ed; exact Ei|].
      rewrite sim_nth by exact Hi. rewrite Ei. cbn [refuse respond]. rewrite seal_mkq.
      assert (Eq' : ct_of F (mkq (a_nonce a) (q_data q) (q_left q)) = c) by (apply (f_equal (ct_of F)); rewrite <- En; symmetry; exact Em).
      rewrite Eq'. fold k. rewrite Ec. do 2 f_equal. specialize (Acc h Hh E). rewrite Ed, Ec, moved_tag in Acc by assumption. now rewrite Acc.
    + assert (Nd : (q_data q, c) <> (a_data a, a_ct a)) by (intros E; apply N2; injection E as -> ->; reflexivity).
      set (t := the_mac k (q_data q) c).
      set (d := le_decode t - le_decode (a_tag a)).
      destruct (P_Forge2.forge_mod (q_data q) c (a_data a) (a_ct a) (proj1 Hd) (proj1 Hc) (proj1 Hda) (proj1 Hca) (proj2 Hd) (proj2 Hc) (proj2 Hda) (proj2 Hca) Nd
        (P_Forge2.pair_diffs d)) as (bad & Lb & Hb).
      exists bad. split.
      { assert (Lc : len c = len (q_left q)) by (unfold len, c; now rewrite ct_of_length).
        unfold hash_blocks in *. rewrite <- Lc in HBq. rewrite <- P_Forge2.macb_length in HB, HBq. rewrite P_Forge2.pair_diffs_length in Lb. lia. }
      intros h Hh E. specialize (Acc h Hh E). destruct (moved_ok k (q_data q) c h Hh) as (Lk & Bk & Fi). set (k' := moved k (q_data q) c h) in *.
      assert (T1 : t = the_mac k' (q_data q) c) by (symmetry; now apply moved_tag).
      apply Hb; [apply P_Forge2.clamp_range|].
      pose proof (W_cases k' (q_data q) c Bk Lk Hd Hc) as C1. pose proof (W_cases k' (a_data a) (a_ct a) Bk Lk Hda Hca) as C2. cbv zeta in C1, C2. rewrite Fi in C1, C2.
      apply (P_Forge2.tag_diff _ _ (W (point h) (q_data q) c) (W (point h) (a_data a) (a_ct a)) (le_decode (skipn 16 k')) d C1 C2).
      unfold d. rewrite T1, Acc, !mac_form by assumption. rewrite Fi. reflexivity.
  - exists (le_encode 16 (le_decode (a_tag a) - W (point (firstn 16 k)) (a_data a) (a_ct a))). intros h Hh E. specialize (Acc h Hh E).
    destruct Hh as [Lh Bh]. assert (L16 : length (firstn 16 k) = 16%nat) by (rewrite firstn_length; lia).
    rewrite mac_form in Acc; [|apply BaseFacts.bytes_app; split; [now apply BaseFacts.bytes_firstn|assumption]|rewrite app_length; lia|assumption|assumption].
    rewrite skip_app16, firstn_app, L16, Nat.sub_diag, firstn_O, app_nil_r, firstn_firstn in Acc by assumption. change (Nat.min 16 16) with 16%nat in Acc.
    rewrite <- (BaseFacts.le_encode_decode h Bh) at 1. rewrite Lh. apply le16_mod. rewrite Acc, dec16.
    rewrite Zminus_mod, Zmod_mod, <- Zminus_mod. f_equal. ring.
Qed.
(** Everything depends on the blocks for counters below 2^32 and nonces of 12 bytes only. *)
Section Ext.
Variables F F' : blocks.
Hypothesis E : forall c nonce, 0 <= c < 2 ^ 32 -> chacha_nonce nonce -> F' c nonce = F c nonce.
Lemma sim_ext : forall i, (i <= n)%nat -> sim F' P i = sim F P i.
Proof.
  induction i as [|i IH]; intros Hi; [reflexivity|]. cbn [sim]. rewrite IH by lia. do 2 f_equal.
  destruct (P (sim F P i)) as [nonce d c|a] eqn:Ep; [|reflexivity]. cbn [refuse respond].
  destruct (query_at F i nonce d c ltac:(lia) Ep) as (Hn & Hd & Hm & Hl & _). rewrite !seal_mkq.
  rewrite (ct_of_ext F F' (mkq nonce d c) Hn Hl E), E; [reflexivity|lia|assumption].
Qed.
Lemma att_ext : att F' = att F.
Proof. unfold att. now rewrite sim_ext by lia. Qed.
Lemma query_ext nonce : query_of F' nonce = query_of F nonce.
Proof.
  unfold query_of. f_equal. rewrite !flat_map_concat_map. f_equal. apply map_ext_in. intros i Hi. apply in_seq in Hi.
  unfold queries_at. rewrite sim_ext by lia. reflexivity.
Qed.
Lemma old_ext : old F' = old F.
Proof. unfold old. rewrite att_ext, query_ext, E; [reflexivity|lia|apply att_nonce]. Qed.
Lemma rho_ext h c nonce : 0 <= c < 2 ^ 32 -> chacha_nonce nonce -> rho F' h c nonce = rho F h c nonce.
Proof.
  intros Hc Hn. unfold rho. rewrite att_ext, query_ext. rewrite (E 0 (a_nonce (att F))); [|lia|apply att_nonce].
  assert (Ec : forall q, query_of F (a_nonce (att F)) = Some q -> ct_of F' q = ct_of F q).
  { intros q Eq. destruct (query_some F _ q Eq) as (En & i & Hi & _ & Ep). destruct (query_at F i _ _ _ ltac:(lia) Ep) as (Hqn & _ & _ & Hql & _). now apply ct_of_ext. }
  assert (G0 : forall k, with_otk F' (a_nonce (att F)) k c nonce = with_otk F (a_nonce (att F)) k c nonce).
  { intros k. unfold with_otk. rewrite (E 0 (a_nonce (att F))); [|lia|apply att_nonce]. now rewrite (E c nonce). }
  destruct (query_of F (a_nonce (att F))) as [q|]; [rewrite (Ec q eq_refl)|]; apply G0.
Qed.
End Ext.
End Game.
