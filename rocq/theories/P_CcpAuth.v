(** Moving the Poly1305 point of one nonce without changing the answers of ChaCha20-Poly1305. *)
From Verif Require Import Base M_ChaCha20 M_Poly1305 S_ChaCha S_PolyLazy T_Ccp T_Forge T_CcpPrivacy S_CcpAuth.
From Verif Require BaseFacts P_Forge2 P_PolyExact P_Ccp.

(** The one-time tag as a number depending on the point, plus the pad. *)
Definition point (k : list Z) : Z := clamp (le_decode k).
Definition W (r : Z) (d c : list Z) : Z :=
  if lazy_acc r (mac_data d c) <? P1305 then poly1305_acc r (mac_data d c) else faulty_acc (poly1305_acc r (mac_data d c)).
Lemma mac_form k d c : bytes k -> length k = 32%nat -> is_slice d -> is_slice c ->
  the_mac k d c = le_encode 16 (W (point (firstn 16 k)) d c + le_decode (skipn 16 k)).
Proof.
  intros Bk Lk [Bd Ld] [Bc Lc]. destruct (P_PolyExact.poly1305_exact Unchecked k d c Bk Lk Bd Bc Ld Lc) as (_ & _ & E).
  unfold the_mac. rewrite E. unfold W, point. destruct (_ <? _); reflexivity.
Qed.
Lemma acc_eq r d c : poly1305_acc r (mac_data d c) = P_Forge2.acc r (P_Forge2.macb d c).
Proof. unfold poly1305_acc. rewrite P_Forge2.mac_chunks. reflexivity. Qed.
Lemma W_cases k d c : bytes k -> length k = 32%nat -> is_slice d -> is_slice c -> let r := point (firstn 16 k) in
  W r d c = P_Forge2.acc r (P_Forge2.macb d c) \/
  W r d c = faulty_acc (P_Forge2.acc r (P_Forge2.macb d c)) /\ 0 <= P_Forge2.acc r (P_Forge2.macb d c) < 2 ^ 22 + 5.
Proof.
  intros Bk Lk [Bd Ld] [Bc Lc] r. destruct (P_PolyExact.poly1305_exact Unchecked k d c Bk Lk Bd Bc Ld Lc) as (R & M & _).
  fold (point (firstn 16 k)) in R, M. fold r in R, M. unfold W. rewrite acc_eq in *. destruct (_ <? _) eqn:E; [now left|right]. split; [reflexivity|].
  apply Z.ltb_ge in E. rewrite <- M. unfold P1305 in *.
  replace (lazy_acc r (mac_data d c)) with (lazy_acc r (mac_data d c) - (2 ^ 130 - 5) + 1 * (2 ^ 130 - 5)) by ring.
  rewrite Z.mod_add by lia. rewrite Z.mod_small by lia. lia.
Qed.

(** Other bytes for block 0 of one nonce. *)
Definition with_otk (F : blocks) (nonce k : list Z) : blocks := fun c n =>
  if Z.eq_dec c 0 then if list_eq_dec Z.eq_dec n nonce then k ++ skipn 32 (F 0 nonce) else F c n else F c n.
Lemma otk_at F nonce k : length k = 32%nat -> firstn 32 (with_otk F nonce k 0 nonce) = k.
Proof.
  intros L. unfold with_otk. destruct Z.eq_dec as [_|N]; [|now destruct N]. destruct list_eq_dec as [_|N]; [|now destruct N].
  rewrite firstn_app, L, Nat.sub_diag, firstn_O, app_nil_r. apply firstn_all2. lia.
Qed.
Lemma otk_pos F nonce k c n : c <> 0 -> with_otk F nonce k c n = F c n.
Proof. intros H. unfold with_otk. destruct Z.eq_dec; [easy|reflexivity]. Qed.
Lemma otk_other F nonce k n : n <> nonce -> with_otk F nonce k 0 n = F 0 n.
Proof. intros H. unfold with_otk. destruct Z.eq_dec; [|reflexivity]. destruct list_eq_dec; [easy|reflexivity]. Qed.
Lemma otk_good F nonce k : good_blocks F -> length k = 32%nat -> bytes k -> good_blocks (with_otk F nonce k).
Proof.
  intros HF Lk Bk c n Hc Hn. unfold with_otk. destruct Z.eq_dec as [->|]; [|now apply HF]. destruct list_eq_dec as [->|]; [|now apply HF].
  destruct (HF 0 nonce Hc Hn) as [L B]. split; [rewrite app_length, skipn_length; lia|]. apply BaseFacts.bytes_app. split; [exact Bk|now apply BaseFacts.bytes_skipn].
Qed.
Lemma otk_twice F nonce k k' c n : length k = 32%nat -> with_otk (with_otk F nonce k) nonce k' c n = with_otk F nonce k' c n.
Proof.
  intros L. unfold with_otk. destruct Z.eq_dec as [->|]; [|reflexivity]. destruct list_eq_dec as [->|]; [|reflexivity].
  destruct Z.eq_dec as [_|N]; [|now destruct N]. destruct list_eq_dec as [_|N]; [|now destruct N].
  f_equal. rewrite skipn_app, L, Nat.sub_diag, skipn_O. rewrite skipn_all2 by lia. reflexivity.
Qed.
Lemma otk_same F nonce c n : length (F 0 nonce) = 64%nat -> with_otk F nonce (firstn 32 (F 0 nonce)) c n = F c n.
Proof.
  intros L. unfold with_otk. destruct Z.eq_dec as [->|]; [|reflexivity]. destruct list_eq_dec as [->|]; [|reflexivity]. apply firstn_skipn.
Qed.

Definition ct_of (F : blocks) (q : lr_query) : list Z :=
  map (fun n => Z.lxor (nth n (q_left q) 0) (nth (n mod 64) (F (1 + Z.of_nat (n / 64)) (q_nonce q)) 0)) (seq 0 (length (q_left q))).
Lemma seal_eq F q : seal the_mac F (q_nonce q) (q_data q) (q_msg q true) =
  (ct_of F q, the_mac (firstn 32 (F 0 (q_nonce q))) (q_data q) (ct_of F q)).
Proof. reflexivity. Qed.
Lemma ct_of_length F q : length (ct_of F q) = length (q_left q).
Proof. unfold ct_of. now rewrite map_length, seq_length. Qed.
Lemma ctr_range q n : len (q_left q) <= checked_limit -> (n < length (q_left q))%nat -> 0 <= 1 + Z.of_nat (n / 64) < 2 ^ 32.
Proof. intros H Hn. unfold len, checked_limit in H. pose proof (Nat.div_mod n 64 ltac:(lia)). lia. Qed.
Lemma ct_of_slice F q : good_blocks F -> chacha_nonce (q_nonce q) -> is_slice (q_left q) -> len (q_left q) <= checked_limit -> is_slice (ct_of F q).
Proof.
  intros HF Hn [Bm Lm] Hl. split; [|unfold len in *; now rewrite ct_of_length].
  apply Forall_forall. intros y Hy. unfold ct_of in Hy. apply in_map_iff in Hy. destruct Hy as (n & <- & Hi). apply in_seq in Hi.
  apply BaseFacts.byte_lxor; apply BaseFacts.bytes_nth; [assumption|]. apply HF; [now apply (ctr_range q)|assumption].
Qed.
Lemma ct_of_otk F nonce k q : ct_of (with_otk F nonce k) q = ct_of F q.
Proof. unfold ct_of. apply map_ext. intros n. rewrite otk_pos by lia. reflexivity. Qed.
Lemma ct_of_ext F F' q : chacha_nonce (q_nonce q) -> len (q_left q) <= checked_limit ->
  (forall c n, 0 <= c < 2 ^ 32 -> chacha_nonce n -> F' c n = F c n) -> ct_of F' q = ct_of F q.
Proof.
  intros Hn Hl H. unfold ct_of. apply map_ext_in. intros n Hi. apply in_seq in Hi. rewrite H; [reflexivity| |assumption]. apply (ctr_range q); [assumption|lia].
Qed.

Lemma split32 (l : list Z) : length l = 64%nat -> firstn 32 l = firstn 16 l ++ firstn 16 (skipn 16 l).
Proof. intros L. rewrite <- (firstn_skipn 16 (firstn 32 l)). rewrite firstn_firstn, firstn_skipn_comm. reflexivity. Qed.
Lemma le16_mod a c : a mod 2 ^ 128 = c mod 2 ^ 128 -> le_encode 16 a = le_encode 16 c.
Proof. intros E. rewrite <- (BaseFacts.le_encode_mod 16 a), <- (BaseFacts.le_encode_mod 16 c). change (256 ^ Z.of_nat 16) with (2 ^ 128). now rewrite E. Qed.
Lemma dec16 x : le_decode (le_encode 16 x) = x mod 2 ^ 128.
Proof. rewrite BaseFacts.le_decode_encode. reflexivity. Qed.

(** The one-time key with point bytes [h] that gives the data [d] and ciphertext [c] the tag they have under [k]. *)
Definition moved (k d c h : list Z) : list Z :=
  h ++ le_encode 16 (W (point (firstn 16 k)) d c + le_decode (skipn 16 k) - W (point h) d c).
Definition b16 (h : list Z) : Prop := length h = 16%nat /\ bytes h.
Lemma moved_ok k d c h : b16 h -> length (moved k d c h) = 32%nat /\ bytes (moved k d c h) /\ firstn 16 (moved k d c h) = h.
Proof.
  intros [L B]. unfold moved. rewrite app_length, L, BaseFacts.le_encode_length. split; [reflexivity|]. split.
  - apply BaseFacts.bytes_app. split; [exact B|apply BaseFacts.le_encode_bytes].
  - rewrite firstn_app, L, Nat.sub_diag, firstn_O, app_nil_r. apply firstn_all2. lia.
Qed.
Lemma skip_app16 (a c : list Z) : length a = 16%nat -> skipn 16 (a ++ c) = c.
Proof. intros L. rewrite skipn_app, L, Nat.sub_diag, skipn_O. rewrite skipn_all2 by lia. reflexivity. Qed.
Lemma moved_tag k d c h : bytes k -> length k = 32%nat -> is_slice d -> is_slice c -> b16 h -> the_mac (moved k d c h) d c = the_mac k d c.
Proof.
  intros Bk Lk Hd Hc Hh. destruct (moved_ok k d c h Hh) as (L & B & Fi). rewrite !mac_form by assumption. rewrite Fi.
  unfold moved at 1. rewrite skip_app16 by apply Hh. rewrite dec16. apply le16_mod. rewrite Zplus_mod_idemp_r. f_equal. ring.
Qed.
Lemma moved_back k d c h : bytes k -> length k = 32%nat -> b16 h -> moved (moved k d c h) d c (firstn 16 k) = k.
Proof.
  intros Bk Lk Hh. destruct (moved_ok k d c h Hh) as (L & B & Fi). unfold moved at 1. rewrite Fi. unfold moved at 1. rewrite skip_app16 by apply Hh. rewrite dec16.
  transitivity (firstn 16 k ++ skipn 16 k); [|apply firstn_skipn]. f_equal.
  assert (Lh : length (skipn 16 k) = 16%nat) by (rewrite skipn_length, Lk; reflexivity).
  transitivity (le_encode 16 (le_decode (skipn 16 k))).
  - apply le16_mod. rewrite Zminus_mod, Zplus_mod_idemp_r, <- Zminus_mod. f_equal. ring.
  - pose proof (BaseFacts.le_encode_decode (skipn 16 k)) as E. rewrite Lh in E. apply E. now apply BaseFacts.bytes_skipn.
Qed.

Lemma rl mac F A l n : length (lr_run (seal mac F) l A n) = n.
Proof. exact (run_length mac A F l n). Qed.

Section Game.
Variables (n m : nat) (B : Z) (A : attacker) (G : forger).
Hypothesis HA : admissible n A.
Hypothesis HG : forger_ok n m B A G.
Let run F := lr_run (seal the_mac F) true A n.
Let runi F i := lr_run (seal the_mac F) true A i.

Definition dummy : attempt := {| a_nonce := repeat 0 12; a_data := []; a_ct := []; a_tag := [] |}.
Definition att (F : blocks) (j : nat) : attempt := nth j (G (run F)) dummy.
(** The query under a nonce. *)
Definition query_of (F : blocks) (nonce : list Z) : option lr_query :=
  find (fun q => if list_eq_dec Z.eq_dec (q_nonce q) nonce then true else false) (map (fun i => A (runi F i)) (seq 0 n)).
Definition rho (j : nat) (F : blocks) (h : list Z) : blocks :=
  let nonce := a_nonce (att F j) in let k := firstn 32 (F 0 nonce) in
  with_otk F nonce (match query_of F nonce with
                    | Some q => moved k (q_data q) (ct_of F q) h
                    | None => firstn 16 k ++ h
                    end).
Definition old (j : nat) (F : blocks) : list Z :=
  let nonce := a_nonce (att F j) in let k := firstn 32 (F 0 nonce) in
  match query_of F nonce with Some _ => firstn 16 k | None => skipn 16 k end.

Lemma att_nonce F j : chacha_nonce (a_nonce (att F j)).
Proof.
  unfold att. destruct (nth_in_or_default j (G (run F)) dummy) as [I| ->]; [|split; [reflexivity|now apply BaseFacts.bytesb_spec]].
  destruct (proj2 HG (run F)) as [_ H]; [apply rl|]. exact (proj1 (H _ I)).
Qed.
Lemma query_at F i : (i < n)%nat -> let q := A (runi F i) in chacha_nonce (q_nonce q) /\ is_slice (q_data q) /\ is_slice (q_left q) /\
  len (q_left q) <= checked_limit /\ hash_blocks (q_data q) (q_left q) <= B.
Proof.
  intros Hi q. destruct (HA (runi F i)) as (Hn & Hd & Hm & _ & Hl & _); [unfold runi; rewrite rl; lia|].
  fold q in Hn, Hd, Hm, Hl. repeat (split; [assumption|]). apply (proj1 HG). unfold runi. rewrite rl. lia.
Qed.
Lemma query_some F nonce q : query_of F nonce = Some q -> q_nonce q = nonce /\ exists i, (i < n)%nat /\ q = A (runi F i).
Proof.
  intros E. apply find_some in E. destruct E as [I E]. destruct list_eq_dec as [En|]; [|discriminate]. split; [exact En|].
  apply in_map_iff in I. destruct I as (i & <- & Hi). apply in_seq in Hi. exists i. split; [lia|reflexivity].
Qed.
Lemma query_none F nonce i : query_of F nonce = None -> (i < n)%nat -> q_nonce (A (runi F i)) <> nonce.
Proof.
  intros E Hi Ne. pose proof (find_none _ _ E (A (runi F i))) as N. cbv beta in N.
  destruct list_eq_dec as [_|NE]; [|now destruct NE]. discriminate N. apply (in_map (fun i => A (runi F i))), in_seq. lia.
Qed.
Lemma query_unique F nonce q i : query_of F nonce = Some q -> (i < n)%nat -> q_nonce (A (runi F i)) = nonce -> q = A (runi F i).
Proof.
  intros E Hi En. destruct (query_some F nonce q E) as (Eq & i' & Hi' & Ei'). destruct (Nat.eq_dec i i') as [->|Ne]; [exact Ei'|].
  exfalso. apply (nonces_differ the_mac A n HA F true i i' Hi Hi' Ne). unfold runi in *. unfold T_CcpPrivacy.run. rewrite <- Ei', Eq. exact En.
Qed.
Lemma otk_ok F nonce : good_blocks F -> chacha_nonce nonce -> length (firstn 32 (F 0 nonce)) = 32%nat /\ bytes (firstn 32 (F 0 nonce)).
Proof. intros HF Hn. destruct (HF 0 nonce ltac:(lia) Hn) as [L Bb]. split; [rewrite firstn_length; lia|now apply BaseFacts.bytes_firstn]. Qed.
Lemma key_ok F j h : good_blocks F -> b16 h -> let nonce := a_nonce (att F j) in let k := firstn 32 (F 0 nonce) in
  let k' := match query_of F nonce with Some q => moved k (q_data q) (ct_of F q) h | None => firstn 16 k ++ h end in
  length k' = 32%nat /\ bytes k'.
Proof.
  intros HF Hh nonce k k'. destruct (otk_ok F nonce HF (att_nonce F j)) as [L Bk]. fold k in L, Bk. unfold k'. destruct query_of as [q|].
  - destruct (moved_ok k (q_data q) (ct_of F q) h Hh) as (Lm & Bm & _). split; assumption.
  - split; [rewrite app_length, firstn_length, L, (proj1 Hh); reflexivity|]. apply BaseFacts.bytes_app. split; [now apply BaseFacts.bytes_firstn|exact (proj2 Hh)].
Qed.
Lemma rho_good j F h : good_blocks F -> b16 h -> good_blocks (rho j F h).
Proof. intros HF Hh. destruct (key_ok F j h HF Hh) as [L Bk]. unfold rho. now apply otk_good. Qed.
Lemma rho_runi j F h : good_blocks F -> b16 h -> forall i, (i <= n)%nat -> runi (rho j F h) i = runi F i.
Proof.
  intros HF Hh. induction i as [|i IH]; intros Hi; [reflexivity|]. unfold runi in *. cbn [lr_run]. cbv zeta. rewrite IH by lia. do 2 f_equal.
  destruct (query_at F i ltac:(lia)) as (Hn & Hd & Hm & Hl & _). unfold runi in Hn, Hd, Hm, Hl.
  set (q := A (lr_run (seal the_mac F) true A i)) in *. rewrite !seal_eq.
  destruct (key_ok F j h HF Hh) as [Lk Bk]. destruct (otk_ok F (a_nonce (att F j)) HF (att_nonce F j)) as [L0 B0].
  unfold rho. rewrite ct_of_otk. f_equal.
  destruct (list_eq_dec Z.eq_dec (q_nonce q) (a_nonce (att F j))) as [En|Nn]; [|now rewrite otk_other].
  rewrite En, otk_at by exact Lk. destruct (query_of F (a_nonce (att F j))) as [q'|] eqn:Eq.
  - assert (q' = q) as -> by (apply (query_unique F (a_nonce (att F j)) q' i Eq); [lia|exact En]).
    apply moved_tag; try assumption. now apply ct_of_slice.
  - exfalso. apply (query_none F _ i Eq); [lia|exact En].
Qed.
Lemma rho_run j F h : good_blocks F -> b16 h -> run (rho j F h) = run F.
Proof. intros HF Hh. now apply rho_runi. Qed.
Lemma rho_att j F h : good_blocks F -> b16 h -> att (rho j F h) j = att F j.
Proof. intros HF Hh. unfold att. now rewrite rho_run. Qed.
Lemma rho_query j F h nonce : good_blocks F -> b16 h -> query_of (rho j F h) nonce = query_of F nonce.
Proof.
  intros HF Hh. unfold query_of. f_equal. apply map_ext_in. intros i Hi. apply in_seq in Hi. rewrite rho_runi by (try assumption; lia). reflexivity.
Qed.
Lemma rho_key j F h : good_blocks F -> b16 h -> let nonce := a_nonce (att F j) in let k := firstn 32 (F 0 nonce) in
  firstn 32 (rho j F h 0 nonce) = match query_of F nonce with Some q => moved k (q_data q) (ct_of F q) h | None => firstn 16 k ++ h end.
Proof. intros HF Hh nonce k. destruct (key_ok F j h HF Hh) as [Lk Bk]. unfold rho. now apply otk_at. Qed.
Lemma rho_old j F h : good_blocks F -> b16 h -> old j (rho j F h) = h.
Proof.
  intros HF Hh. unfold old. rewrite rho_att, rho_query, rho_key by assumption. destruct query_of as [q|].
  - exact (proj2 (proj2 (moved_ok _ _ _ h Hh))).
  - apply skip_app16. rewrite firstn_length, (proj1 (otk_ok F _ HF (att_nonce F j))). reflexivity.
Qed.
Lemma rho_ct j F h q : ct_of (rho j F h) q = ct_of F q.
Proof. unfold rho. apply ct_of_otk. Qed.
Lemma rho_back j F h c nonce : good_blocks F -> b16 h -> 0 <= c < 2 ^ 32 -> chacha_nonce nonce -> rho j (rho j F h) (old j F) c nonce = F c nonce.
Proof.
  intros HF Hh Hc Hn. unfold rho at 1. rewrite rho_att, rho_query, rho_key by assumption.
  destruct (key_ok F j h HF Hh) as [Lk Bk]. destruct (otk_ok F _ HF (att_nonce F j)) as [L0 B0].
  assert (L64 : length (F 0 (a_nonce (att F j))) = 64%nat) by (apply HF; [lia|apply att_nonce]).
  unfold old. destruct (query_of F (a_nonce (att F j))) as [q|] eqn:Eq.
  - rewrite rho_ct. rewrite moved_back by assumption. unfold rho. rewrite Eq, otk_twice by exact Lk. now apply otk_same.
  - unfold rho. rewrite Eq, otk_twice by exact Lk. rewrite firstn_app, firstn_length, L0. change (16 - Nat.min 16 32)%nat with O.
    rewrite firstn_O, app_nil_r, firstn_firstn. change (Nat.min 16 16) with 16%nat. rewrite firstn_skipn. now apply otk_same.
Qed.
Lemma hash_blocks_pos d c : 1 <= hash_blocks d c.
Proof. unfold hash_blocks, len. pose proof (Z.div_pos (Z.of_nat (length d) + 15) 16). pose proof (Z.div_pos (Z.of_nat (length c) + 15) 16). lia. Qed.
(** In the orbit of [F], an attempt under a nonce already used has the right tag for few points, under a new nonce for one pad. *)
Lemma rho_bad j F : good_blocks F -> In (att F j) (G (run F)) ->
  (exists bad : list Z, Z.of_nat (length bad) <= 8712 * B /\ forall h, b16 h -> accepted (rho j F h) (att F j) = true -> In (point h) bad) \/
  (exists g : list Z, forall h, b16 h -> accepted (rho j F h) (att F j) = true -> h = g).
Proof.
  intros HF Ia. set (a := att F j) in *. destruct (proj2 HG (run F)) as [_ H]; [apply rl|].
  destruct (H a Ia) as (Hna & Hda & Hca & HB & Hrep). clear H.
  destruct (otk_ok F (a_nonce a) HF Hna) as [L0 B0]. set (k := firstn 32 (F 0 (a_nonce a))) in *.
  assert (Acc : forall h, b16 h -> accepted (rho j F h) a = true -> a_tag a = the_mac (match query_of F (a_nonce a) with
      Some q => moved k (q_data q) (ct_of F q) h | None => firstn 16 k ++ h end) (a_data a) (a_ct a)).
  { intros h Hh E. unfold accepted in E. destruct list_eq_dec as [Et|]; [|discriminate]. rewrite Et. f_equal. exact (rho_key j F h HF Hh). }
  destruct (query_of F (a_nonce a)) as [q|] eqn:Eq; [left|right].
  - destruct (query_some F _ q Eq) as (En & i & Hi & Ei). destruct (query_at F i Hi) as (Hn & Hd & Hm & Hl & HBq). rewrite <- Ei in *.
    set (c := ct_of F q) in *. assert (Hc : is_slice c) by now apply ct_of_slice.
    destruct (list_eq_dec (list_eq_dec Z.eq_dec) [a_data a; a_ct a] [q_data q; c]) as [E2|N2].
    + exists []. split; [cbn [length]; pose proof (hash_blocks_pos (a_data a) (a_ct a)); lia|]. intros h Hh E. exfalso. apply Hrep. injection E2 as Ed Ec.
      exists i. assert (Lr : length (run F) = n) by apply rl. split; [lia|].
      assert (Fi : firstn i (run F) = runi F i).
      { exact (run_firstn the_mac A F true n i ltac:(lia)). }
      rewrite Fi, <- Ei. split; [|now split].
      assert (Nt : nth i (run F) ([], []) = seal the_mac F (q_nonce q) (q_data q) (q_msg q true)).
      { unfold run. assert (Fs : firstn (S i) (lr_run (seal the_mac F) true A n) = runi F (S i)) by exact (run_firstn the_mac A F true n (S i) ltac:(lia)).
        rewrite <- (firstn_skipn (S i) (lr_run (seal the_mac F) true A n)), Fs.
        assert (Li : length (runi F i) = i) by apply rl. assert (LS : length (runi F (S i)) = S i) by apply rl.
        rewrite app_nth1 by lia. unfold runi. cbn [lr_run]. cbv zeta. unfold runi in Li, Ei.
        rewrite app_nth2, Li, Nat.sub_diag by lia. rewrite <- Ei. reflexivity. }
      rewrite Nt, seal_eq. fold c. rewrite Ec. f_equal. specialize (Acc h Hh E). rewrite Ed, Ec, moved_tag in Acc by assumption.
      rewrite En, Acc. reflexivity.
    + assert (Nd : (q_data q, c) <> (a_data a, a_ct a)) by (intros E; apply N2; injection E as -> ->; reflexivity).
      set (t := the_mac k (q_data q) c).
      set (d := le_decode t - le_decode (a_tag a)).
      destruct (P_Forge2.forge_mod (q_data q) c (a_data a) (a_ct a) (proj1 Hd) (proj1 Hc) (proj1 Hda) (proj1 Hca) (proj2 Hd) (proj2 Hc) (proj2 Hda) (proj2 Hca) Nd
        (P_Forge2.pair_diffs d)) as (bad & Lb & Hb).
      exists bad. split.
      { assert (Lc : len c = len (q_left q)) by (unfold len, c; now rewrite ct_of_length).
        unfold hash_blocks in *. rewrite <- Lc in HBq. rewrite <- P_Forge2.macb_length in HB, HBq. rewrite P_Forge2.pair_diffs_length in Lb. lia. }
      intros h Hh E. specialize (Acc h Hh E). destruct (moved_ok k (q_data q) c h Hh) as (Lk & Bk & Fi). set (k' := moved k (q_data q) c h) in *.
      assert (T1 : t = the_mac k' (q_data q) c) by (symmetry; now apply moved_tag).
      apply Hb; [apply P_Forge2.clamp_range|].
      pose proof (W_cases k' (q_data q) c Bk Lk Hd Hc) as C1. pose proof (W_cases k' (a_data a) (a_ct a) Bk Lk Hda Hca) as C2. cbv zeta in C1, C2. rewrite Fi in C1, C2.
      apply (P_Forge2.tag_diff _ _ (W (point h) (q_data q) c) (W (point h) (a_data a) (a_ct a)) (le_decode (skipn 16 k')) d C1 C2).
      unfold d. rewrite T1, Acc, !mac_form by assumption. rewrite Fi. reflexivity.
  - exists (le_encode 16 (le_decode (a_tag a) - W (point (firstn 16 k)) (a_data a) (a_ct a))). intros h Hh E. specialize (Acc h Hh E).
    destruct Hh as [Lh Bh]. assert (L16 : length (firstn 16 k) = 16%nat) by (rewrite firstn_length; lia).
    rewrite mac_form in Acc; [|apply BaseFacts.bytes_app; split; [now apply BaseFacts.bytes_firstn|assumption]|rewrite app_length; lia|assumption|assumption].
    rewrite skip_app16, firstn_app, L16, Nat.sub_diag, firstn_O, app_nil_r, firstn_firstn in Acc by assumption. change (Nat.min 16 16) with 16%nat in Acc.
    rewrite <- (BaseFacts.le_encode_decode h Bh) at 1. rewrite Lh. apply le16_mod. rewrite Acc, dec16.
    rewrite Zminus_mod, Zmod_mod, <- Zminus_mod. f_equal. ring.
Qed.
(** Everything depends on the blocks for counters below 2^32 and nonces of 12 bytes only. *)
Section Ext.
Variables F F' : blocks.
Hypothesis E : forall c nonce, 0 <= c < 2 ^ 32 -> chacha_nonce nonce -> F' c nonce = F c nonce.
Lemma runi_ext : forall i, (i <= n)%nat -> runi F' i = runi F i.
Proof.
  induction i as [|i IH]; intros Hi; [reflexivity|]. unfold runi in *. cbn [lr_run]. cbv zeta. rewrite IH by lia. do 2 f_equal.
  destruct (query_at F i ltac:(lia)) as (Hn & Hd & Hm & Hl & _). unfold runi in Hn, Hd, Hm, Hl.
  set (q := A (lr_run (seal the_mac F) true A i)) in *. rewrite !seal_eq.
  rewrite (ct_of_ext F F' q Hn Hl E), E; [reflexivity|lia|assumption].
Qed.
Lemma run_ext : run F' = run F.
Proof. now apply runi_ext. Qed.
Lemma att_ext j : att F' j = att F j.
Proof. unfold att. now rewrite run_ext. Qed.
Lemma query_ext nonce : query_of F' nonce = query_of F nonce.
Proof. unfold query_of. f_equal. apply map_ext_in. intros i Hi. apply in_seq in Hi. rewrite runi_ext by lia. reflexivity. Qed.
Lemma old_ext j : old j F' = old j F.
Proof. unfold old. rewrite att_ext, query_ext, E; [reflexivity|lia|apply att_nonce]. Qed.
Lemma rho_ext j h c nonce : 0 <= c < 2 ^ 32 -> chacha_nonce nonce -> rho j F' h c nonce = rho j F h c nonce.
Proof.
  intros Hc Hn. unfold rho. rewrite att_ext, query_ext. rewrite (E 0 (a_nonce (att F j))); [|lia|apply att_nonce].
  assert (Ec : forall q, query_of F (a_nonce (att F j)) = Some q -> ct_of F' q = ct_of F q).
  { intros q Eq. destruct (query_some F _ q Eq) as (_ & i & Hi & ->). destruct (query_at F i Hi) as (Hqn & _ & _ & Hql & _). now apply ct_of_ext. }
  assert (G0 : forall k, with_otk F' (a_nonce (att F j)) k c nonce = with_otk F (a_nonce (att F j)) k c nonce).
  { intros k. unfold with_otk. rewrite (E 0 (a_nonce (att F j))); [|lia|apply att_nonce]. now rewrite (E c nonce). }
  destruct (query_of F (a_nonce (att F j))) as [q|]; [rewrite (Ec q eq_refl)|]; apply G0.
Qed.
Lemma accepted_ext a : chacha_nonce (a_nonce a) -> accepted F' a = accepted F a.
Proof. intros Hn. unfold accepted. rewrite E; [reflexivity|lia|exact Hn]. Qed.
End Ext.
End Game.

(** The 22 bits of a point that [clamp] clears. *)
Definition cleared : list (Z * Z) := [(28, 4); (32, 2); (60, 4); (64, 2); (92, 4); (96, 2); (124, 4)].
Definition bits_at (x : Z) (p : Z * Z) : Z := (x / 2 ^ fst p) mod 2 ^ snd p.
Lemma cleared_all : forallb (fun k => Z.testbit 0x0ffffffc0ffffffc0ffffffc0fffffff (Z.of_nat k) ||
  existsb (fun p => (fst p <=? Z.of_nat k) && (Z.of_nat k <? fst p + snd p)) cleared)%bool (seq 0 128) = true.
Proof. vm_compute. reflexivity. Qed.
Lemma clamp_inj x y : 0 <= x < 2 ^ 128 -> 0 <= y < 2 ^ 128 -> clamp x = clamp y -> map (bits_at x) cleared = map (bits_at y) cleared -> x = y.
Proof.
  intros Hx Hy Ec Eb. apply Z.bits_inj'. intros k Hk. destruct (Z.lt_ge_cases k 128) as [Hlt|Hge].
  - pose proof cleared_all as C. rewrite forallb_forall in C. specialize (C (Z.to_nat k)). rewrite Z2Nat.id in C by exact Hk.
    specialize (C ltac:(apply in_seq; lia)). apply orb_true_iff in C. destruct C as [C|C].
    + apply (f_equal (fun z => Z.testbit z k)) in Ec. unfold clamp in Ec. rewrite !Z.land_spec, C, !andb_true_r in Ec. exact Ec.
    + apply existsb_exists in C. destruct C as ((a, w) & I & C). cbn [fst snd] in C. apply andb_true_iff in C. destruct C as [C1 C2].
      apply Z.leb_le in C1. apply Z.ltb_lt in C2. assert (Ep : bits_at x (a, w) = bits_at y (a, w)).
      { clear - Eb I. induction cleared as [|p l IH]; [destruct I|]. cbn [map] in Eb. injection Eb as E1 E2. destruct I as [->|I]; [exact E1|now apply IH]. }
      unfold bits_at in Ep. cbn [fst snd] in Ep. assert (Ha : 0 <= a) by (clear - I; cbn in I; repeat (destruct I as [I|I]; [injection I as <- <-; lia|]); destruct I).
      apply (f_equal (fun z => Z.testbit z (k - a))) in Ep. rewrite !Z.mod_pow2_bits_low in Ep by lia. rewrite !Z.div_pow2_bits in Ep by lia.
      now replace (k - a + a) with k in Ep by lia.
  - assert (T : forall z, 0 <= z < 2 ^ 128 -> Z.testbit z k = false).
    { intros z Hz. rewrite <- (Z.mod_small z (2 ^ 128) Hz). apply Z.mod_pow2_bits_high. lia. }
    now rewrite !T.
Qed.
Lemma point_inj h h' : b16 h -> b16 h' -> point h = point h' -> map (bits_at (le_decode h)) cleared = map (bits_at (le_decode h')) cleared -> h = h'.
Proof.
  intros [L B] [L' B'] Ep Eb. assert (R : forall l, length l = 16%nat -> bytes l -> 0 <= le_decode l < 2 ^ 128).
  { intros l Ll Bl. pose proof (BaseFacts.le_decode_range l Bl) as H. unfold len in H. rewrite Ll in H. exact H. }
  pose proof (clamp_inj _ _ (R h L B) (R h' L' B') Ep Eb) as E.
  rewrite <- (BaseFacts.le_encode_decode h B), <- (BaseFacts.le_encode_decode h' B'), E, L, L'. reflexivity.
Qed.
Lemma bits_at_range x a w : 0 <= w -> 0 <= bits_at x (a, w) < 2 ^ w.
Proof. intros H. unfold bits_at. cbn [fst snd]. apply Z.mod_pos_bound. now apply Z.pow_pos_nonneg. Qed.

(** [decrypt] gives [true] exactly when the attempt is accepted under the blocks of the key. *)
Lemma decrypt_accepted key : chacha_key key -> forall b a out, chacha_nonce (a_nonce a) -> is_slice (a_data a) -> is_slice (a_ct a) ->
  length out = length (a_ct a) -> b = Unchecked \/ len (a_ct a) <= checked_limit ->
  exists r, ccp_decrypt b key (a_ct a) (a_nonce a) (a_data a) (a_tag a) out =
    Ok (r, accepted (fun c nonce => chacha20_block key c nonce) a).
Proof.
  intros [Hk Bk] b a out [Hn Bn] [Bd Ld] [Bc Lc] Ho Hb.
  destruct (P_Ccp.decrypt_ok key (a_nonce a) Hk Hn Bk Bn (a_ct a) (a_data a) Bc Bd Ld Lc) as (t & _ & _ & Ee & Ed & Ef).
  assert (Et : t = the_mac (firstn 32 (chacha20_block key 0 (a_nonce a))) (a_data a) (a_ct a)).
  { assert (Bm : bytes (P_Ccp.crypt key (a_nonce a) (a_ct a))) by now apply P_Ccp.crypt_bytes.
    assert (Lm : len (P_Ccp.crypt key (a_nonce a) (a_ct a)) < 2 ^ 64) by (unfold len in *; now rewrite P_Ccp.crypt_length).
    destruct (P_Ccp.encrypt_ok key (a_nonce a) Hk Hn Bk Bn _ (a_data a) Bm Bd Ld Lm) as (t1 & _ & _ & _ & Et & E1).
    rewrite P_Ccp.crypt_crypt in Et, E1 by assumption. specialize (Ee Unchecked out Ho (or_introl eq_refl)).
    rewrite (E1 Unchecked out) in Ee by (rewrite ?P_Ccp.crypt_length by assumption; auto). injection Ee as ->.
    specialize (Et Unchecked). unfold aead_tag in Et. rewrite (P_Ccp.otk_eq key (a_nonce a) Hk Hn Bk Bn) in Et.
    unfold one_time_key in Et. unfold the_mac. rewrite Et. reflexivity. }
  unfold accepted. destruct list_eq_dec as [E|N]; cbv beta in *.
  - exists (P_Ccp.crypt key (a_nonce a) (a_ct a)). rewrite E, <- Et. now apply Ed.
  - exists out. apply Ef; [exact Ho|]. rewrite Et. exact N.
Qed.
