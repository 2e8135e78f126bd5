(** C99: the interactive game against GCM with a random permutation, and against AES-GCM. *)
From Coq Require Import ZArith List Lia.
From Verif Require Import Base M_Aes M_Gcm S_Gcm S_Aes T_Gcm T_Forge T_GcmPrivacy S_GcmPrp S_GcmAuth T_GcmPrp T_GcmAes S_GcmGame S_GcmWin.
From Verif Require P_GcmExt P_GcmGame P_GcmPrp P_GcmWin BaseFacts.
From mathcomp Require Import all_ssreflect all_fingroup all_algebra.
Import ListNotations.
Import Order.TTheory GRing.Theory Num.Theory.

(** ** C99: a player asks for encryptions, never twice under one nonce, and tries to forge, in any order and depending on all answers
    before.  Under a uniformly random permutation one of its at most [m] attempts is accepted with a probability of at most
    (m B + s(s-1)/2) / 2^128, when at most [s] blocks are enciphered. *)
Theorem C99_interactive : forall b P n m B s, player_ok b n m (Z.of_nat B) P ->
  (forall tr, length tr = n -> (blocks_asked P tr n <= s)%coq_nat) ->
  (pr_win b P n <= ((m * B)%N%:R + (s * (s - 1))%N%:R / 2%:R) / 2%:R ^+ 128)%R.
Proof.
  move=> b P n m B s HP Hs.
  have -> : ((s * (s - 1))%N%:R / 2%:R = (\sum_(j < s) j)%N%:R :> rat)%R by rewrite -P_GcmPrp.sum_double -muln2 natrM mulfK // pnatr_eq0.
  apply: (P_GcmWin.win_bound HP). move=> tr Ht. apply/ssrnat.leP. exact: Hs.
Qed.
Print Assumptions C99_interactive.

(** The same game against [Gcm::<AesN>] with a key. *)
Definition aes_respond (E : BlockCipher) (b : build) (key : list Z) (v : move) : event :=
  match v with
  | Encrypt nonce data msg => Answer (bind (gcm_new E key) (fun k => gcm_encrypt E b k msg nonce data (repeat Z0 (length msg))))
  | Decrypt a => Verdict (aes_accepts E b key a)
  end.
Fixpoint aes_play (E : BlockCipher) (b : build) (key : list Z) (P : player) (n : nat) : list event :=
  match n with
  | O => nil
  | S n => app (aes_play E b key P n) [aes_respond E b key (P (aes_play E b key P n))]
  end.
Definition short_attempts (b : build) (n : nat) (P : player) : Prop :=
  forall tr a, (length tr < n)%coq_nat -> P tr = Decrypt a -> b = Unchecked \/ Z.le (len (a_ct a)) checked_limit.
(** It is the game with the FIPS 197 cipher in place of the permutation. *)
Theorem C99_interactive_experiment : forall E Nk,
  (E, Nk) = (Aes128, 4%nat) \/ (E, Nk) = (Aes192, 6%nat) \/ (E, Nk) = (Aes256, 8%nat) ->
  forall b P n m B key, player_ok b n m B P -> short_attempts b n P -> length key = (4 * Nk)%coq_nat -> bytes key ->
  aes_play E b key P n = play b (Cipher Nk key) P n.
Proof.
  move=> E Nk HE b P n m B key HP HS Lk Bk.
  have G : forall i, (i <= n)%coq_nat -> aes_play E b key P i = play b (Cipher Nk key) P i /\ length (aes_play E b key P i) = i.
  { elim=> [|i IH] Hi; first by []. have [Eq L] := IH ltac:(lia). cbn [aes_play play]. split; last by rewrite app_length L; cbn [length]; lia.
    rewrite -Eq. congr (_ ++ [_])%list. have Hi' : (length (aes_play E b key P i) < n)%coq_nat by rewrite L; lia.
    have H := proj1 HP _ Hi'. have H2 := fun a => HS _ a Hi'. move: H H2. case: (P _) => [nonce d msg|a] H H2.
    - move: H => [Hn [Hd [Hm _]]]. pose A : attacker := fun _ => P_GcmGame.mkq nonce d msg.
      have HA : admissible 1 A.
      { move=> tr Ht. split; first exact: Hn. split; first exact: Hd. split; first exact: Hm. split; first exact: Hm. split; first exact: erefl.
        move=> j Hj. lia. }
      have X := C99_aes_experiment E Nk HE b true A key 1 HA Lk Bk. cbn [aes_lr_run lr_run app] in X. injection X as X.
      cbn [aes_respond respond]. congr Answer. exact: X.
    - move: H => [Hn [Hd [Hc _]]]. cbn [aes_respond respond]. congr Verdict. apply: C99_aes_accepts => //. exact: H2. }
  by case: (G n (le_n n)).
Qed.
Print Assumptions C99_interactive_experiment.

(** The fraction of all keys for which the player wins; by the theorem above it is that of the game with the FIPS 197 cipher. *)
Definition aes_win (E : BlockCipher) (Nk : nat) (b : build) (P : player) (n : nat) : rat :=
  (#|[set k : (4 * Nk).-tuple 'I_256 | won (aes_play E b (key_bytes Nk k) P n)]|%:R / #|{: (4 * Nk).-tuple 'I_256}|%:R)%R.
Theorem C99_interactive_aes : forall E Nk,
  (E, Nk) = (Aes128, 4%nat) \/ (E, Nk) = (Aes192, 6%nat) \/ (E, Nk) = (Aes256, 8%nat) ->
  forall b P n m B s, player_ok b n m (Z.of_nat B) P -> short_attempts b n P ->
  (forall tr, length tr = n -> (blocks_asked P tr n <= s)%coq_nat) ->
  let r := (#|[set k : (4 * Nk).-tuple 'I_256 | won (play b (Cipher Nk (key_bytes Nk k)) P n)]|%:R / #|{: (4 * Nk).-tuple 'I_256}|%:R)%R in
  aes_win E Nk b P n = r /\
  (aes_win E Nk b P n <= `| r - pr_win b P n | + ((m * B)%N%:R + (s * (s - 1))%N%:R / 2%:R) / 2%:R ^+ 128)%R.
Proof.
  move=> E Nk HE b P n m B s HP HS Hs r. have Er : aes_win E Nk b P n = r.
  { rewrite /aes_win /r. set S := [set k | _]. set S' := [set k | _]. have -> : S = S'; last by [].
    apply/setP => k. rewrite !inE. have [Lk Bk] := key_bytes_ok Nk k. by rewrite (C99_interactive_experiment E Nk HE b P n m _ _ HP HS Lk Bk). }
  split; first exact: Er. rewrite Er. have H := C99_interactive b P n m B s HP Hs. clearbody r. clear Er.
  set w := ((_ + _) / _)%R in H *. clearbody w. set p := pr_win _ _ _ in H *. clearbody p.
  apply: le_trans (ler_add (lexx _) H). have {1}-> : r = ((r - p) + p)%R by rewrite subrK.
  apply: ler_add => //. exact: ler_norm.
Qed.
Print Assumptions C99_interactive_aes.

(** A player that encrypts and tries in turn, each time the last answer's tag under changed data: 20 moves, 31 blocks. *)
Definition ex_player : player := fun tr =>
  let nonce := be_encode 12 (Z.of_nat (Nat.div2 (length tr))) in
  if Nat.even (length tr) then Encrypt nonce [Zpos 1] [Zpos 2; Zpos 3]
  else match List.last tr (Verdict false) with
       | Answer (Ok (c, t)) => Decrypt {| a_nonce := nonce; a_data := [Zpos 9]; a_ct := [Zpos 7; Zpos 7]; a_tag := t |}
       | _ => Decrypt {| a_nonce := nonce; a_data := [Zpos 9]; a_ct := [Zpos 7; Zpos 7]; a_tag := nil |}
       end.
Lemma flen (f : nat -> bool) l : (length (List.filter f l) <= length l)%coq_nat.
Proof. elim: l => [|x l IH]; first exact: le_n. cbn [List.filter length]. case: (f x); cbn [length]; lia. Qed.
Lemma ex_player_ok b : player_ok b 20 20 (Z.of_nat 3) ex_player /\ short_attempts b 20 ex_player.
Proof.
  split; [split|].
  - move=> tr Ht. have Hn : gcm_nonce (be_encode 12 (Z.of_nat (Nat.div2 (length tr)))) by split; [exact: BaseFacts.be_encode_length|exact: BaseFacts.be_encode_bytes].
    have D t : ~ given ex_player tr {| a_nonce := be_encode 12 (Z.of_nat (Nat.div2 (length tr))); a_data := [Zpos 9]; a_ct := [Zpos 7; Zpos 7]; a_tag := t |}.
    { move=> [i [m [Hi [E _]]]]. move: E. cbn [a_nonce a_data]. rewrite /ex_player. case: ifP => _; first by move=> [] _ E.
      by case: (List.last _ _) => [[[c' t']|]|]. }
    rewrite {1}/ex_player. case: ifP => Ev.
    + split=> //. split; first by ok_bytes. split; first by ok_bytes. split; first by right; vm_compute. split; first by vm_compute.
      move=> i k d m Hi. rewrite /ex_player. rewrite firstn_length Nat.min_l; last lia. case: ifP => Ei; last by case: (List.last _ _) => [[[c' t']|]|].
      move=> [] <- _ _ E. apply (f_equal be_decode) in E. rewrite !BaseFacts.be_decode_encode in E.
      have Di : (Nat.div2 i < Nat.div2 (length tr))%coq_nat.
      { move: Ei Ev => /Nat.even_spec [u Eu] /Nat.even_spec [v Ev]. rewrite Eu Ev !Nat.div2_double. lia. }
      rewrite !Z.mod_small in E; [lia| |]; (split; [lia|]); apply: (Z.lt_trans _ (Zpos 64)); try (by vm_compute);
        have := Nat.div2_div (length tr); have := Nat.div2_div i; have := Nat.div_le_upper_bound (length tr) 2 (length tr); have := Nat.div_le_upper_bound i 2 i; lia.
    + case: (List.last _ _) => [[[c t]|]|o]; (split=> //; split; first by ok_bytes); (split; first by ok_bytes); (split; first by vm_compute); exact: D.
  - move=> tr _. apply: Nat.le_trans (flen _ _) _. rewrite seq_length. exact: le_n.
  - move=> tr a _. rewrite /ex_player. case: ifP => // _. case: (List.last _ _) => [[[c t]|]|o] [] <-; by right; vm_compute.
Qed.
Lemma ex_asked tr n : length tr = n -> (blocks_asked ex_player tr n <= Nat.add (S n) (Nat.div2 (S n)))%coq_nat.
Proof.
  move=> L. have G : forall k, (k <= n)%coq_nat -> (blocks_asked ex_player tr k <= Nat.add (S k) (Nat.div2 (S k)))%coq_nat.
  { elim=> [|k IH] Hk; first by []. cbn [blocks_asked]. have {}IH := IH ltac:(lia).
    have Lf : length (firstn k tr) = k by rewrite firstn_length L; lia.
    rewrite {2}/ex_player Lf. case: ifP => Ev.
    - move: Ev => /Nat.even_spec [u Eu]. subst k. rewrite Nat.div2_succ_double in IH.
      have -> : S (S (Nat.mul 2 u)) = Nat.mul 2 (S u) by lia. rewrite Nat.div2_double. cbn [length Nat.add Nat.div Nat.divmod fst]. lia.
    - have X : (Nat.div2 (S k) <= Nat.div2 (S (S k)))%coq_nat by rewrite !Nat.div2_div; apply: Nat.div_le_mono; lia.
      case: (List.last _ _) => [[[c t]|]|o]; lia. }
  exact: (G n (le_n n)).
Qed.
Example C99_interactive_ex b : (pr_win b ex_player 20 <= ((20 * 3)%N%:R + (31 * 30)%N%:R / 2%:R) / 2%:R ^+ 128)%R.
Proof. exact: (C99_interactive b ex_player 20 20 3 31 (proj1 (ex_player_ok b)) (fun tr H => ex_asked tr 20 H)). Qed.
