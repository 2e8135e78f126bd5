(** C95: the interactive game against ChaCha20-Poly1305. *)
From Coq Require Import ZArith List Lia.
From Verif Require Import Base M_ChaCha20 M_Poly1305 S_ChaCha T_Ccp T_Forge T_CcpPrivacy S_GcmPrp S_CcpAuth S_CcpForge S_CcpAdv S_CcpGame S_CcpWin.
From Verif Require P_CcpAuth P_CcpWin T_CcpForge T_CcpAdv BaseFacts.
From mathcomp Require Import all_ssreflect all_fingroup all_algebra.
Import ListNotations.
Import Order.TTheory GRing.Theory Num.Theory.

(** ** C95: a player asks for encryptions, never twice under one nonce, and tries to forge, in any order and depending on all answers
    before.  Under uniformly random blocks one of its at most [m] attempts is accepted with a probability of at most m B 8712 / 2^106. *)
Theorem C95_interactive : forall P n m B, player_ok n m (Z.of_nat B) P ->
  (pr_win P n <= (m * B)%N%:R * 33%:R ^+ 2 / 2%:R ^+ 103)%R.
Proof. move=> P n m B HP. apply: T_CcpForge.bound_rat. exact: (P_CcpWin.win_bound HP). Qed.
Print Assumptions C95_interactive.

(** The same game against [ChaCha20Poly1305] with a key. *)
Definition ccp_respond (b : build) (key : list Z) (mv : move) : event :=
  match mv with
  | Encrypt nonce data msg => let '(c, t) := ccp_answer b key nonce data msg in Answer c t
  | Decrypt a => Verdict (ccp_accepts b key a)
  end.
Fixpoint ccp_play (b : build) (key : list Z) (P : player) (n : nat) : list event :=
  match n with
  | O => nil
  | S n => app (ccp_play b key P n) [ccp_respond b key (P (ccp_play b key P n))]
  end.
Definition short_attempts (n : nat) (P : player) : Prop :=
  forall tr a, (length tr < n)%coq_nat -> P tr = Decrypt a -> Z.le (len (a_ct a)) checked_limit.
(** It is the game with the key's ChaCha20 blocks. *)
Theorem C95_interactive_experiment : forall b P n m B key, player_ok n m B P -> short_attempts n P -> chacha_key key ->
  ccp_play b key P n = play (fun c nonce => chacha20_block key c nonce) P n.
Proof.
  move=> b P n m B key HP HS Hk.
  have G : forall i, (i <= n)%coq_nat -> ccp_play b key P i = play (fun c nonce => chacha20_block key c nonce) P i /\ length (ccp_play b key P i) = i.
  { elim=> [|i IH] Hi; first by []. have [E L] := IH ltac:(lia). cbn [ccp_play play]. split; last by rewrite app_length L; cbn [length]; lia.
    rewrite -E. congr (_ ++ [_])%list. have Hi' : (length (ccp_play b key P i) < n)%coq_nat by rewrite L; lia.
    have H := proj1 HP _ Hi'. have H2 := fun a => HS _ a Hi'. move: H H2. case: (P _) => [nonce d msg|a] H H2.
    - move: H => [Hn [Hd [Hm [Hl _]]]]. cbn [ccp_respond respond]. rewrite /ccp_answer (encrypt_seal _ Hk) //. exact: List.map_length.
    - move: H => [Hn [Hd [Hc _]]]. cbn [ccp_respond respond]. rewrite /ccp_accepts.
      have [|r ->] := P_CcpAuth.decrypt_accepted _ Hk b a (List.map (fun=> Z0) (a_ct a)) Hn Hd Hc (List.map_length _ _); first by right; apply: H2.
      by []. }
  by case: (G n (le_n n)).
Qed.
Print Assumptions C95_interactive_experiment.

(** The fraction of all keys for which the player wins; by the theorem above it is that of the game with ChaCha20's blocks. *)
Definition ccp_win (b : build) (P : player) (n : nat) : rat := (#|[set k : ckey | won (ccp_play b (ckey_bytes k) P n)]|%:R / #|ckey|%:R)%R.
Theorem C95_interactive_chacha : forall b P n m B, player_ok n m (Z.of_nat B) P -> short_attempts n P ->
  let r := (#|[set k : ckey | won (play (fun c nonce => chacha20_block (ckey_bytes k) c nonce) P n)]|%:R / #|ckey|%:R)%R in
  ccp_win b P n = r /\ (ccp_win b P n <= `| r - pr_win P n | + (m * B)%N%:R * 33%:R ^+ 2 / 2%:R ^+ 103)%R.
Proof.
  move=> b P n m B HP HS r. have E : ccp_win b P n = r.
  { rewrite /ccp_win /r. set S := [set k | _]. set S' := [set k | _]. have -> : S = S'; last by [].
    apply/setP => k. rewrite !inE. by rewrite (C95_interactive_experiment b P n m _ _ HP HS (T_CcpAdv.ckey_ok k)). }
  split; first exact: E. rewrite E. have H := C95_interactive P n m B HP. clearbody r. clear E.
  set w := ((m * B)%N%:R * _ / _)%R in H *. clearbody w. set p := pr_win _ _ in H *. clearbody p.
  apply: le_trans (ler_add (lexx _) H). have {1}-> : r = ((r - p) + p)%R by rewrite subrK.
  apply: ler_add => //. exact: ler_norm.
Qed.
Print Assumptions C95_interactive_chacha.

(** A player that encrypts and tries in turn, each time the last answer's tag under changed data. *)
Definition ex_player : player := fun tr =>
  let nonce := be_encode 12 (Z.of_nat (Nat.div2 (length tr))) in
  if Nat.even (length tr) then Encrypt nonce [Zpos 1] [Zpos 2; Zpos 3]
  else match List.last tr (Verdict false) with
       | Answer c t => Decrypt {| a_nonce := nonce; a_data := [Zpos 9]; a_ct := [Zpos 7; Zpos 7]; a_tag := t |}
       | Verdict _ => Decrypt {| a_nonce := nonce; a_data := [Zpos 9]; a_ct := [Zpos 7; Zpos 7]; a_tag := nil |}
       end.
Lemma flen (f : nat -> bool) l : (length (List.filter f l) <= length l)%coq_nat.
Proof. elim: l => [|x l IH]; first exact: le_n. cbn [List.filter length]. case: (f x); cbn [length]; lia. Qed.
Lemma ex_player_ok : player_ok 20 20 (Z.of_nat 3) ex_player /\ short_attempts 20 ex_player.
Proof.
  split; [split|].
  - move=> tr Ht. have Hn : chacha_nonce (be_encode 12 (Z.of_nat (Nat.div2 (length tr)))) by split; [exact: BaseFacts.be_encode_length|exact: BaseFacts.be_encode_bytes].
    have D t : ~ given ex_player tr {| a_nonce := be_encode 12 (Z.of_nat (Nat.div2 (length tr))); a_data := [Zpos 9]; a_ct := [Zpos 7; Zpos 7]; a_tag := t |}.
    { move=> [i [m [Hi [E _]]]]. move: E. cbn [a_nonce a_data]. rewrite /ex_player. case: ifP => _; first by move=> [] _ E.
      case: (List.last _ _) => //. }
    rewrite {1}/ex_player. case: ifP => Ev.
    + split=> //. split; first by ok_bytes. split; first by ok_bytes. split; first by vm_compute. split; first by vm_compute.
      move=> i k d m Hi. rewrite /ex_player. rewrite firstn_length Nat.min_l; last lia. case: ifP => Ei; last by case: (List.last _ _).
      move=> [] <- _ _ E. apply (f_equal be_decode) in E. rewrite !BaseFacts.be_decode_encode in E.
      have Di : (Nat.div2 i < Nat.div2 (length tr))%coq_nat.
      { move: Ei Ev => /Nat.even_spec [u Eu] /Nat.even_spec [v Ev]. rewrite Eu Ev !Nat.div2_double. lia. }
      rewrite !Z.mod_small in E; [lia| |]; (split; [lia|]); apply: (Z.lt_trans _ (Zpos 64)); try (by vm_compute);
        have := Nat.div2_div (length tr); have := Nat.div2_div i; have := Nat.div_le_upper_bound (length tr) 2 (length tr); have := Nat.div_le_upper_bound i 2 i; lia.
    + case: (List.last _ _) => [c t|o]; (split=> //; split; first by ok_bytes); (split; first by ok_bytes); (split; first by vm_compute); exact: D.
  - move=> tr _. apply: Nat.le_trans (flen _ _) _. rewrite seq_length. exact: le_n.
  - move=> tr a _. rewrite /ex_player. case: ifP => // _. case: (List.last _ _) => [c t|o] [] <-; by vm_compute.
Qed.
Example C95_interactive_ex : (pr_win ex_player 20 <= (20 * 3)%N%:R * 33%:R ^+ 2 / 2%:R ^+ 103)%R.
Proof. exact: (C95_interactive ex_player 20 20 3 (proj1 ex_player_ok)). Qed.
