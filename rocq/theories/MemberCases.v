(** Witnesses for the membership properties, by computation. *)
From Verif Require Import Base OMap Assets MemberModel MemberSpec MemberExamples.

Lemma tok_reachable : member_reachable tok_st.
Proof. exists (at_block 10), tok_init, tok0, tok_calls. split; reflexivity. Qed.
Lemma den_reachable : member_reachable den_st.
Proof. exists (at_block 10), den_init, den0, den_calls. split; reflexivity. Qed.
Lemma nft_reachable : member_reachable nft_st.
Proof. exists (at_block 10), nft_init, nft0, nft_calls. split; reflexivity. Qed.
Lemma mul_reachable : member_reachable mul_st.
Proof. exists (at_block 10), mul_init, mul0, mul_calls. split; reflexivity. Qed.

Lemma case_totals :
  member_reachable tok_st /\ member_reachable den_st /\ member_reachable nft_st /\ member_reachable mul_st /\
  map total_now [tok_st; den_st; nft_st; mul_st] = [140; 130; 1; 10] /\
  map (weight_of tok_st) [101; 102; 103] = [70; 50; 20].
Proof.
  split; [exact tok_reachable|]. split; [exact den_reachable|]. split; [exact nft_reachable|]. split; [exact mul_reachable|].
  split; vm_compute; reflexivity.
Qed.

Lemma case_history :
  member_instantiate (at_block 10) tok_init = Ok tok0 /\
  ordered_upto (e_height (at_block 10)) (checkpoints_by_height tok_init) /\
  ordered_upto (ts_seconds (e_time (at_block 10))) (checkpoints_by_seconds tok_init) /\
  rising call_height (e_height (at_block 10)) tok_calls /\
  rising call_second (ts_seconds (e_time (at_block 10))) tok_calls /\
  map (fun h => query_total_weight (members_of tok_st) (AtHeight h)) [5; 8; 9; 10; 11; 12; 13; 14; 15] = [0; 70; 90; 90; 0; 100; 180; 180; 140].
Proof.
  split; [reflexivity|]. split; [|split; [|split; [|split; [|vm_compute; reflexivity]]]].
  - cbn. repeat split; try (vm_compute; discriminate); intros b Hb; repeat destruct Hb as [<-|Hb]; try contradiction; vm_compute; discriminate.
  - cbn. repeat split; try (vm_compute; discriminate); intros b Hb; repeat destruct Hb as [<-|Hb]; try contradiction; vm_compute; discriminate.
  - cbn. repeat split; vm_compute; discriminate.
  - cbn. repeat split; vm_compute; discriminate.
Qed.

Lemma case_custody : exists s d,
  fungible (cu_state (custody_run tok0 tok_calls)) s /\ fungible (cu_state (custody_run den0 den_calls)) d /\
  cu_in (custody_run tok0 tok_calls) = 187 /\ cu_out (custody_run tok0 tok_calls) = 7 /\ all_stakes s = 140 /\ all_claims s = 40 /\
  cu_in (custody_run den0 den_calls) = 160 /\ all_stakes d = 130 /\ all_claims d = 30.
Proof.
  exists (match tok_st with MToken s => s | _ => mk_staking (members_of tok_st) (Native 0) (DTime 0) 0 oempty end).
  exists (match den_st with MDenom s => s | _ => mk_staking (members_of den_st) (Native 0) (DTime 0) 0 oempty end).
  split; [left; vm_compute; reflexivity|]. split; [right; vm_compute; reflexivity|].
  repeat split; vm_compute; reflexivity.
Qed.

Definition tok_claim : member_call := call 14500 101 [] (TokenMsg (TCommon (SClaim (Some 101)))).

Lemma case_claim : exists st' s,
  member_reachable tok_st /\ fungible tok_st s /\ stake_call tok_claim (SClaim (Some 101)) /\
  accepts tok_st tok_claim st' [OPay (Cw20 50) 101 40].
Proof.
  eexists. exists (match tok_st with MToken s => s | _ => mk_staking (members_of tok_st) (Native 0) (DTime 0) 0 oempty end).
  split; [exact tok_reachable|]. split; [left; vm_compute; reflexivity|]. split; [left; reflexivity|]. vm_compute. reflexivity.
Qed.

Definition nft_claim_call : member_call := call 30 102 [] (NftMsg (NClaim None)).

Lemma case_nft_claim : exists st',
  member_reachable nft_st /\ accepts nft_st nft_claim_call st' [OSendNft 60 102 3].
Proof. eexists. split; [exact nft_reachable|]. vm_compute. reflexivity. Qed.

Definition tok_unstake : member_call := call 20 102 [] (TokenMsg (TCommon (SUnstake 50))).

Lemma case_unstake : exists st' outs s,
  member_reachable tok_st /\ fungible tok_st s /\ stake_call tok_unstake (SUnstake 50) /\
  release_fits (mc_env tok_unstake) (st_period s) /\ accepts tok_st tok_unstake st' outs.
Proof.
  eexists. eexists. exists (match tok_st with MToken s => s | _ => mk_staking (members_of tok_st) (Native 0) (DTime 0) 0 oempty end).
  split; [exact tok_reachable|]. split; [left; vm_compute; reflexivity|]. split; [left; reflexivity|]. split; vm_compute; reflexivity.
Qed.

Lemma case_unstake_nfts : exists st' outs,
  member_reachable nft_st /\ accepts nft_st (call 30 102 [] (NftMsg (NUnstake [2]))) st' outs.
Proof. eexists. eexists. split; [exact nft_reachable|]. vm_compute. reflexivity. Qed.

(** An unlocking period of 585 years. *)
Definition wrap_init : member_init := IToken 2 50 (DTime 18446744074) [] [] [].
Definition wrap0 : member_state := get (member_instantiate (at_block 10) wrap_init).
Definition wrap_st : member_state := member_run wrap0 [call 11 50 [] (TokenMsg (TReceive 100 (HStake 101)))].
Definition wrap_unstake : member_call := call 12 101 [] (TokenMsg (TCommon (SUnstake 100))).
Definition wrap_claim : member_call := call 13 101 [] (TokenMsg (TCommon (SClaim None))).

Lemma release_wraps : exists st s c st1 outs1 c2 st2 seconds,
  member_reachable st /\ fungible st s /\ st_period s = DTime seconds /\
  stake_call c (SUnstake 100) /\ accepts st c st1 outs1 /\
  stake_call c2 (SClaim None) /\ accepts st1 c2 st2 [OPay (st_asset s) (mc_sender c) 100] /\
  e_time (mc_env c2) < e_time (mc_env c) + seconds * NANOS /\
  e_time (mc_env c2) = e_time (mc_env c) + 6 * NANOS.
Proof.
  exists wrap_st. exists (match wrap_st with MToken s => s | _ => mk_staking (members_of wrap_st) (Native 0) (DTime 0) 0 oempty end).
  exists wrap_unstake. exists (fst (member_step wrap_st wrap_unstake)), []. exists wrap_claim.
  exists (fst (member_step (fst (member_step wrap_st wrap_unstake)) wrap_claim)), 18446744074.
  split. { exists (at_block 10), wrap_init, wrap0, [call 11 50 [] (TokenMsg (TReceive 100 (HStake 101)))]. split; reflexivity. }
  split; [left; vm_compute; reflexivity|]. split; [vm_compute; reflexivity|]. split; [left; reflexivity|].
  split; [vm_compute; reflexivity|]. split; [left; reflexivity|]. split; [vm_compute; reflexivity|]. split; vm_compute; reflexivity.
Qed.

Fixpoint fresh_tokens (l : nft_ledger) (cs : list member_call) : bool :=
  match cs with
  | [] => true
  | c :: rest =>
      match mc_msg c with NftMsg (NReceive t _) => negb (ohas (le_held l) t) | _ => true end && fresh_tokens (ledger_step l c) rest
  end.
Lemma fresh_honest cs : forall l, fresh_tokens l cs = true -> honest l cs.
Proof.
  induction cs as [|c cs IH]; intros l H; cbn [honest]; [exact I|]. cbn [fresh_tokens] in H.
  apply andb_prop in H. destruct H as [H1 H2]. split; [|apply IH; exact H2].
  intros t h st' outs Hm _. rewrite Hm in H1. unfold ohas in H1. destruct (oget (le_held l) t); [discriminate|reflexivity].
Qed.

Lemma case_nft_ledger :
  member_instantiate (at_block 10) nft_init = Ok nft0 /\
  honest (mk_ledger nft0 oempty) (nft_calls ++ [nft_claim_call]) /\
  le_state (ledger_run nft0 nft_calls) = nft_st /\
  elems (le_held (ledger_run nft0 nft_calls)) = [(2, 102); (3, 102); (4, 103)].
Proof.
  split; [reflexivity|]. split; [apply fresh_honest; vm_compute; reflexivity|]. split; vm_compute; reflexivity.
Qed.

Lemma case_nft_count : member_reachable nft_st /\ weight_of nft_st 102 = 1.
Proof. split; [exact nft_reachable|vm_compute; reflexivity]. Qed.

Definition mul_update : member_call := call 20 3 [] (MultisigMsg (MUpdateMembers [(101, 0); (105, 9)])).

Lemma case_report : exists st' outs st2 outs2,
  member_reachable mul_st /\ accepts mul_st mul_update st' outs /\
  told 4 outs = [mk_change 101 4 0; mk_change 105 0 9] /\
  member_reachable tok_st /\
  accepts tok_st (call 20 50 [] (TokenMsg (TReceive 9 (HAddStakes [(101, 4); (101, 5)])))) st2 outs2 /\
  told 3 outs2 = [mk_change 101 70 74; mk_change 101 74 79].
Proof.
  eexists. eexists. eexists. eexists. split; [exact mul_reachable|]. split; [vm_compute; reflexivity|]. split; [vm_compute; reflexivity|].
  split; [exact tok_reachable|]. split; vm_compute; reflexivity.
Qed.

Definition mul_set : member_call := call 20 3 [] (MultisigMsg (MSetMembers [(101, 4)])).

Lemma removed_member_unreported : exists st c st' outs h u,
  member_reachable st /\ accepts st c st' outs /\ ohas (m_hooks (members_of st)) h = true /\
  weight_of st u = 6 /\ weight_of st' u = 0 /\ replay u (weight_of st u) (told h outs) = Some 6.
Proof.
  exists mul_st, mul_set. eexists. eexists. exists 3, 104. split; [exact mul_reachable|].
  split; [vm_compute; reflexivity|]. repeat split; vm_compute; reflexivity.
Qed.

Lemma case_set_members : exists st' outs,
  member_reachable mul_st /\ accepts mul_st mul_set st' outs /\ ohas (m_hooks (members_of mul_st)) 3 = true /\
  left_out mul_set 104 /\ weight_of mul_st 104 = 6 /\ ~ left_out mul_set 101 /\ told 3 outs = [mk_change 101 4 4].
Proof.
  eexists. eexists. split; [exact mul_reachable|]. split; [vm_compute; reflexivity|]. split; [vm_compute; reflexivity|].
  split; [exists [(101, 4)]; split; [reflexivity|cbn; intuition discriminate]|]. split; [vm_compute; reflexivity|].
  split; [intros (l & E & H); injection E as <-; apply H; left; reflexivity|vm_compute; reflexivity].
Qed.

Lemma case_settings : exists st' outs,
  accepts tok_st (call 20 3 [] (TokenMsg (TCommon (SUpdatePeriod (Some (DTime 5)))))) st' outs /\
  period_of tok_st = Some (DTime 86400) /\ period_of st' = Some (DTime 5).
Proof. eexists. eexists. split; [vm_compute; reflexivity|]. split; vm_compute; reflexivity. Qed.

Lemma case_stake : exists st' outs s,
  member_reachable den_st /\ fungible den_st s /\
  accepts den_st (call 20 101 [(7, 5)] (DenomMsg (DStake None))) st' outs /\ weight_of st' 101 = weight_of den_st 101 + 5.
Proof.
  eexists. eexists. exists (match den_st with MDenom s => s | _ => mk_staking (members_of den_st) (Native 0) (DTime 0) 0 oempty end).
  split; [exact den_reachable|]. split; [right; vm_compute; reflexivity|]. split; vm_compute; reflexivity.
Qed.

Lemma case_nft_stake : exists st' outs,
  member_reachable nft_st /\ accepts nft_st (call 30 60 [] (NftMsg (NReceive 8 (NStake 101)))) st' outs /\
  weight_of st' 101 = 1.
Proof. eexists. eexists. split; [exact nft_reachable|]. split; vm_compute; reflexivity. Qed.
