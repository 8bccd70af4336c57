(** Witnesses: the hypotheses of the controller theorems are met by concrete cases, and the refutations. *)
From Verif Require Import Base OMap OMapLemmas Assets PollModel PollSpec FundsModel MemberModel Msgs
  ControllerModel ControllerSpec ControllerExamples.

Definition outputs (r : res (both * list sub_msg)) : option (list sub_msg) :=
  match r with Ok (_, out) => Some out | Err _ => None end.
Definition why (r : res (both * list sub_msg)) : option err :=
  match r with Ok _ => None | Err e => Some e end.
Definition sent (r : res (ctl * list sub_msg)) : option (list sub_msg) :=
  match r with Ok (_, out) => Some out | Err _ => None end.
Definition exec_of (b : both) (k : scene) (t : N) (sender : addr) (coins : list coin) (m : controller_msg) :=
  ctl_execute (ex_oracle k (gov_of b)) CTL (fst b) (at_time t) sender coins m.

(** C27 *)
Lemma case_once :
  (exists p, proposal_of denom_voted 1 = Some p /\ pi_executed_at p = None) /\
  is_ok (feed den denom_voted (at_time 300) 12 [] (CExecuteProposal 1)) = true /\
  (exists p, proposal_of denom_done 1 = Some p /\ pi_executed_at p = Some (at_time 300)) /\
  why (feed den denom_done (at_time 2000) 12 [] (CExecuteProposal 1)) = Some EAlreadyExecuted.
Proof.
  repeat split; try (eexists; split; vm_compute; reflexivity); vm_compute; reflexivity.
Qed.

(** C28: passed, so the actions are dispatched; run by the controller they do what is documented *)
Lemma case_actions :
  status_of denom_done 1 = Some (Passed 0 60) /\
  outputs (feed den denom_voted (at_time 300) 12 [] (CExecuteProposal 1)) =
    Some [mk_sub (WasmExecute CTL (ToController (CExecuteActions 1)) []) (ReplyAlways 3); mk_sub (BankSend 14 [(70, 25)]) ReplyNever] /\
  sent (exec_of denom_done den 300 CTL [] (CExecuteActions 1)) =
    Some [to_contract 6 (ToFunds (FUpdateMinimum 5)); to_contract 4 (ToTreasury (TrSpend 11 [(Native 70, 8)]));
          mk_sub (BankSend 12 [(70, 1)]) ReplyNever] /\
  exec_of denom_done den 300 12 [] (CExecuteActions 1) = Err EUnauthorized.
Proof. repeat split; vm_compute; reflexivity. Qed.

(** C29: quorum not reached - the deposit goes to the treasury *)
Lemma case_confiscated :
  outputs (feed den denom_proposed (at_time 1100) 12 [] (CExecuteProposal 1)) = Some [mk_sub (BankSend 4 [(70, 25)]) ReplyNever] /\
  status_of denom_lost 1 = Some (Rejected QuorumNotReached) /\
  outputs (feed even denom_drawn (at_time 400) 12 [] (CExecuteProposal 1)) = Some [mk_sub (BankSend 14 [(70, 25)]) ReplyNever].
Proof. repeat split; vm_compute; reflexivity. Qed.

(** C30: early, but not before the delay; before the end and undecided: not at all *)
Lemma case_timing :
  why (feed den denom_voted (at_time 299) 12 [] (CExecuteProposal 1)) = Some ECannotExecuteYet /\
  is_ok (feed den denom_voted (at_time 300) 12 [] (CExecuteProposal 1)) = true /\
  why (feed den denom_proposed (at_time 1099) 12 [] (CExecuteProposal 1)) = Some EPollInProgress /\
  is_ok (feed den denom_proposed (at_time 1100) 12 [] (CExecuteProposal 1)) = true.
Proof. repeat split; vm_compute; reflexivity. Qed.

(** C31: all four ways to create a proposal, and their rejections *)
Lemma case_creation :
  is_ok (feed den (start DaoDenom (Some 20)) (at_time 100) 11 [(70, 20)] (CCreateProposal ex_actions None)) = true /\
  why (feed den (start DaoDenom (Some 20)) (at_time 100) 11 [(70, 19)] (CCreateProposal ex_actions None)) = Some EInsufficientDeposit /\
  why (feed den (start DaoDenom (Some 20)) (at_time 100) 666 [(70, 20)] (CCreateProposal ex_actions None)) = Some ERestricted /\
  is_ok (feed den (start DaoDenom None) (at_time 100) 11 [] (CCreateProposal ex_actions None)) = true /\
  why (feed den (start DaoDenom None) (at_time 100) 99 [] (CCreateProposal ex_actions None)) = Some ENoVotingPower /\
  is_ok (feed nft (start DaoNft (Some 2)) (at_time 100) 11 [] (CCreateProposalNft ex_actions None [1; 2])) = true /\
  why (feed nft (start DaoNft (Some 2)) (at_time 100) 12 [] (CCreateProposalNft ex_actions None [1; 2])) = Some EUnauthorized /\
  is_ok (feed tok (start DaoToken (Some 20)) (at_time 100) 50 [] (CReceive 99 20 (Some (ex_actions, None)))) = true /\
  why (feed tok (start DaoToken (Some 20)) (at_time 100) 51 [] (CReceive 99 20 (Some (ex_actions, None)))) = Some EInvalidDepositType /\
  is_ok (feed den (start DaoDenom (Some 20)) (at_time 100) 21 [] (CCreateCouncilProposal [PUpgradeDao 101 []])) = true /\
  why (feed den (start DaoDenom (Some 20)) (at_time 100) 11 [] (CCreateCouncilProposal [PUpgradeDao 101 []])) = Some EUnauthorized /\
  why (feed den (start DaoDenom (Some 20)) (at_time 100) 21 [] (CCreateCouncilProposal [PUpdateMinimumWeight 1])) = Some EUnsupportedCouncilAction.
Proof. repeat split; vm_compute; reflexivity. Qed.

(** C32 *)
Lemma case_votes :
  sent (exec_of denom_proposed den 200 11 [] (CCastVote 1 Veto)) =
    Some [mk_sub (WasmExecute 2 (ToGovernance (GCastVote 1 Veto 11 60)) []) (ReplySuccess 4)] /\
  exec_of denom_proposed den 200 21 [] (CCastCouncilVote 1 Yes) = Err EWrongProposalType /\
  sent (exec_of council_voted den 200 23 [] (CCastCouncilVote 1 No)) =
    Some [mk_sub (WasmExecute 2 (ToGovernance (GCastVote 1 No 23 1)) []) ReplyNever] /\
  exec_of council_voted den 200 11 [] (CCastVote 1 Yes) = Err EWrongProposalType.
Proof. repeat split; vm_compute; reflexivity. Qed.

(** C33 *)
Definition bad_config : gov_config_update := mk_gov_config_update (Change (DEC + 1)) NoChange NoChange NoChange NoChange NoChange NoChange.
Lemma case_config :
  is_ok (ctl_instantiate (at_time 50) 1 DaoDenom (ex_gov_config (Some 20)) (Some ex_council) [] (Some [ex_deploy])) = true /\
  is_ok (run_action (ex_oracle den (gov_of denom_done)) (fst denom_done) (PUpdateGovConfig longer_votes)) = true /\
  co_dao_type (ex_oracle den (gov_of denom_done)) = Ok DaoDenom /\
  ~ sane_config DaoDenom (apply_config (ct_config (fst denom_done)) bad_config).
Proof.
  do 3 (split; [vm_compute; reflexivity|]).
  intros (_ & [_ H] & _). revert H. change (gc_quorum (apply_config (ct_config (fst denom_done)) bad_config)) with (DEC + 1). lia.
Qed.

(** C34: votes made five times longer than the unlocking period that was accepted with the old duration; the
    membership contract is not even told. *)
Lemma vote_outlasts_unlocking :
  exists o c s s' secs id p,
    co_components o = Ok c /\ co_dao_type o = Ok DaoDenom /\
    validate_unlocking (ct_config s) (DTime secs) = Ok tt /\
    oget (ct_proposals s) id = Some p /\ pi_actions p = [PUpdateGovConfig longer_votes] /\
    ctl_execute o CTL s (at_time 300) CTL [] (CExecuteActions id) = Ok (s', []) /\
    secs < gc_vote_duration (ct_config s').
Proof.
  pose (b := feeds den (start DaoDenom None) [(100, 11, [], CCreateProposal [PUpdateGovConfig longer_votes] None)]).
  exists (ex_oracle den (gov_of b)), ex_comp, (fst b).
  eexists. exists 1000, 1. eexists.
  split; [reflexivity|]. split; [reflexivity|]. split; [vm_compute; reflexivity|].
  split; [vm_compute; reflexivity|]. split; [reflexivity|]. split; [vm_compute; reflexivity|]. vm_compute. reflexivity.
Qed.

(** a period counted in blocks is compared with nothing *)
Lemma block_period_unchecked g n : validate_unlocking g (DHeight n) = Ok tt.
Proof. reflexivity. Qed.

Definition unlock_later : gov_config_update :=
  mk_gov_config_update NoChange NoChange NoChange NoChange (Change (DTime 1000)) NoChange NoChange.
Definition unlock_soon : gov_config_update :=
  mk_gov_config_update NoChange NoChange NoChange NoChange (Change (DTime 999)) NoChange NoChange.
Lemma case_unlocking :
  sent (run_action (ex_oracle den (gov_of denom_done)) (fst denom_done) (PUpdateGovConfig unlock_later)) =
    Some [to_contract 7 (ToMembership (DenomMsg (DCommon (SUpdatePeriod (Some (DTime 1000))))))] /\
  run_action (ex_oracle den (gov_of denom_done)) (fst denom_done) (PUpdateGovConfig unlock_soon) = Err EVoteDurationLongerThanUnstaking.
Proof. repeat split; vm_compute; reflexivity. Qed.

(** C35 *)
Lemma case_council :
  (exists p, proposal_of council_done 1 = Some p /\ pi_type p = Council /\ pi_actions p = [PUpgradeDao 101 []]) /\
  status_of council_done 1 = Some (Passed 0 2) /\
  sent (exec_of council_done den 300 CTL [] (CExecuteActions 1)) =
    Some [to_contract 1 (ToEnterprise (EnUpgradeDao 101 []))].
Proof.
  split; [eexists; split; [vm_compute; reflexivity|]; split; reflexivity|].
  split; vm_compute; reflexivity.
Qed.

(** C40 *)
Definition shows (b : both) (k : scene) (t id : N) : option proposal_status :=
  match query_proposal_status (ex_oracle k (gov_of b)) (fst b) (e_time (at_time t)) id with
  | Ok (st, _) => Some st
  | Err _ => None
  end.
Lemma case_status :
  shows denom_voted den 250 1 = Some PSInProgress /\
  shows denom_voted den 300 1 = Some PSCanExecuteEarly /\
  shows denom_voted den 1100 1 = Some PSPassed /\
  shows denom_proposed den 1100 1 = Some PSRejected /\
  shows denom_done den 300 1 = Some PSExecuted /\
  history (snd denom_voted) /\ history (snd denom_proposed) /\
  (exists pl, query_poll (gov_of denom_voted) 1 = Ok pl /\ p_status pl = InProgress (p_ends_at pl) /\ proper_share (p_quorum pl)).
Proof.
  do 5 (split; [vm_compute; reflexivity|]).
  assert (HB : forall l, forallb (fun c => match gc_msg c with GCastVote _ _ _ a => a <? M128 | GUpdateVotes _ a => a <? M128
      | GEndPoll _ a _ _ => a <? M128 | GCreatePoll c => cp_deposit c <? M128 end) l && (N.of_nat (length l) <? M64) = true -> history l).
  { intros l H. apply andb_true_iff in H. destruct H as [H1 H2]. split; [|apply N.ltb_lt; assumption].
    apply Forall_forall. intros x Hx. rewrite forallb_forall in H1. specialize (H1 x Hx).
    destruct (gc_msg x); cbn; apply N.ltb_lt; assumption. }
  split; [apply HB; vm_compute; reflexivity|]. split; [apply HB; vm_compute; reflexivity|].
  eexists. split; [vm_compute; reflexivity|]. split; [reflexivity|]. split; vm_compute; [reflexivity|discriminate].
Qed.

(** An even split shows as in progress although executing it is accepted and settles it. *)
Lemma draw_shown_in_progress :
  exists b k t out,
    shows b k t 1 = Some PSInProgress /\ outputs (feed k b (at_time t) 12 [] (CExecuteProposal 1)) = Some out /\
    (exists b', (exists o, feed k b (at_time t) 12 [] (CExecuteProposal 1) = Ok (b', o)) /\
                status_of b' 1 = Some (Rejected (OutcomeDraw 0 1 50))).
Proof.
  exists denom_drawn, even, 400. eexists. split; [vm_compute; reflexivity|]. split; [vm_compute; reflexivity|].
  destruct (feed even denom_drawn (at_time 400) 12 [] (CExecuteProposal 1)) as [[b' o]|] eqn:E; [|exfalso; vm_compute in E; discriminate].
  exists b'. split; [eauto|]. 
  assert (H : match feed even denom_drawn (at_time 400) 12 [] (CExecuteProposal 1) with Ok (b, _) => status_of b 1 | Err _ => None end
              = Some (Rejected (OutcomeDraw 0 1 50))) by (vm_compute; reflexivity).
  rewrite E in H. exact H.
Qed.

(** When nobody had weight at the end, the proposal shows as rejected but can never be executed. *)
Lemma rejected_but_stuck :
  exists b k, shows b k 1100 1 = Some PSRejected /\
    (exists p d, proposal_of b 1 = Some p /\ pi_deposit p = Some d) /\
    forall t sender coins, 1100 <= t -> is_ok (exec_of b k t sender coins (CExecuteProposal 1)) = false.
Proof.
  exists denom_proposed, deserted. split; [vm_compute; reflexivity|]. split.
  { do 2 eexists. split; vm_compute; reflexivity. }
  intros t sender coins HT. unfold exec_of. cbn [ctl_execute]. unfold execute_proposal, unrestricted.
  change (co_restricted (ex_oracle deserted (gov_of denom_proposed)) sender) with (Ok (sender =? 666)).
  cbn [bind]. destruct (sender =? 666); cbn [negb guard bind]; [reflexivity|].
  destruct (oget (ct_proposals (fst denom_proposed)) 1) as [p|] eqn:E; cbn [ok_or bind]; [|reflexivity].
  destruct (is_some (pi_executed_at p)); cbn [negb guard bind]; [reflexivity|].
  assert (HP : pi_earliest p = None).
  { assert (H : option_map pi_earliest (oget (ct_proposals (fst denom_proposed)) 1) = Some None) by (vm_compute; reflexivity).
    rewrite E in H. cbn in H. congruence. }
  rewrite HP. cbn [bind]. unfold end_proposal.
  destruct (ctl_poll (ex_oracle deserted (gov_of denom_proposed)) 1); cbn [bind]; [|reflexivity].
  assert (HT0 : forall x, total_available (ex_oracle deserted (gov_of denom_proposed)) x (pi_type p) = Ok 0).
  { intros x. assert (H : option_map pi_type (oget (ct_proposals (fst denom_proposed)) 1) = Some General) by (vm_compute; reflexivity).
    rewrite E in H. injection H as ->. reflexivity. }
  rewrite HT0. reflexivity.
Qed.

(** C59, C60 *)
Lemma case_weights :
  sent (exec_of denom_voted den 210 7 [] (CWeightsChanged [mk_change 11 60 10; mk_change 12 40 90])) =
    Some [to_contract 2 (ToGovernance (GUpdateVotes 11 10)); to_contract 2 (ToGovernance (GUpdateVotes 12 90));
          to_contract 6 (ToFunds (FUpdateUserWeights [(11, 10); (12, 90)]))] /\
  sent (exec_of denom_voted den 210 8 [] (CWeightsChanged [mk_change 21 1 0])) = Some [] /\
  exec_of denom_voted den 210 11 [] (CWeightsChanged [mk_change 11 60 1000]) = Err EUnauthorized.
Proof. repeat split; vm_compute; reflexivity. Qed.

Lemma case_deploy :
  sent (exec_of (start DaoDenom None) den 50 9 [] CDeployInitial) = Some [to_contract 5 (ToOutposts (OpDeploy ex_deploy))] /\
  sent (exec_of (feeds den (start DaoDenom None) [(50, 9, [], CDeployInitial)]) den 50 9 [] CDeployInitial) = Some [] /\
  exec_of (start DaoDenom None) den 51 9 [] CDeployInitial = Err EUnauthorized /\
  exec_of (start DaoDenom None) den 50 11 [] CDeployInitial = Err EUnauthorized.
Proof. repeat split; vm_compute; reflexivity. Qed.

(** C52 *)
Lemma case_delay :
  option_map pi_earliest (proposal_of denom_proposed 1) = Some None /\
  option_map pi_earliest (proposal_of denom_voted 1) = Some (Some (300 * NANOS)) /\
  option_map pi_earliest (proposal_of (feeds den denom_voted [(250, 12, [], CCastVote 1 Abstain)]) 1) = Some (Some (300 * NANOS)).
Proof. repeat split; vm_compute; reflexivity. Qed.

(** C61: the example actions are well-formed; a message that does not parse is not *)
Lemma case_well_formed :
  Forall (well_formed DaoDenom 100 (ex_gov_config (Some 20))) ex_actions /\
  ~ well_formed DaoDenom 100 (ex_gov_config (Some 20)) (PExecuteMsgs [Some (BankSend 12 [(70, 1)]); None]) /\
  why (feed den (start DaoDenom (Some 20)) (at_time 100) 11 [(70, 25)]
         (CCreateProposal [PExecuteMsgs [Some (BankSend 12 [(70, 1)]); None]] None)) = Some EInvalidArgument.
Proof.
  split; [|split].
  - repeat constructor.
    + eapply (wf_config _ _ _ longer_votes (mk_gov_config (hundredths 30) (hundredths 50) None 5000 (Some 20) true)); try reflexivity.
      unfold sane_config, proper_share. cbn [gc_vote_duration gc_quorum gc_threshold gc_veto_threshold gc_minimum_deposit].
      split; [lia|]. split; [split; [reflexivity|vm_compute; discriminate]|]. split; [split; [reflexivity|vm_compute; discriminate]|].
      split; [discriminate|discriminate].
    + discriminate.
    + destruct H as [H|[]]. injection H as <- <-. exact I.
    + destruct H as [H|[]]. injection H as <- <-. discriminate.
    + apply (wf_msgs DaoDenom 100 (ex_gov_config (Some 20)) [BankSend 12 [(70, 1)]]).
  - intros H. inversion H as [| | | |l E| | | | | | | | | | | |]. destruct l as [|a [|b l]]; discriminate.
  - vm_compute. reflexivity.
Qed.

(** C62: poll 1 belongs to a proposal and is shown *)
Lemma case_listing :
  match query_proposals (ex_oracle den (gov_of denom_voted)) (fst denom_voted) (e_time (at_time 300)) None None None with
  | Ok [v] => (vw_id v, vw_status v, vw_total v) = (1, PSCanExecuteEarly, 100)
  | _ => False
  end.
Proof. vm_compute. reflexivity. Qed.
