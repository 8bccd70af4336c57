(** Controller properties C27-C35, C39, C40, C58-C60, for one call of the controller at a time (and, where a
    history matters, for histories of calls and replies). The whole DAO is the subject of PropWorld. *)
From Verif Require Import Base OMap Assets PollModel PollSpec FundsModel MemberModel Msgs
  ControllerModel ControllerSpec ControllerProofs ControllerFacts ControllerExamples ControllerCases.

(** C27: an executed proposal cannot be executed again. *)
Theorem C27_executed_call_refused : forall o self s e sender coins id p b,
  oget (ct_proposals s) id = Some p -> pi_executed_at p = Some b ->
  is_ok (ctl_execute o self s e sender coins (CExecuteProposal id)) = false.
Proof. exact executed_not_again. Qed.
Print Assumptions C27_executed_call_refused.

(** ... and its record only changes in these ways: the executed marker, in the reply to ending its own poll, once that poll is ended; the execution delay, in the reply to a vote on it. *)
Theorem C27_record_step : forall self s c s' out id p,
  ctl_handle self s c = Ok (s', out) ->
  oget (ct_proposals s) id = Some p ->
  cc_event c <> ReplyCtl 1 (ROk (Some id)) ->
  exists p', oget (ct_proposals s') id = Some p' /\ content p' = content p /\
    (pi_executed_at p' = pi_executed_at p \/
     exists r pl, cc_event c = ReplyCtl 2 r /\ ct_executing s = Some id /\ pi_executed_at p' = Some (cc_env c) /\
       ctl_poll (cc_oracle c) id = Ok pl /\ forall t, p_status pl <> InProgress t) /\
    (pi_earliest p' = pi_earliest p \/
     exists r k, cc_event c = ReplyCtl 4 r /\ ct_voting s = Some (id, k) /\ pi_type p = General).
Proof. exact record_step. Qed.
Print Assumptions C27_record_step.

Theorem C27_executing_step : forall self s c s' out id,
  ctl_handle self s c = Ok (s', out) -> ct_executing s' = Some id ->
  ct_executing s = Some id \/
  exists sender coins p, cc_event c = CallCtl sender coins (CExecuteProposal id) /\
    oget (ct_proposals s) id = Some p /\ pi_executed_at p = None.
Proof. exact executing_step. Qed.
Print Assumptions C27_executing_step.

Example C27_nonvacuous :
  (exists p, proposal_of denom_voted 1 = Some p /\ pi_executed_at p = None) /\
  is_ok (feed den denom_voted (at_time 300) 12 [] (CExecuteProposal 1)) = true /\
  (exists p, proposal_of denom_done 1 = Some p /\ pi_executed_at p = Some (at_time 300)) /\
  why (feed den denom_done (at_time 2000) 12 [] (CExecuteProposal 1)) = Some EAlreadyExecuted.
Proof. exact case_once. Qed.

(** C28: the actions message is refused unless it comes from the controller itself, *)
Theorem C28_actions_self_only : forall o self s e sender coins id,
  sender <> self -> ctl_execute o self s e sender coins (CExecuteActions id) = Err EUnauthorized.
Proof. exact actions_self_only. Qed.
Print Assumptions C28_actions_self_only.

(** ... runs exactly the stored actions, in order, with their documented effects, *)
Theorem C28_stored_actions : forall o self s e coins id c t cur s' out,
  co_components o = Ok c -> co_dao_type o = Ok t -> co_dao_version o = Ok cur ->
  ctl_execute o self s e self coins (CExecuteActions id) = Ok (s', out) <->
  exists p, oget (ct_proposals s) id = Some p /\ effects c t cur s (pi_actions p) s' out.
Proof. exact actions_are_the_stored_ones. Qed.
Print Assumptions C28_stored_actions.

(** ... and is sent by the controller only when resolving a proposal whose poll is recorded as passed, or because an executed proposal lists that very message among its custom messages. *)
Theorem C28_actions_message_source : forall self s c s' out a id f r,
  ctl_handle self s c = Ok (s', out) ->
  In (mk_sub (WasmExecute a (ToController (CExecuteActions id)) f) r) out ->
  (exists r' pl o n, cc_event c = ReplyCtl 2 r' /\ ct_executing s = Some id /\
     ctl_poll (cc_oracle c) id = Ok pl /\ p_status pl = Passed o n /\ a = self /\ f = [] /\ r = ReplyAlways 3) \/
  (exists coins id' p msgs, cc_event c = CallCtl self coins (CExecuteActions id') /\
     oget (ct_proposals s) id' = Some p /\ In (PExecuteMsgs msgs) (pi_actions p) /\
     In (Some (WasmExecute a (ToController (CExecuteActions id)) f)) msgs /\ r = ReplyNever).
Proof. exact actions_message_source. Qed.
Print Assumptions C28_actions_message_source.

Example C28_nonvacuous :
  status_of denom_done 1 = Some (Passed 0 60) /\
  outputs (feed den denom_voted (at_time 300) 12 [] (CExecuteProposal 1)) =
    Some [mk_sub (WasmExecute CTL (ToController (CExecuteActions 1)) []) (ReplyAlways 3); mk_sub (BankSend 14 [(70, 25)]) ReplyNever] /\
  sent (exec_of denom_done den 300 CTL [] (CExecuteActions 1)) =
    Some [to_contract 6 (ToFunds (FUpdateMinimum 5)); to_contract 4 (ToTreasury (TrSpend 11 [(Native 70, 8)]));
          mk_sub (BankSend 12 [(70, 1)]) ReplyNever] /\
  exec_of denom_done den 300 12 [] (CExecuteActions 1) = Err EUnauthorized.
Proof. exact case_actions. Qed.

(** C29: resolving sends the deposit as documented (after the actions), *)
Theorem C29_resolution_messages : forall o self s e r s' out id p pl c,
  ctl_reply o self s e 2 r = Ok (s', out) ->
  ct_executing s = Some id -> oget (ct_proposals s) id = Some p ->
  co_components o = Ok c -> ctl_poll o id = Ok pl ->
  exists acts dep, out = acts ++ dep /\
    acts = match p_status pl with
           | Passed _ _ => [mk_sub (WasmExecute self (ToController (CExecuteActions id)) []) (ReplyAlways 3)]
           | _ => []
           end /\
    match pi_deposit p with
    | None => dep = []
    | Some d =>
        pi_type p = General ->
        exists to, deposit_goes (c_treasury c) (dp_depositor d) (p_status pl) to /\ hands_over to (dp_asset d) dep
    end /\
    oget (ct_proposals s') id = Some (mk_info (pi_type p) (Some e) (pi_earliest p) (pi_deposit p) (pi_actions p)).
Proof. exact resolution_messages. Qed.
Print Assumptions C29_resolution_messages.

(** ... and nothing else the controller does moves assets, but for the custom messages of executed proposals. *)
Theorem C29_no_other_payment : forall self s c s' out m r,
  ctl_handle self s c = Ok (s', out) -> In (mk_sub m r) out -> pays_out self m ->
  (exists r', cc_event c = ReplyCtl 2 r') \/
  (exists coins id p msgs, cc_event c = CallCtl self coins (CExecuteActions id) /\
     oget (ct_proposals s) id = Some p /\ In (PExecuteMsgs msgs) (pi_actions p) /\ In (Some m) msgs).
Proof. exact no_other_payment. Qed.
Print Assumptions C29_no_other_payment.

Example C29_nonvacuous :
  outputs (feed den denom_proposed (at_time 1100) 12 [] (CExecuteProposal 1)) = Some [mk_sub (BankSend 4 [(70, 25)]) ReplyNever] /\
  status_of denom_lost 1 = Some (Rejected QuorumNotReached) /\
  outputs (feed even denom_drawn (at_time 400) 12 [] (CExecuteProposal 1)) = Some [mk_sub (BankSend 14 [(70, 25)]) ReplyNever].
Proof. exact case_confiscated. Qed.

(** C30: the exact conditions for executing a proposal, *)
Theorem C30_execute_exact : forall o self s e sender coins id s' out c,
  co_components o = Ok c ->
  ctl_execute o self s e sender coins (CExecuteProposal id) = Ok (s', out) <->
  exists p pl total,
    co_restricted o sender = Ok false /\ oget (ct_proposals s) id = Some p /\ pi_executed_at p = None /\
    (forall t, pi_earliest p = Some t -> t <= e_time e) /\
    co_poll o (c_governance c) id = Ok pl /\
    total_for o c (pi_type p) (if p_ends_at pl <=? e_time e then AtTime (p_ends_at pl) else Never) = Ok total /\
    total <> 0 /\
    s' = with_executing s (Some id) /\
    out = [mk_sub (WasmExecute (c_governance c)
             (ToGovernance (GEndPoll id total false
                (match pi_type p with General => gc_allow_early (ct_config s) | Council => true end))) [])
             (ReplySuccess 2)].
Proof. exact execute_proposal_ok. Qed.
Print Assumptions C30_execute_exact.

(** ... and, with the governance contract behind it, never before its time. *)
Theorem C30_resolved_in_time : forall admin cs o self s e sender coins id s' out c a m f r g' d,
  history cs ->
  let g := gov_run (gov_init admin) cs in
  asks_governance o c g ->
  ctl_execute o self s e sender coins (CExecuteProposal id) = Ok (s', out) ->
  In (mk_sub (WasmExecute a (ToGovernance m) f) r) out ->
  gov_execute g e admin m = Ok (g', d) ->
  exists p pl, oget (ct_proposals s) id = Some p /\ query_poll g id = Ok pl /\
    (forall t, pi_earliest p = Some t -> t <= e_time e) /\
    (p_ends_at pl <= e_time e \/
     (e_time e < p_ends_at pl /\ (pi_type p = Council \/ gc_allow_early (ct_config s) = true) /\
      exists total, total_for o c (pi_type p) Never = Ok total /\
      (lsum v_amount (recorded_votes g id) < 2 ^ 128 -> lsum v_amount (recorded_votes g id) * DEC / total < 2 ^ 128 ->
       let yes := tally g id Yes in let no := tally g id No in
       let abstain := tally g id Abstain in let veto := tally g id Veto in
       reaches (yes + no + abstain + veto) total (p_quorum pl) /\
       (reaches veto (yes + no + veto) (dflt (p_threshold pl) (p_veto_threshold pl)) \/
        reaches yes (yes + no + veto) (p_threshold pl) \/ reaches no (yes + no + veto) (p_threshold pl))))).
Proof. exact resolved_in_time. Qed.
Print Assumptions C30_resolved_in_time.

Example C30_nonvacuous :
  why (feed den denom_voted (at_time 299) 12 [] (CExecuteProposal 1)) = Some ECannotExecuteYet /\
  is_ok (feed den denom_voted (at_time 300) 12 [] (CExecuteProposal 1)) = true /\
  why (feed den denom_proposed (at_time 1099) 12 [] (CExecuteProposal 1)) = Some EPollInProgress /\
  is_ok (feed den denom_proposed (at_time 1100) 12 [] (CExecuteProposal 1)) = true.
Proof. exact case_timing. Qed.

(** C31: creating a proposal with coins attached, *)
Theorem C31_create_with_coins : forall o self s e sender coins actions owner s' out c,
  co_components o = Ok c ->
  ctl_execute o self s e sender coins (CCreateProposal actions owner) = Ok (s', out) ->
  exists d,
    may_propose o c s sender (match d with Some d => deposit_amount d | None => 0 end) /\
    new_general o c s e actions d sender s' out /\
    match d with
    | None => True
    | Some d => exists denom amount, dp_asset d = DDenom denom amount /\ In (denom, amount) coins /\
        co_dao_type o = Ok DaoDenom /\ co_denom_config o (c_membership c) = Ok denom /\ dp_depositor d = dflt sender owner
    end.
Proof. exact create_with_coins. Qed.
Print Assumptions C31_create_with_coins.

(** ... with NFTs, *)
Theorem C31_create_with_nfts : forall o self s e sender coins actions owner tokens s' out c,
  co_components o = Ok c ->
  ctl_execute o self s e sender coins (CCreateProposalNft actions owner tokens) = Ok (s', out) ->
  exists nft out1,
    co_dao_type o = Ok DaoNft /\ co_nft_config o (c_membership c) = Ok nft /\
    may_propose o c s sender (N.of_nat (length tokens)) /\
    new_general o c s e actions (Some (mk_deposit (dflt sender owner) (DCw721 nft tokens))) sender s' out1 /\
    out = out1 ++ map (fun t => mk_sub (WasmExecute nft (ToCw721 (Cw721Transfer self t)) []) ReplyNever) tokens /\
    NoDup tokens /\
    forall t, In t tokens -> exists o1 approvals, co_nft_owner o nft t = Ok (o1, approvals) /\
                                                  (o1 = sender \/ In sender approvals).
Proof. exact create_with_nfts. Qed.
Print Assumptions C31_create_with_nfts.

(** ... with cw20 tokens, *)
Theorem C31_create_with_cw20 : forall o self s e sender coins from amount hook s' out c,
  co_components o = Ok c ->
  ctl_execute o self s e sender coins (CReceive from amount hook) = Ok (s', out) ->
  exists actions owner,
    hook = Some (actions, owner) /\ co_dao_type o = Ok DaoToken /\ co_token_config o (c_membership c) = Ok sender /\
    may_propose o c s from amount /\
    new_general o c s e actions (Some (mk_deposit (dflt from owner) (DCw20 sender amount))) from s' out.
Proof. exact create_with_cw20. Qed.
Print Assumptions C31_create_with_cw20.

(** ... and a council proposal. *)
Theorem C31_create_council : forall o self s e sender coins actions s' out c,
  co_components o = Ok c ->
  ctl_execute o self s e sender coins (CCreateCouncilProposal actions) = Ok (s', out) ->
  exists cc w ends_at,
    ct_council s = Some cc /\ co_restricted o sender = Ok false /\
    co_weight o (c_council c) sender = Ok w /\ w <> 0 /\
    (forall a, In a actions -> In (action_type_of a) (cc_allowed cc)) /\ (length actions <= 10)%nat /\
    e_time e + u64_mul (gc_vote_duration (ct_config s)) NANOS = ends_at /\
    s' = with_creating s (Some (mk_info Council None None None actions)) /\
    out = [mk_sub (WasmExecute (c_governance c)
             (ToGovernance (GCreatePoll (mk_create sender 0 ends_at (cc_quorum cc) (cc_threshold cc)
                (gc_veto_threshold (ct_config s))))) []) (ReplySuccess 1)].
Proof. exact council_create_requirements. Qed.
Print Assumptions C31_create_council.

(** The proposal is stored under the id the governance contract reports. *)
Theorem C31_creation_reply : forall o self s e pid s' out,
  ctl_reply o self s e 1 (ROk (Some pid)) = Ok (s', out) <->
  exists p, ct_creating s = Some p /\ out = [] /\
    s' = with_proposals (with_creating s None) (oset (ct_proposals s) pid p).
Proof. exact creation_reply. Qed.
Print Assumptions C31_creation_reply.

Example C31_nonvacuous :
  is_ok (feed den (start DaoDenom (Some 20)) (at_time 100) 11 [(70, 20)] (CCreateProposal ex_actions None)) = true /\
  why (feed den (start DaoDenom (Some 20)) (at_time 100) 11 [(70, 19)] (CCreateProposal ex_actions None)) = Some EInsufficientDeposit /\
  why (feed den (start DaoDenom (Some 20)) (at_time 100) 666 [(70, 20)] (CCreateProposal ex_actions None)) = Some ERestricted /\
  is_ok (feed den (start DaoDenom None) (at_time 100) 11 [] (CCreateProposal ex_actions None)) = true /\
  why (feed den (start DaoDenom None) (at_time 100) 99 [] (CCreateProposal ex_actions None)) = Some ENoVotingPower /\
  is_ok (feed nft (start DaoNft (Some 2)) (at_time 100) 11 [] (CCreateProposalNft ex_actions None [1; 2])) = true /\
  why (feed nft (start DaoNft (Some 2)) (at_time 100) 12 [] (CCreateProposalNft ex_actions None [1; 2])) = Some EUnauthorized /\
  is_ok (feed tok (start DaoToken (Some 20)) (at_time 100) 50 [] (CReceive 99 20 (Some (ex_actions, None)))) = true /\
  why (feed tok (start DaoToken (Some 20)) (at_time 100) 51 [] (CReceive 99 20 (Some (ex_actions, None)))) = Some EInvalidDepositType /\
  is_ok (feed den (start DaoDenom (Some 20)) (at_time 100) 21 [] (CCreateCouncilProposal [PUpgradeDao 101 []])) = true /\
  why (feed den (start DaoDenom (Some 20)) (at_time 100) 11 [] (CCreateCouncilProposal [PUpgradeDao 101 []])) = Some EUnauthorized /\
  why (feed den (start DaoDenom (Some 20)) (at_time 100) 21 [] (CCreateCouncilProposal [PUpdateMinimumWeight 1])) = Some EUnsupportedCouncilAction.
Proof. exact case_creation. Qed.

(** C32: votes. *)
Theorem C32_vote_exact : forall o self s e sender coins id out c s' msgs,
  co_components o = Ok c ->
  ctl_execute o self s e sender coins (CCastVote id out) = Ok (s', msgs) <->
  exists w p total st x,
    co_restricted o sender = Ok false /\ co_weight o (c_membership c) sender = Ok w /\ w <> 0 /\
    oget (ct_proposals s) id = Some p /\ pi_type p = General /\
    co_total o (c_membership c) Never = Ok total /\ co_simulate o (c_governance c) id total = Ok (st, x) /\
    s' = with_voting s (Some (id, exec_status_of st)) /\
    msgs = [mk_sub (WasmExecute (c_governance c) (ToGovernance (GCastVote id out sender w)) []) (ReplySuccess 4)].
Proof. exact vote_exact. Qed.
Print Assumptions C32_vote_exact.

Theorem C32_council_vote_exact : forall o self s e sender coins id out c s' msgs,
  co_components o = Ok c ->
  ctl_execute o self s e sender coins (CCastCouncilVote id out) = Ok (s', msgs) <->
  exists w p cc,
    co_restricted o sender = Ok false /\ ct_council s = Some cc /\ co_weight o (c_council c) sender = Ok w /\ w <> 0 /\
    oget (ct_proposals s) id = Some p /\ pi_type p = Council /\ s' = s /\
    msgs = [mk_sub (WasmExecute (c_governance c) (ToGovernance (GCastVote id out sender w)) []) ReplyNever].
Proof. exact council_vote_exact. Qed.
Print Assumptions C32_council_vote_exact.

Example C32_nonvacuous :
  sent (exec_of denom_proposed den 200 11 [] (CCastVote 1 Veto)) =
    Some [mk_sub (WasmExecute 2 (ToGovernance (GCastVote 1 Veto 11 60)) []) (ReplySuccess 4)] /\
  exec_of denom_proposed den 200 21 [] (CCastCouncilVote 1 Yes) = Err EWrongProposalType /\
  sent (exec_of council_voted den 200 23 [] (CCastCouncilVote 1 No)) =
    Some [mk_sub (WasmExecute 2 (ToGovernance (GCastVote 1 No 23 1)) []) ReplyNever] /\
  exec_of council_voted den 200 11 [] (CCastVote 1 Yes) = Err EWrongProposalType.
Proof. exact case_votes. Qed.

(** C33: the configuration is sane after every history, for a DAO that keeps its type. *)
Theorem C33_config_always_sane : forall self e en t g council infos tr s cs,
  ctl_instantiate e en t g council infos tr = Ok s ->
  (forall c t', In c cs -> co_dao_type (cc_oracle c) = Ok t' -> t' = t) ->
  sane_config t (ct_config (ctl_run self s cs)) /\
  (forall cc, ct_council (ctl_run self s cs) = Some cc -> sane_council cc).
Proof. exact config_always_sane. Qed.
Print Assumptions C33_config_always_sane.

Theorem C33_insane_update_rejected : forall o s u t,
  co_dao_type o = Ok t -> ~ sane_config t (apply_config (ct_config s) u) ->
  is_ok (run_action o s (PUpdateGovConfig u)) = false /\
  is_ok (validate_action o s t (PUpdateGovConfig u)) = false.
Proof. exact insane_update_rejected. Qed.
Print Assumptions C33_insane_update_rejected.

Example C33_nonvacuous :
  is_ok (ctl_instantiate (at_time 50) 1 DaoDenom (ex_gov_config (Some 20)) (Some ex_council) [] (Some [ex_deploy])) = true /\
  is_ok (run_action (ex_oracle den (gov_of denom_done)) (fst denom_done) (PUpdateGovConfig longer_votes)) = true /\
  co_dao_type (ex_oracle den (gov_of denom_done)) = Ok DaoDenom /\
  ~ sane_config DaoDenom (apply_config (ct_config (fst denom_done)) bad_config).
Proof. exact case_config. Qed.

(** C34: an unlocking period is compared when it is changed (in seconds), *)
Theorem C34_unlocking_checked : forall o s u d t c s' out,
  co_dao_type o = Ok t -> co_components o = Ok c ->
  run_action o s (PUpdateGovConfig u) = Ok (s', out) -> gu_unlocking_period u = Change d ->
  forall secs, d = DTime secs -> gc_vote_duration (ct_config s') <= secs.
Proof. exact unlocking_checked. Qed.
Print Assumptions C34_unlocking_checked.

(** ... but not when the vote duration is changed, *)
Theorem C34_vote_outlasts_unlocking_refuted :
  exists o c s s' secs id p,
    co_components o = Ok c /\ co_dao_type o = Ok DaoDenom /\
    validate_unlocking (ct_config s) (DTime secs) = Ok tt /\
    oget (ct_proposals s) id = Some p /\ pi_actions p = [PUpdateGovConfig longer_votes] /\
    ctl_execute o CTL s (at_time 300) CTL [] (CExecuteActions id) = Ok (s', []) /\
    secs < gc_vote_duration (ct_config s').
Proof. exact vote_outlasts_unlocking. Qed.
Print Assumptions C34_vote_outlasts_unlocking_refuted.

(** ... and a period in blocks is never compared. *)
Theorem C34_block_period_refuted : forall g n,
  validate_unlocking g (DHeight n) = Ok tt.
Proof. exact block_period_unchecked. Qed.
Print Assumptions C34_block_period_refuted.

Example C34_nonvacuous :
  sent (run_action (ex_oracle den (gov_of denom_done)) (fst denom_done) (PUpdateGovConfig unlock_later)) =
    Some [to_contract 7 (ToMembership (DenomMsg (DCommon (SUpdatePeriod (Some (DTime 1000))))))] /\
  run_action (ex_oracle den (gov_of denom_done)) (fst denom_done) (PUpdateGovConfig unlock_soon) = Err EVoteDurationLongerThanUnstaking.
Proof. exact case_unlocking. Qed.

(** C35: after every history, the council can only ever have the five harmless powers, *)
Theorem C35_council_powers_bounded : forall self e en t g council tr s cs,
  ctl_instantiate e en t g council [] tr = Ok s ->
  (forall cc ty, ct_council (ctl_run self s cs) = Some cc -> In ty (cc_allowed cc) -> council_power ty) /\
  (forall id p a, oget (ct_proposals (ctl_run self s cs)) id = Some p -> pi_type p = Council ->
     In a (pi_actions p) -> council_power (action_type_of a)).
Proof. exact council_powers_bounded. Qed.
Print Assumptions C35_council_powers_bounded.

(** ... with which it changes no configuration and sends only these messages. *)
Theorem C35_council_effects : forall o self s e coins id c t cur s' out p,
  co_components o = Ok c -> co_dao_type o = Ok t -> co_dao_version o = Ok cur ->
  oget (ct_proposals s) id = Some p -> pi_type p = Council ->
  Forall (fun a => council_power (action_type_of a)) (pi_actions p) ->
  ctl_execute o self s e self coins (CExecuteActions id) = Ok (s', out) ->
  s' = s /\ Forall (council_message c s) out.
Proof. exact council_effects_stored. Qed.
Print Assumptions C35_council_effects.

Example C35_nonvacuous :
  (exists p, proposal_of council_done 1 = Some p /\ pi_type p = Council /\ pi_actions p = [PUpgradeDao 101 []]) /\
  status_of council_done 1 = Some (Passed 0 2) /\
  sent (exec_of council_done den 300 CTL [] (CExecuteActions 1)) =
    Some [to_contract 1 (ToEnterprise (EnUpgradeDao 101 []))].
Proof. exact case_council. Qed.

(** C39: past its end a proposal can be resolved by anyone unrestricted if there was any weight at the end, *)
Theorem C39_contracts_resolve : forall admin cs o c s self e id p pl sender coins total,
  let g := gov_run (gov_init admin) cs in
  asks_governance o c g ->
  oget (ct_proposals s) id = Some p -> pi_executed_at p = None ->
  (forall t, pi_earliest p = Some t -> t <= p_ends_at pl) ->
  query_poll g id = Ok pl -> p_ends_at pl <= e_time e ->
  co_restricted o sender = Ok false ->
  total_for o c (pi_type p) (AtTime (p_ends_at pl)) = Ok total -> total <> 0 ->
  exists s' early g',
    ctl_execute o self s e sender coins (CExecuteProposal id) =
      Ok (s', [mk_sub (WasmExecute (c_governance c) (ToGovernance (GEndPoll id total false early)) []) (ReplySuccess 2)]) /\
    gov_execute g e admin (GEndPoll id total false early) = Ok (g', None) /\
    forall o', asks_governance o' c g' ->
      exists s'' out, ctl_reply o' self s' e 2 (ROk None) = Ok (s'', out).
Proof. exact resolvable_after_end. Qed.
Print Assumptions C39_contracts_resolve.

(** ... and by nobody, ever, if there was none, *)
Theorem C39_unresolvable : forall o c s self e id p pl sender coins,
  co_components o = Ok c -> oget (ct_proposals s) id = Some p ->
  co_poll o (c_governance c) id = Ok pl -> p_ends_at pl <= e_time e ->
  total_for o c (pi_type p) (AtTime (p_ends_at pl)) = Ok 0 ->
  is_ok (ctl_execute o self s e sender coins (CExecuteProposal id)) = false.
Proof. exact unresolvable_without_weight. Qed.
Print Assumptions C39_unresolvable.

(** ... which happens, with a deposit. *)
Theorem C39_stuck_deposit_refuted :
  exists b k, shows b k 1100 1 = Some PSRejected /\
    (exists p d, proposal_of b 1 = Some p /\ pi_deposit p = Some d) /\
    forall t sender coins, 1100 <= t -> is_ok (exec_of b k t sender coins (CExecuteProposal 1)) = false.
Proof. exact rejected_but_stuck. Qed.
Print Assumptions C39_stuck_deposit_refuted.

(** C40: past the end, the status shown is the verdict that executing records, *)
Theorem C40_status_recorded : forall admin cs o c s self e id p pl st x sender coins s' out a m f r g' d,
  history cs ->
  let g := gov_run (gov_init admin) cs in
  asks_governance o c g ->
  oget (ct_proposals s) id = Some p -> pi_executed_at p = None ->
  query_poll g id = Ok pl -> p_status pl = InProgress (p_ends_at pl) -> p_ends_at pl <= e_time e ->
  query_proposal_status o s (e_time e) id = Ok (st, x) ->
  ctl_execute o self s e sender coins (CExecuteProposal id) = Ok (s', out) ->
  In (mk_sub (WasmExecute a (ToGovernance m) f) r) out ->
  gov_execute g e admin m = Ok (g', d) ->
  exists pl', query_poll g' id = Ok pl' /\
    match p_status pl' with Passed _ _ => st = PSPassed | Rejected _ => st = PSRejected | InProgress _ => False end.
Proof. exact status_shown_is_recorded. Qed.
Print Assumptions C40_status_recorded.

(** ... a proposal shown as passed can be executed and passes, *)
Theorem C40_passed_executes : forall admin cs o c s self e id p pl x sender coins,
  history cs ->
  let g := gov_run (gov_init admin) cs in
  asks_governance o c g ->
  oget (ct_proposals s) id = Some p -> query_poll g id = Ok pl -> p_status pl = InProgress (p_ends_at pl) ->
  (forall t, pi_earliest p = Some t -> t <= p_ends_at pl) ->
  co_restricted o sender = Ok false -> proper_share (p_quorum pl) ->
  query_proposal_status o s (e_time e) id = Ok (PSPassed, x) ->
  exists s' total early g' pl' y n,
    ctl_execute o self s e sender coins (CExecuteProposal id) =
      Ok (s', [mk_sub (WasmExecute (c_governance c) (ToGovernance (GEndPoll id total false early)) []) (ReplySuccess 2)]) /\
    gov_execute g e admin (GEndPoll id total false early) = Ok (g', None) /\
    query_poll g' id = Ok pl' /\ p_status pl' = Passed y n.
Proof. exact shown_passed_executes. Qed.
Print Assumptions C40_passed_executes.

(** ... one shown as executable early can be executed now, *)
Theorem C40_early_executes : forall admin cs o c s self e id p pl x sender coins,
  history cs ->
  let g := gov_run (gov_init admin) cs in
  asks_governance o c g ->
  oget (ct_proposals s) id = Some p -> query_poll g id = Ok pl ->
  co_restricted o sender = Ok false -> proper_share (p_quorum pl) ->
  query_proposal_status o s (e_time e) id = Ok (PSCanExecuteEarly, x) ->
  exists s' total early g' pl',
    ctl_execute o self s e sender coins (CExecuteProposal id) =
      Ok (s', [mk_sub (WasmExecute (c_governance c) (ToGovernance (GEndPoll id total false early)) []) (ReplySuccess 2)]) /\
    gov_execute g e admin (GEndPoll id total false early) = Ok (g', None) /\
    query_poll g' id = Ok pl' /\
    ((exists y n, p_status pl' = Passed y n) \/ p_status pl' = Rejected IsRejectingOutcome \/ p_status pl' = Rejected IsVetoOutcome).
Proof. exact can_execute_early_executes. Qed.
Print Assumptions C40_early_executes.

(** ... and one shown as executed has been. *)
Theorem C40_executed_status : forall o s now id st x,
  query_proposal_status o s now id = Ok (st, x) ->
  (st = PSExecuted <-> exists p b, oget (ct_proposals s) id = Some p /\ pi_executed_at p = Some b).
Proof. exact executed_status. Qed.
Print Assumptions C40_executed_status.

Example C40_nonvacuous :
  shows denom_voted den 250 1 = Some PSInProgress /\
  shows denom_voted den 300 1 = Some PSCanExecuteEarly /\
  shows denom_voted den 1100 1 = Some PSPassed /\
  shows denom_proposed den 1100 1 = Some PSRejected /\
  shows denom_done den 300 1 = Some PSExecuted /\
  history (snd denom_voted) /\ history (snd denom_proposed) /\
  (exists pl, query_poll (gov_of denom_voted) 1 = Ok pl /\ p_status pl = InProgress (p_ends_at pl) /\ proper_share (p_quorum pl)).
Proof. exact case_status. Qed.

(** But "in progress" is also shown for an even split that can be executed now. *)
Theorem C40_draw_refuted :
  exists b k t out,
    shows b k t 1 = Some PSInProgress /\ outputs (feed k b (at_time t) 12 [] (CExecuteProposal 1)) = Some out /\
    (exists b', (exists o, feed k b (at_time t) 12 [] (CExecuteProposal 1) = Ok (b', o)) /\
                status_of b' 1 = Some (Rejected (OutcomeDraw 0 1 50))).
Proof. exact draw_shown_in_progress. Qed.
Print Assumptions C40_draw_refuted.

(** C58: each kind of action has exactly its documented effect, or fails. *)
Theorem C58_action_effect : forall o c t cur s a s' out,
  co_components o = Ok c -> co_dao_type o = Ok t -> co_dao_version o = Ok cur ->
  run_action o s a = Ok (s', out) <-> effect c t cur s a s' out.
Proof. exact run_action_effect. Qed.
Print Assumptions C58_action_effect.

Example C58_nonvacuous :
  status_of denom_done 1 = Some (Passed 0 60) /\
  outputs (feed den denom_voted (at_time 300) 12 [] (CExecuteProposal 1)) =
    Some [mk_sub (WasmExecute CTL (ToController (CExecuteActions 1)) []) (ReplyAlways 3); mk_sub (BankSend 14 [(70, 25)]) ReplyNever] /\
  sent (exec_of denom_done den 300 CTL [] (CExecuteActions 1)) =
    Some [to_contract 6 (ToFunds (FUpdateMinimum 5)); to_contract 4 (ToTreasury (TrSpend 11 [(Native 70, 8)]));
          mk_sub (BankSend 12 [(70, 1)]) ReplyNever] /\
  exec_of denom_done den 300 12 [] (CExecuteActions 1) = Err EUnauthorized.
Proof. exact case_actions. Qed.

(** C59: weight reports. *)
Theorem C59_weights_forwarded : forall o self s e sender coins changes s' out c,
  co_components o = Ok c ->
  ctl_execute o self s e sender coins (CWeightsChanged changes) = Ok (s', out) <->
  s' = s /\
  ((sender = c_council c /\ out = []) \/
   (sender <> c_council c /\ sender = c_membership c /\
    out = map (fun ch => mk_sub (WasmExecute (c_governance c) (ToGovernance (GUpdateVotes (wc_user ch) (wc_new ch))) []) ReplyNever) changes
          ++ [mk_sub (WasmExecute (c_funds c) (ToFunds (FUpdateUserWeights (map (fun ch => (wc_user ch, wc_new ch)) changes))) []) ReplyNever])).
Proof. exact weights_forwarded. Qed.
Print Assumptions C59_weights_forwarded.

Example C59_nonvacuous :
  sent (exec_of denom_voted den 210 7 [] (CWeightsChanged [mk_change 11 60 10; mk_change 12 40 90])) =
    Some [to_contract 2 (ToGovernance (GUpdateVotes 11 10)); to_contract 2 (ToGovernance (GUpdateVotes 12 90));
          to_contract 6 (ToFunds (FUpdateUserWeights [(11, 10); (12, 90)]))] /\
  sent (exec_of denom_voted den 210 8 [] (CWeightsChanged [mk_change 21 1 0])) = Some [] /\
  exec_of denom_voted den 210 11 [] (CWeightsChanged [mk_change 11 60 1000]) = Err EUnauthorized.
Proof. exact case_weights. Qed.

(** C60: initial cross-chain treasuries. *)
Theorem C60_initial_deployment : forall o self s e sender coins s' out c,
  co_components o = Ok c ->
  ctl_execute o self s e sender coins CDeployInitial = Ok (s', out) ->
  ct_creation s = e_time e /\ co_creator o = Ok sender /\
  s' = with_treasuries s None /\
  out = map (fun d => mk_sub (WasmExecute (c_outposts c) (ToOutposts (OpDeploy d)) []) ReplyNever) (dflt [] (ct_treasuries s)).
Proof. exact initial_deployment. Qed.
Print Assumptions C60_initial_deployment.

(** ... and what has been deployed is gone from the list for good. *)
Theorem C60_never_again : forall self s c s' out,
  ctl_handle self s c = Ok (s', out) ->
  (ct_treasuries s' = ct_treasuries s \/
   (ct_treasuries s' = None /\ exists sender coins, cc_event c = CallCtl sender coins CDeployInitial)) /\
  ct_creation s' = ct_creation s.
Proof. exact treasuries_step. Qed.
Print Assumptions C60_never_again.

Example C60_nonvacuous :
  sent (exec_of (start DaoDenom None) den 50 9 [] CDeployInitial) = Some [to_contract 5 (ToOutposts (OpDeploy ex_deploy))] /\
  sent (exec_of (feeds den (start DaoDenom None) [(50, 9, [], CDeployInitial)]) den 50 9 [] CDeployInitial) = Some [] /\
  exec_of (start DaoDenom None) den 51 9 [] CDeployInitial = Err EUnauthorized /\
  exec_of (start DaoDenom None) den 50 11 [] CDeployInitial = Err EUnauthorized.
Proof. exact case_deploy. Qed.

(** C52: what a vote does to the execution delay, exactly. *)
Theorem C52_vote_delay_exact : forall o self s e r s' out id old p c total st ends_at t,
  ct_voting s = Some (id, old) -> oget (ct_proposals s) id = Some p -> pi_type p = General ->
  co_components o = Ok c -> co_dao_type o = Ok t ->
  co_total o (c_membership c) Never = Ok total -> co_simulate o (c_governance c) id total = Ok (st, ends_at) ->
  ctl_reply o self s e 4 r = Ok (s', out) <->
  out = [] /\
  ((s' = with_voting s None /\ (gc_allow_early (ct_config s) = false \/ t = DaoMultisig \/ exec_status_of st = old)) \/
   (gc_allow_early (ct_config s) = true /\ t <> DaoMultisig /\ exec_status_of st <> old /\
    exists later, ts_plus_seconds (e_time e) (gc_vote_duration (ct_config s) / 10) = Ok later /\
      s' = with_proposals (with_voting s None) (oset (ct_proposals s) id
             (mk_info General (pi_executed_at p) (Some (N.min later ends_at)) (pi_deposit p) (pi_actions p))))).
Proof. exact vote_delay_exact. Qed.
Print Assumptions C52_vote_delay_exact.

Example C52_nonvacuous :
  option_map pi_earliest (proposal_of denom_proposed 1) = Some None /\
  option_map pi_earliest (proposal_of denom_voted 1) = Some (Some (300 * NANOS)) /\
  option_map pi_earliest (proposal_of (feeds den denom_voted [(250, 12, [], CCastVote 1 Abstain)]) 1) = Some (Some (300 * NANOS)).
Proof. exact case_delay. Qed.

(** C61: an action is accepted exactly if it is well-formed, *)
Theorem C61_actions_valid : forall o s t cur l,
  co_dao_version o = Ok cur ->
  validate_actions o s t l = Ok tt <-> (length l <= 10)%nat /\ Forall (well_formed t cur (ct_config s)) l.
Proof. exact actions_valid. Qed.
Print Assumptions C61_actions_valid.

(** ... and only accepted actions are put up for a new proposal, which starts unexecuted and without a delay. *)
Theorem C61_proposed_actions_valid : forall o self s e sender coins m s' out p t cur,
  co_dao_type o = Ok t -> co_dao_version o = Ok cur ->
  ctl_execute o self s e sender coins m = Ok (s', out) -> ct_creating s' = Some p -> ct_creating s <> Some p ->
  pi_executed_at p = None /\ pi_earliest p = None /\
  (length (pi_actions p) <= 10)%nat /\ Forall (well_formed t cur (ct_config s)) (pi_actions p).
Proof. exact proposed_actions_valid. Qed.
Print Assumptions C61_proposed_actions_valid.

Example C61_nonvacuous :
  Forall (well_formed DaoDenom 100 (ex_gov_config (Some 20))) ex_actions /\
  ~ well_formed DaoDenom 100 (ex_gov_config (Some 20)) (PExecuteMsgs [Some (BankSend 12 [(70, 1)]); None]) /\
  why (feed den (start DaoDenom (Some 20)) (at_time 100) 11 [(70, 25)]
         (CCreateProposal [PExecuteMsgs [Some (BankSend 12 [(70, 1)]); None]] None)) = Some EInvalidArgument.
Proof. exact case_well_formed. Qed.

(** C62: the proposal listing. *)
Theorem C62_listing_exact : forall o c s now filt start_after limit vs pls,
  co_components o = Ok c ->
  co_polls o (c_governance c) filt start_after (N.min (dflt 50 limit) 100) = Ok pls ->
  (forall pl, In pl pls -> to_view o s now pl = Err ENoSuchProposal -> oget (ct_proposals s) (p_id pl) = None) ->
  query_proposals o s now filt start_after limit = Ok vs ->
  Forall2 (view_of o c s now) (filter (fun pl => is_some (oget (ct_proposals s) (p_id pl))) pls) vs.
Proof. exact listing_exact. Qed.
Print Assumptions C62_listing_exact.

Example C62_nonvacuous :
  match query_proposals (ex_oracle den (gov_of denom_voted)) (fst denom_voted) (e_time (at_time 300)) None None None with
  | Ok [v] => (vw_id v, vw_status v, vw_total v) = (1, PSCanExecuteEarly, 100)
  | _ => False
  end.
Proof. exact case_listing. Qed.
