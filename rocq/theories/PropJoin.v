(** C96: anybody can join. *)
From Verif Require Import Base OMap OMapLemmas Assets PollModel PollSpec FundsModel FundsSpec MemberModel MemberSpec Msgs ControllerModel ControllerSpec
  TreasuryModel EnterpriseModel OutpostsModel WorldModel WorldSpec WorldExamples LedgerExamples RewardSpec ExitSpec JoinSpec JoinFacts JoinCases.

(** Whatever has happened to the DAO: who is not restricted can stake, and this changes nothing but their own weight. *)
Theorem C96_join : forall X (Out : outside X) A w0 ts w minimum initial s coins mm u n e gas,
  new_dao A w0 ->
  funds_instantiate (a_controller A) (a_enterprise A) minimum initial = Ok (w_funds w0) ->
  w = world_run Out A w0 ts -> timely 0 ts -> lasting w -> calm A w -> undisturbed A w -> free_calls Out -> rewards_fit w ->
  may_join Out A w s coins mm u n -> total_now (w_member w) + n + initial_weights w0 < 2 ^ 128 ->
  last_time ts <= e_time e -> is_dao A s = false -> (7 <= gas)%nat ->
  exists w', world_tx Out A w (mk_tx gas e s (WasmExecute (a_membership A) (ToMembership mm) coins)) = Ok w' /\ joined_dao s mm u n w w'.
Proof. exact join_goes. Qed.
Print Assumptions C96_join.

Example C96_join_nonvacuous : let w := world_run chain dao_at (ledger_dao false) token_story in let mm := TokenMsg (TReceive 30 (HStake 14)) in
  new_dao dao_at (ledger_dao false) /\ funds_instantiate 3 1 None [] = Ok (w_funds (ledger_dao false)) /\
  timely 0 token_story /\ lasting w /\ calm dao_at w /\ undisturbed dao_at w /\ free_calls chain /\ rewards_fit w /\
  may_join chain dao_at w 90 [] mm 14 30 /\ total_now (w_member w) = 270 /\ initial_weights (ledger_dao false) = 0 /\
  last_time token_story <= e_time (clock 2090) /\ is_dao dao_at 90 = false /\
  match world_tx chain dao_at w (mk_tx 7 (clock 2090) 90 (WasmExecute (a_membership dao_at) (ToMembership mm) [])) with
  | Ok w' => weight_of (w_member w') 14 = 30 /\ total_now (w_member w') = 300
  | Err _ => False
  end.
Proof. exact join_token_case. Qed.

(** And nobody can otherwise. *)
Theorem C96_join_needs : forall X (Out : outside X) A w0 ts w s coins mm e gas w',
  new_dao A w0 ->
  w = world_run Out A w0 ts -> timely 0 ts -> lasting w -> calm A w -> stakes_by mm = true -> s <> 0 ->
  world_tx Out A w (mk_tx gas e s (WasmExecute (a_membership A) (ToMembership mm) coins)) = Ok w' ->
  exists u n, may_join Out A w s coins mm u n.
Proof. exact join_needs. Qed.
Print Assumptions C96_join_needs.

Example C96_needs_nonvacuous : let w := world_run chain dao_at (ledger_dao true) nft_story in let mm := NftMsg (NReceive 77 (NStake 11)) in
  new_dao dao_at (ledger_dao true) /\ timely 0 nft_story /\ lasting w /\ calm dao_at w /\ stakes_by mm = true /\
  may_join chain dao_at w 91 [] mm 11 1 /\
  match world_tx chain dao_at w (mk_tx 7 (clock 2090) 91 (WasmExecute (a_membership dao_at) (ToMembership mm) [])) with
  | Ok w' => weight_of (w_member w') 11 = weight_of (w_member w) 11 + 1
  | Err _ => False
  end.
Proof. exact join_nft_case. Qed.
