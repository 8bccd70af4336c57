(** People who join. *)
From Verif Require Import Base OMap OMapLemmas Assets PollModel PollSpec FundsModel FundsSpec MemberModel MemberSpec Msgs ControllerModel
  ControllerSpec TreasuryModel EnterpriseModel OutpostsModel FactoryModel FactorySpec FactoryExamples WorldModel WorldSpec TreasuryExamples WorldExamples WorldCases
  CreationModel CreationCases LedgerSpec LedgerExamples LedgerCases RewardSpec RewardCases ExitSpec ExitCases JoinSpec.

(** The token contract reports 30 more tokens, for 14, who has none; 270 are staked. *)
Lemma join_token_case : let w := world_run chain dao_at (ledger_dao false) token_story in let mm := TokenMsg (TReceive 30 (HStake 14)) in
  new_dao dao_at (ledger_dao false) /\ funds_instantiate 3 1 None [] = Ok (w_funds (ledger_dao false)) /\
  timely 0 token_story /\ lasting w /\ calm dao_at w /\ undisturbed dao_at w /\ free_calls chain /\ rewards_fit w /\
  may_join chain dao_at w 90 [] mm 14 30 /\ total_now (w_member w) = 270 /\ initial_weights (ledger_dao false) = 0 /\
  last_time token_story <= e_time (clock 2090) /\ is_dao dao_at 90 = false /\
  match world_tx chain dao_at w (mk_tx 7 (clock 2090) 90 (WasmExecute (a_membership dao_at) (ToMembership mm) [])) with
  | Ok w' => weight_of (w_member w') 14 = 30 /\ total_now (w_member w') = 300
  | Err _ => False
  end.
Proof.
  intros w mm. split; [exact (ledger_new false)|]. split; [vm_compute; reflexivity|].
  split; [apply timely_check; vm_compute; reflexivity|]. split; [split; vm_compute; reflexivity|]. split; [apply calm_check; vm_compute; reflexivity|].
  split; [apply undisturbed_check; vm_compute; reflexivity|]. split; [exact chain_free|]. split; [apply rewards_fit_check; vm_compute; reflexivity|].
  split.
  { destruct (chain_free (w_ext w) 90 (a_membership dao_at)) as (x & Hx). exists x. split; [exact Hx|].
    assert (M : w_member w = MToken token_end) by (vm_compute; reflexivity). split; [rewrite M; apply J_token; vm_compute; reflexivity|].
    split; [discriminate|]. split; [vm_compute; reflexivity|]. rewrite M. vm_compute. reflexivity. }
  split; [vm_compute; reflexivity|]. split; [vm_compute; reflexivity|]. split; [apply N.leb_le; vm_compute; reflexivity|]. split; [vm_compute; reflexivity|]. vm_compute. auto.
Qed.

(** The collection reports NFT 77, for 11. *)
Lemma join_nft_case : let w := world_run chain dao_at (ledger_dao true) nft_story in let mm := NftMsg (NReceive 77 (NStake 11)) in
  new_dao dao_at (ledger_dao true) /\ timely 0 nft_story /\ lasting w /\ calm dao_at w /\ stakes_by mm = true /\
  may_join chain dao_at w 91 [] mm 11 1 /\
  match world_tx chain dao_at w (mk_tx 7 (clock 2090) 91 (WasmExecute (a_membership dao_at) (ToMembership mm) [])) with
  | Ok w' => weight_of (w_member w') 11 = weight_of (w_member w) 11 + 1
  | Err _ => False
  end.
Proof.
  intros w mm. split; [exact (ledger_new true)|].
  split; [apply timely_check; vm_compute; reflexivity|]. split; [split; vm_compute; reflexivity|]. split; [apply calm_check; vm_compute; reflexivity|].
  split; [reflexivity|]. split.
  { destruct (chain_free (w_ext w) 91 (a_membership dao_at)) as (x & Hx). exists x. split; [exact Hx|].
    assert (M : w_member w = MNft nft_end) by (vm_compute; reflexivity). split; [rewrite M; apply J_nft; vm_compute; reflexivity|].
    split; [discriminate|]. split; [vm_compute; reflexivity|]. rewrite M. vm_compute. reflexivity. }
  vm_compute. reflexivity.
Qed.
