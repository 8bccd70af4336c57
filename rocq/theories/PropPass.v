(** C91: members' accounts balance. *)
From Verif Require Import Base OMap OMapLemmas Assets PollModel PollSpec FundsModel MemberModel MemberSpec Msgs ControllerModel ControllerSpec
  TreasuryModel EnterpriseModel OutpostsModel WorldModel WorldSpec WorldExamples LedgerExamples LedgerCases PassSpec PassFacts PassCases.

(** What was handed in for somebody is what they have staked, are waiting for and were given back, in every history. *)
Theorem C91_passbook : forall (X : Type) (Out : outside X) A w0 ts w s0,
  new_dao A w0 -> w = world_run Out A w0 ts -> fungible (w_member w0) s0 ->
  exists s, fungible (w_member w) s /\
    forall u, lsum (put_in A u) (w_log w) = weight_of (w_member w) u + waiting s u + lsum (given_back A u) (w_log w).
Proof. exact passbook. Qed.
Print Assumptions C91_passbook.

Example C91_passbook_nonvacuous :
  new_dao dao_at (ledger_dao false) /\ (exists s, fungible (w_member (ledger_dao false)) s) /\ fungible (w_member token_world) token_end /\
  map (fun u => (lsum (put_in dao_at u) (w_log token_world), weight_of (w_member token_world) u, waiting token_end u, lsum (given_back dao_at u) (w_log token_world))) [11; 12; 13]
    = [(300, 180, 120, 0); (100, 90, 0, 10); (0, 0, 0, 0)].
Proof. exact passbook_case. Qed.

(** The same for every single NFT. *)
Theorem C91_nft_passbook : forall (X : Type) (Out : outside X) A w0 ts w s0,
  new_dao A w0 -> w = world_run Out A w0 ts -> w_member w0 = MNft s0 ->
  exists s, w_member w = MNft s /\
    forall t u, lsum (nft_in A t u) (w_log w) = times_staked s t u + times_claimed s t u + lsum (nft_back A t u) (w_log w).
Proof. exact nft_passbook. Qed.
Print Assumptions C91_nft_passbook.

Example C91_nft_passbook_nonvacuous :
  new_dao dao_at (ledger_dao true) /\ (exists s, w_member (ledger_dao true) = MNft s) /\ w_member nft_world = MNft nft_end /\
  map (fun p => let '(t, u) := p in (lsum (nft_in dao_at t u) (w_log nft_world), times_staked nft_end t u, times_claimed nft_end t u, lsum (nft_back dao_at t u) (w_log nft_world)))
      [(1, 11); (2, 11); (3, 11); (5, 12); (5, 11)]
    = [(1, 0, 0, 1); (1, 0, 0, 1); (1, 1, 0, 0); (1, 0, 1, 0); (0, 0, 0, 0)].
Proof. exact nft_passbook_case. Qed.
