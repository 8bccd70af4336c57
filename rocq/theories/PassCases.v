(** Cases of the facts about members' accounts. *)
From Verif Require Import Base OMap OMapLemmas Assets PollModel PollSpec FundsModel FundsSpec MemberModel MemberSpec Msgs ControllerModel
  ControllerSpec TreasuryModel EnterpriseModel OutpostsModel WorldModel WorldSpec TreasuryExamples WorldExamples LedgerSpec LedgerExamples LedgerCases PassSpec.

Definition token_world := world_run chain dao_at (ledger_dao false) token_story.
Definition nft_world := world_run chain dao_at (ledger_dao true) nft_story.

(** 11 handed in 300, has 180 and waits for 120; 12 handed in 100, has 90 and was given back 10. *)
Lemma passbook_case :
  new_dao dao_at (ledger_dao false) /\ (exists s, fungible (w_member (ledger_dao false)) s) /\ fungible (w_member token_world) token_end /\
  map (fun u => (lsum (put_in dao_at u) (w_log token_world), weight_of (w_member token_world) u, waiting token_end u, lsum (given_back dao_at u) (w_log token_world))) [11; 12; 13]
    = [(300, 180, 120, 0); (100, 90, 0, 10); (0, 0, 0, 0)].
Proof.
  split; [exact (ledger_new false)|]. split; [eexists; left; vm_compute; reflexivity|]. split; [left; vm_compute; reflexivity|]. vm_compute. reflexivity.
Qed.

(** NFT 1 came from 11 and is theirs again; 3 is staked by 11; 12 waits for 5; 2 is back at 11. *)
Lemma nft_passbook_case :
  new_dao dao_at (ledger_dao true) /\ (exists s, w_member (ledger_dao true) = MNft s) /\ w_member nft_world = MNft nft_end /\
  map (fun p => let '(t, u) := p in (lsum (nft_in dao_at t u) (w_log nft_world), times_staked nft_end t u, times_claimed nft_end t u, lsum (nft_back dao_at t u) (w_log nft_world)))
      [(1, 11); (2, 11); (3, 11); (5, 12); (5, 11)]
    = [(1, 0, 0, 1); (1, 0, 0, 1); (1, 1, 0, 0); (1, 0, 1, 0); (0, 0, 0, 0)].
Proof.
  split; [exact (ledger_new true)|]. split; [eexists; vm_compute; reflexivity|]. split; [vm_compute; reflexivity|]. vm_compute. reflexivity.
Qed.

(** The payment to 12 follows their claim; so does the payment of rewards to 11. *)
Lemma sent_case :
  new_dao dao_at (ledger_dao false) /\
  exists l1 l2 l3,
    w_log token_world = l1 ++ (7, WasmExecute 90 (ToCw20 (Cw20Transfer 12 10)) []) :: (12, WasmExecute 7 (ToMembership (TokenMsg (TCommon (SClaim None)))) []) :: l2 /\
    w_log token_world = (6, BankSend 11 [(70, 22)]) :: (11, WasmExecute 6 (ToFunds (FClaim 11 [70] [])) []) :: l3.
Proof.
  split; [exact (ledger_new false)|]. exists (firstn 2 (w_log token_world)), (skipn 4 (w_log token_world)), (skipn 2 (w_log token_world)).
  split; vm_compute; reflexivity.
Qed.
