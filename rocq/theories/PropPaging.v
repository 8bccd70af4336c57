(** Listings that are read page by page are complete (C78). *)
From Verif Require Import Base OMap OMapLemmas Assets PollModel PollSpec FundsModel MemberModel MemberSpec Msgs ControllerModel
  ControllerSpec TreasuryModel EnterpriseModel FactoryModel OutpostsModel WorldModel WorldSpec WorldExamples LedgerSpec LedgerExamples FacadeModel
  FacadeSpec PagingSpec PagingPolls PagingFacts PagingCases.

(** C78: the listings of the membership contracts, of the outposts contract and of the factory; *)
Theorem C78_members_read : forall m limit,
  limit <> Some 0 -> oget (m_weights m) 0 = None ->
  reads fst (fun s => query_members m s limit) (elems (m_weights m)).
Proof. exact members_read. Qed.
Print Assumptions C78_members_read.

Theorem C78_staked_read : forall s limit,
  limit <> Some 0 -> reads (fun t => t) (fun p => Ok (query_staked_nfts s p limit)) (okeys (ns_stakes s)).
Proof. exact staked_read. Qed.
Print Assumptions C78_staked_read.

Theorem C78_user_nfts_read : forall s u limit,
  limit <> Some 0 -> u <> 0 ->
  reads (fun t => t) (fun p => query_user_nfts s u p limit) (map fst (filter (fun ts => snd ts =? u) (elems (ns_stakes s)))).
Proof. exact user_nfts_read. Qed.
Print Assumptions C78_user_nfts_read.

Theorem C78_treasuries_read : forall s limit,
  limit <> Some 0 -> reads fst (fun p => Ok (query_treasuries s p limit)) (elems (op_treasuries s)).
Proof. exact treasuries_read. Qed.
Print Assumptions C78_treasuries_read.

Theorem C78_daos_read : forall s limit,
  limit <> Some 0 -> reads fst (fun p => Ok (query_all_daos s p limit)) (elems (fa_daos s)).
Proof. exact daos_read. Qed.
Print Assumptions C78_daos_read.

(** ... the listings the facade gives for a DAO; *)
Theorem C78_votes_read : forall X (Out : outside X) A w0 ts w e id limit,
  new_dao A w0 -> w = world_run Out A w0 ts -> lasting w -> limit <> Some 0 ->
  reads v_voter (fun s => in_answer votes_in (v2_query Out A w e (a_enterprise A) (QProposalVotes id s limit))) (votes_on_poll (w_gov w) id).
Proof. exact votes_read. Qed.
Print Assumptions C78_votes_read.

Example C78_votes_nonvacuous : new_dao dao_at (dao false) /\ lasting (world_run idle dao_at (dao false) usual) /\
  match read_listing 9 v_voter (fun s => in_answer votes_in (v2_query idle dao_at (world_run idle dao_at (dao false) usual) (clock 1200) 1 (QProposalVotes 1 s (Some 1)))) None with
  | Ok l => map (fun v => (v_voter v, v_amount v)) l | Err _ => [] end = [(11, 60); (12, 45)].
Proof. exact votes_case. Qed.

Theorem C78_listing_members : forall X (Out : outside X) A w0 ts w e limit m,
  new_dao A w0 -> w = world_run Out A w0 ts -> lasting w -> limit <> Some 0 ->
  en_type (w_enterprise w) = DaoMultisig -> w_member w = MMultisig m ->
  reads fst (fun s => in_answer members_in (v2_query Out A w e (a_enterprise A) (QMultisigMembers s limit))) (elems (m_weights m)).
Proof. exact listing_members. Qed.
Print Assumptions C78_listing_members.

Theorem C78_listing_staked : forall X (Out : outside X) A w0 ts w e limit st,
  new_dao A w0 -> w = world_run Out A w0 ts -> lasting w -> limit <> Some 0 ->
  en_type (w_enterprise w) = DaoNft -> w_member w = MNft st ->
  reads (fun t => t) (fun s => in_answer nfts_in (v2_query Out A w e (a_enterprise A) (QStakedNfts s limit))) (okeys (ns_stakes st)).
Proof. exact listing_staked. Qed.
Print Assumptions C78_listing_staked.

Theorem C78_listing_user_nfts : forall X (Out : outside X) A w0 ts w e u limit st,
  new_dao A w0 -> w = world_run Out A w0 ts -> lasting w -> limit <> Some 0 -> u <> 0 ->
  en_type (w_enterprise w) = DaoNft -> w_member w = MNft st ->
  reads (fun t => t) (fun s => in_answer nfts_in (v2_query Out A w e (a_enterprise A) (QUserStake u s limit))) (map fst (filter (fun ts => snd ts =? u) (elems (ns_stakes st)))).
Proof. exact listing_user_nfts. Qed.
Print Assumptions C78_listing_user_nfts.

Example C78_nfts_nonvacuous : exists st, new_dao dao_at (ledger_dao true) /\ lasting (world_run chain dao_at (ledger_dao true) nft_start) /\
  en_type (w_enterprise (world_run chain dao_at (ledger_dao true) nft_start)) = DaoNft /\ w_member (world_run chain dao_at (ledger_dao true) nft_start) = MNft st /\ okeys (ns_stakes st) = [1; 2; 3; 5] /\
  read_listing 9 (fun t => t) (fun s => in_answer nfts_in (v2_query chain dao_at (world_run chain dao_at (ledger_dao true) nft_start) (clock 3000) 1 (QStakedNfts s (Some 1)))) None = Ok [1; 2; 3; 5].
Proof. exact nfts_case. Qed.

Theorem C78_listing_treasuries : forall X (Out : outside X) A w0 ts w e limit,
  new_dao A w0 -> w = world_run Out A w0 ts -> lasting w -> limit <> Some 0 ->
  reads fst (fun s => in_answer treasuries_in (v2_query Out A w e (a_enterprise A) (QTreasuries s limit))) (elems (op_treasuries (w_outposts w))).
Proof. exact listing_treasuries. Qed.
Print Assumptions C78_listing_treasuries.

(** ... proposals: every poll belongs to one, and all are listed, unless custom messages opened polls. *)
Theorem C78_same_ids : forall X (Out : outside X) A w0 ts w id,
  new_dao A w0 -> w = world_run Out A w0 ts -> lasting w -> no_side_polls A w ->
  (exists pl, oget (g_polls (w_gov w)) id = Some pl) <-> (exists p, oget (ct_proposals (w_ctl w)) id = Some p).
Proof. exact same_ids. Qed.
Print Assumptions C78_same_ids.

Theorem C78_listing_proposals : forall X (Out : outside X) A w0 ts w e filt limit,
  new_dao A w0 -> w = world_run Out A w0 ts -> lasting w -> limit <> Some 0 -> no_side_polls A w ->
  exists vs, reads fp_id (fun s => in_answer proposals_in (v2_query Out A w e (a_enterprise A) (QProposals filt s limit))) vs /\
    map fp_id vs = map fst (filter (fun kv => match filt with Some f => filter_eqb (to_filter (p_status (snd kv))) f | None => true end) (elems (g_polls (w_gov w)))) /\
    forall v, In v vs -> v2_query Out A w e (a_enterprise A) (QProposal (fp_id v)) = Ok (AnProposal v).
Proof. exact listing_proposals. Qed.
Print Assumptions C78_listing_proposals.

Example C78_proposals_nonvacuous : new_dao dao_at (dao true) /\ lasting (world_run idle dao_at (dao true) raid) /\ no_side_polls dao_at (world_run idle dao_at (dao true) raid) /\
  match read_listing 9 fp_id (fun s => in_answer proposals_in (v2_query idle dao_at (world_run idle dao_at (dao true) raid) (clock 400) 1 (QProposals None s (Some 1)))) None with
  | Ok l => map (fun v => (fp_id v, fp_status v)) l | Err _ => [] end = [(1, PSInProgress); (2, PSExecuted)].
Proof. exact proposals_case. Qed.

(** ... If they did, a page may be empty although proposals follow. *)
Theorem C78_listing_stops_early_refuted : exists (w0 : world unit) ts w, new_dao dao_at w0 /\ w = world_run idle dao_at w0 ts /\ lasting w /\
  (exists p, oget (ct_proposals (w_ctl w)) 3 = Some p) /\
  is_ok (v2_query idle dao_at w (clock 400) 1 (QProposal 3)) = true /\
  (exists v, v2_query idle dao_at w (clock 400) 1 (QProposals None None (Some 1)) = Ok (AnProposals [v]) /\ fp_id v = 1) /\
  v2_query idle dao_at w (clock 400) 1 (QProposals None (Some 1) (Some 1)) = Ok (AnProposals []).
Proof. exact listing_stops_early. Qed.
Print Assumptions C78_listing_stops_early_refuted.
