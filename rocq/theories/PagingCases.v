(** Cases of the properties of listings, and what is false. *)
From Verif Require Import Base OMap OMapLemmas Assets PollModel PollSpec FundsModel MemberModel MemberSpec Msgs ControllerModel
  ControllerSpec TreasuryModel EnterpriseModel OutpostsModel WorldModel WorldSpec WorldExamples LedgerSpec LedgerExamples FacadeModel PagingSpec.

Definition opens_poll (m : cosmos_msg) : bool := match m with WasmExecute _ (ToGovernance (GCreatePoll _)) _ => true | _ => false end.
Lemma plain_by {X} A (w : world X) : existsb (fun kp => existsb opens_poll (customs (snd kp))) (elems (ct_proposals (w_ctl w))) = false -> no_side_polls A w.
Proof.
  intros E id p m coins c more _ Hp Hm ->. apply oget_In in Hp. rewrite (proj2 (existsb_exists _ _)) in E; [discriminate|]. exists (id, p). split; [exact Hp|].
  apply existsb_exists. eexists. split; [exact Hm|reflexivity].
Qed.

(** Two proposals, the second of which was executed and sent coins; read one by one. *)
Lemma proposals_case : new_dao dao_at (dao true) /\ lasting (world_run idle dao_at (dao true) raid) /\ no_side_polls dao_at (world_run idle dao_at (dao true) raid) /\
  match read_listing 9 fp_id (fun s => in_answer proposals_in (v2_query idle dao_at (world_run idle dao_at (dao true) raid) (clock 400) 1 (QProposals None s (Some 1)))) None with
  | Ok l => map (fun v => (fp_id v, fp_status v)) l | Err _ => [] end = [(1, PSInProgress); (2, PSExecuted)].
Proof.
  split; [apply start_new|]. split; [vm_compute; split; reflexivity|]. split; [apply plain_by; vm_compute; reflexivity|]. vm_compute. reflexivity.
Qed.
Lemma votes_case : new_dao dao_at (dao false) /\ lasting (world_run idle dao_at (dao false) usual) /\
  match read_listing 9 v_voter (fun s => in_answer votes_in (v2_query idle dao_at (world_run idle dao_at (dao false) usual) (clock 1200) 1 (QProposalVotes 1 s (Some 1)))) None with
  | Ok l => map (fun v => (v_voter v, v_amount v)) l | Err _ => [] end = [(11, 60); (12, 45)].
Proof. split; [apply start_new|]. split; [vm_compute; split; reflexivity|]. vm_compute. reflexivity. Qed.
Definition nft_start : list tx := firstn 4 nft_story.
Lemma nfts_case : exists st, new_dao dao_at (ledger_dao true) /\ lasting (world_run chain dao_at (ledger_dao true) nft_start) /\
  en_type (w_enterprise (world_run chain dao_at (ledger_dao true) nft_start)) = DaoNft /\ w_member (world_run chain dao_at (ledger_dao true) nft_start) = MNft st /\ okeys (ns_stakes st) = [1; 2; 3; 5] /\
  read_listing 9 (fun t => t) (fun s => in_answer nfts_in (v2_query chain dao_at (world_run chain dao_at (ledger_dao true) nft_start) (clock 3000) 1 (QStakedNfts s (Some 1)))) None = Ok [1; 2; 3; 5].
Proof.
  eexists. split; [apply ledger_new|]. split; [vm_compute; split; reflexivity|]. split; [vm_compute; reflexivity|]. split; [vm_compute; reflexivity|]. split; vm_compute; reflexivity.
Qed.

(** Proposal 1 passes and opens poll 2 at the governance contract; then there is proposal 3. A client that reads one at
    a time gets an empty page after proposal 1 and stops. *)
Definition side_poll : cosmos_msg := WasmExecute 2 (ToGovernance (GCreatePoll (mk_create 11 0 (5000 * NANOS) (percent 30) (percent 50) None))) [].
Definition aside : list tx := stakes ++ [propose 100 11 [PExecuteMsgs [Some side_poll]]; vote_yes 110 11 1; execute 300 12 1; propose 301 12 [PUpdateMinimumWeight 9]].
Lemma listing_stops_early : exists (w0 : world unit) ts w, new_dao dao_at w0 /\ w = world_run idle dao_at w0 ts /\ lasting w /\
  (exists p, oget (ct_proposals (w_ctl w)) 3 = Some p) /\
  is_ok (v2_query idle dao_at w (clock 400) 1 (QProposal 3)) = true /\
  (exists v, v2_query idle dao_at w (clock 400) 1 (QProposals None None (Some 1)) = Ok (AnProposals [v]) /\ fp_id v = 1) /\
  v2_query idle dao_at w (clock 400) 1 (QProposals None (Some 1) (Some 1)) = Ok (AnProposals []).
Proof.
  exists (dao true), aside, (world_run idle dao_at (dao true) aside). split; [apply start_new|]. split; [reflexivity|]. split; [vm_compute; split; reflexivity|].
  split; [vm_compute; eexists; reflexivity|]. split; [vm_compute; reflexivity|]. split; [|vm_compute; reflexivity]. vm_compute. eexists. split; reflexivity.
Qed.
