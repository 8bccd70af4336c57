(** Cases of councils at work. *)
From Verif Require Import Base OMap OMapLemmas Assets PollModel PollSpec FundsModel MemberModel MemberSpec Msgs ControllerModel ControllerSpec
  TreasuryModel EnterpriseModel OutpostsModel OutpostsExamples WorldModel WorldSpec WorldExamples WorldCases FacadeSpec LedgerSpec LedgerExamples RewardCases ExitCases
  PurseSpec PurseCases RuleSpec RuleCases OrderSpec AbroadSpec AbroadCases BoundsSpec.

(** After the members have spent from the treasury (proposal 1) the council renames the DAO (proposal 3). *)
Definition council_turn : list tx :=
  [to_ctl 1200 21 [] (CCreateCouncilProposal [PUpdateMetadata renamed]); to_ctl 1210 21 [] (CCastCouncilVote 3 Yes); to_ctl 1211 22 [] (CCastCouncilVote 3 Yes);
   execute 2300 99 3].
Definition council_done : world book := world_run chain dao_at spent council_turn.

Definition only_council {X} (A : addrs) (w w' : world X) : bool :=
  forallb (fun id => match oget (ct_proposals (w_ctl w')) id with Some p => match pi_type p with Council => true | General => false end | None => true end)
    (skipn (length (runs A w)) (rev (runs A w'))).
Lemma council_check {X} A (w w' : world X) : only_council A w w' = true -> council_rules A w w'.
Proof.
  intros E id p (l & s & coins & EL & Hin) Hp. unfold only_council in E.
  assert (R : runs A w' = flat_map (fun x => match snd x with WasmExecute to (ToController (CExecuteActions i)) _ => if to =? a_controller A then [i] else [] | _ => [] end) l ++ runs A w)
    by (unfold runs; rewrite EL, flat_map_app; reflexivity).
  rewrite R, rev_app_distr in E.
  rewrite skipn_app, rev_length, Nat.sub_diag in E. rewrite (skipn_all2 (rev (runs A w))) in E by (rewrite rev_length; lia). cbn [app skipn] in E.
  rewrite forallb_forall in E. specialize (E id). rewrite Hp in E. destruct (pi_type p); [|reflexivity]. enough (false = true) by discriminate. apply E.
  apply in_rev. rewrite rev_involutive. apply in_flat_map. eexists. split; [exact Hin|]. cbn [snd]. rewrite N.eqb_refl. left. reflexivity.
Qed.

Lemma turn_case : new_dao dao_at (purse_dao false) /\ new_treasury dao_at (purse_dao false) /\ lasting council_done /\ treasury_kept dao_at council_done /\
  council_rules dao_at spent council_done /\ (forall k, in_charge dao_at k spent) /\
  option_map pi_type (oget (ct_proposals (w_ctl council_done)) 3) = Some Council /\
  option_map pi_actions (oget (ct_proposals (w_ctl council_done)) 3) = Some [PUpdateMetadata renamed] /\
  runs dao_at spent = [1] /\ runs dao_at council_done = [3; 1] /\ length (sent_by 4 council_done) = length (sent_by 4 spent) /\ sent_by 4 spent <> [] /\
  md_name (en_metadata (w_enterprise spent)) = 100 /\ md_name (en_metadata (w_enterprise council_done)) = 13.
Proof.
  split; [apply purse_new|]. split; [apply purse_treasury|]. split; [apply lasting_check; vm_compute; reflexivity|]. split; [apply kept_check; vm_compute; reflexivity|].
  split; [apply council_check; vm_compute; reflexivity|].
  split; [intros k; destruct k; try exact I; try (vm_compute; reflexivity); eexists; (split; [vm_compute; reflexivity|reflexivity])|].
  do 5 (split; [vm_compute; reflexivity|]). split; [vm_compute; discriminate|]. split; vm_compute; reflexivity.
Qed.

(** The members change the rules (proposal 1): a general proposal. *)
Lemma reform_general : for_members OfMinimum /\ in_charge dao_at OfMinimum old_ways /\ lasting new_ways /\ ~ unchanged OfMinimum old_ways new_ways /\
  option_map pi_type (oget (ct_proposals (w_ctl new_ways)) 1) = Some General.
Proof.
  split; [exact I|]. split; [vm_compute; reflexivity|]. split; [apply lasting_check; vm_compute; reflexivity|]. split; [vm_compute; discriminate|]. vm_compute. reflexivity.
Qed.

(** The council cannot even propose to change the rules of voting or to spend. *)
Lemma beyond_case : let w := world_run chain dao_at (purse_dao false) stakes in
  is_ok (world_tx chain dao_at w (to_ctl 100 21 [] (CCreateCouncilProposal [PUpdateMetadata renamed]))) = true /\
  world_tx chain dao_at w (to_ctl 100 21 [] (CCreateCouncilProposal [PUpdateMinimumWeight 5])) = Err EUnsupportedCouncilAction /\
  world_tx chain dao_at w (to_ctl 100 21 [] (CCreateCouncilProposal [PRequestFunding None 99 [(Native 70, 10)]])) = Err EUnsupportedCouncilAction.
Proof. split; [vm_compute; reflexivity|]. split; vm_compute; reflexivity. Qed.

(** A spending order to another chain, by a general proposal. *)
Lemma voyage_general : lasting abroad /\ ~ lists_only (TrSpend 99 [(Native 7, 5)]) /\ option_map pi_type (oget (ct_proposals (w_ctl abroad)) 2) = Some General /\
  funding = parcel to_juno 9001 3300000000000 (WasmExecute 9002 (ToTreasury (TrSpend 99 [(Native 7, 5)])) []) None /\
  exists l, sent_after (w_log abroad) 5 funding ((3, to_outposts dao_at (OpExecute (TrSpend 99 [(Native 7, 5)]) to_juno) []) :: l).
Proof.
  split; [apply lasting_check; vm_compute; reflexivity|]. split; [exact (fun H => H)|]. split; [vm_compute; reflexivity|]. split; [reflexivity|].
  exists (skipn 6 (w_log abroad)), (firstn 4 (w_log abroad)). vm_compute. reflexivity.
Qed.
