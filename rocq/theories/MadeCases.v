(** Cases of proposals on record. *)
From Verif Require Import Base OMap OMapLemmas Assets PollModel PollSpec FundsModel MemberModel MemberSpec Msgs ControllerModel ControllerSpec
  TreasuryModel TreasurySpec EnterpriseModel OutpostsModel WorldModel WorldSpec WorldRun WorldExamples WorldCases LiveSpec LiveCases EndSpec RipeSpec RipeFacts
  PurseSpec PurseCases OrderSpec FacadeSpec EnactCases ShelfSpec ShelfFacts ShelfCases MadeSpec MadeFacts.

(** 11 makes a proposal that is in order, then one to list a token and take it off at once, and one of eleven actions. *)
Definition mixed_lot : list tx :=
  stakes ++ [propose 100 11 new_lists; propose 101 11 [PUpdateAssets None [Cw20 55] [Cw20 55]]; propose 102 11 (repeat (PUpdateMinimumWeight 5) 11)].

Lemma made_case : exists p, let w := world_run idle dao_at (dao false) mixed_lot in
  new_dao dao_at (dao false) /\ oget (ct_proposals (w_ctl w)) 1 = Some p /\ pi_actions p = new_lists /\ oget (ct_proposals (w_ctl w)) 2 = None.
Proof.
  exists (record (after false mixed_lot)). cbn zeta. split; [exact (start_new _)|]. split; [vm_compute; reflexivity|]. split; vm_compute; reflexivity.
Qed.

Lemma new_lists_changes : Forall list_change new_lists.
Proof.
  constructor; [|constructor; [exact I|constructor; [|constructor]]]; cbn; intros c i H; repeat destruct H as [H|H]; try discriminate H; exact H.
Qed.

Lemma changes_case : exists p pl, let w := world_run idle dao_at (dao false) listing in
  new_dao dao_at (dao false) /\ tr_admin (w_treasury (dao false)) = a_controller dao_at /\ free_calls idle /\ lasting w /\ treasury_kept dao_at w /\
  ripe idle dao_at w (clock 1100) 12 1 p pl 100 /\ final_status pl 100 = Passed 0 60 /\ pi_actions p = new_lists /\ Forall list_change new_lists.
Proof.
  exists (record (after false listing)), (its_poll (after false listing)).
  cbn zeta. split; [exact (start_new _)|]. split; [vm_compute; reflexivity|]. split; [exact idle_free|]. split; [split; vm_compute; reflexivity|].
  split; [apply kept_check; vm_compute; reflexivity|].
  split; [apply ripe_check; vm_compute; reflexivity|]. split; [vm_compute; reflexivity|]. split; [vm_compute; reflexivity|]. exact new_lists_changes.
Qed.
