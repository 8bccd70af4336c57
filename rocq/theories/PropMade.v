(** C111: the proposals on record are in order. *)
From Verif Require Import Base OMap OMapLemmas Assets PollModel PollSpec FundsModel MemberModel MemberSpec Msgs ControllerModel ControllerSpec
  TreasuryModel TreasurySpec EnterpriseModel OutpostsModel WorldModel WorldSpec WorldExamples LiveSpec EndSpec RipeSpec PurseSpec OrderSpec FacadeSpec
  ShelfSpec ShelfFacts ShelfCases MadeSpec MadeFacts MadeCases.

(** Whatever happens to a DAO, every proposal on record has at most ten actions, each of them in order for a DAO of its type, which never changes. *)
Theorem C111_always_made : forall X (Out : outside X) A w0 ts w id p,
  new_dao A w0 -> w = world_run Out A w0 ts ->
  oget (ct_proposals (w_ctl w)) id = Some p -> en_type (w_enterprise w) = en_type (w_enterprise w0) /\ well_made (en_type (w_enterprise w0)) p.
Proof. exact always_made. Qed.
Print Assumptions C111_always_made.

Example C111_made_nonvacuous : exists p, let w := world_run idle dao_at (dao false) mixed_lot in
  new_dao dao_at (dao false) /\ oget (ct_proposals (w_ctl w)) 1 = Some p /\ pi_actions p = new_lists /\ oget (ct_proposals (w_ctl w)) 2 = None.
Proof. exact made_case. Qed.

(** So nothing need be asked about addresses in C109: every passed proposal that only changes the lists of the treasury, without adding a cw1155 asset, takes effect. *)
Theorem C111_lists_always : forall X (Out : outside X) A w0 ts w e s id p pl total ab y,
  new_dao A w0 -> tr_admin (w_treasury w0) = a_controller A -> free_calls Out -> w = world_run Out A w0 ts -> lasting w -> treasury_kept A w ->
  ripe Out A w e s id p pl total -> final_status pl total = Passed ab y -> Forall list_change (pi_actions p) ->
  exists t', relisted (pi_actions p) (w_treasury w) t' /\
  let now := restocked A (judged A w e s id p pl total (Passed ab y)) id (pi_actions p) t' in
  forall w', (exists gas d, go Out A gas w e (JMsg s (ask_resolution A id)) = Ok (w', d)) <->
  exists k, go Out A k now e (JSubs (a_controller A) (handed A p (Passed ab y))) = Ok (w', None).
Proof. exact lists_always. Qed.
Print Assumptions C111_lists_always.

Example C111_lists_nonvacuous : exists p pl, let w := world_run idle dao_at (dao false) listing in
  new_dao dao_at (dao false) /\ tr_admin (w_treasury (dao false)) = a_controller dao_at /\ free_calls idle /\ lasting w /\ treasury_kept dao_at w /\
  ripe idle dao_at w (clock 1100) 12 1 p pl 100 /\ final_status pl 100 = Passed 0 60 /\ pi_actions p = new_lists /\ Forall list_change new_lists.
Proof. exact changes_case. Qed.
