(** Cases of proposals that can be executed, early or not. *)
From Verif Require Import Base OMap OMapLemmas Assets PollModel PollSpec FundsModel MemberModel MemberSpec Msgs ControllerModel ControllerSpec
  TreasuryModel EnterpriseModel OutpostsModel WorldModel WorldSpec WorldRun WorldExamples WorldCases LiveSpec LiveCases EndSpec RipeSpec RipeFacts.

(** 11 votes yes with 60 of 100. *)
Definition voted : list tx := stakes ++ [propose 100 11 [PUpdateMinimumWeight 5]; vote_yes 110 11 1].

(** whether 12 can have proposal 1 executed at second [t] *)
Definition done_at (w : world unit) (t : N) : bool := is_ok (go idle dao_at 60 w (clock t) (JMsg 12 (ask_resolution dao_at 1))).

Lemma ripe_case : exists p pl total v,
  new_dao dao_at (dao true) /\ free_calls idle /\ timely 0 voted /\ lasting (after true voted) /\ calm dao_at (after true voted) /\ last_time voted <= e_time (clock 210) /\
  ripe idle dao_at (after true voted) (clock 210) 12 1 p pl total /\ pi_type p = General /\ e_time (clock 210) < p_ends_at pl /\
  total = 100 /\ turnout (w_gov (after true voted)) 1 = 60 /\ share_fits 60 100 /\
  v = final_status pl total /\ v = Passed 0 60 /\ ruled (w_gov (after true voted)) 1 pl total v /\ clear_cut v /\
  done_at (after true voted) 209 = false /\ done_at (after true voted) 210 = true /\
  done_at (after false voted) 210 = false /\ done_at (after false voted) 1099 = false /\ done_at (after false voted) 1100 = true.
Proof.
  set (w := after true voted). exists (record w), (its_poll w), 100, (Passed 0 60).
  assert (N := start_new true). assert (L : lasting w) by (split; vm_compute; reflexivity). assert (T : timely 0 voted) by (vm_compute; repeat split; discriminate).
  assert (C : calm dao_at w) by (apply calm_check; vm_compute; reflexivity).
  assert (P : oget (g_polls (w_gov w)) 1 = Some (its_poll w)) by (vm_compute; reflexivity).
  assert (S : share_fits (turnout (w_gov w) 1) 100) by (split; vm_compute; reflexivity).
  assert (V : Passed 0 60 = final_status (its_poll w) 100) by (vm_compute; reflexivity).
  assert (EW : w = world_run idle dao_at (dao true) voted) by (unfold w, after; reflexivity).
  assert (R : ruled (w_gov w) 1 (its_poll w) 100 (Passed 0 60)).
  { generalize (its_poll w) V P. intros pl V' P'. clear P V. clearbody w. exact (proj2 (ruled_final unit idle dao_at (dao true) voted w 1 pl 100 (Passed 0 60) N T EW L C P' S) V'). }
  split; [exact N|]. split; [exact idle_free|]. split; [exact T|]. split; [exact L|]. split; [exact C|].
  split; [vm_compute; discriminate|].
  split.
  { split.
    - vm_compute; reflexivity.
    - vm_compute; reflexivity.
    - vm_compute; reflexivity.
    - assert (K : pi_earliest (record w) = Some (210 * NANOS)) by (vm_compute; reflexivity).
      intros t H. rewrite K in H. injection H as <-. apply N.leb_le. vm_compute; reflexivity.
    - exact P.
    - vm_compute; reflexivity.
    - discriminate.
    - intros _. right. vm_compute; reflexivity. }
  split; [vm_compute; reflexivity|]. split; [vm_compute; reflexivity|]. split; [reflexivity|]. split; [vm_compute; reflexivity|]. split; [split; vm_compute; reflexivity|].
  split; [exact V|]. split; [reflexivity|]. split; [exact R|].
  split; [split; discriminate|]. do 4 (split; [vm_compute; reflexivity|]). vm_compute; reflexivity.
Qed.

(** Where early ends are allowed: 13 comes after the proposal was made, votes, has it executed as soon as possible and leaves. *)
Definition made : list tx := stakes ++ [propose 100 11 [PUpdateMinimumWeight 5]].
Definition swoop : list tx := [stake 120 13 300; vote_yes 120 13 1; execute 220 13 1; unstake 220 13 300].

Lemma swoop_timely : timely 0 (made ++ swoop). Proof. vm_compute; repeat split; discriminate. Qed.
Lemma swoop_lasting : lasting (world_run idle dao_at (dao true) (made ++ swoop)). Proof. split; vm_compute; reflexivity. Qed.
Lemma swoop_calm : calm dao_at (world_run idle dao_at (dao true) (made ++ swoop)). Proof. apply calm_check; vm_compute; reflexivity. Qed.
Lemma only_voter (g : gov) k id u v : map fst (elems (g_votes g)) = [k] -> get_vote g u id = Some v -> u = k.
Proof.
  intros K H. unfold get_vote, votes_of in H. destruct (oget (g_votes g) u) as [m|] eqn:E; [|discriminate H]. clear H.
  apply oget_In in E. apply (in_map fst) in E. rewrite K in E. destruct E as [E|[]]. symmetry. exact E.
Qed.
Lemma swoop_voters u v : get_vote (w_gov (world_run idle dao_at (dao true) (made ++ swoop))) u 1 = Some v -> u = 13.
Proof. apply only_voter. vm_compute; reflexivity. Qed.

Lemma swooped : exists (w0 : world unit) before later,
  let w := world_run idle dao_at w0 before in let w' := world_run idle dao_at w0 (before ++ later) in
  new_dao dao_at w0 /\ timely 0 (before ++ later) /\ lasting w' /\ calm dao_at w' /\
  exists p pl, oget (ct_proposals (w_ctl w)) 1 = Some p /\ pi_executed_at p = None /\
    oget (g_polls (w_gov w')) 1 = Some pl /\ p_status pl = Passed 0 300 /\ last_time (before ++ later) < p_ends_at pl /\
    newcomers w w' 1 /\ (forall u v, get_vote (w_gov w') u 1 = Some v -> weight_of (w_member w') u = 0) /\ weight_now w General = 100 /\ weight_now w' General = 100.
Proof.
  exists (dao true), made, swoop. cbn zeta. split; [exact (start_new _)|]. split; [exact swoop_timely|]. split; [exact swoop_lasting|]. split; [exact swoop_calm|].
  exists (record (world_run idle dao_at (dao true) made)), (its_poll (world_run idle dao_at (dao true) (made ++ swoop))).
  do 5 (split; [vm_compute; reflexivity|]).
  split; [intros u v H; apply swoop_voters in H; subst u; vm_compute; reflexivity|].
  split; [intros u v H; apply swoop_voters in H; subst u; vm_compute; reflexivity|]. split; vm_compute; reflexivity.
Qed.
