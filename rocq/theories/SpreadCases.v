(** Cases of weights spread over other accounts. *)
From Verif Require Import Base OMap OMapLemmas Assets PollModel PollSpec FundsModel MemberModel MemberSpec Msgs ControllerModel ControllerSpec
  TreasuryModel EnterpriseModel OutpostsModel WorldModel WorldSpec WorldRun WorldExamples WorldCases LiveSpec LiveCases EndSpec
  PurseSpec BallotSpec BallotFacts BallotCases RecountSpec RecountFacts RecountCases MajoritySpec MajorityFacts MajorityCases SwaySpec SwayFacts SwayCases SpreadSpec SpreadFacts.

Definition said_alike (a b : option outcome) : bool := match a, b with Some a, Some b => outcome_u8 a =? outcome_u8 b | None, None => true | _, _ => false end.
Lemma said_alike_eq a b : said_alike a b = true -> a = b.
Proof. destruct a as [a|], b as [b|]; try discriminate; try reflexivity. intros E. apply N.eqb_eq in E. destruct a, b; try discriminate; reflexivity. Qed.
Lemma no_weight (st : member_state) u : ~ In u (okeys (m_weights (members_of st))) -> weight_of st u = 0.
Proof.
  intros H. unfold weight_of, ogetN. destruct (oget _ u) as [x|] eqn:E; [|reflexivity]. exfalso. apply H, okeys_In. eauto.
Qed.
Definition has_weight (st : member_state) : list addr := okeys (m_weights (members_of st)).

Lemma spread_check X Y A B (w : world X) id (v : world Y) k f xs : NoDup xs ->
  forallb (fun x => existsb (N.eqb x) xs) (has_weight (w_member v)) = true ->
  forallb (fun u => weight_of (w_member w) u =? lsum (weight_of (w_member v)) (filter (fun x => f x =? u) xs)) (has_weight (w_member w) ++ map f xs) = true ->
  forallb (fun x => said_alike (last_ballot B (w_log v) x k) (last_ballot A (w_log w) (f x) id)) xs = true -> spread A B w id v k f xs.
Proof.
  intros Hn H1 H2 H3. rewrite forallb_forall in H1, H2, H3.
  assert (C : forall x, weight_of (w_member v) x <> 0 -> In x xs).
  { intros x Hx. destruct (in_dec N.eq_dec x (has_weight (w_member v))) as [I|I]; [apply existsb_In, H1; exact I|]. exfalso. apply Hx, no_weight. exact I. }
  split; [exact Hn|]. split; [exact C|]. split.
  - intros u. destruct (in_dec N.eq_dec u (has_weight (w_member w) ++ map f xs)) as [I|I]; [apply N.eqb_eq, H2; exact I|].
    rewrite no_weight by (intros Q; apply I, in_app_iff; left; exact Q).
    symmetry. apply lsum_zero. intros x Hx. exfalso. apply I, in_app_iff. right. apply filter_In in Hx. destruct Hx as (Hx & E). apply N.eqb_eq in E. subst u. apply in_map. exact Hx.
  - intros x Hx. apply said_alike_eq, H3, C, Hx.
Qed.

Lemma renamed_check X Y A B (w : world X) id (v : world Y) k f g : (forall x, g (f x) = x) -> (forall u, f (g u) = u) ->
  forallb (fun u => weight_of (w_member v) (g u) =? weight_of (w_member w) u) (has_weight (w_member w) ++ map f (has_weight (w_member v))) = true ->
  forallb (fun u => said_alike (last_ballot B (w_log v) (g u) k) (last_ballot A (w_log w) u id)) (map fst (w_log w) ++ map f (map fst (w_log v))) = true ->
  renamed_by A B w id v k f g.
Proof.
  intros G1 G2 H1 H2. rewrite forallb_forall in H1, H2. split; [exact G1|]. split; [exact G2|]. split; intros u.
  - destruct (in_dec N.eq_dec u (has_weight (w_member w) ++ map f (has_weight (w_member v)))) as [I|I]; [apply N.eqb_eq, H1; exact I|].
    rewrite !no_weight; [reflexivity| |]; intros Q; apply I, in_app_iff; [left; exact Q|right]. rewrite <- (G2 u). apply in_map. exact Q.
  - destruct (in_dec N.eq_dec u (map fst (w_log w) ++ map f (map fst (w_log v)))) as [I|I]; [apply said_alike_eq, H2; exact I|].
    destruct (last_ballot B (w_log v) (g u) k) as [o|] eqn:E1.
    + exfalso. apply I, in_app_iff. right. rewrite <- (G2 u). apply in_map. eapply last_sender. exact E1.
    + destruct (last_ballot A (w_log w) u id) as [o|] eqn:E2; [|reflexivity]. exfalso. apply I, in_app_iff. left. eapply last_sender. exact E2.
Qed.

(** 11 uses the accounts 11 and 14. *)
Definition split_stake : list tx :=
  [stake 60 11 30; stake 61 12 30; stake 62 13 20; stake 63 14 20] ++ [propose 100 14 [PUpdateMinimumWeight 5]] ++
  say 110 11 (Some Yes) ++ say 111 12 (Some No) ++ say 112 13 (Some Abstain) ++ say 113 14 (Some Yes).
Definition split_poll (s : poll_status) : poll :=
  mk_poll 1 14 0 s (100 * NANOS) (1100 * NANOS) (percent 30) (percent 40) (Some (percent 45)) (p_results (lean_open split_stake)).
Definition owner (x : addr) : addr := if x =? 14 then 11 else x.
Lemma split_stake_held : held idle dao_at lean_dao (lean_run split_stake) 1 (split_poll (InProgress (1100 * NANOS))) (split_poll (Passed 0 50)).
Proof.
  unfold lean_run; apply (held_check _ idle dao_at (50 * NANOS) lean_dao split_stake [execute 1500 13 1] 1 (1100 * NANOS) (split_poll (InProgress (1100 * NANOS))) (split_poll (Passed 0 50)));
  [exact lean_new|exact (proj1 lean_created)|exact (proj2 lean_created)|apply timely_check; vm_compute; reflexivity|split; vm_compute; reflexivity|split; vm_compute; reflexivity
  |apply calm_check; vm_compute; reflexivity|vm_compute; reflexivity|vm_compute; reflexivity|vm_compute; reflexivity|repeat constructor
  |repeat (constructor; [vm_compute; discriminate|]); constructor|vm_compute; reflexivity|vm_compute; discriminate].
Qed.
Lemma spread_case : held idle dao_at lean_dao (lean_run cool) 1 (lean_open cool) (lean_poll cool (Passed 0 50)) /\
  held idle dao_at lean_dao (lean_run split_stake) 1 (split_poll (InProgress (1100 * NANOS))) (split_poll (Passed 0 50)) /\
  same_rules (lean_open cool) (split_poll (InProgress (1100 * NANOS))) /\
  spread dao_at dao_at (lean_run cool) 1 (lean_run split_stake) 1 owner [11; 12; 13; 14] /\
  map (weight_of (w_member (lean_run cool))) [11; 14] = [50; 0] /\ map (weight_of (w_member (lean_run split_stake))) [11; 14] = [30; 20].
Proof.
  split; [exact cool_held|]. split; [exact split_stake_held|]. split; [repeat split|].
  split; [apply spread_check; [alone|vm_compute; reflexivity|vm_compute; reflexivity|vm_compute; reflexivity]|]. split; vm_compute; reflexivity.
Qed.

(** 11 and 12 have changed places. *)
Definition mirrored := session 30 50 20 (Some No) (Some Yes) (Some Abstain).
Definition exchange (x : addr) : addr := if x =? 11 then 12 else if x =? 12 then 11 else x.
Lemma exchange_twice x : exchange (exchange x) = x.
Proof. unfold exchange. destruct (N.eqb_spec x 11) as [->|]; [reflexivity|]. destruct (N.eqb_spec x 12) as [->|]; [reflexivity|]. destruct (N.eqb_spec x 11), (N.eqb_spec x 12); congruence. Qed.
Lemma mirrored_held : held idle dao_at lean_dao (lean_run mirrored) 1 (lean_open mirrored) (lean_poll mirrored (Passed 0 50)).
Proof. lean_by mirrored (Passed 0 50). Qed.
Lemma names_case : held idle dao_at lean_dao (lean_run cool) 1 (lean_open cool) (lean_poll cool (Passed 0 50)) /\
  held idle dao_at lean_dao (lean_run mirrored) 1 (lean_open mirrored) (lean_poll mirrored (Passed 0 50)) /\ same_rules (lean_open cool) (lean_open mirrored) /\
  renamed_by dao_at dao_at (lean_run cool) 1 (lean_run mirrored) 1 exchange exchange.
Proof.
  split; [exact cool_held|]. split; [exact mirrored_held|]. split; [apply lean_rules|].
  apply renamed_check; [exact exchange_twice|exact exchange_twice|vm_compute; reflexivity|vm_compute; reflexivity].
Qed.
