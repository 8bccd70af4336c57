(** What one more vote does to the outcome. *)
From Verif Require Import Base OMap OMapLemmas Assets PollModel PollSpec PollProofs PollFacts FundsModel FundsSpec MemberModel MemberSpec Msgs
  ControllerModel ControllerSpec TreasuryModel EnterpriseModel OutpostsModel WorldModel WorldSpec WorldProofs WorldRun WorldFacts
  LiveSpec LiveResults EndSpec EndFacts PurseSpec VoteSpec VoteFacts BallotSpec BallotProofs BallotFacts RecountSpec RecountFacts MajoritySpec MajorityFacts SwaySpec SwayFacts SpreadSpec SpreadFacts.

Lemma one_more_vote X (A : addrs) (w v : world X) u id o n pl ql : VoteSpec.counted A General w v u id o n ->
  oget (g_polls (w_gov w)) id = Some pl -> oget (g_polls (w_gov v)) id = Some ql ->
  evenly w v /\ same_rules pl ql /\ forall x, last_ballot A (w_log v) x id = if x =? u then Some o else last_ballot A (w_log w) x id.
Proof.
  intros C P1 P2. split; [|split].
  - intros x. destruct (cd_rest _ _ _ _ _ _ _ _ C) as (_ & -> & _). reflexivity.
  - destruct (cd_poll _ _ _ _ _ _ _ _ C) as (p & q & E1 & E2 & (r & E) & _). assert (p = pl) by congruence. assert (q = ql) by congruence. subst. repeat split.
  - intros x. rewrite (cd_log _ _ _ _ _ _ _ _ C). cbn [app last_ballot]. unfold ballot at 1. cbn [snd]. unfold ballot at 1, voting. cbn [fst snd].
    rewrite !N.eqb_refl, !andb_true_r, (N.eqb_sym u x). destruct (x =? u); reflexivity.
Qed.

Lemma vote_not_regretted X (Out : outside X) A w0 ts w e gas u id o v d pl pl' ql ql' :
  new_dao A w0 -> free_calls Out -> w = world_run Out A w0 ts -> timely 0 ts -> lasting w -> calm A w -> last_time ts <= e_time e ->
  u <> 0 -> (4 <= gas)%nat -> clock_has_room w e ->
  go Out A gas w e (JMsg u (voting A General id o)) = Ok (v, d) ->
  held Out A w0 w id pl pl' -> held Out A w0 v id ql ql' ->
  let said := last_ballot A (w_log w) u id in
  (o = Yes -> carried pl' -> carried ql') /\
  (o = Veto -> said <> Some No -> quorate A w id pl -> carried ql' -> carried pl') /\
  (o = Abstain -> said = None -> quorate A w id pl -> p_status ql' = p_status pl') /\
  (said = Some o -> p_status ql' = p_status pl').
Proof.
  intros HN HF E HT HL HC HE Hu Hg HR Hgo H1 H2. cbn zeta.
  destruct (voting_counts X Out A w0 ts w e gas General u id o v d HN HF E HT HL HC HE Hu Hg (fun _ => HR) Hgo) as (_ & C).
  destruct (one_more_vote X A w v u id o _ pl ql C (he_poll _ _ _ _ _ _ _ H1) (he_poll _ _ _ _ _ _ _ H2)) as (EV & SR & LB).
  assert (SW : forall os, (In (last_ballot A (w_log w) u id) os \/ last_ballot A (w_log w) u id = Some o) -> swayed A A w id v id os o).
  { intros os Hs x. cbn zeta. rewrite LB. destruct (N.eqb_spec x u) as [->|]; [|left; reflexivity]. destruct Hs as [Hs|Hs]; [right; auto|left; symmetry; exact Hs]. }
  split; [|split; [|split]].
  - intros ->. apply (yes_never_hurts X X Out Out A A w0 w w0 v id id pl pl' ql ql' H1 H2 SR EV). apply SW.
    destruct (last_ballot A (w_log w) u id) as [[]|]; cbn; tauto.
  - intros -> Hs Hq. apply (veto_never_helps X X Out Out A A w0 w w0 v id id pl pl' ql ql' H1 H2 SR EV); [|exact Hq]. apply SW.
    destruct (last_ballot A (w_log w) u id) as [[]|]; cbn; try tauto; congruence.
  - intros -> Hs Hq. apply (abstaining_is_nothing X X Out Out A A w0 w w0 v id id pl pl' ql ql' H1 H2 SR EV); [|exact Hq]. apply SW. left. left. symmetry. exact Hs.
  - intros Hs. apply (names_do_not_count X X Out Out A A w0 w w0 v id id pl pl' ql ql' (fun x => x) (fun x => x) H1 H2 SR).
    split; [reflexivity|]. split; [reflexivity|]. split; [intros x; symmetry; apply EV|].
    intros x. rewrite LB. destruct (N.eqb_spec x u) as [->|]; [symmetry; exact Hs|reflexivity].
Qed.
