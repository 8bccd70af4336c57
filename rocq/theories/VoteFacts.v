(** Members can vote as long as a poll is open, and exactly then. *)
From Verif Require Import Base OMap OMapLemmas Assets PollModel PollSpec PollProofs PollFacts FundsModel FundsSpec MemberModel MemberSpec MemberProofs MemberFacts Msgs
  ControllerModel ControllerSpec ControllerProofs ControllerFacts TreasuryModel EnterpriseModel OutpostsModel WorldModel WorldSpec WorldMember
  WorldProofs WorldRun WorldFacts LiveSpec LiveProofs LiveFacts VoteSpec.

Lemma open_is_open (w : gov) id pl t : PollProofs.inv w -> oget (g_polls w) id = Some pl -> p_status pl = InProgress t -> forall now, started_by w now -> now < t -> open_at pl now.
Proof.
  intros (Hp & _) Hpl Hs now Hst Hlt. destruct (Hp _ _ Hpl) as (_ & _ & H3 & _). rewrite (H3 _ Hs) in *. split; [eauto|]. split; [eapply Hst; eassumption|lia].
Qed.

Section V.
Context {X : Type}.
Variable Out : outside X.
Variable A : addrs.
Hypothesis HA : NoDup (dao_addrs A).
Hypothesis HF : free_calls Out.

Lemma go_plain_vote n (w : world X) e self m w1 d : go Out A (S n) w e (JMsg self m) = Ok (w1, d) ->
  go Out A (S (S n)) w e (JSubs self [mk_sub m ReplyNever]) = Ok (w1, None).
Proof.
  intros H. remember (S n) as k. cbn [go sm_msg sm_reply]. rewrite H. subst k. apply go_none.
Qed.

(** the governance contract counts the vote *)
Lemma gov_counts n (w : world X) e u id o x pl : wired A w -> PollProofs.inv (w_gov w) -> oget (g_polls (w_gov w)) id = Some pl -> open_at pl (e_time e) -> u <> 0 ->
  go Out A (S (S n)) w e (JMsg (a_controller A) (WasmExecute (a_governance A) (ToGovernance (GCastVote id o u x)) [])) =
  Ok (set_gov (note w (a_controller A) (WasmExecute (a_governance A) (ToGovernance (GCastVote id o u x)) [])) (cast_result (w_gov w) id pl o u x), None).
Proof.
  intros W I Hpl Ho Hu. rewrite go_call, HF. cbn [bind]. unfold handle. rewrite (proj2 (N.eqb_neq _ _)) by (apply gov_not_ctl; exact HA). rewrite N.eqb_refl.
  destruct I as (Hp & Hv & _ & _). destruct (Hp _ _ Hpl) as (_ & Hid & _).
  assert (E : gov_execute (w_gov w) e (a_controller A) (GCastVote id o u x) = Ok (cast_result (w_gov w) id pl o u x, None)).
  { unfold gov_execute. rewrite (wi_admin _ _ W), N.eqb_refl. cbn [guard bind]. rewrite (cast_vote_succeeds _ _ _ _ _ _ pl); auto; try lia.
    intros v Hg. apply (Hv _ _ _ Hg). }
  cbn [w_gov set_ext note]. rewrite E. cbn [bind]. rewrite go_none. reflexivity.
Qed.

Definition vote_order id o u x : cosmos_msg := WasmExecute (a_governance A) (ToGovernance (GCastVote id o u x)) [].

(** the world after the vote, up to what the controller records *)
Definition voted_world (w : world X) t u id o x pl c : world X :=
  set_ctl (set_gov (note (note w u (voting A t id o)) (a_controller A) (vote_order id o u x)) (cast_result (w_gov w) id pl o u x)) c.

Lemma voted_counted (w : world X) t u id o x pl p c : oget (g_polls (w_gov w)) id = Some pl -> oget (ct_proposals (w_ctl w)) id = Some p ->
  (exists p', oget (ct_proposals c) id = Some p' /\ (forall i, i <> id -> oget (ct_proposals c) i = oget (ct_proposals (w_ctl w)) i) /\ delayed_only (p_ends_at pl) p p' /\
     (t = Council \/ gc_allow_early (ct_config (w_ctl w)) = false \/ en_type (w_enterprise w) = DaoMultisig -> p' = p)) ->
  ct_enterprise c = ct_enterprise (w_ctl w) -> ct_config c = ct_config (w_ctl w) -> ct_council c = ct_council (w_ctl w) ->
  ct_creation c = ct_creation (w_ctl w) -> ct_treasuries c = ct_treasuries (w_ctl w) -> ct_creating c = ct_creating (w_ctl w) ->
  ct_executing c = ct_executing (w_ctl w) -> ct_voting c = (match t with General => None | Council => ct_voting (w_ctl w) end) ->
  counted A t w (voted_world w t u id o x pl c) u id o x.
Proof.
  intros Hpl Hp (p' & Ep & Eo & Hd & Hs) E1 E2 E3 E4 E5 E6 E7 E8.
  assert (EG : w_gov (voted_world w t u id o x pl c) = cast_result (w_gov w) id pl o u x) by reflexivity.
  assert (EC : w_ctl (voted_world w t u id o x pl c) = c) by reflexivity.
  constructor.
  - rewrite EG. unfold cast_result. rewrite get_vote_set_poll, get_set_vote, !N.eqb_refl. reflexivity.
  - intros voter i Hne. rewrite EG. unfold cast_result. rewrite get_vote_set_poll, get_set_vote.
    destruct ((u =? voter) && (id =? i)) eqn:E; [|reflexivity]. lia.
  - exists pl. rewrite EG, EC. eexists. split; [exact Hpl|]. split; [apply oget_oset_eq|]. split; [eexists; reflexivity|].
    exists p, p'. split; [exact Hp|]. split; [exact Ep|]. split; [exact Hd|exact Hs].
  - intros i Hne. rewrite EG. apply oget_oset_ne. congruence.
  - rewrite EG. split; reflexivity.
  - intros i Hne. rewrite EC. apply Eo. exact Hne.
  - rewrite EC. repeat split; assumption.
  - repeat split.
  - reflexivity.
Qed.

Lemma general_weight (w : world X) att u : co_components (ctl_oracle_of Out A w) = Ok (wiring_of A att) -> u <> 0 ->
  user_votes (ctl_oracle_of Out A w) u = Ok (vote_weight w General u).
Proof.
  intros HC Hu. unfold user_votes. rewrite HC. cbn [bind]. cbn [co_weight ctl_oracle_of c_membership wiring_of]. unfold members_at. rewrite N.eqb_refl.
  cbn [bind]. unfold query_user_weight, addr_validate. rewrite (proj2 (N.eqb_neq _ _) Hu). reflexivity.
Qed.

Lemma council_weight_is (w : world X) att u : co_components (ctl_oracle_of Out A w) = Ok (wiring_of A att) -> u <> 0 ->
  council_weight (ctl_oracle_of Out A w) u = Ok (vote_weight w Council u).
Proof.
  intros HC Hu. unfold council_weight. rewrite HC. cbn [bind]. cbn [co_weight ctl_oracle_of c_council wiring_of]. unfold members_at.
  rewrite (proj2 (N.eqb_neq _ _)) by (apply council_not_member; exact HA). rewrite N.eqb_refl.
  cbn [bind]. unfold query_user_weight, addr_validate. rewrite (proj2 (N.eqb_neq _ _) Hu). reflexivity.
Qed.

Lemma general_total (w : world X) att x : co_components (ctl_oracle_of Out A w) = Ok (wiring_of A att) ->
  total_available (ctl_oracle_of Out A w) x General = Ok (query_total_weight (members_of (w_member w)) x).
Proof.
  intros HC. unfold total_available. rewrite HC. cbn [bind]. cbn [co_total ctl_oracle_of c_membership wiring_of]. unfold members_at. rewrite N.eqb_refl. reflexivity.
Qed.

Lemma simulate_is (w : world X) att id pl total : co_components (ctl_oracle_of Out A w) = Ok (wiring_of A att) -> oget (g_polls (w_gov w)) id = Some pl ->
  simulate (ctl_oracle_of Out A w) id total = Ok (final_status pl total, p_ends_at pl).
Proof.
  intros HC Hpl. unfold simulate. rewrite HC. cbn [bind]. cbn [co_simulate ctl_oracle_of c_governance wiring_of]. unfold gov_at. rewrite N.eqb_refl.
  cbn [bind]. unfold query_simulate, query_poll. rewrite Hpl. reflexivity.
Qed.

(** the reply to a counted vote *)
Lemma reply_vote (w : world X) e id old pl p : wired A w -> ct_voting (w_ctl w) = Some (id, old) -> oget (g_polls (w_gov w)) id = Some pl ->
  oget (ct_proposals (w_ctl w)) id = Some p -> pi_type p = General -> clock_has_room w e ->
  exists c, reply_cast_vote (ctl_oracle_of Out A w) (w_ctl w) e = Ok (c, []) /\
    (exists p', oget (ct_proposals c) id = Some p' /\ (forall i, i <> id -> oget (ct_proposals c) i = oget (ct_proposals (w_ctl w)) i) /\
       delayed_only (p_ends_at pl) p p' /\ (General = Council \/ gc_allow_early (ct_config (w_ctl w)) = false \/ en_type (w_enterprise w) = DaoMultisig -> p' = p)) /\
    ct_enterprise c = ct_enterprise (w_ctl w) /\ ct_config c = ct_config (w_ctl w) /\ ct_council c = ct_council (w_ctl w) /\
    ct_creation c = ct_creation (w_ctl w) /\ ct_treasuries c = ct_treasuries (w_ctl w) /\ ct_creating c = ct_creating (w_ctl w) /\
    ct_executing c = ct_executing (w_ctl w) /\ ct_voting c = None.
Proof.
  intros W Hv Hpl Hp Ht Hr. destruct (wired_components Out A w W) as (att & HC). pose proof (wi_of _ _ W) as Hen.
  assert (Same : exists p', oget (ct_proposals (with_voting (w_ctl w) None)) id = Some p' /\
      (forall i, i <> id -> oget (ct_proposals (with_voting (w_ctl w) None)) i = oget (ct_proposals (w_ctl w)) i) /\
      delayed_only (p_ends_at pl) p p' /\ (General = Council \/ gc_allow_early (ct_config (w_ctl w)) = false \/ en_type (w_enterprise w) = DaoMultisig -> p' = p))
    by (exists p; split; [exact Hp|]; split; [reflexivity|]; split; [left; reflexivity|reflexivity]).
  unfold reply_cast_vote. rewrite Hv. cbn [ok_or bind]. change (ct_config (with_voting (w_ctl w) None)) with (ct_config (w_ctl w)).
  change (ct_proposals (with_voting (w_ctl w) None)) with (ct_proposals (w_ctl w)).
  destruct (gc_allow_early (ct_config (w_ctl w))) eqn:Ea; cbn [negb]; [|eexists; split; [reflexivity|]; split; [exact Same|]; repeat split].
  assert (ED : co_dao_type (ctl_oracle_of Out A w) = Ok (en_type (w_enterprise w))).
  { cbn [co_dao_type ctl_oracle_of]. unfold enterprise_at. rewrite Hen, N.eqb_refl. reflexivity. }
  rewrite ED. cbn [bind]. destruct (dao_type_eqb (en_type (w_enterprise w)) DaoMultisig) eqn:Em; [eexists; split; [reflexivity|]; split; [exact Same|]; repeat split|].
  rewrite Hp. cbn [ok_or bind]. rewrite Ht. cbn [proposal_type_eqb].
  rewrite (general_total w att) by exact HC. cbn [bind]. rewrite (simulate_is w att id pl) by assumption. cbn [bind].
  destruct (exec_status_eqb _ old); [eexists; split; [reflexivity|]; split; [exact Same|]; repeat split|].
  assert (ET : ts_plus_seconds (e_time e) (gc_vote_duration (ct_config (w_ctl w)) / 10) = Ok (e_time e + gc_vote_duration (ct_config (w_ctl w)) / 10 * NANOS)).
  { unfold clock_has_room in Hr. change (10 ^ 9) with NANOS in Hr. change (2 ^ 64) with M64 in Hr. unfold ts_plus_seconds, ts_plus_nanos, u64_mul.
    assert (0 < M64) by reflexivity.
    rewrite N.mod_small by lia. unfold uint64_add. rewrite (proj2 (N.ltb_lt _ _) Hr). reflexivity. }
  rewrite ET. cbn [bind]. eexists. split; [reflexivity|]. split; [|repeat split].
  eexists. split; [apply oget_oset_eq|]. split; [intros i Hi; apply oget_oset_ne; congruence|].
  split; [right; eexists; split; [apply N.le_min_r|rewrite Ht; reflexivity]|].
  intros [K|[K|K]]; [discriminate|congruence|rewrite K in Em; discriminate].
Qed.

Lemma general_vote_runs n (w : world X) e u id o pl p : wired A w -> PollProofs.inv (w_gov w) -> oget (g_polls (w_gov w)) id = Some pl -> open_at pl (e_time e) ->
  oget (ct_proposals (w_ctl w)) id = Some p -> pi_type p = General -> clock_has_room w e ->
  u <> 0 -> restricted_by Out A w (a_enterprise A) u = Ok false -> vote_weight w General u <> 0 ->
  exists w', go Out A (S (S (S (S n)))) w e (JMsg u (voting A General id o)) = Ok (w', None) /\ counted A General w w' u id o (vote_weight w General u).
Proof.
  intros W I Hpl Ho Hp Ht Hc Hu Hr Hw. destruct (wired_components Out A w W) as (att & HC). pose proof (wi_of _ _ W) as Hen.
  set (x := vote_weight w General u) in *. set (st := exec_status_of (final_status pl (query_total_weight (members_of (w_member w)) Never))).
  change (voting A General id o) with (WasmExecute (a_controller A) (ToController (CCastVote id o)) []). rewrite go_call, HF. cbn [bind].
  set (m0 := WasmExecute (a_controller A) (ToController (CCastVote id o)) []).
  assert (E1 : handle Out A (S (S (S n))) (set_ext (note w u m0) (w_ext w)) e u (a_controller A) (ToController (CCastVote id o)) [] =
    Ok (set_ctl (note w u m0) (with_voting (w_ctl w) (Some (id, st))), [mk_sub (vote_order id o u x) (ReplySuccess 4)], None)).
  { unfold handle. rewrite N.eqb_refl. cbn [ctl_execute].
    change (ctl_oracle_of Out A (set_ext (note w u m0) (w_ext w))) with (ctl_oracle_of Out A w).
    change (w_ctl (set_ext (note w u m0) (w_ext w))) with (w_ctl w).
    unfold ctl_cast_vote, unrestricted.
    assert (ER : co_restricted (ctl_oracle_of Out A w) u = Ok false) by (cbn [co_restricted ctl_oracle_of]; rewrite Hen; exact Hr).
    rewrite ER. cbn [bind negb guard]. rewrite (general_weight w att u HC Hu). fold x. cbn [bind]. rewrite (proj2 (N.eqb_neq _ _) Hw). cbn [negb guard bind].
    rewrite Hp. cbn [ok_or bind]. rewrite Ht. cbn [proposal_type_eqb guard bind]. rewrite HC. cbn [bind].
    rewrite (general_total w att _ HC). cbn [bind]. rewrite (simulate_is w att id pl _ HC Hpl). reflexivity. }
  rewrite E1. cbn [bind]. set (w1 := set_ctl (note w u m0) (with_voting (w_ctl w) (Some (id, st)))).
  assert (W1 : wired A w1) by (destruct W as [a b c d f]; constructor; try assumption; unfold w1; cbn [w_gov set_ctl note]; unfold size in *; cbn [w_log set_ctl note length]; lia).
  assert (E2 := gov_counts n w1 e u id o x pl W1 I Hpl Ho Hu). fold (vote_order id o u x) in E2.
  set (w2 := set_gov (note w1 (a_controller A) (vote_order id o u x)) (cast_result (w_gov w1) id pl o u x)) in *.
  rewrite (go_success _ _ _ _ _ _ _ _ _ _ E2).
  set (pl2 := with_results pl (new_results pl (get_vote (w_gov w) u id) o x)).
  assert (W2 : wired A w2).
  { destruct W1 as [a b c d f]. constructor; try assumption. unfold w2. cbn [w_gov set_gov note w_log]. unfold size in *. cbn [w_log set_gov note length].
    change (g_count (cast_result (w_gov w1) id pl o u x)) with (g_count (w_gov w1)). lia. }
  destruct (reply_vote w2 e id st pl2 p W2 eq_refl) as (c & Ec & Hc' & F1 & F2 & F3 & F4 & F5 & F6 & F7 & F8); [apply oget_oset_eq|exact Hp|exact Ht|exact Hc|].
  unfold on_reply. rewrite N.eqb_refl. unfold ctl_reply. cbn [N.eqb Pos.eqb]. rewrite Ec. cbn [bind]. rewrite go_none. cbn [bind]. rewrite go_none. cbn [bind].
  eexists. split; [reflexivity|]. exact (voted_counted w General u id o x pl p c Hpl Hp Hc' F1 F2 F3 F4 F5 F6 F7 F8).
Qed.

Lemma council_vote_runs n (w : world X) e u id o pl p : wired A w -> PollProofs.inv (w_gov w) -> oget (g_polls (w_gov w)) id = Some pl -> open_at pl (e_time e) ->
  oget (ct_proposals (w_ctl w)) id = Some p -> pi_type p = Council -> ct_council (w_ctl w) <> None ->
  u <> 0 -> restricted_by Out A w (a_enterprise A) u = Ok false -> vote_weight w Council u <> 0 ->
  exists w', go Out A (S (S (S (S n)))) w e (JMsg u (voting A Council id o)) = Ok (w', None) /\ counted A Council w w' u id o (vote_weight w Council u).
Proof.
  intros W I Hpl Ho Hp Ht Hc Hu Hr Hw. destruct (wired_components Out A w W) as (att & HC). pose proof (wi_of _ _ W) as Hen.
  set (x := vote_weight w Council u) in *.
  change (voting A Council id o) with (WasmExecute (a_controller A) (ToController (CCastCouncilVote id o)) []). rewrite go_call, HF. cbn [bind].
  set (m0 := WasmExecute (a_controller A) (ToController (CCastCouncilVote id o)) []).
  assert (E1 : handle Out A (S (S (S n))) (set_ext (note w u m0) (w_ext w)) e u (a_controller A) (ToController (CCastCouncilVote id o)) [] =
    Ok (set_ctl (note w u m0) (w_ctl w), [plain (vote_order id o u x)], None)).
  { unfold handle. rewrite N.eqb_refl. cbn [ctl_execute].
    change (ctl_oracle_of Out A (set_ext (note w u m0) (w_ext w))) with (ctl_oracle_of Out A w).
    change (w_ctl (set_ext (note w u m0) (w_ext w))) with (w_ctl w).
    unfold ctl_cast_council_vote, unrestricted.
    assert (ER : co_restricted (ctl_oracle_of Out A w) u = Ok false) by (cbn [co_restricted ctl_oracle_of]; rewrite Hen; exact Hr).
    rewrite ER. cbn [bind negb guard]. destruct (ct_council (w_ctl w)) as [cc|] eqn:Ecc; [|congruence]. cbn [ok_or bind].
    rewrite (council_weight_is w att u HC Hu). fold x. cbn [bind]. rewrite (proj2 (N.eqb_neq _ _) Hw). cbn [negb guard bind].
    rewrite Hp. cbn [ok_or bind]. rewrite Ht. cbn [proposal_type_eqb guard bind]. rewrite HC. reflexivity. }
  rewrite E1. cbn [bind]. set (w1 := set_ctl (note w u m0) (w_ctl w)).
  assert (W1 : wired A w1) by (destruct W as [a b c d f]; constructor; try assumption; unfold w1; cbn [w_gov set_ctl note]; unfold size in *; cbn [w_log set_ctl note length]; lia).
  assert (E2 := gov_counts n w1 e u id o x pl W1 I Hpl Ho Hu). fold (vote_order id o u x) in E2.
  unfold plain. rewrite (go_plain_vote _ _ _ _ _ _ _ E2). cbn [bind].
  eexists. split; [reflexivity|].
  apply (voted_counted w Council u id o x pl p (w_ctl w) Hpl Hp); try reflexivity.
  exists p. split; [exact Hp|]. split; [reflexivity|]. split; [left; reflexivity|reflexivity].
Qed.

(** a vote that is accepted was due *)
Lemma vote_needs gas (w : world X) e t u id o r : wired A w -> PollProofs.inv (w_gov w) -> u <> 0 ->
  go Out A gas w e (JMsg u (voting A t id o)) = Ok r -> may_vote Out A w t (e_time e) u id.
Proof.
  intros W I Hu H. destruct (wired_components Out A w W) as (att & HC). pose proof (wi_of _ _ W) as Hen.
  destruct gas as [|gas]; [discriminate|]. unfold voting in H. rewrite go_call, HF in H. cbn [bind] in H.
  set (m := match t with General => CCastVote id o | Council => CCastCouncilVote id o end) in *.
  set (m0 := WasmExecute (a_controller A) (ToController m) []) in *.
  apply bind_ok in H. destruct H as (((w1 & subs) & d) & H1 & H). apply bind_ok in H. destruct H as ((w2 & d2) & H2 & _).
  unfold handle in H1. rewrite N.eqb_refl in H1.
  change (ctl_oracle_of Out A (set_ext (note w u m0) (w_ext w))) with (ctl_oracle_of Out A w) in H1.
  change (w_ctl (set_ext (note w u m0) (w_ext w))) with (w_ctl w) in H1.
  apply bind_ok in H1. destruct H1 as ((c & subs') & H1 & E). inversion E; subst w1 subs' d. clear E.
  assert (K : restricted_by Out A w (a_enterprise A) u = Ok false /\ vote_weight w t u <> 0 /\
    (exists p, oget (ct_proposals (w_ctl w)) id = Some p /\ pi_type p = t) /\ (t = Council -> ct_council (w_ctl w) <> None) /\
    exists r, subs = [mk_sub (vote_order id o u (vote_weight w t u)) r] /\ (r = ReplyNever \/ exists i, r = ReplySuccess i)).
  { assert (ER : co_restricted (ctl_oracle_of Out A w) u = restricted_by Out A w (a_enterprise A) u) by (cbn [co_restricted ctl_oracle_of]; rewrite Hen; reflexivity).
    unfold m in H1. destruct t; cbn [ctl_execute] in H1; [unfold ctl_cast_vote in H1|unfold ctl_cast_council_vote in H1];
      unfold unrestricted in H1; rewrite ER in H1.
    - destruct (restricted_by Out A w (a_enterprise A) u) as [[|]|]; cbn [bind negb guard] in H1; try discriminate. split; [reflexivity|].
      rewrite (general_weight w att u HC Hu) in H1. cbn [bind] in H1.
      destruct (vote_weight w General u =? 0) eqn:Ex; cbn [bind negb guard] in H1; [discriminate|]. split; [lia|].
      destruct (oget (ct_proposals (w_ctl w)) id) as [p|] eqn:Ep; cbn [ok_or bind] in H1; [|discriminate].
      destruct (pi_type p) eqn:Et; cbn [proposal_type_eqb guard bind] in H1; [|discriminate]. split; [eauto|]. split; [discriminate|].
      rewrite HC in H1. cbn [bind] in H1. apply bind_ok in H1. destruct H1 as (tot & _ & H1). apply bind_ok in H1. destruct H1 as ((st & en) & _ & H1).
      inversion H1. eexists. split; [reflexivity|]. right. eauto.
    - destruct (restricted_by Out A w (a_enterprise A) u) as [[|]|]; cbn [bind negb guard] in H1; try discriminate. split; [reflexivity|].
      destruct (ct_council (w_ctl w)) as [cc|] eqn:Ec; cbn [ok_or bind] in H1; [|discriminate].
      rewrite (council_weight_is w att u HC Hu) in H1. cbn [bind] in H1.
      destruct (vote_weight w Council u =? 0) eqn:Ex; cbn [bind negb guard] in H1; [discriminate|]. split; [lia|].
      destruct (oget (ct_proposals (w_ctl w)) id) as [p|] eqn:Ep; cbn [ok_or bind] in H1; [|discriminate].
      destruct (pi_type p) eqn:Et; cbn [proposal_type_eqb guard bind] in H1; [discriminate|]. split; [eauto|]. split; [intros _; discriminate|].
      rewrite HC in H1. cbn [bind] in H1. inversion H1. eexists. split; [reflexivity|]. left. reflexivity. }
  destruct K as (K1 & K2 & (p & Hp & Ht) & K4 & r' & -> & Hr').
  assert (Hpl : exists pl, oget (g_polls (w_gov w)) id = Some pl /\ open_at pl (e_time e)).
  { apply go_cons in H2. destruct H2 as (n & -> & [(w3 & d3 & H2 & _)|(i & w3 & more & w4 & d4 & _ & F & _)]).
    - cbn [sm_msg] in H2. unfold vote_order in H2. destruct n as [|n]; [discriminate|]. rewrite go_call, HF in H2. cbn [bind] in H2.
      apply bind_ok in H2. destruct H2 as (((w4 & subs) & d) & H2 & _). unfold handle in H2.
      rewrite (proj2 (N.eqb_neq _ _)) in H2 by (apply gov_not_ctl; exact HA). rewrite N.eqb_refl in H2.
      apply bind_ok in H2. destruct H2 as ((g & dg) & H2 & _). unfold gov_execute in H2. apply bind_ok in H2. destruct H2 as (_ & _ & H2).
      apply bind_ok in H2. destruct H2 as (g' & H2 & _). apply cast_vote_ok in H2. destruct H2 as (pl & _ & _ & _ & Hpl & Ho & _).
      exists pl. split; assumption.
    - destruct Hr' as [->|(j & ->)]; discriminate. }
  destruct Hpl as (pl & Hpl & (tt0 & Hst) & Hb & He).
  unfold may_vote. split; [exact Hu|]. split; [exact K1|]. split; [exact K2|]. split; [|exact K4].
  exists p, pl, tt0. split; [exact Hp|]. split; [exact Ht|]. split; [exact Hpl|]. split; [exact Hst|].
  destruct I as (Ip & _). destruct (Ip _ _ Hpl) as (_ & _ & I3 & _). rewrite (I3 _ Hst). exact He.
Qed.

Lemma vote_runs n (w : world X) e t u id o : wired A w -> PollProofs.inv (w_gov w) -> started_by (w_gov w) (e_time e) ->
  (t = General -> clock_has_room w e) -> may_vote Out A w t (e_time e) u id ->
  exists w', go Out A (S (S (S (S n)))) w e (JMsg u (voting A t id o)) = Ok (w', None) /\ counted A t w w' u id o (vote_weight w t u).
Proof.
  intros W I S R (Hu & Hr & Hw & (p & pl & ends & Hp & Ht & Hpl & Hst & Hlt) & Hc).
  pose proof (open_is_open _ _ _ _ I Hpl Hst _ S Hlt) as Ho.
  destruct t.
  - apply (general_vote_runs n w e u id o pl p); auto.
  - apply (council_vote_runs n w e u id o pl p); auto.
Qed.
End V.

(** A vote succeeds exactly when the member is not restricted, has weight and the poll is open. *)
Lemma voting_exact X (Out : outside X) A w0 ts w e gas t u id o :
  new_dao A w0 -> free_calls Out -> w = world_run Out A w0 ts -> timely 0 ts -> lasting w -> calm A w -> last_time ts <= e_time e ->
  u <> 0 -> (4 <= gas)%nat -> (t = General -> clock_has_room w e) ->
  (exists r, go Out A gas w e (JMsg u (voting A t id o)) = Ok r) <-> may_vote Out A w t (e_time e) u id.
Proof.
  intros N F -> T L C Hl Hu Hg R. destruct (run_facts X Out A w0 ts N T L C) as (K & _).
  assert (S : started_by (w_gov (world_run Out A w0 ts)) (e_time e)) by (intros i q Hq; pose proof (c_started _ _ _ K i q Hq); lia).
  split.
  - intros (r & H). exact (vote_needs Out A (nd_addrs _ _ N) F gas _ e t u id o r (c_wired _ _ _ K) (c_ginv _ _ _ K) Hu H).
  - intros M. do 4 (destruct gas as [|gas]; [lia|]).
    destruct (vote_runs Out A (nd_addrs _ _ N) F gas _ e t u id o (c_wired _ _ _ K) (c_ginv _ _ _ K) S R M) as (w' & H & _). eauto.
Qed.

(** ... and then the vote is counted with the member's weight, and nothing else changes. *)
Lemma voting_counts X (Out : outside X) A w0 ts w e gas t u id o w' d :
  new_dao A w0 -> free_calls Out -> w = world_run Out A w0 ts -> timely 0 ts -> lasting w -> calm A w -> last_time ts <= e_time e ->
  u <> 0 -> (4 <= gas)%nat -> (t = General -> clock_has_room w e) ->
  go Out A gas w e (JMsg u (voting A t id o)) = Ok (w', d) -> d = None /\ counted A t w w' u id o (vote_weight w t u).
Proof.
  intros N F -> T L C Hl Hu Hg R H. destruct (run_facts X Out A w0 ts N T L C) as (K & _).
  assert (S : started_by (w_gov (world_run Out A w0 ts)) (e_time e)) by (intros i q Hq; pose proof (c_started _ _ _ K i q Hq); lia).
  pose proof (vote_needs Out A (nd_addrs _ _ N) F gas _ e t u id o _ (c_wired _ _ _ K) (c_ginv _ _ _ K) Hu H) as M.
  do 4 (destruct gas as [|gas]; [lia|]).
  destruct (vote_runs Out A (nd_addrs _ _ N) F gas _ e t u id o (c_wired _ _ _ K) (c_ginv _ _ _ K) S R M) as (w2 & H2 & H3).
  rewrite H in H2. inversion H2; subst. split; [reflexivity|exact H3].
Qed.
