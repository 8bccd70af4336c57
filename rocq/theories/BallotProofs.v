(** Recorded votes are the voters' own last ballots. *)
From Verif Require Import Base OMap OMapLemmas Assets PollModel PollSpec PollProofs PollFacts FundsModel MemberModel MemberSpec Msgs
  ControllerModel ControllerSpec ControllerProofs ControllerFacts TreasuryModel EnterpriseModel OutpostsModel WorldModel WorldSpec WorldProofs WorldRun
  PurseSpec BallotSpec.

(** * The governance contract *)

Definition tidy (g : gov) : Prop := forall u id v, get_vote g u id = Some v -> v_poll v = id /\ v_outcome v < 4.
Definition choices (g : gov) (u id : N) : option N := option_map v_outcome (get_vote g u id).

Lemma cast_choices g e id o voter amount g' : tidy g -> cast_vote g e id o voter amount = Ok g' ->
  tidy g' /\ forall u i, choices g' u i = if (voter =? u) && (id =? i) then Some (outcome_u8 o) else choices g u i.
Proof.
  intros HT H. apply cast_vote_ok in H. destruct H as (p & _ & _ & _ & _ & _ & _ & ->). unfold cast_result. split.
  - intros u i v Hv. rewrite get_vote_set_poll, get_set_vote in Hv. destruct ((voter =? u) && (id =? i)) eqn:E; [|eapply HT; exact Hv].
    injection Hv as <-. apply andb_true_iff in E. destruct E as (_ & E). apply N.eqb_eq in E. cbn [v_poll v_outcome]. split; [exact E|]. destruct o; reflexivity.
  - intros u i. unfold choices. rewrite get_vote_set_poll, get_set_vote. destruct ((voter =? u) && (id =? i)); reflexivity.
Qed.

Lemma outcome_back k o : outcome_of_u8 k = Ok o -> outcome_u8 o = k.
Proof.
  unfold outcome_of_u8. intros H. destruct k as [|[p|p|]]; try (injection H as <-; reflexivity); destruct p; try discriminate; injection H as <-; reflexivity.
Qed.

Lemma voter_votes g voter vs v : tidy g -> query_voter g voter None None = Ok vs -> In v vs -> get_vote g voter (v_poll v) = Some v.
Proof.
  unfold query_voter. intros HT H Hi. apply bind_ok in H. destruct H as (u & Hu & H). unfold addr_validate in Hu. destruct (voter =? 0); [discriminate|]. injection Hu as <-.
  injection H as <-. apply in_map_iff in Hi. destruct Hi as ((k, v') & E & Hi). cbn in E. subst v'.
  assert (G : get_vote g voter k = Some v).
  { unfold get_vote. apply oget_In. unfold orange in Hi. cbn in Hi. exact Hi. }
  destruct (HT _ _ _ G) as (-> & _). exact G.
Qed.

Lemma update_choices g e voter amount g' : tidy g -> update_votes g e voter amount = Ok g' -> tidy g' /\ forall u i, choices g' u i = choices g u i.
Proof.
  intros HT H. unfold update_votes in H. apply bind_ok in H. destruct H as (vs & Hq & H).
  assert (HV : forall v, In v vs -> get_vote g voter (v_poll v) = Some v) by (intros v; apply voter_votes; assumption). clear Hq.
  assert (G : forall l g1 g2, (forall v, In v l -> In v vs) -> tidy g1 -> (forall u i, choices g1 u i = choices g u i) ->
    fold_res (update_vote e voter amount) g1 l = Ok g2 -> tidy g2 /\ forall u i, choices g2 u i = choices g u i).
  { induction l as [|v l IH]; intros g1 g2 Hl T1 C1 H1; cbn [fold_res] in H1; [inversion H1; subst; auto|].
    apply bind_ok in H1. destruct H1 as (g3 & H3 & H1). revert H1. apply IH; [intros; apply Hl; right; assumption| |]; clear IH.
    - unfold update_vote in H3. apply bind_ok in H3. destruct H3 as (p & _ & H3). destruct (p_status p) as [ends| |]; try (inversion H3; subst; assumption).
      destruct (e_time e <? ends); [|inversion H3; subst; assumption]. apply bind_ok in H3. destruct H3 as (o & _ & H3). eapply cast_choices; eassumption.
    - intros u i. unfold update_vote in H3. apply bind_ok in H3. destruct H3 as (p & _ & H3). destruct (p_status p) as [ends| |]; try (inversion H3; subst; apply C1).
      destruct (e_time e <? ends); [|inversion H3; subst; apply C1]. apply bind_ok in H3. destruct H3 as (o & Ho & H3).
      destruct (cast_choices _ _ _ _ _ _ _ T1 H3) as (_ & C2). rewrite C2. destruct ((voter =? u) && (v_poll v =? i)) eqn:E; [|apply C1].
      apply andb_true_iff in E. destruct E as (E1 & E2). apply N.eqb_eq in E1, E2. subst u i. unfold choices. rewrite (HV v (Hl v (or_introl eq_refl))).
      cbn [option_map]. rewrite (outcome_back _ _ Ho). reflexivity. }
  apply (G vs g g'); auto.
Qed.

Lemma updates_choices e changes : forall g g', tidy g -> updates e g changes = Ok g' -> tidy g' /\ forall u i, choices g' u i = choices g u i.
Proof.
  induction changes as [|c l IH]; intros g g' HT H; unfold updates in *; cbn [fold_res] in H; [inversion H; subst; auto|].
  apply bind_ok in H. destruct H as (g1 & H1 & H). destruct (update_choices _ _ _ _ _ HT H1) as (T1 & C1).
  destruct (IH _ _ T1 H) as (T2 & C2). split; [exact T2|]. intros u i. rewrite C2. apply C1.
Qed.

Lemma same_votes g g' : g_votes g' = g_votes g -> (tidy g -> tidy g') /\ forall u i, choices g' u i = choices g u i.
Proof. intros E. unfold tidy, choices, get_vote, votes_of. rewrite E. auto. Qed.

Lemma create_votes g e c g' id : create_poll g e c = Ok (g', id) -> g_votes g' = g_votes g.
Proof. unfold create_poll. intros H. repeat (apply bind_ok in H; destruct H as (? & _ & H)). inversion H; reflexivity. Qed.
Lemma end_votes g e id mx a b g' : end_poll g e id mx a b = Ok g' -> g_votes g' = g_votes g.
Proof. intros H. apply end_poll_ok in H. destruct H as (p & _ & -> & _). reflexivity. Qed.

(** * The log *)

Lemma last_app A l l' u id : last_ballot A (l ++ l') u id = match last_ballot A l u id with Some o => Some o | None => last_ballot A l' u id end.
Proof. induction l as [|x l IH]; [reflexivity|]. cbn [app last_ballot]. destruct (ballot A u id x); [reflexivity|exact IH]. Qed.

Section W.
Context {X : Type}.
Variable Out : outside X.
Variable A : addrs.
Hypothesis HA : NoDup (dao_addrs A).

Local Notation world := (world X).
Local Notation go := (go Out A).

Definition counted_so (w : world) : Prop := tidy (w_gov w) /\ forall u id, chosen w u id = option_map outcome_u8 (last_ballot A (w_log w) u id).

Definition noted (w : world) (s : addr) (m : controller_msg) (coins : list coin) (L : list (addr * cosmos_msg)) : Prop :=
  w_log w = (s, WasmExecute (a_controller A) (ToController m) coins) :: L.

Lemma gov_ballots l u id : last_ballot A (map (fun gm => (a_controller A, gov_msg_of A gm)) l) u id = None.
Proof. induction l as [|x l IH]; [reflexivity|]. exact IH. Qed.

Lemma stepped_ballots (w w1 : world) l u id : stepped A w w1 l -> last_ballot A (w_log w1) u id = last_ballot A (w_log w) u id.
Proof. intros (_ & _ & _ & _ & E). rewrite E, last_app, gov_ballots. reflexivity. Qed.

Lemma turn_ballots e (w : world) s m coins L (w1 : world) subs1 : noted w s m coins L -> tidy (w_gov w) ->
  (forall u id, chosen w u id = option_map outcome_u8 (last_ballot A L u id)) -> turn Out A w e s m w1 subs1 -> counted_so w1.
Proof.
  intros HN HT HC T.
  assert (SAME : forall l, stepped A w w1 l -> (tidy (w_gov w) -> tidy (w_gov w1)) /\ (forall u i, choices (w_gov w1) u i = choices (w_gov w) u i) ->
    (forall u id, ballot A u id (s, WasmExecute (a_controller A) (ToController m) coins) = None) -> counted_so w1).
  { intros l S (T1 & C1) B. split; [apply T1; exact HT|]. intros u id. rewrite (stepped_ballots _ _ _ _ _ S), HN. cbn [last_ballot]. rewrite B, <- HC. apply C1. }
  assert (VOTE : forall id out amount g l, stepped A w w1 l -> cast_vote (w_gov w) e id out s amount = Ok g -> w_gov w1 = g ->
    (m = CCastVote id out \/ m = CCastCouncilVote id out) -> counted_so w1).
  { intros id out amount g l S Hc Eg Hm. destruct (cast_choices _ _ _ _ _ _ _ HT Hc) as (T1 & C1). split; [rewrite Eg; exact T1|].
    intros u i. rewrite (stepped_ballots _ _ _ _ _ S), HN. change (chosen w1 u i) with (choices (w_gov w1) u i). rewrite Eg, C1. cbn [last_ballot].
    assert (B : ballot A u i (s, WasmExecute (a_controller A) (ToController m) coins) = if (s =? u) && (id =? i) then Some out else None).
    { unfold ballot. cbn [fst snd]. destruct Hm as [->| ->]; rewrite N.eqb_refl, andb_true_r; reflexivity. }
    rewrite B. destruct ((s =? u) && (id =? i)); [reflexivity|]. apply HC. }
  destruct T.
  - eapply SAME; [eassumption|rewrite H7; apply same_votes; eapply create_votes; eassumption|]. intros u i. unfold ballot. cbn [snd]. destruct m; try reflexivity; destruct H.
  - eapply VOTE; try eassumption. left; reflexivity.
  - eapply VOTE; try eassumption. right; reflexivity.
  - eapply SAME; [eassumption|rewrite H3; apply same_votes; eapply end_votes; eassumption|reflexivity].
  - eapply SAME; [eassumption| |reflexivity]. rewrite H2. split; [intros Q|]; eapply updates_choices; eassumption.
  - eapply SAME; [eassumption|rewrite H2; split; auto|reflexivity].
  - eapply SAME; [eassumption|rewrite H1; split; auto|]. intros u i. unfold ballot. cbn [snd]. destruct H as [->|(ch & -> & _)]; reflexivity.
Qed.

(** * All deliveries *)

Definition honest (j : job) : Prop :=
  match j with
  | JMsg s m => s = a_controller A -> forges A m = false
  | JSubs self subs => self = a_controller A -> fine subs /\ Forall (fun x => forges A (sm_msg x) = false) subs
  end.

Lemma safe_honest m : safe A m -> forges A m = false.
Proof.
  destruct m as [|contract wm funds| | | | |]; try reflexivity. destruct wm as [|gm| | | | | | | | | | |]; try reflexivity. destruct gm; try reflexivity. cbn. intros (_ & H & _).
  destruct (N.eqb_spec contract (a_governance A)) as [E|]; [|reflexivity]. destruct (H E _ eq_refl).
Qed.

Lemma turn_honest e (w : world) s m w1 subs1 : turn Out A w e s m w1 subs1 -> 
  (forall id p c, m = CExecuteActions id -> oget (ct_proposals (w_ctl w)) id = Some p -> In c (customs p) -> forges A c = false) ->
  Forall (fun x => forges A (sm_msg x) = false) subs1.
Proof.
  intros T HP. destruct T.
  - eapply Forall_impl; [|exact H4]. intros a (to & t & ->). reflexivity.
  - constructor.
  - constructor.
  - apply Forall_app. split; [destruct (p_status pl); constructor; [reflexivity|constructor]|].
    eapply Forall_impl; [|exact H8]. intros a (_ & Ha & _). apply safe_honest. exact Ha.
  - constructor; [reflexivity|constructor].
  - eapply Forall_impl; [|exact H4]. cbv beta. intros a (_ & [Hin|((Hs & _) & _)]); [eauto|apply safe_honest; exact Hs].
  - eapply Forall_impl; [|exact H3]. cbv beta. intros a (_ & (Hs & _) & _). apply safe_honest. exact Hs.
Qed.

Lemma runs_in (w : world) s id coins : In (s, WasmExecute (a_controller A) (ToController (CExecuteActions id)) coins) (w_log w) -> In id (runs A w).
Proof. intros H. unfold runs. apply in_flat_map. eexists. split; [exact H|]. cbn [snd]. rewrite N.eqb_refl. left. reflexivity. Qed.

Lemma unforged_back (w w' : world) : ahead w w' -> unforged A w' -> unforged A w.
Proof.
  intros (K & l & E) H id p m Hr Hp Hm. destruct K as (_ & _ & K). destruct (K _ _ Hp) as (p' & Hp' & Hc & _).
  apply (H id p' m); [|exact Hp'|rewrite (customs_content _ _ Hc); exact Hm]. unfold runs in *. rewrite E, flat_map_app. apply in_or_app. right. exact Hr.
Qed.

Lemma quiet_so (w w1 : world) : quiet A w w1 -> counted_so w -> counted_so w1.
Proof. intros (_ & Q2 & _ & Q4 & _) (H1 & H2). unfold counted_so, chosen. rewrite Q2, Q4. split; assumption. Qed.

Lemma note_so (w : world) s m x : counted_so w -> (forall u id, ballot A u id (s, m) = None) -> counted_so (set_ext (note w s m) x).
Proof. intros (H1 & H2) B. split; [exact H1|]. intros u id. cbn [set_ext note w_log last_ballot]. rewrite B. apply H2. Qed.

Lemma go_ballots n : forall w e j w' d, go n w e j = Ok (w', d) -> wired A w -> honest j -> size w' < M64 -> unforged A w' -> counted_so w -> counted_so w'.
Proof.
  induction n as [n IH] using lt_wf_ind. intros w e j w' d H HW HF HS HU CT.
  assert (HF' : match j with JSubs self subs => self = a_controller A -> fine subs | JMsg _ _ => True end).
  { destruct j; [exact I|]. intros E. apply (HF E). }
  destruct j as [s m|self [|x rest]].
  - destruct n as [|n]; [discriminate|].
    apply go_msg in H. destruct H as [(to & wm & coins & x & w1 & subs & d' & -> & _ & Hh & Hg)|(NE & Ho)].
    + destruct (start_wired A w s (WasmExecute to wm coins) x HW) as (W0 & _ & S0).
      assert (LOG0 : w_log (set_ext (note w s (WasmExecute to wm coins)) x) = (s, WasmExecute to wm coins) :: w_log w) by reflexivity.
      assert (EG : w_gov (set_ext (note w s (WasmExecute to wm coins)) x) = w_gov w) by reflexivity.
      assert (NX : to <> a_controller A \/ (forall cm, wm <> ToController cm) -> counted_so (set_ext (note w s (WasmExecute to wm coins)) x)).
      { intros NX. apply note_so; [exact CT|]. intros u id. unfold ballot. cbn [fst snd]. destruct wm; try reflexivity.
        destruct NX as [NX|NX]; [|destruct (NX m eq_refl)]. apply N.eqb_neq in NX. destruct m; try reflexivity; rewrite NX, andb_false_r; reflexivity. }
      set (w0 := set_ext (note w s (WasmExecute to wm coins)) x) in *.
      pose proof (go_size _ _ _ _ _ _ _ _ Hg) as GS.
      apply (handle_cases Out A) in Hh. destruct Hh as [(-> & cm & s' & -> & He & -> & _)|[(-> & gm & g & -> & He & -> & ->)|[(-> & mm & s' & outs & -> & He & -> & -> & _)|(N1 & N2 & N3 & Q)]]].
      * destruct (ctl_turn Out A HA _ _ _ _ _ _ _ _ _ _ W0 He Hg) as (n' & w1 & subs1 & L & T & d2 & G).
        pose proof (go_size _ _ _ _ _ _ _ _ G) as GS1.
        assert (CT1 : counted_so w1). { eapply turn_ballots; [exact LOG0|rewrite EG; apply CT| |exact T]. intros u id. unfold chosen. rewrite EG. apply CT. }
        assert (HS1 : size w1 < M64) by lia.
        destruct (turn_wired Out A _ _ _ _ _ _ W0 HS1 T) as (W1 & K1 & F1).
        assert (AH1 : ahead w1 w'). { split; [|eapply go_log; exact G]. eapply layer1; [exact HA|exact G|exact W1|intros _; exact F1|exact HS]. }
        assert (AH0 : ahead w0 w'). { eapply ahead_trans; [|exact AH1]. eapply turn_ahead; [exact W0|exact HS1|exact T]. }
        assert (J1 : honest (JSubs (a_controller A) subs1)).
        { intros _. split; [exact F1|]. eapply turn_honest; [exact T|]. intros id p c -> Hp Hc.
          eapply (unforged_back _ _ AH0 HU); [|exact Hp|exact Hc]. eapply runs_in. rewrite LOG0. left. reflexivity. }
        exact (IH n' ltac:(lia) _ _ _ _ _ G W1 J1 HS HU CT1).
      * apply go_nil in Hg. destruct Hg as [-> _]. specialize (NX (or_introl (gov_not_ctl A HA))).
        apply gov_execute_ok in He. destruct He as (EA & He). rewrite (wi_admin _ _ W0) in EA. specialize (HF EA).
        destruct NX as (T0 & C0). unfold counted_so, chosen. cbn [set_gov w_gov w_log].
        assert (Q : (tidy (w_gov w0) -> tidy g) /\ forall u i, choices g u i = choices (w_gov w0) u i).
        { destruct gm; cbn [forges] in HF; try (rewrite N.eqb_refl in HF; discriminate).
          - destruct He as (id & He & _). apply same_votes. eapply create_votes; exact He.
          - destruct He as (He & _). split; [intros Q|]; eapply update_choices; eassumption.
          - destruct He as (He & _). apply same_votes. eapply end_votes; exact He. }
        destruct Q as (Q1 & Q2). split; [apply Q1; exact T0|]. intros u id. change (choices g u id = option_map outcome_u8 (last_ballot A (w_log w0) u id)). rewrite Q2. apply C0.
      * destruct (member_wired A w0 s' W0) as (W1 & K1). specialize (NX (or_introl (member_not_ctl A HA))).
        exact (IH n ltac:(lia) _ _ _ _ _ Hg W1 (fun E => False_ind _ (member_not_ctl A HA E)) HS HU NX).
      * destruct (quiet_wired A _ _ Q W0) as (W1 & K1). specialize (NX (or_introl N1)).
        exact (IH n ltac:(lia) _ _ _ _ _ Hg W1 (fun E => False_ind _ (N1 E)) HS HU (quiet_so _ _ Q NX)).
    + apply (other_quiet Out A) in Ho. apply (quiet_so _ _ Ho). change (note w s m) with (set_ext (note w s m) (w_ext w)).
      apply note_so; [exact CT|]. intros u id. unfold ballot. cbn [snd]. destruct m; try reflexivity. destruct (NE _ _ _ eq_refl).
  - apply go_nil in H. destruct H as [-> _]. exact CT.
  - apply go_cons in H. destruct H as (n' & -> & H).
    assert (HR0 : honest (JSubs self rest)).
    { intros E. destruct (HF E) as (F1 & F2). split; eapply Forall_inv_tail; eassumption. }
    assert (HM0 : honest (JMsg self (sm_msg x))). { intros E. destruct (HF E) as (_ & F2). exact (Forall_inv F2). }
    assert (BACK : forall (wc wd : world) dd, wired A wc -> go n' wc e (JSubs self rest) = Ok (wd, dd) -> size wd < M64 -> unforged A wd -> unforged A wc).
    { intros wc wd dd Wc G Sd Ud. eapply unforged_back; [|exact Ud]. split; [|eapply go_log; exact G].
      eapply layer1; [exact HA|exact G|exact Wc|intros E; apply (HR0 E)|exact Sd]. }
    assert (HR : forall wa id r wb more wc dc wd dd, sm_reply x = ReplySuccess id \/ sm_reply x = ReplyAlways id ->
      wired A wa -> counted_so wa -> on_reply Out A wa e self id r = Ok (wb, more) -> go n' wb e (JSubs self more) = Ok (wc, dc) ->
      go n' wc e (JSubs self rest) = Ok (wd, dd) -> size wd < M64 -> unforged A wd -> counted_so wd).
    { intros wa id r wb more wc dc wd dd HI Wa Ka Hr Hg1 Hg2 Sd Ud.
      pose proof (go_size _ _ _ _ _ _ _ _ Hg2) as S2.
      assert (Wb : wired A wb /\ counted_so wb /\ honest (JSubs self more)).
      { apply (reply_cases Out A) in Hr. destruct Hr as [(-> & s' & Hr & ->)|(N & Q)].
        - assert (id = 3) as ->. { specialize (HF' eq_refl). inversion HF' as [|? ? F1 F2]; subst. destruct HI as [E|E], F1 as [F|F]; congruence. }
          apply reply_3 in Hr. destruct Hr as [-> ->]. rewrite set_ctl_same. split; [exact Wa|]. split; [exact Ka|]. intros _; split; constructor.
        - split; [apply (quiet_wired A _ _ Q Wa)|]. split; [exact (quiet_so _ _ Q Ka)|]. intros E. destruct (N E). }
      destruct Wb as (Wb & Kb & Fb).
      destruct (layer1 Out A HA _ _ _ _ _ _ Hg1 Wb (fun E => proj1 (Fb E)) ltac:(lia)) as (Wc & _).
      pose proof (IH n' ltac:(lia) _ _ _ _ _ Hg1 Wb Fb ltac:(lia) (BACK _ _ _ Wc Hg2 Sd Ud) Kb) as Kc.
      exact (IH n' ltac:(lia) _ _ _ _ _ Hg2 Wc HR0 Sd Ud Kc). }
    assert (FIRST : forall (w1 : world) d1, go n' w e (JMsg self (sm_msg x)) = Ok (w1, d1) -> size w1 < M64 -> unforged A w1 -> wired A w1 /\ counted_so w1).
    { intros w1 d1 H1 S1 U1. destruct (layer1 Out A HA _ _ _ _ _ _ H1 HW I S1) as (W1 & _). split; [exact W1|].
      exact (IH n' ltac:(lia) _ _ _ _ _ H1 HW HM0 S1 U1 CT). }
    destruct H as [(w1 & d1 & H1 & [(_ & H2)|(id & w2 & more & w3 & d3 & E & H2 & H3 & H4)])|(id & w2 & more & w3 & d3 & _ & E & H2 & H3 & H4)].
    + pose proof (go_size _ _ _ _ _ _ _ _ H2). destruct (layer1 Out A HA _ _ _ _ _ _ H1 HW I ltac:(lia)) as (W1 & _).
      destruct (FIRST _ _ H1 ltac:(lia) (BACK _ _ _ W1 H2 HS HU)) as (_ & K1).
      exact (IH n' ltac:(lia) _ _ _ _ _ H2 W1 HR0 HS HU K1).
    + assert (S1 : size w1 < M64).
      { pose proof (go_size _ _ _ _ _ _ _ _ H3). pose proof (go_size _ _ _ _ _ _ _ _ H4). apply (reply_log Out A) in H2. unfold size in *. rewrite H2 in *. lia. }
      destruct (layer1 Out A HA _ _ _ _ _ _ H1 HW I S1) as (W1 & _).
      assert (AH1 : ahead w1 w').
      { assert (Q : wired A w2 /\ (self = a_controller A -> fine more) /\ kept w1 w2).
        { apply (reply_cases Out A) in H2. destruct H2 as [(-> & s' & Hr & ->)|(N & Q)].
          - assert (id = 3) as ->. { specialize (HF' eq_refl). inversion HF' as [|? ? F1 F2]; subst. destruct E as [E|E], F1 as [F|F]; congruence. }
            apply reply_3 in Hr. destruct Hr as [-> ->]. rewrite set_ctl_same. split; [exact W1|]. split; [intros _; constructor|apply kept_refl].
          - destruct (quiet_wired A _ _ Q W1) as (Q1 & Q2). split; [exact Q1|]. split; [intros E1; destruct (N E1)|exact Q2]. }
        destruct Q as (W2 & F2 & K2).
        pose proof (go_size _ _ _ _ _ _ _ _ H3) as S3. pose proof (go_size _ _ _ _ _ _ _ _ H4) as S4.
        destruct (layer1 Out A HA _ _ _ _ _ _ H3 W2 F2 ltac:(lia)) as (W3 & K3).
        assert (A3 : ahead w2 w3). { split; [exact K3|eapply go_log; exact H3]. }
        assert (A4 : ahead w3 w'). { split; [|eapply go_log; exact H4]. eapply layer1; [exact HA|exact H4|exact W3|intros E1; apply (HR0 E1)|exact HS]. }
        apply (reply_log Out A) in H2. eapply ahead_trans; [|eapply ahead_trans; [exact A3|exact A4]]. split; [exact K2|]. exists []. rewrite H2. reflexivity. }
      destruct (FIRST _ _ H1 S1 (unforged_back _ _ AH1 HU)) as (_ & K1).
      eapply HR; [exact E|exact W1|exact K1|exact H2|exact H3|exact H4|exact HS|exact HU].
    + eapply HR; [right; exact E|exact HW|exact CT|exact H2|exact H3|exact H4|exact HS|exact HU].
Qed.

Lemma run_ballots ts : forall w, wired A w -> counted_so w -> size (world_run Out A w ts) < M64 -> unforged A (world_run Out A w ts) ->
  counted_so (world_run Out A w ts).
Proof.
  induction ts as [|t ts IH]; intros w W C S U; [exact C|].
  change (world_run Out A w (t :: ts)) with (world_run Out A (world_step Out A w t) ts) in *.
  pose proof (run_size Out A ts (world_step Out A w t)) as S1.
  destruct (step_cases Out A w t) as [E|(d & Hd & H)]; [rewrite E in *; apply IH; assumption|].
  assert (W1 : wired A (world_step Out A w t)) by (eapply layer1; [exact HA|exact H|exact W|exact I|lia]).
  destruct (run_ahead Out A HA ts _ W1 S) as (_ & A2 & _).
  apply IH; try assumption. eapply go_ballots; [exact H|exact W| |lia|eapply unforged_back; eassumption|exact C].
  intros E. destruct (dao_signer A _ Hd) as (N1 & _). contradiction.
Qed.

End W.
