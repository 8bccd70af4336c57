(** Facts about whole histories of a DAO, as needed for the property file. *)
From Coq Require Import Permutation.
From Verif Require Import Base OMap OMapLemmas Assets PollModel PollSpec PollProofs PollFacts FundsModel MemberModel MemberSpec
  MemberProofs MemberFacts Msgs ControllerModel ControllerSpec ControllerProofs ControllerFacts TreasuryModel EnterpriseModel
  EnterpriseSpec EnterpriseFacts OutpostsModel WorldModel WorldSpec WorldMember WorldProofs WorldRun.

(** * Executed at most once *)

Lemma executed_once X (Out : outside X) A w0 ts id :
  new_dao A w0 -> lasting (world_run Out A w0 ts) ->
  executions A (world_run Out A w0 ts) id =
    match oget (ct_proposals (w_ctl (world_run Out A w0 ts))) id with
    | Some p => if is_some (pi_executed_at p) then 1 else 0
    | None => 0
    end.
Proof.
  intros N (_ & L). destruct (run_ahead Out A (nd_addrs _ _ N) ts w0 (new_wired _ _ N) L) as (_ & _ & C).
  exact (C (new_counted _ _ N) id).
Qed.

Lemma record_kept X (Out : outside X) A w0 ts later id p :
  new_dao A w0 -> lasting (world_run Out A w0 (ts ++ later)) ->
  oget (ct_proposals (w_ctl (world_run Out A w0 ts))) id = Some p ->
  exists p', oget (ct_proposals (w_ctl (world_run Out A w0 (ts ++ later)))) id = Some p' /\
    pi_type p' = pi_type p /\ pi_deposit p' = pi_deposit p /\ pi_actions p' = pi_actions p /\
    (forall b, pi_executed_at p = Some b -> pi_executed_at p' = Some b).
Proof.
  intros N (_ & L) Hp. unfold world_run in *. rewrite fold_left_app in *. fold (world_run Out A w0 ts) in *.
  fold (world_run Out A (world_run Out A w0 ts) later) in *. set (w := world_run Out A w0 ts) in *.
  pose proof (run_size Out A later w) as S1.
  destruct (run_ahead Out A (nd_addrs _ _ N) ts w0 (new_wired _ _ N)) as (W & _ & _); [fold w; unfold size in *; exact (N.le_lt_trans _ _ _ S1 L)|].
  fold w in W. destruct (run_ahead Out A (nd_addrs _ _ N) later w W L) as (_ & ((_ & _ & K) & _) & _).
  destruct (K _ _ Hp) as (p' & H1 & H2 & H3). exists p'. unfold content in H2. injection H2 as E1 E2 E3. auto.
Qed.

Lemma executed_refused X (Out : outside X) A w id p b n e s coins :
  oget (ct_proposals (w_ctl w)) id = Some p -> pi_executed_at p = Some b ->
  is_ok (go Out A n w e (JMsg s (WasmExecute (a_controller A) (ToController (CExecuteProposal id)) coins))) = false.
Proof.
  intros Hp Hb. destruct n as [|n]; [reflexivity|]. cbn [go]. destruct (x_pay _ _ _ _ _) as [x|x]; [|reflexivity].
  cbn [bind]. unfold handle. rewrite N.eqb_refl.
  match goal with |- context [ctl_execute ?o ?self ?st e s coins (CExecuteProposal id)] =>
    pose proof (executed_not_again o self st e s coins id p b Hp Hb) as H; destruct (ctl_execute o self st e s coins (CExecuteProposal id)) end;
    [discriminate|reflexivity].
Qed.

Lemma run_facts X (Out : outside X) A w0 ts : new_dao A w0 -> timely 0 ts -> lasting (world_run Out A w0 ts) -> calm A (world_run Out A w0 ts) ->
  core A (last_time ts) (world_run Out A w0 ts) /\ votes_current (world_run Out A w0 ts) (last_time ts) /\
  (thrifty A (world_run Out A w0 ts) -> bal A w0 [] (world_run Out A w0 ts)).
Proof. intros N T (_ & L) C. exact (run_core Out A (nd_addrs _ _ N) ts 0 w0 (new_core _ _ N) (new_votes _ _ N) T L C). Qed.

Lemma executed_iff_ended X (Out : outside X) A w0 ts id p :
  new_dao A w0 -> timely 0 ts -> lasting (world_run Out A w0 ts) -> calm A (world_run Out A w0 ts) ->
  oget (ct_proposals (w_ctl (world_run Out A w0 ts))) id = Some p ->
  exists pl, oget (g_polls (w_gov (world_run Out A w0 ts))) id = Some pl /\
    (pi_executed_at p = None <-> exists ends, p_status pl = InProgress ends).
Proof.
  intros N T L C Hp. destruct (run_facts _ Out A w0 ts N T L C) as (K & _). set (w := world_run Out A w0 ts) in *.
  destruct (pi_executed_at p) as [b|] eqn:E.
  - destruct (c_ended _ _ _ K _ _ _ Hp E) as (s & Hs & NI). unfold status_of in Hs. destruct (oget (g_polls (w_gov w)) id) as [pl|]; [|discriminate].
    injection Hs as <-. exists pl. split; [reflexivity|]. split; [discriminate|]. intros (t & Ht). destruct (NI t Ht).
  - destruct (c_open _ _ _ K _ _ Hp E) as (t & Hs). unfold status_of in Hs. destruct (oget (g_polls (w_gov w)) id) as [pl|]; [|discriminate].
    injection Hs as Hs. exists pl. split; [reflexivity|]. split; [|reflexivity]. intros _. eauto.
Qed.

(** * Actions *)

Lemma once_filter {B} (f : B -> bool) (x : B) l : (forall y, In y l -> f y = true -> y = x) ->
  (forall l1 l2, l = l1 ++ x :: l2 -> ~ In x l2) -> (length (filter f l) <= 1)%nat.
Proof.
  intros H1 H2. induction l as [|y l IH]; [cbn; lia|]. cbn [filter].
  assert (IH' : (length (filter f l) <= 1)%nat).
  { apply IH; [intros z Hz; apply H1; right; exact Hz|]. intros l1 l2 E. apply (H2 (y :: l1)). rewrite E. reflexivity. }
  destruct (f y) eqn:E; [|exact IH']. assert (y = x) as -> by (apply H1; [left; reflexivity|exact E]).
  destruct (filter f l) as [|z t] eqn:F; [cbn; lia|]. exfalso. assert (Hz : In z (filter f l)) by (rewrite F; left; reflexivity).
  apply filter_In in Hz. destruct Hz as (Hz & Ez). assert (z = x) as -> by (apply H1; [right; exact Hz|exact Ez]).
  exact (H2 [] l eq_refl Hz).
Qed.

Lemma actions_of_passed X (Out : outside X) A w0 ts id :
  new_dao A w0 -> timely 0 ts -> lasting (world_run Out A w0 ts) -> calm A (world_run Out A w0 ts) ->
  action_runs A (world_run Out A w0 ts) id <= 1 /\
  (action_runs A (world_run Out A w0 ts) id = 1 ->
     In (a_controller A, run_order A id) (w_log (world_run Out A w0 ts)) /\
     exists p pl b o n, oget (ct_proposals (w_ctl (world_run Out A w0 ts))) id = Some p /\ pi_executed_at p = Some b /\
       oget (g_polls (w_gov (world_run Out A w0 ts))) id = Some pl /\ p_status pl = Passed o n).
Proof.
  intros N T L C. destruct (run_facts _ Out A w0 ts N T L C) as (K & _). set (w := world_run Out A w0 ts) in *.
  assert (H1 : forall y, In y (w_log w) -> match snd y with
      | WasmExecute to (ToController (CExecuteActions i)) _ => (to =? a_controller A) && (i =? id) | _ => false end = true -> y = (a_controller A, run_order A id)).
  { intros [s m] Hin E. cbn [snd] in E. destruct m as [| to wm coins | | | | |]; try discriminate. destruct wm; try discriminate.
    match goal with c : controller_msg |- _ => destruct c; try discriminate end. apply andb_true_iff in E. destruct E as (E1 & E2). apply N.eqb_eq in E1, E2. subst.
    destruct (c_order _ _ _ K _ _ _ Hin) as (-> & ->). reflexivity. }
  split.
  - unfold action_runs. pose proof (once_filter _ _ _ H1 (c_once _ _ _ K id)). lia.
  - intros E. unfold action_runs in E.
    match type of E with N.of_nat (length ?l) = 1 => destruct l as [|y t] eqn:F; [discriminate|] end.
    assert (Hy : In y (y :: t)) by (left; reflexivity). rewrite <- F in Hy. apply filter_In in Hy. destruct Hy as (Hy & Ey).
    rewrite (H1 _ Hy Ey) in Hy. split; [exact Hy|].
    destruct (c_acted _ _ _ K id Hy) as (p & b & o & n & Hp & Hb & Hs). unfold status_of in Hs.
    destruct (oget (g_polls (w_gov w)) id) as [pl|]; [|discriminate]. injection Hs as Hs. exists p, pl, b, o, n. auto.
Qed.

(** * Deposits *)

Lemma deposits_exact X (Out : outside X) A w0 ts :
  new_dao A w0 -> timely 0 ts -> lasting (world_run Out A w0 ts) -> calm A (world_run Out A w0 ts) -> thrifty A (world_run Out A w0 ts) ->
  Permutation (paid A (world_run Out A w0 ts)) (released A (world_run Out A w0 ts)).
Proof.
  intros N T L C H. destruct (run_facts _ Out A w0 ts N T L C) as (_ & _ & B). specialize (B H).
  apply (Permutation_count_occ item_eq_dec). intros x. specialize (B x). unfold cn in B.
  assert (E1 : paid A w0 = []) by (unfold paid; rewrite (nd_log _ _ N); reflexivity).
  assert (E2 : released A w0 = []) by (unfold released; rewrite (proj2 (new_records _ _ N)); reflexivity).
  rewrite E1, E2 in B. cbn [count_occ] in B. lia.
Qed.

(** * Votes *)

Lemma votes_are_weights X (Out : outside X) A w0 ts now :
  new_dao A w0 -> timely 0 ts -> lasting (world_run Out A w0 ts) -> calm A (world_run Out A w0 ts) -> last_time ts <= now ->
  votes_current (world_run Out A w0 ts) now.
Proof.
  intros N T L C H. destruct (run_facts _ Out A w0 ts N T L C) as (_ & V & _). exact (later_votes _ _ _ H V).
Qed.

Lemma votes_below_total X (Out : outside X) A w0 ts now id pl :
  new_dao A w0 -> timely 0 ts -> lasting (world_run Out A w0 ts) -> calm A (world_run Out A w0 ts) -> last_time ts <= now ->
  open_poll (world_run Out A w0 ts) General id now -> oget (g_polls (w_gov (world_run Out A w0 ts))) id = Some pl ->
  lsum v_amount (recorded_votes (w_gov (world_run Out A w0 ts)) id) <= total_now (w_member (world_run Out A w0 ts)) /\
  (forall o, votes_for pl o = tally (w_gov (world_run Out A w0 ts)) id o) /\
  votes_for pl Yes + votes_for pl No + votes_for pl Abstain + votes_for pl Veto <= total_now (w_member (world_run Out A w0 ts)).
Proof.
  intros N T L C H O Hp. pose proof (votes_are_weights _ Out A w0 ts now N T L C H) as V.
  destruct (run_facts _ Out A w0 ts N T L C) as (K & _). set (w := world_run Out A w0 ts) in *.
  destruct (c_small _ _ _ K) as ((SM & _) & HT).
  assert (B : lsum v_amount (recorded_votes (w_gov w) id) <= total_now (w_member w)).
  { unfold total_now. cbn [query_total_weight]. destruct SM as (SM & _). 
    assert (E : query_total_weight (members_of (w_member w)) Never = total_weight (members_of (w_member w))) by reflexivity.
    rewrite SM. apply votes_below. intros u v Hv. exact (V id u v O Hv). }
  assert (E : total_now (w_member w) = total_weight (members_of (w_member w))) by reflexivity.
  destruct (inv_sum4 (w_gov w) id pl (c_ginv _ _ _ K) Hp) as (_ & S1 & S2); [rewrite E in B; lia|].
  split; [exact B|]. split; [exact S1|]. unfold sum4 in S2. lia.
Qed.

(** * A failing action *)

Lemma actions_isolated X (Out : outside X) A n w e id dep : (0 < n)%nat ->
  go Out A (S n) w e (JSubs (a_controller A) (mk_sub (run_order A id) (ReplyAlways 3) :: dep)) =
    match go Out A n w e (JMsg (a_controller A) (run_order A id)) with
    | Ok (w2, _) => go Out A n w2 e (JSubs (a_controller A) dep)
    | Err EGas => Err EGas
    | Err _ => go Out A n w e (JSubs (a_controller A) dep)
    end.
Proof.
  intros L. destruct n as [|n]; [lia|]. remember (S n) as k. cbn [go sm_msg sm_reply].
  assert (R : forall w r, on_reply Out A w e (a_controller A) 3 r = Ok (w, [])).
  { intros v r. unfold on_reply. rewrite N.eqb_refl. cbn. destruct v. reflexivity. }
  assert (G : forall w, go Out A k w e (JSubs (a_controller A) []) = Ok (w, None)) by (intros; subst; reflexivity).
  destruct (go Out A k w e (JMsg (a_controller A) (run_order A id))) as [[w2 d]|x].
  - rewrite R. cbn [bind]. rewrite G. reflexivity.
  - destruct x; try reflexivity; rewrite R; cbn [bind]; rewrite G; reflexivity.
Qed.

Lemma subs_data X (Out : outside X) A subs : forall n w e self w' d, go Out A n w e (JSubs self subs) = Ok (w', d) -> d = None.
Proof.
  induction subs as [|x rest IH]; intros n w e self w' d H; [apply go_nil in H; apply H|].
  apply go_cons in H. destruct H as (n' & -> & H).
  destruct H as [(w1 & d1 & H1 & [(E & H2)|(id & w2 & more & w3 & d3 & E & H2 & H3 & H4)])|(id & w2 & more & w3 & d3 & _ & E & H2 & H3 & H4)]; eauto.
Qed.

Lemma resolution X (Out : outside X) A w0 ts n e s coins id w' d :
  new_dao A w0 -> lasting w' ->
  go Out A n (world_run Out A w0 ts) e (JMsg s (WasmExecute (a_controller A) (ToController (CExecuteProposal id)) coins)) = Ok (w', d) ->
  exists k w1 p pl dep, (0 < k < n)%nat /\
    oget (ct_proposals (w_ctl (world_run Out A w0 ts))) id = Some p /\ pi_executed_at p = None /\
    (* the proposal is marked as executed and its poll has ended; nothing else has changed *)
    ct_proposals (w_ctl w1) = oset (ct_proposals (w_ctl (world_run Out A w0 ts))) id
      (mk_info (pi_type p) (Some e) (pi_earliest p) (pi_deposit p) (pi_actions p)) /\
    oget (g_polls (w_gov w1)) id = Some pl /\ (forall t, p_status pl <> InProgress t) /\
    (forall i, i <> id -> oget (g_polls (w_gov w1)) i = oget (g_polls (w_gov (world_run Out A w0 ts))) i) /\
    g_votes (w_gov w1) = g_votes (w_gov (world_run Out A w0 ts)) /\
    (w_enterprise w1, w_member w1, w_council w1, w_funds w1, w_treasury w1, w_outposts w1) =
      (w_enterprise (world_run Out A w0 ts), w_member (world_run Out A w0 ts), w_council (world_run Out A w0 ts),
       w_funds (world_run Out A w0 ts), w_treasury (world_run Out A w0 ts), w_outposts (world_run Out A w0 ts)) /\
    (pi_deposit p = None -> dep = []) /\
    (forall dp, pi_deposit p = Some dp -> pi_type p = General ->
       exists to, deposit_goes (a_treasury A) (dp_depositor dp) (p_status pl) to /\ hands_over to (dp_asset dp) dep) /\
    match p_status pl with
    | Passed _ _ =>
        (* the actions succeed, or all of their effects are dropped; the deposit is paid in both cases *)
        match go Out A k w1 e (JMsg (a_controller A) (run_order A id)) with
        | Ok (w2, _) => go Out A k w2 e (JSubs (a_controller A) dep)
        | Err EGas => Err EGas
        | Err _ => go Out A k w1 e (JSubs (a_controller A) dep)
        end = Ok (w', None)
    | _ => go Out A k w1 e (JSubs (a_controller A) dep) = Ok (w', None)
    end.
Proof.
  intros N (_ & L) H. pose proof (nd_addrs _ _ N) as HA. set (w := world_run Out A w0 ts) in *.
  pose proof (go_size _ _ _ _ _ _ _ _ H) as S0. change (size w' < M64) in L.
  destruct (run_ahead Out A HA ts w0 (new_wired _ _ N)) as (W & _ & _); [fold w; lia|]. fold w in W.
  destruct n as [|n]; [discriminate|].
  apply go_msg in H. destruct H as [(to & wm & c & x & w1 & subs & d' & E & _ & Hh & Hg)|(NE & _)]; [|destruct (NE _ _ _ eq_refl)].
  injection E as <- <- <-. set (m := WasmExecute (a_controller A) (ToController (CExecuteProposal id)) coins) in *.
  destruct (start_wired A w s m x W) as (W0 & _ & _).
  apply handle_cases in Hh. destruct Hh as [(_ & cm & s' & EC & He & -> & _)|[(E & _)|[(E & _)|(E & _)]]];
    [|destruct (gov_not_ctl A HA (eq_sym E))|destruct (member_not_ctl A HA (eq_sym E))|destruct (E eq_refl)].
  injection EC as <-. destruct (ctl_turn Out A HA _ _ _ _ _ _ _ _ _ _ W0 He Hg) as (n' & w1 & subs1 & Ln & T & d2 & G). clear Hg He W0.
  assert (F0 : exists w00, w00 = set_ext (note w s m) x) by eauto. destruct F0 as (w00 & F0). rewrite <- F0 in T.
  assert (F1 : w_ctl w00 = w_ctl w) by (rewrite F0; reflexivity). assert (F2 : w_gov w00 = w_gov w) by (rewrite F0; reflexivity).
  assert (F3 : (w_enterprise w00, w_member w00, w_council w00, w_funds w00, w_treasury w00, w_outposts w00) =
               (w_enterprise w, w_member w, w_council w, w_funds w, w_treasury w, w_outposts w)) by (rewrite F0; reflexivity).
  clear F0 m. remember (CExecuteProposal id) as cm eqn:EC. destruct T; try discriminate.
  - rewrite EC in H. destruct H.
  - injection EC as ->. rewrite F1 in H, H6. rewrite F2 in H2. pose proof (subs_data _ _ _ _ _ _ _ _ _ _ G) as ->.
    assert (EP := H2). apply end_poll_ok in EP. destruct EP as (q & Hq & Eg & _).
    assert (COM : exists k, (0 < k < S n)%nat /\
      match p_status pl with
      | Passed _ _ => match go Out A k w1 e (JMsg (a_controller A) (run_order A id)) with
        | Ok (w2, _) => go Out A k w2 e (JSubs (a_controller A) dep)
        | Err EGas => Err EGas
        | Err _ => go Out A k w1 e (JSubs (a_controller A) dep)
        end = Ok (w', None)
      | _ => go Out A k w1 e (JSubs (a_controller A) dep) = Ok (w', None)
      end).
    { destruct n' as [|n']; [discriminate|].
      destruct (p_status pl) as [t|o nn|r] eqn:Es.
      + destruct (H5 t eq_refl).
      + cbn [app] in G. destruct n' as [|n']; [discriminate|]. rewrite actions_isolated in G by lia. exists (S n'). split; [lia|exact G].
      + exists (S n'). split; [lia|exact G]. }
    destruct COM as (k & Lk & F). exists k, w1, p, pl, dep. split; [exact Lk|]. split; [exact H|]. split; [exact H0|]. split; [exact H6|].
    split; [rewrite H3; exact H4|]. split; [exact H5|]. split; [intros i Hi; rewrite H3, Eg; cbn; apply oget_oset_ne; congruence|].
    split; [rewrite H3, Eg; reflexivity|]. split; [destruct H1 as (B1 & B2 & B3 & _); injection B1 as -> -> -> ->; rewrite B2, B3; exact F3|].
    split; [intros E; rewrite E in H7; exact H7|]. split; [intros dp E F'; rewrite E in H7; exact (H7 F')|]. exact F.
  - destruct H as [->|(ch & -> & _)]; discriminate.
Qed.
