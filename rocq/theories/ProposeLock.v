(** A DAO whose votes would end at once is stuck for good. *)
From Verif Require Import Base OMap OMapLemmas Assets PollModel PollSpec PollProofs PollFacts FundsModel FundsSpec MemberModel MemberSpec MemberProofs MemberFacts Msgs
  ControllerModel ControllerSpec ControllerProofs ControllerFacts TreasuryModel EnterpriseModel OutpostsModel WorldModel WorldSpec WorldMember
  WorldProofs WorldRun WorldFacts LiftFacts LiveSpec LiveProofs LiveFacts LiveResults PurseSpec PurseProofs RuleSpec RuleProofs VoteSpec VoteFacts ProposeSpec ProposeFacts.

(** every new poll ends [span] after now *)
Lemma new_poll_ends o s e g actions d t u s' subs : new_poll_msg o s e g actions d t u = Ok (s', subs) -> gc_vote_duration g = gc_vote_duration (ct_config s) ->
  exists to c, subs = [mk_sub (WasmExecute to (ToGovernance (GCreatePoll c)) []) (ReplySuccess 1)] /\
    cp_ends_at c = e_time e + gc_vote_duration (ct_config s) * NANOS mod M64.
Proof.
  unfold new_poll_msg, ts_plus_seconds, ts_plus_nanos, u64_mul, uint64_add. intros H E. rewrite E in H. apply bind_ok in H. destruct H as (v & H1 & H). apply bind_ok in H. destruct H as (c & _ & H).
  destruct (_ <? M64); [|discriminate]. injection H1 as <-. injection H as <- <-. eexists _, _. split; reflexivity.
Qed.
Lemma create_ends o s e actions d u s' subs : create_proposal o s e actions d u = Ok (s', subs) ->
  exists to c, subs = [mk_sub (WasmExecute to (ToGovernance (GCreatePoll c)) []) (ReplySuccess 1)] /\
    cp_ends_at c = e_time e + gc_vote_duration (ct_config s) * NANOS mod M64.
Proof.
  unfold create_proposal. intros H. do 5 (apply bind_ok in H; destruct H as (? & _ & H)). exact (new_poll_ends _ _ _ _ _ _ _ _ _ _ H eq_refl).
Qed.
Lemma creating_ends o self s e sender coins m s' subs : creates m -> ctl_execute o self s e sender coins m = Ok (s', subs) ->
  exists to c rest, subs = mk_sub (WasmExecute to (ToGovernance (GCreatePoll c)) []) (ReplySuccess 1) :: rest /\
    cp_ends_at c = e_time e + gc_vote_duration (ct_config s) * NANOS mod M64.
Proof.
  intros Hm H. destruct m; try destruct Hm; cbn [ctl_execute] in H.
  - unfold create_proposal_coins in H. do 2 (apply bind_ok in H; destruct H as (? & _ & H)). apply create_ends in H. destruct H as (to & c & -> & E). eauto.
  - unfold create_proposal_nft in H. do 7 (apply bind_ok in H; destruct H as (? & _ & H)). apply bind_ok in H. destruct H as ((s1 & msgs) & H1 & H). injection H as <- <-.
    apply create_ends in H1. destruct H1 as (to & c & -> & E). exists to, c. eexists. split; [reflexivity|exact E].
  - unfold create_council_proposal in H. do 7 (apply bind_ok in H; destruct H as (? & _ & H)). apply new_poll_ends in H; [|reflexivity]. destruct H as (to & c & -> & E). eauto.
  - destruct hook as [(actions & owner)|]; [|discriminate]. unfold create_proposal_cw20 in H. do 6 (apply bind_ok in H; destruct H as (? & _ & H)).
    apply create_ends in H. destruct H as (to & c & -> & E). eauto.
Qed.

Section L.
Context {X : Type}.
Variable Out : outside X.
Variable A : addrs.
Hypothesis HA : NoDup (dao_addrs A).

Lemma dead_same (w w1 : world X) : ct_config (w_ctl w1) = ct_config (w_ctl w) ->
  (forall id p', oget (ct_proposals (w_ctl w1)) id = Some p' -> exists p, oget (ct_proposals (w_ctl w)) id = Some p /\ pi_executed_at p' = pi_executed_at p) -> dead w -> dead w1.
Proof.
  intros E H (D1 & D2). split; [unfold span in *; rewrite E; exact D1|]. intros id p' Hp'. destruct (H _ _ Hp') as (p & Hp & Ep). rewrite Ep. exact (D2 _ _ Hp).
Qed.

Lemma halted_refl (w : world X) : halted w w.
Proof. repeat split; auto. Qed.
Lemma halted_trans (a b c : world X) : halted a b -> halted b c -> halted a c.
Proof. intros (A1 & A2 & A3) (B1 & B2 & B3). split; [congruence|]. split; [congruence|]. intros id. rewrite B3. apply A3. Qed.
Lemma halted_parts (w w1 : world X) : w_ctl w1 = w_ctl w -> g_count (w_gov w1) = g_count (w_gov w) -> halted w w1.
Proof. intros E1 E2. unfold halted. rewrite E1, E2. repeat split; auto. Qed.
Lemma dead_parts (w w1 : world X) : w_ctl w1 = w_ctl w -> dead w -> dead w1.
Proof. intros E. unfold dead, span. rewrite E. auto. Qed.

Definition idle_subs (subs : list sub_msg) : Prop := Forall (fun x => sm_reply x = ReplyNever /\ safe A (sm_msg x)) subs.

Lemma no_creation n (w : world X) e sender coins m s' subs r : wired A w -> dead w -> creates m ->
  ctl_execute (ctl_oracle_of Out A w) (a_controller A) (w_ctl w) e sender coins m = Ok (s', subs) ->
  go Out A n (set_ctl w s') e (JSubs (a_controller A) subs) = Ok r -> False.
Proof.
  intros HW (D1 & _) Hm HX HG. destruct (wired_components Out A _ HW) as (att & HC).
  destruct (creating_ends _ _ _ _ _ _ _ _ _ Hm HX) as (to & c & rest & -> & Ec).
  apply (WorldProofs.ctl_call A HA _ _ _ _ _ _ _ _ _ HC (wi_of _ _ HW)) in HX.
  assert (Et : to = a_governance A).
  { inversion HX; subst; try reflexivity; try destruct Hm.
    match goal with Q : _ \/ _ |- _ => destruct Q as [Q|(? & Q & _)]; rewrite Q in Hm; destruct Hm end. }
  rewrite Et in *. destruct r as (w' & d). apply (go_gov Out A HA) in HG. destruct HG as (n' & x & g & dd & s2 & more & w3 & d3 & _ & HG & _).
  apply gov_execute_ok in HG. destruct HG as (_ & id & HG & _). apply created_poll in HG. rewrite Ec in HG. unfold span in D1. change (10 ^ 9) with NANOS in D1. change (2 ^ 64) with M64 in D1.
  rewrite D1 in HG. lia.
Qed.

Lemma dead_turn n (w : world X) e sender coins m s' subs w' d : wired A w -> free_councils w -> dead w -> sender <> a_controller A ->
  ctl_execute (ctl_oracle_of Out A w) (a_controller A) (w_ctl w) e sender coins m = Ok (s', subs) ->
  go Out A n (set_ctl w s') e (JSubs (a_controller A) subs) = Ok (w', d) ->
  exists n' w1 subs1, (n' <= n)%nat /\ turn Out A w e sender m w1 subs1 /\ dead w1 /\ halted w w1 /\ idle_subs subs1 /\
    exists d', go Out A n' w1 e (JSubs (a_controller A) subs1) = Ok (w', d').
Proof.
  intros HW HF HD HN HX HG.
  assert (NC : ~ creates m) by (intros K; exact (no_creation _ _ _ _ _ _ _ _ _ HW HD K HX HG)).
  destruct (ctl_known Out A HA OfRules _ _ _ _ _ _ _ _ _ _ HW HF HX HG) as (n' & w1 & subs1 & L & T & G & HM).
  exists n', w1, subs1. split; [exact L|]. split; [exact T|]. rewrite <- !and_assoc. split; [|exact G].
  assert (EC : ct_config (w_ctl w1) = ct_config (w_ctl w)).
  { destruct HM as [(id & p & -> & _)|(_ & R & _)]; [|exact (R eq_refl)]. inversion T; subst; try contradiction.
    match goal with Q : _ \/ _ |- _ => destruct Q as [Q|(? & Q & _)]; discriminate Q end. }
  clear HM G HX HG. destruct HD as (D1 & D2).
  assert (Same : ct_proposals (w_ctl w1) = ct_proposals (w_ctl w) -> g_count (w_gov w1) = g_count (w_gov w) -> dead w1 /\ halted w w1).
  { intros E1 E2. split; [apply (dead_same w); [exact EC| |split; assumption]|].
    - intros id p'. rewrite E1. eauto.
    - split; [exact EC|]. split; [exact E2|]. rewrite E1. reflexivity. }
  destruct T as [m c info g id rest w1 Hm|id p p' out amount g w1 Hp Ht Hw S Hg Eg Ec Ee EP|id p out amount g w1 Hp Ht Hw S Hg Eg EP|id p pl total early g dep w1 Hp He|
    changes g w1 Hs S Hg Eg EP|id p subs0 w1 Hs|m subs0 w1 Hm S Eg EP Hsub].
  - contradiction.
  - split; [|constructor]. split.
    + apply (dead_same w); [exact EC| |split; assumption]. intros i q Hq. rewrite EP in Hq. destruct (N.eqb_spec id i) as [<-|]; [|eauto]. injection Hq as <-. eauto.
    + split; [exact EC|]. split; [rewrite Eg; exact (cast_count _ _ _ _ _ _ _ Hg)|]. intros i. rewrite EP. destruct (N.eqb_spec id i) as [<-|]; [|reflexivity].
      rewrite Hp. split; discriminate.
  - split; [|constructor]. apply Same; [exact EP|rewrite Eg; exact (cast_count _ _ _ _ _ _ _ Hg)].
  - destruct (D2 _ _ Hp He).
  - split; [apply Same; [exact EP|rewrite Eg; exact (proj1 (updates_count _ _ _ _ Hg))]|]. constructor; [|constructor]. split; [reflexivity|].
    apply safe_to. pose proof (apart A HA) as K. decompose [and] K. repeat split; congruence.
  - contradiction.
  - split; [apply Same; [exact EP|rewrite Eg; reflexivity]|]. eapply Forall_impl; [|exact Hsub]. intros x (Hx & (Hx' & _) & _). split; assumption.
Qed.

Definition idle_job (j : job) : Prop :=
  match j with
  | JMsg s m => s = a_controller A -> safe A m
  | JSubs self subs => self = a_controller A -> idle_subs subs
  end.
Lemma idle_fine subs : idle_subs subs -> fine subs.
Proof. intros H. eapply Forall_impl; [|exact H]. intros x (Hx & _). left. exact Hx. Qed.

Lemma go_dead n : forall (w : world X) e j w' d, go Out A n w e j = Ok (w', d) -> wired A w -> free_councils w -> dead w -> idle_job j -> size w' < M64 -> dead w' /\ halted w w'.
Proof.
  induction n as [n IH] using lt_wf_ind. intros w e j w' d H HW HF HD HJ HS.
  destruct j as [s m|self [|x rest]].
  - destruct n as [|n]; [discriminate|].
    apply go_msg in H. destruct H as [(to & wm & coins & x & w1 & subs & d' & -> & _ & Hh & Hg)|(NE & Ho)].
    + destruct (start_wired A w s (WasmExecute to wm coins) x HW) as (W0 & _ & _).
      assert (F0 : free_councils (set_ext (note w s (WasmExecute to wm coins)) x)) by exact HF.
      assert (D0 : dead (set_ext (note w s (WasmExecute to wm coins)) x)) by exact HD.
      change (dead w' /\ halted (set_ext (note w s (WasmExecute to wm coins)) x) w').
      set (w0 := set_ext (note w s (WasmExecute to wm coins)) x) in *.
      apply handle_cases in Hh. destruct Hh as [(-> & cm & s' & -> & He & -> & _)|[(-> & gm & g & -> & He & -> & ->)|[(-> & mm & s' & outs & -> & _ & -> & -> & _)|(N1 & _ & _ & Q)]]].
      * assert (NS : s <> a_controller A) by (intros E; exact (proj1 (HJ E) eq_refl cm eq_refl)).
        destruct (dead_turn _ _ _ _ _ _ _ _ _ _ W0 F0 D0 NS He Hg) as (n' & w1 & subs1 & L & T & D1 & H1 & I1 & (d2 & G)).
        pose proof (go_size _ _ _ _ _ _ _ _ G) as GS1. pose proof T as TW. apply turn_wired in TW; [|assumption|lia]. destruct TW as (W1 & K1 & F1).
        destruct (IH n' ltac:(lia) _ _ _ _ _ G W1 (turn_free _ _ _ _ _ _ _ _ T F0) D1 (fun _ => I1) HS) as (D2 & H2). split; [exact D2|exact (halted_trans _ _ _ H1 H2)].
      * exfalso. apply gov_execute_ok in He. destruct He as (E & _). change (s = g_admin (w_gov w)) in E. rewrite (wi_admin _ _ HW) in E.
        exact (proj1 (proj2 (HJ E)) eq_refl gm eq_refl).
      * destruct (member_wired A w0 s' W0) as (W1 & _).
        refine (IH n ltac:(lia) _ _ _ _ _ Hg W1 F0 D0 _ HS). intros E. destruct (member_not_ctl A HA E).
      * assert (EC : w_ctl w1 = w_ctl w0) by apply Q. assert (EG : w_gov w1 = w_gov w0) by apply Q.
        assert (F1 : free_councils w1) by (unfold free_councils; rewrite EC; exact F0).
        destruct (IH n ltac:(lia) _ _ _ _ _ Hg (proj1 (quiet_wired A _ _ Q W0)) F1 (dead_parts _ _ EC D0) ltac:(intros E; contradiction) HS) as (D2 & H2).
        split; [exact D2|]. exact (halted_trans _ _ _ (halted_parts w0 w1 EC ltac:(rewrite EG; reflexivity)) H2).
    + apply other_quiet in Ho. assert (EC : w_ctl w' = w_ctl w) by apply Ho. assert (EG : w_gov w' = w_gov w) by apply Ho.
      split; [exact (dead_parts _ _ EC HD)|]. apply halted_parts; [exact EC|rewrite EG; reflexivity].
  - apply go_nil in H. destruct H as [-> _]. split; [exact HD|apply halted_refl].
  - apply go_cons in H. destruct H as (n' & -> & H).
    assert (JR : idle_job (JSubs self rest)) by (intros E; exact (Forall_inv_tail (HJ E))).
    assert (JM : idle_job (JMsg self (sm_msg x))) by (intros E; exact (proj2 (Forall_inv (HJ E)))).
    assert (HR : forall wa id r wb more wc dc wd dd, sm_reply x = ReplySuccess id \/ sm_reply x = ReplyAlways id ->
      wired A wa -> free_councils wa -> dead wa -> on_reply Out A wa e self id r = Ok (wb, more) -> go Out A n' wb e (JSubs self more) = Ok (wc, dc) ->
      go Out A n' wc e (JSubs self rest) = Ok (wd, dd) -> size wd < M64 -> dead wd /\ halted wa wd).
    { intros wa id r wb more wc dc wd dd HR Wa Fa Da Hr Hg1 Hg2 Sd. pose proof (go_size _ _ _ _ _ _ _ _ Hg2) as S2.
      assert (NC : self <> a_controller A).
      { intros E. pose proof (proj1 (Forall_inv (HJ E))) as K. destruct HR as [R|R]; congruence. }
      apply reply_cases in Hr. destruct Hr as [(E & _)|(_ & Q)]; [contradiction|].
      assert (EC : w_ctl wb = w_ctl wa) by apply Q. assert (EG : w_gov wb = w_gov wa) by apply Q.
      assert (Fb : free_councils wb) by (unfold free_councils; rewrite EC; exact Fa).
      destruct (quiet_wired A _ _ Q Wa) as (Wb & _). assert (J2 : idle_job (JSubs self more)) by (intros E; contradiction).
      assert (J3 : self = a_controller A -> fine more) by (intros E; contradiction).
      pose proof (layer1 Out A HA _ _ _ _ _ _ Hg1 Wb J3 ltac:(lia)) as (Wc & _).
      pose proof (go_free Out A HA _ _ _ _ _ _ Hg1 Wb Fb J3 ltac:(lia)) as Fc.
      destruct (IH n' ltac:(lia) _ _ _ _ _ Hg1 Wb Fb (dead_parts _ _ EC Da) J2 ltac:(lia)) as (Dc & Hc).
      destruct (IH n' ltac:(lia) _ _ _ _ _ Hg2 Wc Fc Dc JR Sd) as (Dd & Hd). split; [exact Dd|].
      exact (halted_trans _ _ _ (halted_parts wa wb EC ltac:(rewrite EG; reflexivity)) (halted_trans _ _ _ Hc Hd)). }
    destruct H as [(w1 & d1 & H1 & [(_ & H2)|(id & w2 & more & w3 & d3 & E & H2 & H3 & H4)])|(id & w2 & more & w3 & d3 & _ & E & H2 & H3 & H4)].
    + pose proof (go_size _ _ _ _ _ _ _ _ H2). pose proof (layer1 Out A HA _ _ _ _ _ _ H1 HW I ltac:(lia)) as (W1 & _).
      pose proof (go_free Out A HA _ _ _ _ _ _ H1 HW HF I ltac:(lia)) as F1.
      destruct (IH n' ltac:(lia) _ _ _ _ _ H1 HW HF HD JM ltac:(lia)) as (D1 & T1).
      destruct (IH n' ltac:(lia) _ _ _ _ _ H2 W1 F1 D1 JR HS) as (D2 & T2). split; [exact D2|exact (halted_trans _ _ _ T1 T2)].
    + assert (Z1 : size w1 < M64).
      { pose proof (go_size _ _ _ _ _ _ _ _ H3) as G3. pose proof (go_size _ _ _ _ _ _ _ _ H4) as G4. apply reply_log in H2.
        assert (size w2 = size w1) by (unfold size; rewrite H2; reflexivity). lia. }
      pose proof (layer1 Out A HA _ _ _ _ _ _ H1 HW I Z1) as (W1 & _). pose proof (go_free Out A HA _ _ _ _ _ _ H1 HW HF I Z1) as F1.
      destruct (IH n' ltac:(lia) _ _ _ _ _ H1 HW HF HD JM Z1) as (D1 & T1).
      destruct (HR _ _ _ _ _ _ _ _ _ E W1 F1 D1 H2 H3 H4 HS) as (D2 & T2). split; [exact D2|exact (halted_trans _ _ _ T1 T2)].
    + exact (HR _ _ _ _ _ _ _ _ _ (or_intror E) HW HF HD H2 H3 H4 HS).
Qed.

Lemma run_dead ts : forall w : world X, wired A w -> free_councils w -> dead w -> size (world_run Out A w ts) < M64 ->
  dead (world_run Out A w ts) /\ halted w (world_run Out A w ts).
Proof.
  induction ts as [|t ts IH]; intros w HW HF HD HS; [split; [exact HD|apply halted_refl]|].
  change (world_run Out A w (t :: ts)) with (world_run Out A (world_step Out A w t) ts) in *. pose proof (run_size Out A ts (world_step Out A w t)) as S1.
  destruct (WorldRun.step_cases Out A w t) as [E|(d & Hd & H)]; [rewrite E in *; apply IH; assumption|].
  pose proof (layer1 Out A HA _ _ _ _ _ _ H HW I ltac:(lia)) as (W1 & K1). pose proof (go_free Out A HA _ _ _ _ _ _ H HW HF I ltac:(lia)) as F1.
  assert (JO : idle_job (JMsg (tx_signer t) (tx_msg t))) by (intros E; destruct (proj1 (dao_signer A _ Hd) E)).
  destruct (go_dead _ _ _ _ _ _ H HW HF HD JO ltac:(lia)) as (D1 & T1). destruct (IH _ W1 F1 D1 HS) as (D2 & T2). split; [exact D2|exact (halted_trans _ _ _ T1 T2)].
Qed.
End L.

(** A DAO whose votes would end at once and whose proposals are all done never has another one, and keeps its rules. *)
Lemma dead_forever X (Out : outside X) A w0 ts later w w' :
  new_dao A w0 -> w = world_run Out A w0 ts -> w' = world_run Out A w later -> lasting w' -> dead w -> dead w' /\ halted w w'.
Proof.
  intros N -> -> (_ & L) D. change (2 ^ 64) with M64 in L. pose proof (run_size Out A later (world_run Out A w0 ts)) as Z. unfold size in Z.
  destruct (run_kept Out A (nd_addrs _ _ N) ts w0 (new_wired _ _ N) (new_free A _ N)) as (W & F & _); [unfold size; lia|].
  apply (run_dead Out A (nd_addrs _ _ N) later _ W F D). exact L.
Qed.
