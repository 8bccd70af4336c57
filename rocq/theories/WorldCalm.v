(** An induction principle for invariants of calm histories: the governance contract is only called in the controller's turns. *)
From Verif Require Import Base OMap OMapLemmas Assets PollModel PollSpec PollProofs PollFacts FundsModel MemberModel MemberSpec MemberProofs MemberFacts Msgs
  ControllerModel ControllerSpec ControllerProofs ControllerFacts TreasuryModel EnterpriseModel OutpostsModel WorldModel WorldSpec WorldMember
  WorldProofs WorldRun LiftFacts WorldInduct.

Section Calm.
Context {X : Type}.
Variable Out : outside X.
Variable A : addrs.
Hypothesis HA : NoDup (dao_addrs A).

(** A single message of the controller to the governance contract is the one that is delivered. *)
Definition announced (w w1 : world X) (subs : list sub_msg) : Prop :=
  forall gm gm' r, subs = [mk_sub (WasmExecute (a_governance A) (ToGovernance gm) []) (ReplySuccess r)] -> stepped A w w1 [gm'] -> gm' = gm.

Lemma msg_log n (w : world X) e s m w' d : go Out A n w e (JMsg s m) = Ok (w', d) -> exists l, w_log w' = l ++ (s, m) :: w_log w.
Proof.
  intros H. destruct n as [|n]; [discriminate|].
  apply go_msg in H. destruct H as [(to & wm & coins & x & w1 & subs & d' & -> & _ & Hh & Hg)|(_ & Ho)].
  - apply go_log in Hg. destruct Hg as (l & ->). apply (handle_log Out A) in Hh. rewrite Hh. exists l. reflexivity.
  - apply (other_quiet Out A) in Ho. destruct Ho as (_ & _ & _ & -> & _ & _). exists []. reflexivity.
Qed.

Lemma announced_go n (w : world X) e s' subs w' d n' w1 subs1 d' : go Out A n (set_ctl w s') e (JSubs (a_controller A) subs) = Ok (w', d) ->
  go Out A n' w1 e (JSubs (a_controller A) subs1) = Ok (w', d') -> announced w w1 subs.
Proof.
  intros H1 H2 gm gm' r -> (_ & _ & _ & _ & L). apply go_log in H2. destruct H2 as (l & E). rewrite L in E.
  apply go_cons in H1. destruct H1 as (k & _ & H1). cbn [sm_msg sm_reply] in H1.
  destruct H1 as [(w2 & d1 & H1 & [(R & _)|(id & w3 & more & w4 & d3 & _ & R & G1 & G2)])|(id & w2 & more & w3 & d3 & _ & R & _)]; try discriminate.
  apply msg_log in H1. destruct H1 as (l1 & E1). apply (reply_log Out A) in R. apply go_log in G1, G2. destruct G1 as (l2 & E2), G2 as (l3 & E3).
  rewrite E3, E2, R, E1 in E. cbn [set_ctl w_log map app] in E.
  change (l3 ++ l2 ++ l1 ++ (a_controller A, gov_msg_of A gm) :: w_log w = l ++ (a_controller A, gov_msg_of A gm') :: w_log w) in E.
  rewrite !app_assoc in E.
  assert (Q : forall (a b : list (addr * cosmos_msg)) x y t, a ++ x :: t = b ++ y :: t -> x = y).
  { intros a b x y t Q. change (x :: t) with ([x] ++ t) in Q. change (y :: t) with ([y] ++ t) in Q. rewrite !app_assoc in Q.
    apply app_inv_tail, app_inj_tail in Q. apply Q. }
  apply Q in E. unfold gov_msg_of in E. congruence.
Qed.

(** [P] is kept by everything that happens at [e] in a calm history. *)
Record calmly (e : env) (P : world X -> Prop) : Prop := mk_calmly {
  ca_start : forall w s m x, P w -> P (set_ext (note w s m) x);
  ca_turn : forall w s coins m s' subs w1 subs1, core A (e_time e) w -> P w -> size w1 < M64 ->
    ctl_execute (ctl_oracle_of Out A w) (a_controller A) (w_ctl w) e s coins m = Ok (s', subs) ->
    turn Out A w e s m w1 subs1 -> early_set w w1 m -> announced w w1 subs -> P w1;
  ca_member : forall w s coins m st outs, core A (e_time e) w -> P w ->
    member_execute (member_oracle_of Out A w (w_member w)) (w_member w) e s coins m = Ok (st, outs) -> P (set_member w st);
  ca_council : forall w s coins m st outs, core A (e_time e) w -> P w ->
    member_execute (member_oracle_of Out A w (w_council w)) (w_council w) e s coins m = Ok (st, outs) -> P (set_councillors w st);
  ca_rest : forall w w1, P w -> w_ctl w1 = w_ctl w -> w_gov w1 = w_gov w -> w_member w1 = w_member w -> w_council w1 = w_council w -> P w1
}.

Lemma induct_calm e P : calmly e P -> forall n w j w' d, go Out A n w e j = Ok (w', d) -> core A (e_time e) w -> votes_current w (e_time e) -> jok A w j ->
  size w' < M64 -> calm A w' -> P w -> P w'.
Proof.
  intros HP. induction n as [n IH] using lt_wf_ind. intros w j w' d H C V J HS HC HI.
  assert (HQ : forall w w1 k, others_same w w1 k -> k <> 0 -> k <> 1 -> k <> 2 -> k <> 3 -> P w -> P w1).
  { intros v v1 k Q N0 N1 N2 N3 Pv. apply (ca_rest _ _ HP v); [exact Pv|exact (same_ctl _ _ _ Q N0)|exact (same_gov _ _ _ Q N1)|exact (same_member _ _ _ Q N2)|
      exact (same_council _ _ _ Q N3)]. }
  pose proof (go_ahead Out A HA _ _ _ _ _ _ H (c_wired _ _ _ C) J HS) as AH.
  destruct j as [s m|self [|x rest]].
  - destruct n as [|n]; [discriminate|].
    assert (HN : forall id coins, m = WasmExecute (a_controller A) (ToController (CExecuteActions id)) coins ->
      s = a_controller A /\ coins = [] /\ ready w id /\ ~ acted A w id).
    { intros id coins ->. apply go_msg in H. destruct H as [(to & wm & c & x & w1 & subs & d' & E & _ & Hh & _)|(NE & _)]; [|destruct (NE _ _ _ eq_refl)].
      injection E as <- <- <-. assert (s = a_controller A) as ->.
      { apply (handle_cases Out A) in Hh. destruct Hh as [(_ & cm & s' & EC & He & _)|[(E & _)|[(E & _)|(E & _)]]];
          [|destruct (gov_not_ctl A HA (eq_sym E))|destruct (member_not_ctl A HA (eq_sym E))|destruct (E eq_refl)].
        injection EC as <-. destruct (N.eq_dec s (a_controller A)) as [E|E]; [exact E|]. rewrite actions_self_only in He by exact E. discriminate. }
      destruct J as (J & _). destruct (J eq_refl) as [SF|(id' & E & R & NA)].
      - exfalso. destruct SF as (SF & _). exact (SF eq_refl _ eq_refl).
      - unfold run_order in E. injection E as -> ->. auto. }
    apply go_msg in H. destruct H as [(to & wm & coins & x & w1 & subs & d' & -> & _ & Hh & Hg)|(NE & Ho)].
    + assert (C0 : core A (e_time e) (set_ext (note w s (WasmExecute to wm coins)) x)) by (apply start_core; assumption).
      assert (V0 : votes_current (set_ext (note w s (WasmExecute to wm coins)) x) (e_time e)) by exact V.
      pose proof (ca_start _ _ HP _ s (WasmExecute to wm coins) x HI) as P0.
      assert (LOG0 : w_log (set_ext (note w s (WasmExecute to wm coins)) x) = (s, WasmExecute to wm coins) :: w_log w) by reflexivity.
      set (w0 := set_ext (note w s (WasmExecute to wm coins)) x) in *.
      assert (Hh2 := Hh). apply (handle_all Out A) in Hh2.
      apply (handle_cases Out A) in Hh.
      destruct Hh as [(-> & cm & s' & -> & He & -> & _)|[(-> & gm & g & -> & He & -> & ->)|[(-> & mm & s' & outs & -> & He & -> & -> & _)|(N1 & N2 & N3 & Q)]]].
      * (* the controller *)
        clear Hh2.
        assert (SM : s <> a_membership A). { intros E. destruct J as (_ & J). exact (J E _ _ _ eq_refl). }
        destruct (ctl_turn_early Out A HA _ _ _ _ _ _ _ _ _ _ (c_wired _ _ _ C0) He Hg) as (n' & w1 & subs1 & L & T & ES & d2 & G).
        pose proof (go_size _ _ _ _ _ _ _ _ G) as GS1.
        assert (HS1 : size w1 < M64) by lia.
        assert (AH1 : ahead w1 w').
        { split; [|eapply go_log; exact G]. destruct (turn_wired Out A _ _ _ _ _ _ (c_wired _ _ _ C0) HS1 T) as (W1 & _ & F1).
          eapply layer1; [exact HA|exact G|exact W1|intros _; exact F1|exact HS]. }
        assert (AH0 : ahead w0 w').
        { eapply ahead_trans; [|exact AH1]. eapply turn_ahead; [apply C0|exact HS1|exact T]. }
        assert (AC : forall id, cm = CExecuteActions id -> s = a_controller A -> acted A w0 id).
        { intros id -> ->. destruct J as (J & _). destruct (J eq_refl) as [SF|(id' & E & R & NA)].
          - exfalso. destruct SF as (SF & _). exact (SF eq_refl _ eq_refl).
          - unfold run_order in E. injection E as <- ->. unfold acted. rewrite LOG0. left. reflexivity. }
        assert (SA : forall id, cm = CExecuteActions id -> s = a_controller A).
        { intros id ->. inversion T; subst; try reflexivity; [destruct H|]. destruct H as [H|(c & H & _)]; discriminate. }
        assert (C1 : core A (e_time e) w1) by (eapply turn_core; [exact HA|exact C0|lia|exact T|congruence]).
        assert (V1 : votes_current w1 (e_time e)) by (eapply turn_votes; [exact C0|lia|exact T|intros (E & _); congruence|exact V0]).
        assert (J1 : jok A w1 (JSubs (a_controller A) subs1)).
        { eapply turn_jok; [exact HA|exact C0|exact T|]. intros id p c E Hp Hin. apply harmless_safe.
          eapply (calm_back _ _ _ AH0 HC); [apply AC; eauto|exact Hp|exact Hin]. }
        assert (P1 : P w1) by (eapply (ca_turn _ _ HP w0); [eassumption|eassumption|eassumption|eassumption|eassumption|eassumption|eapply announced_go; eassumption]).
        exact (IH n' ltac:(lia) _ _ _ _ G C1 V1 J1 HS HC P1).
      * (* governance *)
        apply gov_execute_ok in He. destruct He as (EA & _). rewrite (wi_admin _ _ (c_wired _ _ _ C0)) in EA.
        exfalso. destruct J as (J & _). destruct (J EA) as [SF|(id & E & _)].
        -- destruct SF as (_ & SF & _). exact (SF eq_refl _ eq_refl).
        -- unfold run_order in E. injection E as E _. destruct (gov_not_ctl A HA E).
      * (* membership *)
        clear Hh2.
        pose proof (accepts_deed (w_member w0) (mk_mcall (member_oracle_of Out A w0 (w_member w0)) e s coins mm) s' outs (c_small _ _ _ C0) He) as (DD & TM).
        cbn [mc_msg mc_oracle mc_sender] in TM.
        assert (TA : tame_member mm = true).
        { destruct (tame_member mm) eqn:Et; [reflexivity|]. exfalso. apply (hook_controller Out A _ _ C0) in TM. destruct J as (J & _).
          destruct (J TM) as [SF|(id & E & _)].
          - destruct SF as (_ & _ & SF). rewrite (SF eq_refl _ eq_refl) in Et. discriminate.
          - unfold run_order in E. injection E as E _. destruct (member_not_ctl A HA E). }
        rewrite TA in TM.
        assert (SML : small s') by exact (accepts_small (w_member w0) (mk_mcall (member_oracle_of Out A w0 (w_member w0)) e s coins mm) _ _ (c_small _ _ _ C0) He).
        assert (ENT : m_enterprise (members_of s') = a_enterprise A).
        { destruct (settings_by_controller (w_member w0) (mk_mcall (member_oracle_of Out A w0 (w_member w0)) e s coins mm) _ _ He) as (E & _).
          rewrite E. apply C0. }
        assert (C1 : core A (e_time e) (set_member w0 s')).
        { apply member_core; [exact C0|exact SML| |exact ENT]. rewrite TM. apply C0. }
        assert (P1 : P (set_member w0 s')) by (eapply (ca_member _ _ HP w0); eassumption).
        destruct DD as [DW DT DR|ch DO DT DF].
        -- assert (V1 : votes_current (set_member w0 s') (e_time e)).
           { intros id u v HO Hv. change (weight_of (w_member (set_member w0 s')) u) with (weight_of s' u). rewrite (V0 id u v HO Hv).
             unfold weight_of. rewrite DW. reflexivity. }
           assert (J1 : jok A (set_member w0 s') (JSubs (a_membership A) (map member_sub outs))).
           { split; [intros E; destruct (member_not_ctl A HA E)|]. intros _. apply Forall_forall. intros y Hy. apply in_map_iff in Hy.
             destruct Hy as (o & <- & Ho). split; [reflexivity|]. apply out_dull. intros h ch ->. exact (DR h ch Ho). }
           exact (IH n ltac:(lia) _ _ _ _ Hg C1 V1 J1 HS HC P1).
        -- assert (TR : forall u, replay u (weight_of (w_member w0) u) ch = Some (weight_of s' u)).
           { intros u. pose proof (accepts_told (w_member w0) (mk_mcall (member_oracle_of Out A w0 (w_member w0)) e s coins mm) s' outs
               (proj2 (proj1 (c_small _ _ _ C0))) He) as TD. cbn [mc_msg] in TD.
             specialize (TD ltac:(intros l ->; discriminate) (a_controller A) u). destruct TD as (TD & _).
             assert (HH : ohas (m_hooks (members_of s')) (a_controller A) = true).
             { rewrite TM. apply ohas_true, okeys_In. rewrite (c_hooks _ _ _ C0). left. reflexivity. }
             rewrite DO, told_report, HH in TD. apply TD. rewrite <- TM. exact HH. }
           rewrite DO in Hg. unfold report in Hg. rewrite TM, (c_hooks _ _ _ C0) in Hg. cbn [map member_sub] in Hg.
           set (msg := WasmExecute (a_controller A) (ToController (CWeightsChanged ch)) []) in *.
           apply go_cons in Hg. destruct Hg as (n1 & -> & Hg). cbn [sm_msg sm_reply plain] in Hg.
           destruct Hg as [(w1' & d1 & H1 & [(_ & H2)|(id & w2 & more & w3 & d3 & [E|E] & _)])|(id & w2 & more & w3 & d3 & _ & E & _)]; try discriminate.
           apply go_nil in H2. destruct H2 as [-> _].
           destruct n1 as [|n2]; [discriminate|].
           apply go_msg in H1. destruct H1 as [(to2 & wm2 & coins2 & x2 & w12 & subs2 & d'2 & EM & _ & Hh & Hg)|(NE & _)]; [|destruct (NE _ _ _ eq_refl)].
           unfold msg in EM. injection EM as <- <- <-. fold msg in Hh.
           assert (C00 : core A (e_time e) (set_ext (note (set_member w0 s') (a_membership A) msg) x2)).
           { apply start_core; [exact C1|]. intros id c E. discriminate. }
           assert (V00 : votes_as (set_ext (note (set_member w0 s') (a_membership A) msg) x2) (e_time e) (weight_of (w_member w0))) by exact V0.
           pose proof (ca_start _ _ HP _ (a_membership A) msg x2 P1) as P00.
           assert (M00 : w_member (set_ext (note (set_member w0 s') (a_membership A) msg) x2) = s') by reflexivity.
           set (w00 := set_ext (note (set_member w0 s') (a_membership A) msg) x2) in *.
           apply (handle_cases Out A) in Hh. destruct Hh as [(_ & cm & cs & EC & He2 & -> & _)|[(E & _)|[(E & _)|(E & _)]]];
             [|destruct (gov_not_ctl A HA (eq_sym E))|destruct (member_not_ctl A HA (eq_sym E))|destruct (E eq_refl)].
           injection EC as <-.
           destruct (ctl_turn_early Out A HA _ _ _ _ _ _ _ _ _ _ (c_wired _ _ _ C00) He2 Hg) as (n' & w1 & subs1 & L & T & ES & d2 & G).
           pose proof (go_size _ _ _ _ _ _ _ _ G) as GS1.
           assert (HS1 : size w1 < M64) by lia.
           assert (CC : core A (e_time e) w1) by (eapply turn_core; [exact HA|exact C00|exact HS1|exact T|intros ch' _ E; injection E as <-; exact DF]).
           assert (VV : votes_current w1 (e_time e)).
           { eapply turn_reweigh; [exact HA|exact C00|exact T|exact DF|exact V00|]. intros u. rewrite M00. apply TR. }
           assert (JJ : jok A w1 (JSubs (a_controller A) subs1)) by (eapply turn_jok; [exact HA|exact C00|exact T|discriminate]).
           assert (PP : P w1) by (eapply (ca_turn _ _ HP w00); [eassumption|eassumption|eassumption|eassumption|eassumption|eassumption|eapply announced_go; eassumption]).
           exact (IH n' ltac:(lia) _ _ _ _ G CC VV JJ HS HC PP).
      * (* the others *)
        assert (P1 : P w1).
        { destruct Hh2 as [(E & _)|[(E & _)|[(E & _)|[(-> & HS' & cm & outs & -> & He)|
          [(-> & HS' & _)|[(-> & HS' & _)|[(-> & HS' & _)|[(-> & HS' & _)|(_ & HS')]]]]]]]]; try contradiction;
          try (eapply HQ; [exact HS'| | | | |exact P0]; discriminate).
          assert (EW : P (set_councillors w0 (w_council w1))) by (eapply (ca_council _ _ HP w0); eassumption).
          eapply (ca_rest _ _ HP); [exact EW| | | |]; cbn; [apply (same_ctl _ _ _ HS')|apply (same_gov _ _ _ HS')|apply (same_member _ _ _ HS')|reflexivity]; discriminate. }
        eapply (IH n ltac:(lia) _ _ _ _ Hg (quiet_core _ _ _ _ Q C0) (quiet_votes _ _ _ _ Q V0)); [|exact HS|exact HC|exact P1].
        split; intros E; [destruct (N1 E)|destruct (N3 E)].
    + assert (Ho2 := Ho). apply (other_all Out A) in Ho2. eapply HQ; [exact Ho2| | | | |]; try discriminate.
      pose proof (ca_start _ _ HP _ s m (w_ext w) HI) as P0. eapply (ca_rest _ _ HP); [exact P0| | | |]; reflexivity.
  - apply go_nil in H. destruct H as [-> _]. exact HI.
  - apply go_cons in H. destruct H as (n' & -> & H).
    assert (JR : forall w2 : world X, jok A w2 (JSubs self rest)).
    { intros w2. destruct J as (J1 & J2). split; intros E.
      - left. destruct (J1 E) as [F|(id & rest' & EQ & F & _)]; [inversion F; assumption|]. injection EQ as _ ->. exact F.
      - specialize (J2 E). inversion J2; assumption. }
    assert (JX : jok A w (JMsg self (sm_msg x))).
    { destruct J as (J1 & J2). split; intros E.
      - destruct (J1 E) as [F|(id & rest' & EQ & F & R & NA)]; [left; inversion F as [|? ? (_ & SF)]; exact SF|].
        right. injection EQ as -> _. exists id. auto.
      - specialize (J2 E). inversion J2 as [|? ? (_ & DU)]. exact DU. }
    assert (REST : forall wa da, core A (e_time e) wa -> votes_current wa (e_time e) -> P wa -> go Out A n' wa e (JSubs self rest) = Ok (w', da) -> P w').
    { intros wa da Ca Va Pa Ga. eapply (IH n'); [lia|exact Ga|exact Ca|exact Va|apply JR|exact HS|exact HC|exact Pa]. }
    assert (HR : forall wa id r wb more wc dc dd, sm_reply x = ReplySuccess id \/ sm_reply x = ReplyAlways id ->
      core A (e_time e) wa -> votes_current wa (e_time e) -> P wa -> on_reply Out A wa e self id r = Ok (wb, more) ->
      go Out A n' wb e (JSubs self more) = Ok (wc, dc) -> go Out A n' wc e (JSubs self rest) = Ok (w', dd) ->
      ahead wa w' /\ P w').
    { intros wa id r wb more wc dc dd HI' Ca Va Pa Hr Hg1 Hg2.
      assert (Hr2 := Hr). apply (reply_all Out A) in Hr2.
      apply (reply_cases Out A) in Hr. destruct Hr as [(-> & s' & Hr & ->)|(N & Q)].
      - assert (EX : exists i, x = mk_sub (run_order A i) (ReplyAlways 3)).
        { destruct J as (J1 & _). destruct (J1 eq_refl) as [F|(i & rest' & EQ & _)].
          - inversion F as [|? ? (E & _)]; subst. destruct HI'; congruence.
          - injection EQ as -> _. eauto. }
        destruct EX as (i & EX). assert (id = 3) as -> by (rewrite EX in HI'; cbn in HI'; destruct HI'; congruence).
        apply reply_3 in Hr. destruct Hr as [-> ->]. rewrite set_ctl_same in Hg1. apply go_nil in Hg1. destruct Hg1 as [-> _].
        split; [|exact (REST _ _ Ca Va Pa Hg2)]. eapply go_ahead; [exact HA|exact Hg2|apply Ca|apply JR|exact HS].
      - assert (NM : self <> a_membership A).
        { intros E. destruct J as (_ & J2). specialize (J2 E). inversion J2 as [|? ? (F & _)]; subst. destruct HI'; congruence. }
        assert (JM : jok A wb (JSubs self more)) by (split; intros E; [destruct (N E)|destruct (NM E)]).
        assert (Cb := quiet_core _ _ _ _ Q Ca). assert (Vb := quiet_votes _ _ _ _ Q Va).
        assert (Pb : P wb).
        { destruct Q as (Q1 & Q2 & Q3 & _). assert (Q4 : w_council wb = w_council wa) by (destruct Hr2 as [(Q & _)|[(Q & _)|Q]]; apply (same_council _ _ _ Q); discriminate).
          exact (ca_rest _ _ HP _ _ Pa Q1 Q2 Q3 Q4). }
        pose proof (go_size _ _ _ _ _ _ _ _ Hg2) as S2.
        assert (Ab : ahead wb wc) by (eapply go_ahead; [exact HA|exact Hg1|apply Cb|exact JM|lia]).
        assert (Wc : wired A wc) by (eapply layer1; [exact HA|exact Hg1|apply Cb|intros E; destruct (N E)|lia]).
        assert (Ac : ahead wc w') by (eapply go_ahead; [exact HA|exact Hg2|exact Wc|apply JR|exact HS]).
        assert (Pc : P wc) by exact (IH n' ltac:(lia) _ _ _ _ Hg1 Cb Vb JM ltac:(lia) (calm_back _ _ _ Ac HC) Pb).
        destruct (layer2 Out A HA _ _ _ _ _ _ Hg1 Cb Vb JM ltac:(lia) (calm_back _ _ _ Ac HC)) as (Cc & Vc & _).
        assert (Aa : ahead wa wb). { split; [apply (quiet_wired A _ _ Q (c_wired _ _ _ Ca))|]. exists []. apply Q. }
        split; [exact (ahead_trans _ _ _ Aa (ahead_trans _ _ _ Ab Ac))|exact (REST _ _ Cc Vc Pc Hg2)]. }
    destruct H as [(w1 & d1 & H1 & [(E & H2)|(id & w2 & more & w3 & d3 & E & H2 & H3 & H4)])|(id & w2 & more & w3 & d3 & _ & E & H2 & H3 & H4)].
    + pose proof (go_size _ _ _ _ _ _ _ _ H2) as S2.
      assert (W1 : wired A w1) by (eapply layer1; [exact HA|exact H1|apply C|exact I|lia]).
      assert (A1 : ahead w1 w') by (eapply go_ahead; [exact HA|exact H2|exact W1|apply JR|exact HS]).
      assert (P1 : P w1) by exact (IH n' ltac:(lia) _ _ _ _ H1 C V JX ltac:(lia) (calm_back _ _ _ A1 HC) HI).
      destruct (layer2 Out A HA _ _ _ _ _ _ H1 C V JX ltac:(lia) (calm_back _ _ _ A1 HC)) as (C1 & V1 & _).
      exact (REST _ _ C1 V1 P1 H2).
    + assert (S1 : size w1 <= size w').
      { pose proof (go_size _ _ _ _ _ _ _ _ H3). pose proof (go_size _ _ _ _ _ _ _ _ H4). apply (reply_log Out A) in H2. unfold size in *. rewrite H2 in *. lia. }
      assert (W1 : wired A w1) by (eapply layer1; [exact HA|exact H1|apply C|exact I|lia]).
      assert (A1 : ahead w1 w').
      { assert (H2' := H2). apply (reply_cases Out A) in H2'. destruct H2' as [(-> & s' & Hr & E2)|(N & Q)].
        - subst w2. assert (id = 3) as ->.
          { destruct J as (J1 & _). destruct (J1 eq_refl) as [F|(i & rest' & EQ & _)].
            - inversion F as [|? ? (E1 & _)]; subst. destruct E; congruence.
            - injection EQ as -> _. cbn in E. destruct E; congruence. }
          apply reply_3 in Hr. destruct Hr as [-> ->]. rewrite set_ctl_same in H3. apply go_nil in H3. destruct H3 as [-> _].
          eapply go_ahead; [exact HA|exact H4|exact W1|apply JR|exact HS].
        - assert (NM : self <> a_membership A).
          { intros E1. destruct J as (_ & J2). specialize (J2 E1). inversion J2 as [|? ? (F & _)]; subst. destruct E; congruence. }
          pose proof (go_size _ _ _ _ _ _ _ _ H4) as S2. destruct (quiet_wired A _ _ Q W1) as (W2 & K2).
          assert (J3 : jok A w2 (JSubs self more)) by (split; intros E1; [destruct (N E1)|destruct (NM E1)]).
          assert (A2 : ahead w2 w3) by (eapply go_ahead; [exact HA|exact H3|exact W2|exact J3|lia]).
          assert (W3 : wired A w3) by (eapply layer1; [exact HA|exact H3|exact W2|intros E1; destruct (N E1)|lia]).
          assert (A3 : ahead w3 w') by (eapply go_ahead; [exact HA|exact H4|exact W3|apply JR|exact HS]).
          eapply ahead_trans; [|exact (ahead_trans _ _ _ A2 A3)]. split; [exact K2|]. exists []. apply Q. }
      assert (P1 : P w1) by exact (IH n' ltac:(lia) _ _ _ _ H1 C V JX ltac:(lia) (calm_back _ _ _ A1 HC) HI).
      destruct (layer2 Out A HA _ _ _ _ _ _ H1 C V JX ltac:(lia) (calm_back _ _ _ A1 HC)) as (C1 & V1 & _).
      exact (proj2 (HR _ _ _ _ _ _ _ _ E C1 V1 P1 H2 H3 H4)).
    + exact (proj2 (HR _ _ _ _ _ _ _ _ (or_intror E) C V HI H2 H3 H4)).
Qed.

(** Over a history. *)
Lemma induct_calm_run (P : N -> world X -> Prop) ts : forall now w,
  (forall now e, now <= e_time e -> calmly e (P (e_time e))) ->
  (forall a b v, a <= b -> P a v -> P b v) ->
  core A now w -> votes_current w now -> timely now ts -> size (world_run Out A w ts) < M64 -> calm A (world_run Out A w ts) -> P now w ->
  P (last_from now ts) (world_run Out A w ts).
Proof.
  induction ts as [|t ts IH]; intros now w HP HM C V T HS HC Hw; [exact Hw|]. destruct T as (T1 & T2).
  change (world_run Out A w (t :: ts)) with (world_run Out A (world_step Out A w t) ts) in *.
  change (last_from now (t :: ts)) with (last_from (e_time (tx_env t)) ts).
  apply (later_core _ _ _ _ T1) in C. apply (later_votes _ _ _ T1) in V. apply (HM _ _ _ T1) in Hw.
  pose proof (run_size Out A ts (world_step Out A w t)) as S1.
  destruct (WorldRun.step_cases Out A w t) as [E|(d & Hd & H)]; [rewrite E in *; apply IH; assumption|].
  assert (W1 : wired A (world_step Out A w t)) by (eapply layer1; [exact HA|exact H|apply C|exact I|lia]).
  destruct (run_ahead Out A HA ts _ W1 HS) as (_ & A2 & _).
  destruct (dao_signer _ _ Hd) as (N1 & N2).
  assert (J : jok A w (JMsg (tx_signer t) (tx_msg t))) by (split; intros E; contradiction).
  destruct (layer2 Out A HA _ _ _ _ _ _ H C V J ltac:(lia) (calm_back _ _ _ A2 HC)) as (C1 & V1 & _).
  apply IH; try assumption.
  exact (induct_calm _ _ (HP _ _ T1) _ _ _ _ _ H C V J ltac:(lia) (calm_back _ _ _ A2 HC) Hw).
Qed.
End Calm.
