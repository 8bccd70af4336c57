(** Every accepted call was in order: induction over everything that is delivered. *)
From Verif Require TreasuryFacts.
From Verif Require Import Base OMap OMapLemmas Assets PollModel PollSpec PollProofs FundsModel FundsSpec FundsProofs FundsFacts MemberModel MemberSpec MemberProofs MemberFacts Msgs
  ControllerModel ControllerSpec ControllerProofs ControllerFacts TreasuryModel EnterpriseModel OutpostsModel OutpostsFacts WorldModel WorldSpec WorldProofs WorldRun
  LiftProofs LiftFacts LiveSpec PurseSpec OrderSpec AbroadSpec AbroadProofs RecountSpec RecountFacts RuleProofs AccessSpec.

Section Inv.
Context {X : Type}.
Variable Out : outside X.
Variable A : addrs.
Notation world := (world X).
Variable I : world -> Prop.
Hypothesis Hcall : forall n (w : world) e s to m coins x w1 subs d, I w -> x_pay Out (w_ext w) s to coins = Ok x ->
  handle Out A n (set_ext (note w s (WasmExecute to m coins)) x) e s to m coins = Ok (w1, subs, d) -> I w1.
Hypothesis Hreply : forall (w : world) e self id r w1 more, I w -> on_reply Out A w e self id r = Ok (w1, more) -> I w1.
Hypothesis Hother : forall (w : world) e s m w1 d, I w -> (forall to wm coins, m <> WasmExecute to wm coins) -> other_msg Out A (note w s m) e s m = Ok (w1, d) -> I w1.

Lemma go_inv n : forall w e j w' d, go Out A n w e j = Ok (w', d) -> I w -> I w'.
Proof.
  induction n as [n IH] using lt_wf_ind. intros w e j w' d H HI. destruct j as [s m|self [|x rest]].
  - destruct n as [|n]; [discriminate|]. apply go_msg in H.
    destruct H as [(to & wm & coins & x & w1 & subs & d' & -> & Hp & Hh & Hg)|(HN & Ho)].
    + eapply IH; [|exact Hg|eapply Hcall; eassumption]. lia.
    + eapply Hother; eassumption.
  - apply go_nil in H. destruct H as [-> _]. exact HI.
  - apply go_cons in H. destruct H as (n' & -> & H).
    destruct H as [(w1 & d1 & H1 & [(_ & H2)|(id & w2 & more & w3 & d3 & E & H2 & H3 & H4)])|(id & w2 & more & w3 & d3 & _ & E & H2 & H3 & H4)].
    + eapply IH; [|exact H2|eapply IH; [|exact H1|exact HI]]; lia.
    + eapply IH; [|exact H4|eapply IH; [|exact H3|eapply Hreply; [eapply IH; [|exact H1|exact HI]|exact H2]]]; lia.
    + eapply IH; [|exact H4|eapply IH; [|exact H3|eapply Hreply; [exact HI|exact H2]]]; lia.
Qed.

Lemma run_inv ts : forall w, I w -> I (world_run Out A w ts).
Proof.
  induction ts as [|t ts IH]; intros w H; [exact H|].
  change (world_run Out A w (t :: ts)) with (world_run Out A (world_step Out A w t) ts). apply IH.
  destruct (step_cases Out A w t) as [E|(d & _ & G)]; [rewrite E; exact H|]. eapply go_inv; eassumption.
Qed.
End Inv.

(** * Single calls *)
Section Calls.
Context {X : Type}.
Variable Out : outside X.
Variable A : addrs.
Notation world := (world X).

(** what stays of a membership contract that was made as [st0] *)
Definition same_kind (st0 st : member_state) : Prop :=
  match st0, st with
  | MToken a, MToken b | MDenom a, MDenom b => st_asset b = st_asset a
  | MNft a, MNft b => forall c, collection Out b c -> collection Out a c
  | MMultisig _, MMultisig _ => True
  | _, _ => False
  end.

Lemma same_kind_refl st : same_kind st st.
Proof. destruct st; cbn; auto. Qed.

(** the bridge is asked about the collection that the contract was made for *)
Definition bridged (o : member_oracle) (st : member_state) : Prop :=
  match st with MNft q => match ns_contract q with NIcs721 p k => exists x, mo_ics721 o = x_ics721 Out x p k | NCw721 _ => True end | _ => True end.

Lemma claim_self s e sender u s' outs : claim_stake s e sender u = Ok (s', outs) -> self_or_none sender u /\ st_asset s' = st_asset s.
Proof.
  unfold claim_stake. intros H. apply bind_ok in H. destruct H as (v & Hv & H). apply bind_ok in H. destruct H as (? & Hg & H). apply guard_ok in Hg. apply N.eqb_eq in Hg.
  apply bind_ok in H. destruct H as ((cl & t) & _ & H). injection H as <- _. split; [|reflexivity].
  destruct u as [u|]; [|exact I]. cbn [self_or_none]. unfold addr_validate in Hv. destruct (u =? 0); [discriminate|]. injection Hv as <-. congruence.
Qed.

Lemma stake_call o s e sender m s' outs : stake_execute o s e sender m = Ok (s', outs) -> mo_controller o = Ok (a_controller A) ->
  st_asset s' = st_asset s /\
  match m with
  | SUnstake k => k <= ogetN (m_weights (st_members s)) sender
  | SClaim u => self_or_none sender u
  | _ => sender = a_controller A
  end.
Proof.
  intros H E. destruct m; cbn [stake_execute] in H.
  - apply unstake_ok in H. destruct H as (r & _ & -> & _ & L & _). split; [reflexivity|exact L].
  - apply claim_self in H. tauto.
  - allb. unfold update_period in *. allb. split; [destruct p; reflexivity|]. congruence.
  - allb. unfold add_hook in *. allb. split; [reflexivity|]. congruence.
  - allb. unfold remove_hook in *. allb. split; [reflexivity|]. congruence.
Qed.

Lemma add_claims_asset s a l s' : add_claims s a l = Ok s' -> st_asset s' = st_asset s.
Proof.
  unfold add_claims. intros H. apply bind_ok in H. destruct H as ([s1 t] & H1 & H). apply bind_ok in H. destruct H as (? & _ & H). injection H as <-.
  eapply (fold_res_inv (fun x : staking * N => st_asset (fst x) = st_asset s)) in H1; [exact H1| |reflexivity].
  intros [q n] [[u k] r] [q' n'] _ E H2. cbn [fst] in *. allb. match goal with H : add_claim _ _ _ _ = Ok _ |- _ => unfold add_claim in H; apply bind_ok in H; destruct H as (? & _ & H); injection H as <- end. exact E.
Qed.

Lemma member_call o st0 st e s coins m st' outs :
  member_execute o st e s coins m = Ok (st', outs) -> same_kind st0 st -> mo_controller o = Ok (a_controller A) -> bridged o st ->
  may_tell_members Out A st0 (weight_of st s) s m coins /\ same_kind st0 st'.
Proof.
  intros H K E B. destruct st as [q|q|q|q], m as [x|x|x|x]; cbn [member_execute] in H; try discriminate;
    apply bind_ok in H; destruct H as [[s1 o1] [H1 H]]; inversion H; subst; clear H; unfold weight_of; cbn [members_of may_tell_members].
  - destruct st0 as [z| | |]; try (exfalso; exact K). cbn [same_kind] in K. destruct x as [k h|x]; cbn [token_execute] in H1.
    + unfold token_receive in H1. apply bind_ok in H1. destruct H1 as [? [G H]]. apply guard_ok in G.
      assert (S : st_asset q = Cw20 s). { destruct (st_asset q) as [y|y|y y']; cbn in G; try discriminate. apply N.eqb_eq in G. congruence. }
      split; [exists z; split; [reflexivity|congruence]|]. cbn [same_kind]. destruct h as [v|l|l|].
      * apply stake_token_ok in H. destruct H as [_ [_ H]]. destruct (add_stake_weight _ _ _ _ _ _ s H) as [Q _]. congruence.
      * apply add_stakes_ok in H. destruct H as [m [ch [_ [-> _]]]]. cbn. congruence.
      * allb. match goal with H : add_claims _ _ _ = Ok _ |- _ => apply add_claims_asset in H; rewrite H end. congruence.
      * discriminate.
    + destruct (stake_call _ _ _ _ _ _ _ H1 E) as (Q1 & Q2). split; [|cbn [same_kind]; congruence]. destruct x; exact Q2.
  - destruct st0 as [|z| |]; try (exfalso; exact K). cbn [same_kind] in K. destruct x as [v|x]; cbn [denom_execute] in H1.
    + apply stake_denom_ok in H1. destruct H1 as [d [a [-> [S [_ [_ H]]]]]]. destruct (add_stake_weight _ _ _ _ _ _ s H) as [Q _].
      split; [|cbn [same_kind]; congruence]. exists z, d, a. split; [reflexivity|]. split; [reflexivity|congruence].
    + destruct (stake_call _ _ _ _ _ _ _ H1 E) as (Q1 & Q2). split; [|cbn [same_kind]; congruence]. destruct x; exact Q2.
  - destruct st0 as [| |z|]; try (exfalso; exact K). cbn [same_kind] in K. destruct x as [t h|ts|v|p|h|h]; cbn [nft_execute] in H1.
    + apply receive_nft_ok in H1. destruct H1 as [C H].
      assert (CQ : collection Out q s).
      { unfold collection. unfold collection_of in C. cbn [bridged] in B. destruct (ns_contract q) as [a|p k]; [congruence|].
        destruct B as (x & B). exists x. rewrite <- B. destruct (mo_ics721 o) as [[a|]|]; try discriminate. congruence. }
      assert (R : forall c, collection Out (resolved q o s) c -> collection Out z c).
      { intros c HC. apply K. unfold resolved in HC. unfold collection in *. destruct (ns_contract q) as [a|p k] eqn:EQ; [rewrite EQ in HC; exact HC|].
        cbn in HC. subst c. exact CQ. }
      split; [exists z; split; [reflexivity|exact (K _ CQ)]|]. cbn [same_kind]. destruct h as [v|v r|]; [| |contradiction].
      * apply stake_nft_ok in H. destruct H as [-> _]. exact R.
      * destruct H as [_ [H _]]. unfold add_nft_claim in H. allb. exact R.
    + apply unstake_nft_ok in H1. destruct H1 as [r [stk [_ [_ [-> [_ [L _]]]]]]]. split; [exact L|]. exact K.
    + unfold claim_nft in H1. apply bind_ok in H1. destruct H1 as (c & _ & H). apply bind_ok in H. destruct H as (u & Hv & H). apply bind_ok in H. destruct H as (? & Hg & H).
      apply guard_ok in Hg. apply N.eqb_eq in Hg. injection H as <- _. split; [|exact K].
      destruct v as [v|]; [|exact I]. cbn [self_or_none]. unfold addr_validate in Hv. destruct (v =? 0); [discriminate|]. injection Hv as <-. congruence.
    + allb. unfold nft_update_period in *. allb. split; [congruence|]. destruct p; exact K.
    + allb. unfold add_hook in *. allb. split; [congruence|]. exact K.
    + allb. unfold remove_hook in *. allb. split; [congruence|]. exact K.
  - destruct st0 as [| | |z]; try (exfalso; exact K). split; [|exact I]. destruct x as [l|l|h|h]; cbn [multisig_execute] in H1.
    + apply update_members_ok in H1. destruct H1 as [Q _]. split; [congruence|eauto].
    + apply set_members_ok in H1. destruct H1 as [Q _]. split; [congruence|eauto].
    + allb. unfold add_hook in *. allb. congruence.
    + allb. unfold remove_hook in *. allb. congruence.
Qed.

(** those who get votes by a stake are not restricted *)
Lemma stake_free o st e s coins m st' outs u : member_execute o st e s coins m = Ok (st', outs) ->
  match m with
  | TokenMsg (TReceive _ (HStake v)) | NftMsg (NReceive _ (NStake v)) => v = u
  | TokenMsg (TReceive _ (HAddStakes l)) => entries u l <> 0
  | DenomMsg (DStake (Some v)) => v = u
  | DenomMsg (DStake None) => s = u
  | _ => False
  end -> mo_restricted o u = Ok false.
Proof.
  intros H Q. destruct st as [q|q|q|q], m as [x|x|x|x]; cbn [member_execute] in H; try discriminate;
    apply bind_ok in H; destruct H as [[s1 o1] [H1 H]]; inversion H; subst; clear H.
  - destruct x as [k h|x]; [|destruct Q]. cbn [token_execute] in H1. unfold token_receive in H1. apply bind_ok in H1. destruct H1 as [? [_ H]]. destruct h as [v|l|l|]; try (exfalso; exact Q).
    + apply stake_token_ok in H. subst. tauto.
    + apply add_stakes_ok in H. destruct H as [m [ch [Hl _]]]. apply add_stakes_loop in Hl. destruct Hl as (w & more & _ & _ & _ & _ & _ & R & W). apply R. rewrite W, <- entries_lsum. lia.
  - destruct x as [v|x]; [|destruct Q]. cbn [denom_execute] in H1. apply stake_denom_ok in H1. destruct H1 as [d [a [-> [_ [_ [R _]]]]]]. destruct v; cbn in R; subst; exact R.
  - destruct x as [t h|ts|v|p|h|h]; try destruct Q. cbn [nft_execute] in H1. apply receive_nft_ok in H1. destruct H1 as [_ H]. destruct h as [v|v r|]; try (exfalso; exact Q).
    apply stake_nft_ok in H. subst. tauto.
  - destruct Q.
Qed.
End Calls.

(** * Everything that is delivered *)
Section Whole.
Context {X : Type}.
Variable Out : outside X.
Variable A : addrs.
Hypothesis HA : NoDup (dao_addrs A).
Notation world := (world X).
Variable w0 : world.

(** what stays of the wiring *)
Record parts (w : world) : Prop := mk_parts {
  pa_en : en_wired A (w_enterprise w);
  pa_ctl : ct_enterprise (w_ctl w) = a_enterprise A;
  pa_gov : g_admin (w_gov w) = a_controller A;
  pa_member : m_enterprise (members_of (w_member w)) = a_enterprise A;
  pa_council : m_enterprise (members_of (w_council w)) = a_enterprise A;
  pa_kind : same_kind Out (w_member w0) (w_member w);
  pa_ckind : same_kind Out (w_council w0) (w_council w);
  pa_funds : f_admin (w_funds w) = a_controller A;
  pa_rewards : f_enterprise (w_funds w) = a_enterprise A;
  pa_outposts : op_enterprise (w_outposts w) = a_enterprise A
}.

Lemma components_wired (w : world) : en_wired A (w_enterprise w) -> exists att, components_by A w (a_enterprise A) = Ok (wiring_of A att).
Proof.
  intros (_ & att & E). exists att. unfold components_by, enterprise_at. rewrite N.eqb_refl. cbn [bind]. unfold query_component_contracts. rewrite E. reflexivity.
Qed.

Lemma member_asks (w : world) st : en_wired A (w_enterprise w) -> m_enterprise (members_of st) = a_enterprise A ->
  mo_controller (member_oracle_of Out A w st) = Ok (a_controller A) /\ bridged Out (member_oracle_of Out A w st) st.
Proof.
  intros HW HE. split.
  - cbn [member_oracle_of mo_controller]. rewrite HE. destruct (components_wired w HW) as (att & ->). reflexivity.
  - destruct st; try exact I. cbn [bridged member_oracle_of mo_ics721]. destruct (ns_contract s); [exact I|eauto].
Qed.

Lemma funds_enterprise o f s coins m f' ps : funds_execute o f s coins m = Ok (f', ps) -> f_enterprise f' = f_enterprise f.
Proof.
  assert (K1 : forall l f t f' t', fold_res update_weight_one (f, t) l = Ok (f', t') -> f_enterprise f' = f_enterprise f).
  { induction l as [|[u x] l IH]; intros g t g' t' H; cbn [fold_res] in H; [injection H as <- <-; reflexivity|].
    apply bind_ok in H. destruct H as ([f1 t1] & H1 & H). apply IH in H. rewrite H. clear -H1.
    unfold update_weight_one in H1. apply bind_ok in H1. destruct H1 as (u' & _ & H). apply bind_ok in H. destruct H as (f2 & Hf & H).
    assert (E : f_enterprise f2 = f_enterprise g).
    { destruct (oget (f_eff g) u').
      - apply bind_ok in Hf. destruct Hf as (nn & _ & Hf). apply bind_ok in Hf. destruct Hf as (c & _ & Hf). injection Hf as <-. reflexivity.
      - injection Hf as <-. reflexivity. }
    apply bind_ok in H. destruct H as (t2 & _ & H). apply bind_ok in H. destruct H as (t3 & _ & H). injection H as <- _. exact E. }
  assert (K2 : forall l b f t f' t', fold_res (update_min_one b) (f, t) l = Ok (f', t') -> f_enterprise f' = f_enterprise f).
  { induction l as [|[u x] l IH]; intros b g t g' t' H; cbn [fold_res] in H; [injection H as <- <-; reflexivity|].
    apply bind_ok in H. destruct H as ([f1 t1] & H1 & H). apply IH in H. rewrite H.
    unfold update_min_one in H1. apply bind_ok in H1. destruct H1 as (n & _ & H1). apply bind_ok in H1. destruct H1 as (c & _ & H1).
    apply bind_ok in H1. destruct H1 as (t2 & _ & H1). apply bind_ok in H1. destruct H1 as (t3 & _ & H1). injection H1 as <- _. reflexivity. }
  intros H. destruct m as [ch|mn| |user ns cs|x known]; cbn [funds_execute] in H.
  - apply bind_ok in H. destruct H as (f1 & H1 & H). injection H as <- _. unfold update_user_weights in H1.
    apply bind_ok in H1. destruct H1 as (? & _ & H1). apply bind_ok in H1. destruct H1 as ([f2 t2] & H2 & H1). injection H1 as <-. exact (K1 _ _ _ _ _ H2).
  - apply bind_ok in H. destruct H as (f1 & H1 & H). injection H as <- _. unfold update_minimum in H1.
    apply bind_ok in H1. destruct H1 as (? & _ & H1). destruct (f_min f =? mn); [injection H1 as <-; reflexivity|].
    destruct (f_min f <? mn); apply bind_ok in H1; destruct H1 as ([f2 t2] & H2 & H1); injection H1 as <-; exact (K2 _ _ _ _ _ _ H2).
  - apply bind_ok in H. destruct H as (f1 & H1 & H). injection H as <- _. unfold distribute_native in H1.
    repeat (apply bind_ok in H1; destruct H1 as (? & _ & H1)). injection H1 as <-. reflexivity.
  - unfold claim_rewards in H. repeat (apply bind_ok in H; let y := fresh in destruct H as (y & _ & H); try destruct y).
    all: injection H as <- _; reflexivity.
  - destruct known; [|discriminate]. apply bind_ok in H. destruct H as (f1 & H1 & H). injection H as <- _. unfold distribute_cw20 in H1.
    repeat (apply bind_ok in H1; destruct H1 as (? & _ & H1)). injection H1 as <-. reflexivity.
Qed.

Ltac parts_by HS :=
  constructor; rewrite ?(same_ctl _ _ _ HS ltac:(discriminate)), ?(same_gov _ _ _ HS ltac:(discriminate)), ?(same_member _ _ _ HS ltac:(discriminate)),
    ?(same_council _ _ _ HS ltac:(discriminate)), ?(same_funds _ _ _ HS ltac:(discriminate)), ?(same_enterprise _ _ _ HS ltac:(discriminate)),
    ?(same_outposts _ _ _ HS ltac:(discriminate)); try assumption.

Lemma handle_parts n (w : world) e s to m coins w1 subs d : handle Out A n w e s to m coins = Ok (w1, subs, d) -> parts w -> parts w1.
Proof.
  intros H [P1 P2 P3 P4 P5 P6 P7 P8 P9 P10]. pose proof (handle_op Out A HA _ _ _ _ _ _ _ _ _ _ H P1) as (W & _).
  apply (handle_all Out A) in H.
  destruct H as [(-> & HS & cm & -> & H)|[(-> & HS & gm & -> & H)|[(-> & HS & mm & outs & -> & H)|[(-> & HS & mm & outs & -> & H)|
    [(-> & HS & fm & pays & -> & H)|[(-> & HS & tm & -> & H)|[(-> & HS & em & -> & H)|[(-> & HS & om & -> & H)|(NI & HS)]]]]]]]].
  - parts_by HS. apply call_frame in H. destruct H as (_ & H & _). congruence.
  - parts_by HS. apply execute_admin in H. congruence.
  - destruct (member_asks w _ P1 P4) as (Q1 & Q2). parts_by HS.
    + pose proof (settings_by_controller (w_member w) (mk_mcall _ e s coins mm) _ outs H) as (E1 & _). congruence.
    + exact (proj2 (member_call Out A _ _ _ _ _ _ _ _ _ H P6 Q1 Q2)).
  - destruct (member_asks w _ P1 P5) as (Q1 & Q2). parts_by HS.
    + pose proof (settings_by_controller (w_council w) (mk_mcall _ e s coins mm) _ outs H) as (E1 & _). congruence.
    + exact (proj2 (member_call Out A _ _ _ _ _ _ _ _ _ H P7 Q1 Q2)).
  - parts_by HS.
    + apply funds_settings in H. destruct H as (H & _). congruence.
    + apply funds_enterprise in H. congruence.
  - parts_by HS.
  - parts_by HS.
  - parts_by HS. pose proof (op_changes (w_outposts w) (mk_op_call _ e s om) _ _ H) as (E & _). congruence.
  - parts_by HS.
Qed.

Lemma reply_parts (w : world) e self id r w1 more : on_reply Out A w e self id r = Ok (w1, more) -> parts w -> parts w1.
Proof.
  intros H [P1 P2 P3 P4 P5 P6 P7 P8 P9 P10]. pose proof (reply_op Out A _ _ _ _ _ _ _ H P1) as (W & _).
  apply (reply_all Out A) in H. destruct H as [(HS & H)|[(HS & H)|HS]].
  - parts_by HS. apply reply_frame in H. destruct H as (_ & _ & H). congruence.
  - parts_by HS.
  - parts_by HS.
Qed.

Lemma other_parts (w : world) e s m w1 d : other_msg Out A w e s m = Ok (w1, d) -> parts w -> parts w1.
Proof.
  intros H [P1 P2 P3 P4 P5 P6 P7 P8 P9 P10]. apply (other_all Out A) in H. parts_by H.
Qed.

Lemma set_parts (w : world) s m x : parts w -> parts (set_ext (note w s m) x).
Proof. intros []. constructor; assumption. Qed.
Lemma note_parts (w : world) s m : parts w -> parts (note w s m).
Proof. intros []. constructor; assumption. Qed.

(** ** The calls themselves *)
Lemma weight_query (w : world) st u x : query_user_weight (members_of st) u = Ok x -> x = weight_of st u.
Proof.
  unfold query_user_weight. intros H. apply bind_ok in H. destruct H as (v & Hv & H). injection H as <-.
  unfold addr_validate in Hv. destruct (u =? 0); [discriminate|]. injection Hv as <-. reflexivity.
Qed.

Lemma ctl_call (w : world) e s coins cm c' subs : parts w ->
  ctl_execute (ctl_oracle_of Out A w) (a_controller A) (w_ctl w) e s coins cm = Ok (c', subs) ->
  may_tell_controller Out A w0 (weight_of (w_member w) s) (weight_of (w_council w) s) s cm.
Proof.
  intros [P1 P2 P3 P4 P5 P6 P7 P8 P9 P10] H. destruct (components_wired w P1) as (att & HC).
  assert (CC : co_components (ctl_oracle_of Out A w) = Ok (wiring_of A att)) by (cbn [ctl_oracle_of co_components]; rewrite P2; exact HC).
  pose proof (apart A HA) as AP. decompose [and] AP. clear AP.
  assert (MM : members_at A w (a_membership A) = Ok (w_member w)) by (unfold members_at; rewrite N.eqb_refl; reflexivity).
  assert (MC : members_at A w (a_council A) = Ok (w_council w)).
  { unfold members_at. destruct (N.eqb_spec (a_council A) (a_membership A)); [congruence|]. rewrite N.eqb_refl. reflexivity. }
  destruct cm as [acts owner|acts owner ts|acts|id out|id out|id|from k msg|ch|id|]; cbn [ctl_execute may_tell_controller] in *; try exact I.
  - unfold create_proposal_nft in H. rewrite CC in H.
    apply bind_ok in H. destruct H as (t & _ & H). apply bind_ok in H. destruct H as (? & _ & H). apply bind_ok in H. destruct H as (? & _ & H).
    cbn [bind wiring_of c_membership] in H. apply bind_ok in H. destruct H as (nft & Hn & _). cbn [ctl_oracle_of co_nft_config] in Hn. rewrite MM in Hn. cbn [bind] in Hn.
    destruct (w_member w) as [| |q|]; try discriminate. destruct (w_member w0) as [| |z|]; try (exfalso; exact P6). eauto.
  - unfold create_council_proposal in H. apply bind_ok in H. destruct H as (? & _ & H). apply bind_ok in H. destruct H as (? & _ & H).
    apply bind_ok in H. destruct H as (? & _ & H). apply bind_ok in H. destruct H as (? & _ & H). apply bind_ok in H. destruct H as (wt & Hw & H).
    apply bind_ok in H. destruct H as (? & Hg & _). apply guard_ok in Hg. unfold council_weight in Hw. rewrite CC in Hw. cbn [bind wiring_of Msgs.c_council ctl_oracle_of co_weight] in Hw.
    rewrite MC in Hw. cbn [bind] in Hw. apply (weight_query w) in Hw. subst wt. destruct (N.eqb_spec (weight_of (w_council w) s) 0); [discriminate|assumption].
  - unfold ctl_cast_vote in H. apply bind_ok in H. destruct H as (? & _ & H). apply bind_ok in H. destruct H as (wt & Hw & H).
    apply bind_ok in H. destruct H as (? & Hg & _). apply guard_ok in Hg. unfold user_votes in Hw. rewrite CC in Hw. cbn [bind wiring_of c_membership ctl_oracle_of co_weight] in Hw.
    rewrite MM in Hw. cbn [bind] in Hw. apply (weight_query w) in Hw. subst wt. destruct (N.eqb_spec (weight_of (w_member w) s) 0); [discriminate|assumption].
  - unfold ctl_cast_council_vote in H. apply bind_ok in H. destruct H as (? & _ & H). apply bind_ok in H. destruct H as (? & _ & H). apply bind_ok in H. destruct H as (wt & Hw & H).
    apply bind_ok in H. destruct H as (? & Hg & _). apply guard_ok in Hg. unfold council_weight in Hw. rewrite CC in Hw. cbn [bind wiring_of Msgs.c_council ctl_oracle_of co_weight] in Hw.
    rewrite MC in Hw. cbn [bind] in Hw. apply (weight_query w) in Hw. subst wt. destruct (N.eqb_spec (weight_of (w_council w) s) 0); [discriminate|assumption].
  - destruct msg as [[acts owner]|]; [|discriminate]. unfold create_proposal_cw20 in H. rewrite CC in H.
    apply bind_ok in H. destruct H as (t & _ & H). cbn [bind wiring_of c_membership] in H. apply bind_ok in H. destruct H as (tk & Hn & H).
    apply bind_ok in H. destruct H as (? & Hg & _). apply guard_ok in Hg. apply Bool.andb_true_iff in Hg. destruct Hg as (_ & Hg). apply N.eqb_eq in Hg. subst tk.
    cbn [ctl_oracle_of co_token_config] in Hn. rewrite MM in Hn. cbn [bind] in Hn.
    destruct (w_member w) as [q| | |]; try discriminate. destruct (w_member w0) as [z| | |]; try (exfalso; exact P6). cbn [same_kind] in P6. exists z. split; [reflexivity|].
    destruct (st_asset q) as [y|y|y y'] eqn:EQ; try discriminate. injection Hn as ->. congruence.
  - unfold weights_changed in H. rewrite CC in H. cbn [bind wiring_of Msgs.c_council c_membership] in H. destruct (N.eqb_spec s (a_council A)); [right; assumption|].
    apply bind_ok in H. destruct H as (? & Hg & _). apply guard_ok in Hg. apply N.eqb_eq in Hg. left. exact Hg.
  - unfold execute_actions in H. apply bind_ok in H. destruct H as (? & Hg & _). apply guard_ok in Hg. apply N.eqb_eq in Hg. exact Hg.
  - unfold deploy_initial in H. apply bind_ok in H. destruct H as (? & _ & H). apply bind_ok in H. destruct H as (cr & Hc & H). apply bind_ok in H. destruct H as (cr' & Hv & H).
    apply bind_ok in H. destruct H as (? & Hg & _). apply guard_ok in Hg. apply N.eqb_eq in Hg. subst cr'.
    unfold addr_validate in Hv. destruct (cr =? 0); [discriminate|]. injection Hv as <-. cbn [ctl_oracle_of co_creator] in Hc. eauto.
Qed.

Lemma en_call o en s em en' subs : enterprise_execute o en s em = Ok (en', subs) -> en_wired A en -> s = a_controller A /\ forall c, em <> EnFinalize c.
Proof.
  intros H (HF & att & HC).
  assert (G : forall c, en_controller_only en s = Ok c -> s = a_controller A).
  { intros c Q. unfold en_controller_only in Q. rewrite HC in Q. cbn [bind ok_or] in Q. apply bind_ok in Q. destruct Q as (? & Q & _). apply guard_ok in Q. apply N.eqb_eq in Q. exact Q. }
  destruct em; cbn [enterprise_execute] in H.
  1: { apply bind_ok in H. destruct H as (? & H & _). unfold finalize_instantiation in H. rewrite HF in H. discriminate. }
  all: split; [|intros ? Q; discriminate Q].
  all: unfold update_metadata, upgrade_dao, update_en_config, set_attestation, remove_attestation, en_execute_msgs in H.
  all: repeat match goal with
    | H : en_controller_only _ _ = Ok _ |- _ => exact (G _ H)
    | H : bind _ _ = Ok _ |- _ => apply bind_ok in H; let y := fresh in let Hy := fresh in destruct H as (y & Hy & H)
    end.
Qed.

Lemma op_call_ok (w : world) e s om o' subs : parts w -> outposts_execute (op_oracle_of Out A w) e (w_outposts w) s om = Ok (o', subs) ->
  match om with OpDeploy _ | OpExecute _ _ => s = a_controller A | OpCallback _ _ => True end.
Proof.
  intros [P1 P2 P3 P4 P5 P6 P7 P8 P9 P10] H. destruct (components_wired w P1) as (att & HC).
  assert (G : forall c, op_controller_only (op_oracle_of Out A w) s = Ok c -> s = a_controller A).
  { intros c Q. unfold op_controller_only in Q. cbn [op_oracle_of oo_components] in Q. rewrite P10, HC in Q. cbn [bind] in Q. apply guard_ok in Q. apply N.eqb_eq in Q. exact Q. }
  destruct om; cbn [outposts_execute] in H; [| |exact I].
  - unfold op_deploy in H. apply bind_ok in H. destruct H as (? & H & _). eauto.
  - unfold op_execute_treasury in H. apply bind_ok in H. destruct H as (? & H & _). eauto.
Qed.

Lemma funds_call_ok o f s coins fm f' pays : funds_execute o f s coins fm = Ok (f', pays) ->
  match fm with
  | FUpdateUserWeights _ | FUpdateMinimum _ => s = f_admin f
  | FClaim u _ _ => u = s /\ fo_restricted o u = false
  | FDistributeNative | FReceive _ _ => True
  end.
Proof.
  intros H. destruct fm as [ch|mn| |user ns cs|x known]; cbn [funds_execute] in H; try exact I.
  - apply bind_ok in H. destruct H as (f1 & H1 & _). unfold update_user_weights in H1. apply bind_ok in H1. destruct H1 as (? & Hg & _). apply guard_ok in Hg. apply N.eqb_eq in Hg. exact Hg.
  - apply bind_ok in H. destruct H as (f1 & H1 & _). unfold update_minimum in H1. apply bind_ok in H1. destruct H1 as (? & Hg & _). apply guard_ok in Hg. apply N.eqb_eq in Hg. exact Hg.
  - unfold claim_rewards in H. apply bind_ok in H. destruct H as (? & Hr & H). apply bind_ok in H. destruct H as (u & Hv & H). apply bind_ok in H. destruct H as (? & Hg & _).
    apply guard_ok in Hg, Hr. apply N.eqb_eq in Hg. unfold addr_validate in Hv. destruct (user =? 0); [discriminate|]. injection Hv as <-. split; [congruence|]. destruct (fo_restricted o user); [discriminate|reflexivity].
Qed.

Lemma handle_entitled n (w : world) e s to m coins w1 subs d l : handle Out A n w e s to m coins = Ok (w1, subs, d) -> parts w ->
  weight_of (w_member w) s = recount (a_membership A) s (weight_of (w_member w0) s) l ->
  weight_of (w_council w) s = recount (a_council A) s (weight_of (w_council w0) s) l ->
  tr_admin (w_treasury w) = treasurer A l ->
  entitled Out A w0 l s (WasmExecute to m coins).
Proof.
  intros H HP EM EC ET. pose proof HP as [P1 P2 P3 P4 P5 P6 P7 P8 P9 P10]. unfold entitled. rewrite <- EM, <- EC, <- ET.
  pose proof (apart A HA) as AP. decompose [and] AP. clear AP. apply (handle_all Out A) in H.
  destruct H as [(-> & HS & cm & -> & H)|[(-> & HS & gm & -> & H)|[(-> & HS & mm & outs & -> & H)|[(-> & HS & mm & outs & -> & H)|
    [(-> & HS & fm & pays & -> & H)|[(-> & HS & tm & -> & H)|[(-> & HS & em & -> & H)|[(-> & HS & om & -> & H)|(NI & HS)]]]]]]]].
  - repeat split; try (intros; congruence). intros _. exists cm. split; [reflexivity|]. exact (ctl_call _ _ _ _ _ _ _ HP H).
  - repeat split; try (intros; congruence). intros _. exists gm. split; [reflexivity|]. apply gov_execute_ok in H. destruct H as (H & _). congruence.
  - destruct (member_asks w _ P1 P4) as (Q1 & Q2). repeat split; try (intros; congruence). intros _. exists mm. split; [reflexivity|].
    exact (proj1 (member_call Out A _ _ _ _ _ _ _ _ _ H P6 Q1 Q2)).
  - destruct (member_asks w _ P1 P5) as (Q1 & Q2). repeat split; try (intros; congruence). intros _. exists mm. split; [reflexivity|].
    exact (proj1 (member_call Out A _ _ _ _ _ _ _ _ _ H P7 Q1 Q2)).
  - repeat split; try (intros; congruence). intros _. exists fm. split; [reflexivity|]. apply funds_call_ok in H. rewrite P8 in H. destruct fm; tauto.
  - repeat split; try (intros; congruence). intros _. exists tm. split; [reflexivity|].
    destruct (N.eq_dec s (tr_admin (w_treasury w))) as [E|NE]; [destruct tm; auto|].
    destruct (TreasuryFacts.others_only_migrate _ _ _ _ _ _ H NE) as (lim & ->). exact I.
  - repeat split; try (intros; congruence). intros _. exists em. split; [reflexivity|]. exact (en_call _ _ _ _ _ _ H P1).
  - repeat split; try (intros; congruence). intros _. exists om. split; [reflexivity|]. exact (op_call_ok _ _ _ _ _ _ HP H).
  - unfold dao_addrs in NI. cbn [In] in NI. repeat split; intros ->; exfalso; apply NI; tauto.
Qed.

Lemma handle_weights n (w : world) e s to m coins w1 subs d u : handle Out A n w e s to m coins = Ok (w1, subs, d) ->
  weight_of (w_member w1) u = reweigh (a_membership A) u (s, WasmExecute to m coins) (weight_of (w_member w) u) /\
  weight_of (w_council w1) u = reweigh (a_council A) u (s, WasmExecute to m coins) (weight_of (w_council w) u).
Proof.
  intros H. pose proof (apart A HA) as AP. decompose [and] AP. clear AP. apply (handle_all Out A) in H.
  assert (N1 : forall a x, to <> a -> reweigh a u (s, WasmExecute to m coins) x = x).
  { intros a x NE. unfold reweigh. cbn [fst snd]. destruct m; try reflexivity. destruct (N.eqb_spec to a); [contradiction|reflexivity]. }
  destruct H as [(-> & HS & cm & -> & H)|[(-> & HS & gm & -> & H)|[(-> & HS & mm & outs & -> & H)|[(-> & HS & mm & outs & -> & H)|
    [(-> & HS & fm & pays & -> & H)|[(-> & HS & tm & -> & H)|[(-> & HS & em & -> & H)|[(-> & HS & om & -> & H)|(NI & HS)]]]]]]]].
  1-2,5-8: rewrite (same_member _ _ _ HS ltac:(discriminate)), (same_council _ _ _ HS ltac:(discriminate)), !N1 by congruence; auto.
  - rewrite (same_council _ _ _ HS ltac:(discriminate)). split; [|rewrite N1 by congruence; reflexivity]. unfold reweigh. cbn [fst snd]. rewrite N.eqb_refl. exact (call_weighs _ _ _ _ _ _ _ _ _ H).
  - rewrite (same_member _ _ _ HS ltac:(discriminate)). split; [rewrite N1 by congruence; reflexivity|]. unfold reweigh. cbn [fst snd]. rewrite N.eqb_refl. exact (call_weighs _ _ _ _ _ _ _ _ _ H).
  - rewrite (same_member _ _ _ HS ltac:(discriminate)), (same_council _ _ _ HS ltac:(discriminate)). unfold dao_addrs in NI. cbn [In] in NI. rewrite !N1 by (intros ->; apply NI; tauto). auto.
Qed.

Lemma handle_treasurer n (w : world) e s to m coins w1 subs d l : handle Out A n w e s to m coins = Ok (w1, subs, d) ->
  tr_admin (w_treasury w) = treasurer A l -> tr_admin (w_treasury w1) = treasurer A ((s, WasmExecute to m coins) :: l).
Proof.
  intros H E. apply (handle_all Out A) in H.
  assert (N1 : to <> a_treasury A -> treasurer A ((s, WasmExecute to m coins) :: l) = treasurer A l).
  { intros NE. cbn [treasurer]. destruct m; try reflexivity. destruct m; try reflexivity. destruct (N.eqb_spec to (a_treasury A)); [contradiction|reflexivity]. }
  pose proof (apart A HA) as AP. decompose [and] AP. clear AP.
  destruct H as [(-> & HS & cm & -> & H)|[(-> & HS & gm & -> & H)|[(-> & HS & mm & outs & -> & H)|[(-> & HS & mm & outs & -> & H)|
    [(-> & HS & fm & pays & -> & H)|[(-> & HS & tm & -> & H)|[(-> & HS & em & -> & H)|[(-> & HS & om & -> & H)|(NI & HS)]]]]]]]].
  6: { pose proof (treasury_settings _ _ _ _ _ _ H) as (_ & T & _). clear N1. cbn [treasurer]. destruct tm; try (rewrite T by discriminate; exact E).
    rewrite N.eqb_refl. cbn [treasury_execute] in H. apply bind_ok in H. destruct H as (? & _ & H). apply bind_ok in H. destruct H as (a' & Ha & H). injection H as E2 _. rewrite <- E2.
    unfold addr_validate in Ha. destruct (a =? 0); [discriminate|]. injection Ha as <-. reflexivity. }
  all: rewrite (same_treasury _ _ _ HS ltac:(discriminate)), N1; try congruence.
  intros ->. apply NI. unfold dao_addrs. cbn [In]. tauto.
Qed.

(** ** The whole history *)
Record sound (w : world) : Prop := mk_sound {
  so_parts : parts w;
  so_treasurer : tr_admin (w_treasury w) = treasurer A (w_log w);
  so_member : forall u, weight_of (w_member w) u = recount (a_membership A) u (weight_of (w_member w0) u) (w_log w);
  so_council : forall u, weight_of (w_council w) u = recount (a_council A) u (weight_of (w_council w0) u) (w_log w);
  so_log : forall s m l, sent_after (w_log w) s m l -> entitled Out A w0 l s m
}.

Lemma run_sound ts w : sound w -> sound (world_run Out A w ts).
Proof.
  apply run_inv; clear ts w.
  - intros n w e s to m coins x w1 subs d [S1 S2 S3 S4 S5] _ H. pose proof (handle_log _ _ _ _ _ _ _ _ _ _ _ _ H) as HL.
    cbn [set_ext note w_log] in HL. pose proof (set_parts w s (WasmExecute to m coins) x S1) as HP.
    constructor.
    + exact (handle_parts _ _ _ _ _ _ _ _ _ _ H HP).
    + rewrite HL. exact (handle_treasurer _ _ _ _ _ _ _ _ _ _ _ H S2).
    + intros u. rewrite HL. destruct (handle_weights _ _ _ _ _ _ _ _ _ _ u H) as (-> & _). unfold recount. cbn [fold_right]. f_equal. apply S3.
    + intros u. rewrite HL. destruct (handle_weights _ _ _ _ _ _ _ _ _ _ u H) as (_ & ->). unfold recount. cbn [fold_right]. f_equal. apply S4.
    + rewrite HL. intros s' m' l [later E]. destruct later as [|y later].
      * injection E as <- <- <-. exact (handle_entitled _ _ _ _ _ _ _ _ _ _ _ H HP (S3 s) (S4 s) S2).
      * injection E as _ E. apply S5. exists later. exact E.
  - intros w e self id r w1 more [S1 S2 S3 S4 S5] H. pose proof (reply_log _ _ _ _ _ _ _ _ _ H) as HL. pose proof (reply_parts _ _ _ _ _ _ _ H S1) as HP.
    apply (reply_all Out A) in H.
    assert (Q : w_treasury w1 = w_treasury w /\ w_member w1 = w_member w /\ w_council w1 = w_council w).
    { destruct H as [(HS & _)|[(HS & _)|HS]]; (split; [exact (same_treasury _ _ _ HS ltac:(discriminate))|split; [exact (same_member _ _ _ HS ltac:(discriminate))|exact (same_council _ _ _ HS ltac:(discriminate))]]). }
    destruct Q as (Q1 & Q2 & Q3). constructor; rewrite ?HL, ?Q1, ?Q2, ?Q3; assumption.
  - intros w e s m w1 d [S1 S2 S3 S4 S5] NW H. pose proof (other_parts _ _ _ _ _ _ H (note_parts w s m S1)) as HP.
    assert (HL : w_log w1 = (s, m) :: w_log w) by apply (other_quiet _ _ _ _ _ _ _ _ H).
    pose proof (other_all Out A _ _ _ _ _ _ H) as HS.
    pose proof (same_treasury _ _ _ HS ltac:(discriminate)) as Q1. pose proof (same_member _ _ _ HS ltac:(discriminate)) as Q2. pose proof (same_council _ _ _ HS ltac:(discriminate)) as Q3.
    cbn [note w_treasury w_member w_council] in Q1, Q2, Q3.
    assert (NR : forall a u x, reweigh a u (s, m) x = x) by (intros; unfold reweigh; cbn [fst snd]; destruct m; try reflexivity; destruct (NW _ _ _ eq_refl)).
    constructor; [exact HP|rewrite HL, Q1, S2; cbn [treasurer]; destruct m; try reflexivity; destruct (NW _ _ _ eq_refl)| | |].
    + intros u. rewrite HL, Q2, S3. unfold recount. cbn [fold_right]. rewrite NR. reflexivity.
    + intros u. rewrite HL, Q3, S4. unfold recount. cbn [fold_right]. rewrite NR. reflexivity.
    + rewrite HL. intros s' m' l [later E]. destruct later as [|y later]; [|injection E as _ E; apply S5; exists later; exact E].
      injection E as <- <- <-. unfold entitled.
      assert (G : forall a, In a (dao_addrs A) -> is_dao A a = true).
      { intros a Ha. unfold is_dao. apply existsb_exists. exists a. split; [exact Ha|apply N.eqb_refl]. }
      destruct m; try exact I; [destruct (NW _ _ _ eq_refl)| |]; intros Hi; apply G in Hi; cbn [other_msg] in H; rewrite Hi in H; apply bind_ok in H; destruct H as (? & Hg & _);
        apply guard_ok in Hg; apply N.eqb_eq in Hg; exact Hg.
Qed.
End Whole.

(** * Those who have not agreed *)
Section Text.
Context {X : Type}.
Variable Out : outside X.
Variable A : addrs.
Hypothesis HA : NoDup (dao_addrs A).
Notation world := (world X).
Variable w0 : world.
Variable u : addr.
Hypothesis HU : never_signs Out u.

Lemma restricted_now (w : world) : has_text w -> restricted_by Out A w (a_enterprise A) u <> Ok false.
Proof.
  intros (c & a & E1 & E2) H. unfold restricted_by, enterprise_at in H. rewrite N.eqb_refl in H. cbn [bind] in H. unfold query_is_restricted_user in H.
  rewrite E1 in H. cbn [ok_or bind] in H. rewrite E2 in H. apply bind_ok in H. destruct H as (b & Hb & H). destruct b; [exact (HU _ _ Hb)|discriminate].
Qed.

Definition text_of (en : enterprise) : Prop := exists c a, en_components en = Some c /\ c_attestation c = Some a.
Lemma en_text o en s em en' subs : enterprise_execute o en s em = Ok (en', subs) -> em <> EnRemoveAttestation -> en_wired A en -> text_of en -> text_of en'.
Proof.
  intros H NR HW (c & a & E1 & E2). destruct (en_call A _ _ _ _ _ _ H HW) as (_ & NF).
  assert (Q : en_components en' = en_components en); [|exists c, a; rewrite Q; auto].
  destruct em; cbn [enterprise_execute] in H; try congruence; try (destruct (NF _ eq_refl));
  unfold update_metadata, upgrade_dao, update_en_config, set_attestation, en_execute_msgs in H;
  repeat match goal with
    | H : Ok _ = Ok _ |- _ => injection H; clear H; intros; subst
    | H : bind _ _ = Ok _ |- _ => apply bind_ok in H; let y := fresh in let Hy := fresh in destruct H as (y & Hy & H)
    end; reflexivity.
Qed.

Lemma handle_text n (w : world) e s to m coins w1 subs d : handle Out A n w e s to m coins = Ok (w1, subs, d) -> parts Out A w0 w ->
  (to, m) <> (a_enterprise A, ToEnterprise EnRemoveAttestation) -> has_text w -> has_text w1.
Proof.
  intros H [P1 _ _ _ _ _ _ _ _ _] NR HT. apply (handle_all Out A) in H.
  destruct H as [(-> & HS & cm & -> & H)|[(-> & HS & gm & -> & H)|[(-> & HS & mm & outs & -> & H)|[(-> & HS & mm & outs & -> & H)|
    [(-> & HS & fm & pays & -> & H)|[(-> & HS & tm & -> & H)|[(-> & HS & em & -> & H)|[(-> & HS & om & -> & H)|(NI & HS)]]]]]]]].
  7: { refine (en_text _ _ _ _ _ _ H _ P1 HT). intros ->. apply NR. reflexivity. }
  all: unfold has_text; rewrite (same_enterprise _ _ _ HS ltac:(discriminate)); exact HT.
Qed.

Lemma reply_text (w : world) e self id r w1 more : on_reply Out A w e self id r = Ok (w1, more) -> has_text w -> has_text w1.
Proof.
  intros H HT. apply (reply_all Out A) in H. destruct H as [(HS & H)|[(HS & H)|HS]].
  1,3: unfold has_text; rewrite (same_enterprise _ _ _ HS ltac:(discriminate)); exact HT.
  unfold enterprise_reply in H. destruct (id =? 1); [|discriminate]. destruct r as [[a|]|]; try discriminate.
  apply bind_ok in H. destruct H as (a' & _ & H). apply bind_ok in H. destruct H as (c & _ & H). injection H as E _.
  exists (with_attestation c (Some a')), a'. rewrite <- E. auto.
Qed.

Lemma create_free o c e acts dep p c' subs : create_proposal o c e acts dep p = Ok (c', subs) -> co_restricted o p = Ok false.
Proof. unfold create_proposal. intros H. apply bind_ok in H. destruct H as (x & H & _). exact (unrestricted_ok _ _ _ H). Qed.

Lemma ctl_free o self c e s coins cm c' subs : ctl_execute o self c e s coins cm = Ok (c', subs) ->
  match cm with
  | CCreateProposal _ _ | CCreateProposalNft _ _ _ | CCreateCouncilProposal _ | CCastVote _ _ | CCastCouncilVote _ _ | CExecuteProposal _ => s = u
  | CReceive from _ _ => from = u
  | _ => False
  end -> co_restricted o u = Ok false.
Proof.
  intros H Q. destruct cm as [acts owner|acts owner ts|acts|id out|id out|id|from k msg|ch|id|]; cbn [ctl_execute] in H; try (exfalso; exact Q); subst.
  - unfold create_proposal_coins in H. apply bind_ok in H. destruct H as (t & _ & H). apply bind_ok in H. destruct H as (dp & _ & H). exact (create_free _ _ _ _ _ _ _ _ H).
  - unfold create_proposal_nft in H. do 7 (apply bind_ok in H; destruct H as (? & _ & H)). apply bind_ok in H. destruct H as ([s1 ms] & H & _).
    exact (create_free _ _ _ _ _ _ _ _ H).
  - unfold create_council_proposal in H. apply bind_ok in H. destruct H as (x & H & _). exact (unrestricted_ok _ _ _ H).
  - unfold ctl_cast_vote in H. apply bind_ok in H. destruct H as (x & H & _). exact (unrestricted_ok _ _ _ H).
  - unfold ctl_cast_council_vote in H. apply bind_ok in H. destruct H as (x & H & _). exact (unrestricted_ok _ _ _ H).
  - unfold execute_proposal in H. apply bind_ok in H. destruct H as (x & H & _). exact (unrestricted_ok _ _ _ H).
  - destruct msg as [[acts owner]|]; [|discriminate]. unfold create_proposal_cw20 in H. do 4 (apply bind_ok in H; destruct H as (? & _ & H)).
    apply bind_ok in H. destruct H as (f & Hf & H). apply bind_ok in H. destruct H as (dp & _ & H). apply create_free in H.
    unfold addr_validate in Hf. destruct (u =? 0); [discriminate|]. injection Hf as <-. exact H.
Qed.

Lemma handle_free n (w : world) e s to m coins w1 subs d : handle Out A n w e s to m coins = Ok (w1, subs, d) -> parts Out A w0 w -> has_text w ->
  ~ kept_from A u s (WasmExecute to m coins).
Proof.
  intros H [P1 P2 P3 P4 P5 P6 P7 P8 P9 P10] HT HK. apply restricted_now in HT. apply HT. clear HT. pose proof (apart A HA) as AP. decompose [and] AP. clear AP.
  apply (handle_all Out A) in H.
  destruct H as [(-> & HS & cm & -> & H)|[(-> & HS & gm & -> & H)|[(-> & HS & mm & outs & -> & H)|[(-> & HS & mm & outs & -> & H)|
    [(-> & HS & fm & pays & -> & H)|[(-> & HS & tm & -> & H)|[(-> & HS & em & -> & H)|[(-> & HS & om & -> & H)|(NI & HS)]]]]]]]];
    cbn [kept_from] in HK; try (exfalso; exact HK).
  - destruct HK as (_ & HK). pose proof (ctl_free _ _ _ _ _ _ _ _ _ H HK) as Q. cbn [ctl_oracle_of co_restricted] in Q. rewrite P2 in Q. exact Q.
  - destruct HK as (_ & HK). pose proof (stake_free _ _ _ _ _ _ _ _ u H HK) as Q. cbn [member_oracle_of mo_restricted] in Q. rewrite P4 in Q. exact Q.
  - destruct HK as (_ & HK). pose proof (stake_free _ _ _ _ _ _ _ _ u H HK) as Q. cbn [member_oracle_of mo_restricted] in Q. rewrite P5 in Q. exact Q.
  - destruct fm; try (exfalso; exact HK). destruct HK as (_ & HK). apply funds_call_ok in H. destruct H as (E & H). cbn [funds_oracle_of fo_restricted] in H. rewrite P9 in H. subst.
    destruct (restricted_by Out A w (a_enterprise A) u) as [b|]; [congruence|discriminate].
  - exfalso. unfold dao_addrs in NI. cbn [In] in NI. destruct m; try exact HK; [| |destruct m; try exact HK]; destruct HK as (HK & _); apply NI; try destruct HK as [HK|HK]; subst; tauto.
Qed.

Definition outside_text (w : world) : Prop :=
  parts Out A w0 w /\ (text_kept A w -> has_text w /\ forall s m, In (s, m) (w_log w) -> ~ kept_from A u s m).

Lemma run_text ts w : outside_text w -> outside_text (world_run Out A w ts).
Proof.
  apply run_inv; clear ts w.
  - intros n w e s to m coins x w1 subs d [S1 S2] _ H. pose proof (handle_log _ _ _ _ _ _ _ _ _ _ _ _ H) as HL.
    cbn [set_ext note w_log] in HL. pose proof (set_parts Out A w0 w s (WasmExecute to m coins) x S1) as HP. split; [exact (handle_parts Out A HA _ _ _ _ _ _ _ _ _ _ _ H HP)|].
    intros K. unfold text_kept in K. rewrite HL in K. cbn [In] in K.
    assert (K' : text_kept A w) by (intros s' c' Hi; exact (K s' c' (or_intror Hi))). destruct (S2 K') as (T & F).
    assert (T' : has_text (set_ext (note w s (WasmExecute to m coins)) x)) by exact T. split.
    + refine (handle_text _ _ _ _ _ _ _ _ _ _ H HP _ T'). intros E. injection E as -> ->. apply (K s coins). left. reflexivity.
    + rewrite HL. intros s' m' [E|Hi]; [|exact (F _ _ Hi)]. injection E as <- <-. exact (handle_free _ _ _ _ _ _ _ _ _ _ H HP T').
  - intros w e self id r w1 more [S1 S2] H. pose proof (reply_log _ _ _ _ _ _ _ _ _ H) as HL. split; [exact (reply_parts Out A _ _ _ _ _ _ _ _ H S1)|].
    unfold text_kept. rewrite HL. intros K. destruct (S2 K) as (T & F). split; [exact (reply_text _ _ _ _ _ _ _ H T)|exact F].
  - intros w e s m w1 d [S1 S2] NW H. pose proof (other_parts Out A w0 _ _ _ _ _ _ H (note_parts Out A w0 w s m S1)) as HP. split; [exact HP|].
    assert (HL : w_log w1 = (s, m) :: w_log w) by apply (other_quiet _ _ _ _ _ _ _ _ H).
    pose proof (other_all Out A _ _ _ _ _ _ H) as HS. pose proof (same_enterprise _ _ _ HS ltac:(discriminate)) as Q1. cbn [note w_enterprise] in Q1.
    intros K. unfold text_kept in K. rewrite HL in K. cbn [In] in K.
    assert (K' : text_kept A w) by (intros s' c' Hi; exact (K s' c' (or_intror Hi))). destruct (S2 K') as (T & F). split.
    + unfold has_text. rewrite Q1. exact T.
    + rewrite HL. intros s' m' [E|Hi]; [|exact (F _ _ Hi)]. injection E as <- <-. intros HK. destruct m; try exact HK. destruct (NW _ _ _ eq_refl).
Qed.
End Text.
