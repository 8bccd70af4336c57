(** What the contracts that hold other people's money send. *)
From Verif Require Import Base OMap OMapLemmas Assets FundsModel MemberModel MemberSpec MemberProofs MemberFacts Msgs ControllerModel
  TreasuryModel EnterpriseModel OutpostsModel WorldModel WorldSpec PassSpec.
From Verif Require FundsSpec FundsProofs WorldProofs LedgerFacts LedgerMember SentProofs.

(** * One call of a membership contract *)

Definition decent (st : member_state) : Prop := MemberProofs.inv st /\ LedgerMember.kindly st.

Lemma payment_kept st c st' outs v m : decent st -> accepts st c st' outs -> stake_payment st v m -> stake_payment st' v m.
Proof.
  intros (Hi & Hk) Ha HP. destruct st as [s|s|s|s]; cbn [stake_payment] in HP.
  - destruct (LedgerMember.accepts_fair _ _ _ _ s Hi Ha eq_refl Hk) as (s' & E' & Ea & _). pose proof Ha as H. unfold accepts in H.
    destruct (mc_msg c); cbn in H; try discriminate. apply bind_ok in H. destruct H as [[s1 o1] [_ H]]. inversion H; subst. cbn in E'. injection E' as ->.
    cbn. rewrite Ea. exact HP.
  - destruct (LedgerMember.accepts_fair _ _ _ _ s Hi Ha eq_refl Hk) as (s' & E' & Ea & _). pose proof Ha as H. unfold accepts in H.
    destruct (mc_msg c); cbn in H; try discriminate. apply bind_ok in H. destruct H as [[s1 o1] [_ H]]. inversion H; subst. cbn in E'. injection E' as ->.
    cbn. rewrite Ea. exact HP.
  - destruct (LedgerMember.accepts_nft _ _ _ _ s 0 Hi Ha eq_refl) as (s' & -> & _ & _ & _ & _ & Hc & _). cbn.
    destruct HP as (col & k & Ec & ->). exists col, k. split; [|reflexivity].
    destruct (ns_contract s') as [a|p i] eqn:E; destruct (ns_contract s) as [b|? ?] eqn:E0; try discriminate.
    + destruct (N.eq_dec a b) as [->|Hne]; [exact Ec|]. destruct Hc as (p & i & Q); [congruence|discriminate].
    + destruct Hc as (p' & i' & Q); [discriminate|discriminate].
  - destruct HP.
Qed.

Lemma decent_kept st c st' outs : decent st -> accepts st c st' outs -> decent st'.
Proof.
  intros (Hi & Hk) Ha. split; [eapply MemberProofs.inv_accepts; eassumption|].
  destruct (staking_of st) as [s|] eqn:E.
  - destruct (LedgerMember.accepts_fair _ _ _ _ s Hi Ha E Hk) as (s' & _ & _ & H & _). exact H.
  - destruct st as [s|s|s|s]; try discriminate.
    + destruct (LedgerMember.accepts_nft _ _ _ _ s 0 Hi Ha eq_refl) as (s' & -> & _). exact I.
    + destruct (LedgerMember.accepts_multisig _ _ _ _ s Ha eq_refl) as (s' & -> & _). exact I.
Qed.

Lemma report_reports m ch o : In o (report m ch) -> reporting (sm_msg (member_sub o)).
Proof. unfold report. intros H. apply in_map_iff in H. destruct H as (h & <- & _). exists h, ch. reflexivity. Qed.

Lemma stake_execute_sends o s e sender msg s' outs x : keyed s -> stake_execute o s e sender msg = Ok (s', outs) -> In x outs ->
  (exists m ch, In x (report m ch)) \/
  (exists n op, msg = SClaim op /\ (op = None \/ op = Some sender) /\ x = OPay (st_asset s) sender n).
Proof.
  intros Hk H Hx. destruct msg; cbn [stake_execute] in H.
  - apply unstake_ok in H. destruct H as [r [_ [_ [-> _]]]]. left. eauto.
  - apply claim_ok in H; [|assumption]. destruct H as [Hop [_ [-> _]]]. destruct Hx as [<-|[]]. right. eauto 6.
  - allb. destruct Hx.
  - allb. destruct Hx.
  - allb. destruct Hx.
Qed.

Lemma accepts_sends st c st' outs x : decent st -> accepts st c st' outs -> In x outs ->
  reporting (sm_msg (member_sub x)) \/
  (stake_payment st (mc_sender c) (sm_msg (member_sub x)) /\
   exists op, (op = None \/ op = Some (mc_sender c)) /\
     (mc_msg c = TokenMsg (TCommon (SClaim op)) \/ mc_msg c = DenomMsg (DCommon (SClaim op)) \/ mc_msg c = NftMsg (NClaim op))).
Proof.
  intros ((_ & Hk) & Hkind) Ha Hx. unfold accepts in Ha. destruct c as [o e sender coins msg]. cbn [mc_oracle mc_env mc_sender mc_coins mc_msg] in *.
  destruct st as [s|s|s|m0], msg as [m|m|m|m]; cbn in Ha; try discriminate; apply bind_ok in Ha; destruct Ha as [[s1 o1] [H1 Ha]]; inversion Ha; subst; clear Ha;
    cbn [keys_ok LedgerMember.kindly] in *.
  - destruct m as [amount h|m]; cbn [token_execute] in H1.
    + left. unfold token_receive in H1. apply bind_ok in H1. destruct H1 as [? [_ H]]. destruct h.
      * apply stake_token_ok in H. destruct H as [_ [_ H]]. apply add_stake_ok in H. destruct H as [_ [-> _]]. eapply report_reports; exact Hx.
      * apply add_stakes_ok in H. destruct H as [m [ch [_ [_ [-> _]]]]]. eapply report_reports; exact Hx.
      * allb. destruct Hx.
      * discriminate.
    + destruct (stake_execute_sends _ _ _ _ _ _ _ _ Hk H1 Hx) as [(m1 & ch & Hr)|(n & op & -> & Hop & ->)]; [left; eapply report_reports; exact Hr|].
      right. destruct Hkind as (t & Et). split; [|exists op; auto]. cbn. exists t, n. rewrite Et. auto.
  - destruct m as [user|m]; cbn [denom_execute] in H1.
    + left. apply stake_denom_ok in H1. destruct H1 as [d [a [_ [_ [_ [_ H]]]]]]. apply add_stake_ok in H. destruct H as [_ [-> _]]. eapply report_reports; exact Hx.
    + destruct (stake_execute_sends _ _ _ _ _ _ _ _ Hk H1 Hx) as [(m1 & ch & Hr)|(n & op & -> & Hop & ->)]; [left; eapply report_reports; exact Hr|].
      right. destruct Hkind as (t & Et). split; [|exists op; auto]. cbn. exists t, n. rewrite Et. auto.
  - destruct m as [k h|ts|user|p|h|h]; cbn [nft_execute] in H1.
    + left. apply receive_nft_ok in H1. destruct H1 as [_ H]. destruct h as [v|v r|]; [| |contradiction].
      * apply stake_nft_ok in H. destruct H as [_ [-> _]]. eapply report_reports; exact Hx.
      * destruct H as [_ [_ ->]]. destruct Hx.
    + left. apply unstake_nft_ok in H1. destruct H1 as [r [stk [_ [_ [_ [-> _]]]]]]. eapply report_reports; exact Hx.
    + right. apply claim_nft_ok in H1; [|assumption]. destruct H1 as [Hop [col [Hcol [_ ->]]]]. apply in_map_iff in Hx. destruct Hx as (k & <- & _).
      split; [|exists user; auto]. cbn. exists col, k. auto.
    + allb. destruct Hx.
    + allb. destruct Hx.
    + allb. destruct Hx.
  - left. destruct (LedgerMember.accepts_multisig (MMultisig m0) (mk_mcall o e sender coins (MultisigMsg m)) (MMultisig s1) outs m0) as (m' & _ & [->|(m1 & ch & ->)]).
    + unfold accepts. cbn. rewrite H1. reflexivity.
    + reflexivity.
    + destruct Hx.
    + eapply report_reports; exact Hx.
Qed.

(** * The whole DAO *)

Definition member_allowed (a : addr) (st : member_state) (l : list (addr * cosmos_msg)) (m : cosmos_msg) : Prop :=
  reporting m \/ exists v x, stake_payment st v m /\ claims_stake a v x /\ In x l.
Definition funds_allowed (a : addr) (_ : unit) (l : list (addr * cosmos_msg)) (m : cosmos_msg) : Prop :=
  exists v x, reward_payment a v x m /\ In x l.

Lemma member_kept a st c st' outs : decent st -> accepts st c st' outs -> mc_msg c = mc_msg c ->
  (forall s m coins l y, mc_sender c = s -> mc_msg c = m -> In y (map member_sub outs) -> In (s, WasmExecute a (ToMembership m) coins) l -> member_allowed a st' l (sm_msg y)) /\
  (forall l m, member_allowed a st l m -> member_allowed a st' l m).
Proof.
  intros Hd Ha _. split.
  - intros s m coins l y Es Em Hy Hl. apply in_map_iff in Hy. destruct Hy as (x & <- & Hx).
    destruct (accepts_sends _ _ _ _ _ Hd Ha Hx) as [Hr|(Hp & op & Hop & Hm)]; [left; exact Hr|]. right.
    exists s, (s, WasmExecute a (ToMembership m) coins). split; [rewrite <- Es; eapply payment_kept; eassumption|]. split; [|exact Hl].
    exists op, m, coins. rewrite Es in Hop. rewrite Em in Hm. auto.
  - intros l m [Hr|(v & x & Hp & Hc & Hi)]; [left; exact Hr|]. right. exists v, x. split; [eapply payment_kept; eassumption|auto].
Qed.

Section W.
Context {X : Type}.
Variable Out : outside X.
Variable A : addrs.
Hypothesis HA : NoDup (dao_addrs A).

Ltac apart := pose proof HA as HN; unfold dao_addrs in HN; repeat match goal with H : NoDup (_ :: _) |- _ => inversion H; clear H; subst end;
  cbn [In] in *; intros ?; intuition congruence.

Lemma no_replies u w e self id r w1 more : on_reply Out A w e self id r = Ok (w1, more) ->
  In u [a_governance A; a_membership A; a_council A; a_funds A] ->
  self <> u /\ w_member w1 = w_member w /\ w_council w1 = w_council w.
Proof.
  intros H Hu. assert (Hn : self <> u).
  { intros ->. assert (N1 : u <> a_controller A /\ u <> a_enterprise A /\ u <> a_treasury A).
    { cbn [In] in Hu. destruct Hu as [<-|[<-|[<-|[<-|[]]]]]; repeat split; apart. }
    destruct N1 as (N1 & N2 & N3). assert (N4 : is_dao A u = true).
    { apply LedgerProofs.is_dao_in. unfold dao_addrs. cbn [In] in *. tauto. }
    unfold on_reply in H. apply N.eqb_neq in N1, N2, N3. rewrite N1, N2, N3, N4 in H. discriminate. }
  split; [exact Hn|]. unfold on_reply in H.
  repeat match type of H with
  | (if ?a then _ else _) = _ => destruct a; [try discriminate; LedgerFacts.pbw H; inversion H; subst; split; reflexivity|]
  end.
  LedgerFacts.pbw H. inversion H; subst. split; reflexivity.
Qed.

Lemma handle_council n w e s to m coins w1 subs d : handle Out A n w e s to m coins = Ok (w1, subs, d) -> to <> a_council A ->
  w_council w1 = w_council w.
Proof.
  unfold handle. intros H Hn.
  repeat match type of H with
  | (if ?a =? ?b then _ else _) = _ => destruct (N.eqb_spec a b) as [E|]; [subst; try contradiction; destruct m; try discriminate; LedgerFacts.pbw H; inversion H; subst; reflexivity|]
  end.
  LedgerFacts.pbw H. inversion H; subst. reflexivity.
Qed.

Lemma handle_at_council n w e s m coins w1 subs d : handle Out A n w e s (a_council A) m coins = Ok (w1, subs, d) ->
  exists mm s' outs, m = ToMembership mm /\
    member_execute (member_oracle_of Out A w (w_council w)) (w_council w) e s coins mm = Ok (s', outs) /\
    w1 = set_councillors w s' /\ subs = map member_sub outs.
Proof.
  intros H. assert (N1 : a_council A <> a_controller A) by apart. assert (N2 : a_council A <> a_governance A) by apart. assert (N3 : a_council A <> a_membership A) by apart.
  unfold handle in H. apply N.eqb_neq in N1, N2, N3. rewrite N1, N2, N3, N.eqb_refl in H. destruct m; try discriminate.
  LedgerFacts.pbw H. inversion H; subst. eauto 8.
Qed.

Lemma handle_at_governance n w e s m coins w1 subs d : handle Out A n w e s (a_governance A) m coins = Ok (w1, subs, d) -> subs = [].
Proof.
  intros H. assert (N1 : a_governance A <> a_controller A) by apart. unfold handle in H. apply N.eqb_neq in N1. rewrite N1, N.eqb_refl in H.
  destruct m; try discriminate. LedgerFacts.pbw H. inversion H; reflexivity.
Qed.

End W.

(** * One call of the distributor *)

Lemma claim_fold_in u w l : forall r o r' o', fold_res (claim_one u w) (r, o) l = Ok (r', o') -> forall p, In p o' -> In p o \/ In (fst p) l.
Proof.
  induction l as [|a l IH]; intros r o r' o' H p Hp; cbn [fold_res] in H; [inversion H; subst; auto|].
  apply bind_ok in H. destruct H as ([r1 o1] & H1 & H). destruct (IH _ _ _ _ H p Hp) as [Hi|Hi]; [|right; right; exact Hi].
  unfold claim_one in H1. destruct (ogetN (r_global r) a =? 0); [inversion H1; subst; auto|]. apply bind_ok in H1. destruct H1 as (x & _ & H1). destruct (x =? 0); inversion H1; subst; [auto|].
  apply in_app_iff in Hi. destruct Hi as [Hi|[<-|[]]]; [auto|]. right. left. reflexivity.
Qed.

Lemma claim_fold_in' u w l : forall r o r' o', fold_res (fun ro a => a <- addr_validate a ;; claim_one u w ro a) (r, o) l = Ok (r', o') ->
  forall p, In p o' -> In p o \/ In (fst p) l.
Proof.
  induction l as [|a l IH]; intros r o r' o' H p Hp; cbn [fold_res] in H; [inversion H; subst; auto|].
  apply bind_ok in H. destruct H as ([r1 o1] & H1 & H). destruct (IH _ _ _ _ H p Hp) as [Hi|Hi]; [|right; right; exact Hi].
  apply bind_ok in H1. destruct H1 as (a' & Ha & H1). unfold addr_validate in Ha. destruct (a =? 0); [discriminate|]. injection Ha as <-.
  unfold claim_one in H1. destruct (ogetN (r_global r) a =? 0); [inversion H1; subst; auto|]. apply bind_ok in H1. destruct H1 as (x & _ & H1). destruct (x =? 0); inversion H1; subst; [auto|].
  apply in_app_iff in Hi. destruct Hi as [Hi|[<-|[]]]; [auto|]. right. left. reflexivity.
Qed.

Lemma funds_pays a o f s coins m f' ps p : funds_execute o f s coins m = Ok (f', ps) -> In p ps ->
  reward_payment a s (s, WasmExecute a (ToFunds m) coins) (sm_msg (funds_sub p)).
Proof.
  intros H Hp. destruct m; cbn [funds_execute] in H.
  1-3: LedgerFacts.pbw H; inversion H; subst; destruct Hp.
  - unfold claim_rewards in H. apply bind_ok in H. destruct H as (? & _ & H). apply bind_ok in H. destruct H as (u & Hu & H).
    apply bind_ok in H. destruct H as (? & Hg & H). apply guard_ok in Hg. apply N.eqb_eq in Hg. subst u.
    unfold addr_validate in Hu. destruct (user =? 0); [discriminate|]. injection Hu as ->.
    apply bind_ok in H. destruct H as ([n o1] & H1 & H). apply bind_ok in H. destruct H as ([c o2] & H2 & H).
    injection H as <- <-. exists natives, cw20s, coins. split; [reflexivity|].
    apply in_app_iff in Hp. destruct Hp as [Hp|Hp]; apply in_map_iff in Hp; destruct Hp as (q & <- & Hq).
    + destruct (claim_fold_in _ _ _ _ _ _ _ H1 _ Hq) as [[]|Hi]. left. exists (fst q), (snd q). split; [exact Hi|reflexivity].
    + destruct (claim_fold_in' _ _ _ _ _ _ _ H2 _ Hq) as [[]|Hi]. right. exists (fst q), (snd q). split; [exact Hi|reflexivity].
  - destruct known; [|discriminate]. LedgerFacts.pbw H; inversion H; subst; destruct Hp.
Qed.

(** * Results *)

Lemma init_decent e i st : member_instantiate e i = Ok st -> decent st.
Proof. intros H. split; [apply (MemberProofs.init_inv _ _ _ H)|eapply LedgerFacts.init_kindly; exact H]. Qed.

(** The membership contract sends reports, and payments of what is staked to those who claimed it. *)
Lemma membership_sends (X : Type) (Out : outside X) A w0 ts w l1 m l2 :
  new_dao A w0 -> w = world_run Out A w0 ts -> w_log w = l1 ++ (a_membership A, m) :: l2 ->
  reporting m \/ exists v x, stake_payment (w_member w) v m /\ claims_stake (a_membership A) v x /\ In x l2.
Proof.
  intros HN -> HL. pose proof (nd_addrs _ _ HN) as HA. destruct (nd_membership _ _ HN) as (e & i & Hi).
  refine (proj2 (SentProofs.run_sent Out A (a_membership A) (@w_member X) decent (member_allowed (a_membership A)) _ _ _ _ _ _ _ _ ts w0 _ _) l1 m l2 HL).
  - apply LedgerFacts.in_dao_member.
  - intros k l x m' [H|(v & y & H1 & H2 & H3)]; [left; exact H|]. right. exists v, y. split; [exact H1|]. split; [exact H2|right; exact H3].
  - reflexivity.
  - reflexivity.
  - reflexivity.
  - intros n w e0 s to m' coins w1 subs d H Hn. eapply LedgerFacts.handle_member; eassumption.
  - intros w e0 self id r w1 more H. destruct (no_replies Out A HA (a_membership A) _ _ _ _ _ _ _ H) as (H1 & H2 & _); [cbn; tauto|auto].
  - intros n w e0 s m' coins w1 subs d H Hf. apply (LedgerFacts.handle_at_member Out A HA) in H. destruct H as (mm & st' & outs & -> & H & -> & ->).
    set (c := mk_mcall (member_oracle_of Out A w (w_member w)) e0 s coins mm).
    assert (Ha : accepts (w_member w) c st' outs) by exact H. cbn [w_member set_member].
    split; [eapply decent_kept; eassumption|]. destruct (member_kept (a_membership A) _ _ _ _ Hf Ha eq_refl) as (K1 & K2). split; [|exact K2].
    intros l y Hy Hl. eapply (K1 s mm coins); [reflexivity|reflexivity|exact Hy|exact Hl].
  - eapply init_decent. exact Hi.
  - rewrite (nd_log _ _ HN). intros [|? ?] ? ? E; discriminate.
Qed.

(** ... and so does the council's. *)
Lemma council_sends (X : Type) (Out : outside X) A w0 ts w l1 m l2 :
  new_dao A w0 -> w = world_run Out A w0 ts -> w_log w = l1 ++ (a_council A, m) :: l2 ->
  reporting m \/ exists v x, stake_payment (w_council w) v m /\ claims_stake (a_council A) v x /\ In x l2.
Proof.
  intros HN -> HL. pose proof (nd_addrs _ _ HN) as HA. destruct (nd_council _ _ HN) as (e & i & Hi).
  refine (proj2 (SentProofs.run_sent Out A (a_council A) (@w_council X) decent (member_allowed (a_council A)) _ _ _ _ _ _ _ _ ts w0 _ _) l1 m l2 HL).
  - apply LedgerProofs.is_dao_in. unfold dao_addrs. cbn. tauto.
  - intros k l x m' [H|(v & y & H1 & H2 & H3)]; [left; exact H|]. right. exists v, y. split; [exact H1|]. split; [exact H2|right; exact H3].
  - reflexivity.
  - reflexivity.
  - reflexivity.
  - intros n w e0 s to m' coins w1 subs d H Hn. eapply handle_council; eassumption.
  - intros w e0 self id r w1 more H. destruct (no_replies Out A HA (a_council A) _ _ _ _ _ _ _ H) as (H1 & _ & H2); [cbn; tauto|auto].
  - intros n w e0 s m' coins w1 subs d H Hf. apply (handle_at_council Out A HA) in H. destruct H as (mm & st' & outs & -> & H & -> & ->).
    set (c := mk_mcall (member_oracle_of Out A w (w_council w)) e0 s coins mm).
    assert (Ha : accepts (w_council w) c st' outs) by exact H. cbn [w_council set_councillors].
    split; [eapply decent_kept; eassumption|]. destruct (member_kept (a_council A) _ _ _ _ Hf Ha eq_refl) as (K1 & K2). split; [|exact K2].
    intros l y Hy Hl. eapply (K1 s mm coins); [reflexivity|reflexivity|exact Hy|exact Hl].
  - eapply init_decent. exact Hi.
  - rewrite (nd_log _ _ HN). intros [|? ?] ? ? E; discriminate.
Qed.

(** The distributor sends rewards to those who claimed them, of the kinds that they named. *)
Lemma distributor_sends (X : Type) (Out : outside X) A w0 ts w l1 m l2 :
  new_dao A w0 -> w = world_run Out A w0 ts -> w_log w = l1 ++ (a_funds A, m) :: l2 ->
  exists v x, reward_payment (a_funds A) v x m /\ In x l2.
Proof.
  intros HN -> HL. pose proof (nd_addrs _ _ HN) as HA.
  refine (proj2 (SentProofs.run_sent Out A (a_funds A) (fun _ : world X => tt) (fun _ => True) (funds_allowed (a_funds A)) _ _ _ _ _ _ _ _ ts w0 _ _) l1 m l2 HL).
  - apply LedgerFacts.in_dao_funds.
  - intros k l x m' (v & y & H1 & H2). exists v, y. split; [exact H1|right; exact H2].
  - reflexivity.
  - reflexivity.
  - reflexivity.
  - reflexivity.
  - intros w e0 self id r w1 more H. destruct (no_replies Out A HA (a_funds A) _ _ _ _ _ _ _ H) as (H1 & _); [cbn; tauto|auto].
  - intros n w e0 s m' coins w1 subs d H _. apply (LedgerFacts.handle_at_funds Out A HA) in H. destruct H as (fm & f' & ps & -> & H & -> & ->).
    split; [exact I|]. split; [|auto]. intros l y Hy Hl. apply in_map_iff in Hy. destruct Hy as (p & <- & Hp).
    exists s, (s, WasmExecute (a_funds A) (ToFunds fm) coins). split; [eapply funds_pays; eassumption|exact Hl].
  - exact I.
  - rewrite (nd_log _ _ HN). intros [|? ?] ? ? E; discriminate.
Qed.

(** The governance contract sends nothing. *)
Lemma governance_silent (X : Type) (Out : outside X) A w0 ts w m :
  new_dao A w0 -> w = world_run Out A w0 ts -> ~ In (a_governance A, m) (w_log w).
Proof.
  intros HN -> HL. pose proof (nd_addrs _ _ HN) as HA. apply in_split in HL. destruct HL as (l1 & l2 & HL).
  refine (proj2 (SentProofs.run_sent Out A (a_governance A) (fun _ : world X => tt) (fun _ => True) (fun _ _ _ => False) _ _ _ _ _ _ _ _ ts w0 _ _) l1 m l2 HL).
  - apply LedgerProofs.is_dao_in. unfold dao_addrs. cbn. tauto.
  - intros k l x m' [].
  - reflexivity.
  - reflexivity.
  - reflexivity.
  - reflexivity.
  - intros w e0 self id r w1 more H. destruct (no_replies Out A HA (a_governance A) _ _ _ _ _ _ _ H) as (H1 & _); [cbn; tauto|auto].
  - intros n w e0 s m' coins w1 subs d H _. apply (handle_at_governance Out A HA) in H. subst subs. split; [exact I|]. split; [intros ? ? []|auto].
  - exact I.
  - rewrite (nd_log _ _ HN). intros [|? ?] ? ? E; discriminate.
Qed.
