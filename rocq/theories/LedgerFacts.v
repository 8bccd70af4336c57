(** The contracts of a DAO hold what they owe: stakes, staked NFTs and rewards. *)
From Verif Require Import Base OMap OMapLemmas Assets PollModel FundsModel FundsSpec FundsProofs FundsFacts MemberModel MemberSpec
  Msgs ControllerModel TreasuryModel EnterpriseModel OutpostsModel WorldModel WorldSpec LedgerSpec.
From Verif Require MemberProofs MemberFacts WorldProofs WorldRun.
From Verif Require Import LedgerMember LedgerProofs.

Ltac pbw H := let p := fresh "p" in apply bind_ok in H; destruct H as (p & ? & H); repeat match type of H with
  | (let '(_, _) := ?x in _) = _ => destruct x
  end.

(** * What calls of other contracts leave alone *)
Section F.
Context {X : Type}.
Variable Out : outside X.
Variable A : addrs.
Hypothesis HA : NoDup (dao_addrs A).

Lemma handle_member n w e s to m coins w1 subs d : handle Out A n w e s to m coins = Ok (w1, subs, d) -> to <> a_membership A ->
  w_member w1 = w_member w.
Proof.
  unfold WorldModel.handle. intros H Hn.
  repeat match type of H with
  | (if ?a =? ?b then _ else _) = _ => destruct (N.eqb_spec a b) as [E|]; [subst; try contradiction; destruct m; try discriminate; pbw H; inversion H; subst; reflexivity|]
  end.
  pbw H. inversion H; subst. reflexivity.
Qed.

Lemma handle_funds n w e s to m coins w1 subs d : handle Out A n w e s to m coins = Ok (w1, subs, d) -> to <> a_funds A ->
  w_funds w1 = w_funds w.
Proof.
  unfold WorldModel.handle. intros H Hn.
  repeat match type of H with
  | (if ?a =? ?b then _ else _) = _ => destruct (N.eqb_spec a b) as [E|]; [subst; try contradiction; destruct m; try discriminate; pbw H; inversion H; subst; reflexivity|]
  end.
  pbw H. inversion H; subst. reflexivity.
Qed.

Lemma reply_both w e self id r w1 more : on_reply Out A w e self id r = Ok (w1, more) ->
  w_member w1 = w_member w /\ w_funds w1 = w_funds w.
Proof.
  unfold WorldModel.on_reply. intros H.
  repeat match type of H with
  | (if ?a then _ else _) = _ => destruct a; [try discriminate; pbw H; inversion H; subst; split; reflexivity|]
  end.
  pbw H. inversion H; subst. split; reflexivity.
Qed.

Lemma handle_at_member n w e s m coins w1 subs d : handle Out A n w e s (a_membership A) m coins = Ok (w1, subs, d) ->
  exists mm s' outs, m = ToMembership mm /\
    member_execute (member_oracle_of Out A w (w_member w)) (w_member w) e s coins mm = Ok (s', outs) /\
    w1 = set_member w s' /\ subs = map member_sub outs.
Proof.
  intros H. pose proof (WorldProofs.member_not_ctl A HA). pose proof (WorldProofs.member_not_gov A HA).
  destruct (WorldProofs.handle_cases Out A _ _ _ _ _ _ _ _ _ _ H) as [(E & _)|[(E & _)|[(_ & mm & s' & outs & E1 & E2 & E3 & E4 & _)|(_ & _ & E & _)]]]; try congruence.
  eauto 8.
Qed.

Lemma handle_at_funds n w e s m coins w1 subs d : handle Out A n w e s (a_funds A) m coins = Ok (w1, subs, d) ->
  exists fm f' ps, m = ToFunds fm /\ funds_execute (funds_oracle_of Out A n w) (w_funds w) s coins fm = Ok (f', ps) /\
    w1 = set_funds w f' /\ subs = map funds_sub ps.
Proof.
  intros H. destruct (WorldProofs.funds_apart A HA) as (N1 & N2 & N3).
  assert (N4 : a_funds A <> a_council A).
  { pose proof HA as HN. unfold dao_addrs in HN. repeat match goal with H : NoDup (_ :: _) |- _ => inversion H; clear H; subst end.
    cbn [In] in *. intros ?; intuition congruence. }
  unfold WorldModel.handle in H. apply N.eqb_neq in N1, N2, N3, N4. rewrite N1, N2, N3, N4, N.eqb_refl in H.
  destruct m; try discriminate. pbw H. inversion H; subst. eauto 8.
Qed.

Lemma in_dao_member : is_dao A (a_membership A) = true.
Proof. apply is_dao_in. unfold dao_addrs. cbn [In]. tauto. Qed.
Lemma in_dao_funds : is_dao A (a_funds A) = true.
Proof. apply is_dao_in. unfold dao_addrs. cbn [In]. tauto. Qed.

(** * Stakes *)

Definition stakes_due (a : asset) (w : world X) (v : N) : Prop :=
  MemberProofs.inv (w_member w) /\ kindly (w_member w) /\
  match MemberFacts.staking_of (w_member w) with
  | Some s => v = if asset_eqb a (st_asset s) then all_stakes s + all_claims s else 0
  | None => v = 0
  end.

Lemma ordinary_outs m1 ch outs : outs = [] \/ outs = report m1 ch ->
  Forall (fun y => sm_reply y = ReplyNever /\ ordinary (sm_msg y)) (map member_sub outs).
Proof. intros [->| ->]; [constructor|apply ordinary_report]. Qed.

Lemma stakes_own a n w e s m coins w1 subs d v :
  handle Out A n w e s (a_membership A) m coins = Ok (w1, subs, d) -> stakes_due a w v ->
  exists v', stakes_due a w1 v' /\
    v' + lsum (fun y => sends (HAmount a) (sm_msg y)) subs <= v + in_coins (HAmount a) coins + reports (a_membership A) (HAmount a) s (WasmExecute (a_membership A) m coins) /\
    Forall (fun y => sm_reply y = ReplyNever /\ ordinary (sm_msg y)) subs.
Proof.
  intros H (Hi & Hkind & Hv). apply handle_at_member in H. destruct H as (mm & st' & outs & -> & H & -> & ->).
  set (c := mk_mcall (member_oracle_of Out A w (w_member w)) e s coins mm).
  assert (Ha : accepts (w_member w) c st' outs) by exact H.
  assert (Hi' : MemberProofs.inv st') by (eapply MemberProofs.inv_accepts; eassumption).
  pose proof (sends_pays a outs) as Hsp.
  destruct (MemberFacts.staking_of (w_member w)) as [s0|] eqn:E.
  - destruct (accepts_fair _ _ _ _ _ Hi Ha E Hkind) as (s' & E' & Es & Hk' & (F1 & F2) & F3).
    destruct (MemberFacts.accepts_books _ _ _ _ _ Hi Ha E) as (s'' & E'' & Hb). rewrite E' in E''. injection E'' as <-.
    exists (if asset_eqb a (st_asset s0) then all_stakes s' + all_claims s' else 0). split.
    { split; [exact Hi'|]. split; [exact Hk'|]. cbn [w_member set_member]. rewrite E', Es. reflexivity. }
    split; [|exact F3]. specialize (F1 a). subst v. destruct (asset_eqb a (st_asset s0)) eqn:Ea; [|lia].
    apply asset_same in Ea. subst a. cbn [mc_coins c] in F2.
    assert (F2' : staked_in (w_member w) c <= in_coins (HAmount (st_asset s0)) coins +
      reports (a_membership A) (HAmount (st_asset s0)) s (WasmExecute (a_membership A) (ToMembership mm) coins)).
    { refine (N.le_trans _ _ _ F2 _). apply N.add_le_mono_l. cbn [mc_msg mc_sender c]. unfold reports. rewrite N.eqb_refl.
      destruct (st_asset s0); try lia; destruct mm; try lia; destruct m; lia. }
    lia.
  - assert (G : MemberFacts.staking_of st' = None /\ kindly st' /\ (forall b, pays b outs = 0) /\
      Forall (fun y => sm_reply y = ReplyNever /\ ordinary (sm_msg y)) (map member_sub outs)).
    { destruct (w_member w) as [s0|s0|s0|m0] eqn:Ew; try discriminate.
      - destruct (accepts_nft _ _ _ _ _ 0 Hi Ha eq_refl) as (s' & -> & _ & _ & _ & _ & _ & Hp & Ho). repeat split; auto.
      - destruct (accepts_multisig _ _ _ _ _ Ha eq_refl) as (m' & -> & [->|(m1 & ch & ->)]); repeat split; auto; try constructor.
        + intros b. apply pays_report.
        + apply ordinary_report. }
    destruct G as (G1 & G2 & G3 & G4). exists 0. split; [split; [exact Hi'|]; split; [exact G2|]; cbn [w_member set_member]; rewrite G1; reflexivity|].
    split; [|exact G4]. rewrite G3 in Hsp. lia.
Qed.

(** * Staked NFTs *)

Definition nfts_due (col t : N) (w : world X) (v : N) : Prop :=
  MemberProofs.inv (w_member w) /\ kindly (w_member w) /\
  match w_member w with
  | MNft s => match ns_contract s with
              | NCw721 c => v = if c =? col then booked s t else 0
              | NIcs721 _ _ => booked s t = 0 /\ v = 0
              end
  | _ => v = 0
  end.

Lemma no_nft_sends col t outs : (forall c u k, ~ In (OSendNft c u k) outs) ->
  lsum (fun y => sends (HNft col t) (sm_msg y)) (map member_sub outs) = 0.
Proof.
  intros H. rewrite lsum_map. apply lsum_zero. intros o Ho. destruct o as [hk ch|b to n|c to k]; cbn; try reflexivity.
  - destruct b; reflexivity.
  - exfalso. eapply H. exact Ho.
Qed.

Lemma nft_sends col t outs : lsum (fun y => sends (HNft col t) (sm_msg y)) (map member_sub outs) <= leaves t outs.
Proof.
  unfold leaves. rewrite lsum_map. apply lsum_le_in. intros o Ho. destruct o as [hk ch|b to n|c to k]; cbn; try lia.
  - destruct b; cbn; lia.
  - destruct (c =? col); cbn; [lia|destruct (k =? t); lia].
Qed.

Lemma nft_sends_other col t outs c0 : c0 <> col -> (forall c u k, In (OSendNft c u k) outs -> c = c0) ->
  lsum (fun y => sends (HNft col t) (sm_msg y)) (map member_sub outs) = 0.
Proof.
  intros Hn H. rewrite lsum_map. apply lsum_zero. intros o Ho. destruct o as [hk ch|b to n|c to k]; cbn; try reflexivity.
  - destruct b; reflexivity.
  - apply H in Ho. subst. apply N.eqb_neq in Hn. rewrite Hn. reflexivity.
Qed.

Lemma nfts_own col t n w e s m coins w1 subs d v :
  handle Out A n w e s (a_membership A) m coins = Ok (w1, subs, d) -> nfts_due col t w v ->
  exists v', nfts_due col t w1 v' /\
    v' + lsum (fun y => sends (HNft col t) (sm_msg y)) subs <= v + in_coins (HNft col t) coins + reports (a_membership A) (HNft col t) s (WasmExecute (a_membership A) m coins) /\
    Forall (fun y => sm_reply y = ReplyNever /\ ordinary (sm_msg y)) subs.
Proof.
  intros H (Hi & Hkind & Hv). apply handle_at_member in H. destruct H as (mm & st' & outs & -> & H & -> & ->).
  set (c := mk_mcall (member_oracle_of Out A w (w_member w)) e s coins mm).
  assert (Ha : accepts (w_member w) c st' outs) by exact H.
  assert (Hi' : MemberProofs.inv st') by (eapply MemberProofs.inv_accepts; eassumption).
  destruct (MemberFacts.staking_of (w_member w)) as [s0|] eqn:E.
  - destruct (accepts_fair _ _ _ _ _ Hi Ha E Hkind) as (s' & E' & Es & Hk' & _ & F3).
    exists 0. split; [split; [exact Hi'|]; split; [exact Hk'|]; cbn [w_member set_member]; destruct st'; try discriminate; reflexivity|].
    split; [|exact F3]. rewrite no_nft_sends; [lia|]. intros c0 u k Hin.
    destruct (MemberFacts.only_nft_sends _ _ _ _ _ _ _ Ha Hin) as (s2 & E2). rewrite E2 in E. discriminate.
  - destruct (w_member w) as [s0|s0|s0|m0] eqn:Ew; try discriminate.
    2:{ destruct (accepts_multisig _ _ _ _ _ Ha eq_refl) as (m' & -> & Ho). exists 0.
        split; [split; [exact Hi'|]; split; [exact I|reflexivity]|].
        assert (Hno : forall c u k, ~ In (OSendNft c u k) outs).
        { intros c0 u k Hin. destruct (MemberFacts.only_nft_sends _ _ _ _ _ _ _ Ha Hin). discriminate. }
        split; [rewrite no_nft_sends by exact Hno; lia|]. destruct Ho as [->|(m1 & ch & ->)]; [constructor|apply ordinary_report]. }
    destruct (accepts_nft _ _ _ _ _ t Hi Ha eq_refl) as (s' & -> & Hb & Hcol & Hc & Hrec & Hch & _ & Ho).
    cbn [mc_msg mc_sender c] in *. pose proof (nft_sends col t outs) as Hs.
    assert (Hrep : forall k h, mm = NftMsg (NReceive k h) -> s = col ->
      reports (a_membership A) (HNft col t) s (WasmExecute (a_membership A) (ToMembership mm) coins) = if k =? t then 1 else 0).
    { intros k h -> ->. unfold reports. rewrite !N.eqb_refl. cbn [andb]. reflexivity. }
    assert (Hin : forall k, (match mm with NftMsg (NReceive t' _) => if t' =? t then 1 else 0 | _ => 0 end) <> 0 ->
      k = ns_contract s' -> k = NCw721 s).
    { intros k Hnz ->. destruct mm; try congruence. destruct m; try congruence. exact (proj1 (Hrec _ _ eq_refl)). }
    destruct (ns_contract s0) as [c0|p i] eqn:Ec.
    + assert (Ec' : ns_contract s' = NCw721 c0).
      { destruct Hc as [->|Hc']; [reflexivity|]. destruct (ns_contract s') as [c1|] eqn:E1; [|discriminate].
        destruct (N.eq_dec c1 c0) as [->|Hne]; [reflexivity|]. exfalso.
        destruct Hch as (p & i & Q); [|discriminate]. intros Q. injection Q as Q. contradiction. }
      destruct (N.eqb_spec c0 col) as [->|Hne].
      * exists (booked s' t). split; [split; [exact Hi'|]; split; [exact I|]; cbn [w_member set_member]; rewrite Ec', N.eqb_refl; reflexivity|].
        split; [|exact Ho]. subst v. cbn [in_coins].
        assert (Q : (match mm with NftMsg (NReceive t' _) => if t' =? t then 1 else 0 | _ => 0 end) <=
                    reports (a_membership A) (HNft col t) s (WasmExecute (a_membership A) (ToMembership mm) coins)).
        { destruct mm as [| |mm|]; try lia. destruct mm as [k h| | | | |]; try lia.
          destruct (Hrec _ _ eq_refl) as (_ & Q). rewrite (Hrep k h eq_refl); [lia|]. symmetry. apply Q. reflexivity. }
        lia.
      * exists 0. split; [split; [exact Hi'|]; split; [exact I|]; cbn [w_member set_member]; rewrite Ec'|].
        { apply N.eqb_neq in Hne. rewrite Hne. reflexivity. }
        split; [|exact Ho]. rewrite (nft_sends_other col t outs c0 Hne); [lia|]. intros c1 u k Hi1. apply Hcol in Hi1. congruence.
    + destruct Hv as (Hz & ->).
      assert (Hno : forall c u k, ~ In (OSendNft c u k) outs) by (intros c0 u k Hi1; apply Hcol in Hi1; discriminate).
      rewrite no_nft_sends by exact Hno. destruct (ns_contract s') as [c1|p1 i1] eqn:E1.
      * exists (if c1 =? col then booked s' t else 0). split; [split; [exact Hi'|]; split; [exact I|]; cbn [w_member set_member]; rewrite E1; reflexivity|].
        split; [|exact Ho]. destruct (N.eqb_spec c1 col) as [->|]; [|lia]. rewrite Hz in Hb.
        assert (Es : s = col). { destruct Hc as [Q|Q]; [discriminate|]. congruence. }
        assert (Q : (match mm with NftMsg (NReceive t' _) => if t' =? t then 1 else 0 | _ => 0 end) <=
                    reports (a_membership A) (HNft col t) s (WasmExecute (a_membership A) (ToMembership mm) coins)).
        { destruct mm as [| |mm|]; try lia. destruct mm as [k h| | | | |]; try lia. rewrite (Hrep k h eq_refl Es). lia. }
        lia.
      * exists 0. assert (Q : (match mm with NftMsg (NReceive t' _) => if t' =? t then 1 else 0 | _ => 0 end) = 0).
        { destruct mm as [| |mm|]; try reflexivity. destruct mm as [k h| | | | |]; try reflexivity. destruct (Hrec _ _ eq_refl) as (Q & _). discriminate. }
        split; [split; [exact Hi'|]; split; [exact I|]; cbn [w_member set_member]; rewrite E1; split; [lia|reflexivity]|]. split; [lia|exact Ho].
Qed.

(** * Rewards *)

Definition rewards_due (a : asset) (w : world X) (v : N) : Prop :=
  exists b, reachable b /\ b_funds b = w_funds w /\ v + total_of a (paid_amounts (b_paid b)) = total_of a (b_distributed b).

Lemma funds_pays_cases o f s coins m f' ps : funds_execute o f s coins m = Ok (f', ps) ->
  forall p, In p ps -> (exists d, pay_asset p = Native d) \/ (exists t, pay_asset p = Cw20 t).
Proof.
  intros H p Hp. destruct m; cbn [funds_execute] in H.
  1-3: pbw H; inversion H; subst; destruct Hp.
  - unfold claim_rewards in H. apply bind_ok in H. destruct H as (? & _ & H). apply bind_ok in H. destruct H as (? & _ & H).
    apply bind_ok in H. destruct H as (? & _ & H). apply bind_ok in H. destruct H as ([n o1] & _ & H). apply bind_ok in H. destruct H as ([c o2] & _ & H).
    injection H as <- <-. apply in_app_iff in Hp. destruct Hp as [Hp|Hp]; apply in_map_iff in Hp; destruct Hp as (q & <- & _); cbn; eauto.
  - destruct known; [|discriminate]. pbw H; inversion H; subst; destruct Hp.
Qed.

Lemma funds_sends a ps : lsum (fun y => sends (HAmount a) (sm_msg y)) (map funds_sub ps) <= total_of a (paid_amounts ps).
Proof.
  unfold total_of, paid_amounts. rewrite lsum_map, lsum_filter, lsum_map. apply lsum_le_in. intros p _. cbn [fst snd].
  unfold funds_sub, plain. cbn [sm_msg]. destruct a as [d|t|t i], (pay_asset p) as [d'|t'|t' i']; cbn; try lia; rewrite (N.eqb_sym); [destruct (d =? d')|destruct (t =? t')]; lia.
Qed.

Lemma handed_in a f c : total_of a (handed_over f c) <=
  in_coins (HAmount a) (fc_coins c) + reports (a_funds A) (HAmount a) (fc_sender c) (WasmExecute (a_funds A) (ToFunds (fc_msg c)) (fc_coins c)).
Proof.
  unfold handed_over. destruct (funds_execute _ _ _ _ _) as [r|]; [|unfold total_of; cbn; lia].
  destruct (fc_msg c) as [ | | | |amount known]; try (unfold total_of; cbn; lia).
  - unfold total_of. rewrite lsum_filter, lsum_map. apply N.le_trans with (in_coins (HAmount a) (fc_coins c)); [|lia].
    destruct a as [d|t|t i]; cbn [in_coins].
    + apply lsum_le_in. intros [x y] _. cbn [fst snd asset_eqb]. rewrite N.eqb_sym. destruct (x =? d); lia.
    + rewrite lsum_zero; [lia|reflexivity].
    + rewrite lsum_zero; [lia|reflexivity].
  - unfold total_of. cbn [filter fst]. unfold reports. rewrite N.eqb_refl. destruct a as [d|t|t i]; cbn [asset_eqb]; try (cbn; lia).
    rewrite (N.eqb_sym t). destruct (fc_sender c =? t); cbn; lia.
Qed.

Lemma reachable_step b c : reachable b -> reachable (books_step b c).
Proof.
  intros (ad & en & mn & ini & f0 & cs & H1 & ->). exists ad, en, mn, ini, f0, (cs ++ [c]). split; [exact H1|].
  unfold books_run. rewrite fold_left_app. reflexivity.
Qed.

Lemma rewards_own a n w e s m coins w1 subs d v :
  handle Out A n w e s (a_funds A) m coins = Ok (w1, subs, d) -> rewards_due a w v ->
  exists v', rewards_due a w1 v' /\
    v' + lsum (fun y => sends (HAmount a) (sm_msg y)) subs <= v + in_coins (HAmount a) coins + reports (a_funds A) (HAmount a) s (WasmExecute (a_funds A) m coins) /\
    Forall (fun y => sm_reply y = ReplyNever /\ ordinary (sm_msg y)) subs.
Proof.
  intros H (b & Hr & Eb & Hv). apply handle_at_funds in H. destruct H as (fm & f' & ps & -> & H & -> & ->).
  set (c := mk_fcall (funds_oracle_of Out A n w) s coins fm).
  assert (Es : funds_step (b_funds b) c = (f', ps)) by (unfold funds_step; cbn [fc_oracle fc_sender fc_coins fc_msg c]; rewrite Eb, H; reflexivity).
  pose proof (reachable_step b c Hr) as Hr'.
  pose proof (solvency _ a [] [] Hr' (NoDup_nil _) eq_refl) as Hle. cbn [lsum fold_right] in Hle.
  assert (Ep : b_paid (books_step b c) = b_paid b ++ ps) by (unfold books_step; cbn [b_paid]; rewrite Es; reflexivity).
  assert (Ed : b_distributed (books_step b c) = b_distributed b ++ handed_over (b_funds b) c) by reflexivity.
  rewrite Ep, Ed, paid_amounts_app, !total_of_app in Hle.
  pose proof (handed_in a (b_funds b) c) as Hh. cbn [fc_coins fc_sender fc_msg c] in Hh. pose proof (funds_sends a ps) as Hs.
  exists (total_of a (b_distributed b) + total_of a (handed_over (b_funds b) c) - (total_of a (paid_amounts (b_paid b)) + total_of a (paid_amounts ps))).
  split.
  - exists (books_step b c). split; [exact Hr'|]. split; [unfold books_step; cbn [b_funds]; rewrite Es; reflexivity|].
    rewrite Ep, Ed, paid_amounts_app, !total_of_app. lia.
  - split; [lia|]. apply Forall_forall. intros y Hy. apply in_map_iff in Hy. destruct Hy as (p & <- & Hp). split; [reflexivity|].
    unfold funds_sub, plain. cbn [sm_msg]. destruct (funds_pays_cases _ _ _ _ _ _ _ H p Hp) as [(x & ->)|(x & ->)]; exact I.
Qed.

End F.

(** * Whole histories *)

Section H.
Context {X : Type}.
Variable Out : outside X.
Variable A : addrs.

Lemma init_kindly e i st : member_instantiate e i = Ok st -> kindly st.
Proof.
  intros H. destruct i; cbn in H; apply bind_ok in H; destruct H as [s [H1 H]]; inversion H; subst; cbn; auto.
  - unfold token_instantiate in H1. apply bind_ok in H1. destruct H1 as (? & _ & H1). apply bind_ok in H1. destruct H1 as (? & _ & H1).
    apply bind_ok in H1. destruct H1 as (? & _ & H1). inversion H1; subst. cbn. eauto.
  - unfold denom_instantiate in H1. apply bind_ok in H1. destruct H1 as (? & _ & H1).
    apply bind_ok in H1. destruct H1 as (? & _ & H1). inversion H1; subst. cbn. eauto.
Qed.

Lemma init_stakes a (w : world X) e i : member_instantiate e i = Ok (w_member w) -> stakes_due a w 0.
Proof.
  intros H. pose proof (MemberProofs.init_inv _ _ _ H) as [Hi _]. split; [exact Hi|]. split; [eapply init_kindly; exact H|].
  destruct (MemberFacts.staking_of (w_member w)) as [s|] eqn:E; [|reflexivity].
  pose proof (MemberFacts.custody_balance _ _ _ [] s H) as Hb. cbn in Hb.
  rewrite MemberFacts.fungible_staking in Hb. specialize (Hb E). destruct (asset_eqb a (st_asset s)); [lia|reflexivity].
Qed.

Lemma init_nfts col t (w : world X) e i : member_instantiate e i = Ok (w_member w) -> nfts_due col t w 0.
Proof.
  intros H. pose proof (MemberProofs.init_inv _ _ _ H) as [Hi _]. split; [exact Hi|]. split; [eapply init_kindly; exact H|].
  destruct (w_member w) as [s|s|s|m] eqn:E; auto.
  assert (B : booked s t = 0).
  { destruct i; cbn in H; apply bind_ok in H; destruct H as [s1 [H1 H]]; inversion H; subst.
    unfold nft_instantiate in H1. apply bind_ok in H1. destruct H1 as (? & _ & H1). apply bind_ok in H1. destruct H1 as (? & _ & H1).
    apply bind_ok in H1. destruct H1 as (? & _ & H1). inversion H1; subst. reflexivity. }
  rewrite B. destruct (ns_contract s) as [c|]; [destruct (c =? col); reflexivity|auto].
Qed.

Lemma init_rewards a (w : world X) ad en mn ini : funds_instantiate ad en mn ini = Ok (w_funds w) -> rewards_due a w 0.
Proof.
  intros H. exists (books_run (w_funds w) []). split; [exists ad, en, mn, ini, (w_funds w), []; auto|]. split; reflexivity.
Qed.

End H.

(** The staked asset: at every moment between transactions the membership contract's balance covers all stakes and claims. *)
Lemma stakes_held (X : Type) (Out : outside X) (A : addrs) bal ts (w : world X) s :
  new_dao A w -> honest_ledger Out (a_membership A) (HAmount (st_asset s)) bal -> foreign A (HAmount (st_asset s)) ts ->
  fungible (w_member (world_run Out A w ts)) s ->
  all_stakes s + all_claims s <= bal (w_ext (world_run Out A w ts)).
Proof.
  intros HN HL HF Hs. destruct (nd_membership _ _ HN) as (e & i & Hi). pose proof (nd_addrs _ _ HN) as HA.
  destruct (run_backed Out A (a_membership A) (HAmount (st_asset s)) bal (stakes_due (st_asset s))) with (ts := ts) (w := w) (v := 0)
    as (v & (_ & _ & HR) & HB).
  - apply in_dao_member.
  - exact HL.
  - intros t Ht. apply (HF t Ht).
  - intros w0 v x H. exact H.
  - intros w0 v x m H. exact H.
  - intros w0 v H. exact H.
  - intros n w0 e0 s0 to m coins w1 subs d v H Hn (H1 & H2 & H3). pose proof (handle_member _ _ _ _ _ _ _ _ _ _ _ _ H Hn) as E.
    unfold stakes_due. rewrite E. auto.
  - intros w0 e0 self id r w1 more v H Hn (H1 & H2 & H3). destruct (reply_both _ _ _ _ _ _ _ _ _ H) as (E & _).
    unfold stakes_due. rewrite E. auto.
  - intros. eapply stakes_own; eassumption.
  - intros t x Ht Hx. destruct (HF t Ht) as (_ & Hs'). apply Hs'. exact Hx.
  - eapply init_stakes. exact Hi.
  - lia.
  - apply MemberFacts.fungible_staking in Hs. rewrite Hs in HR.
    assert (E : asset_eqb (st_asset s) (st_asset s) = true) by (apply asset_same; reflexivity). rewrite E in HR. lia.
Qed.

(** NFTs: if an NFT is with the contract ([bal] is 1) or not (0), it is booked at most as often. *)
Lemma nfts_held (X : Type) (Out : outside X) (A : addrs) bal ts (w : world X) s col t :
  new_dao A w -> honest_ledger Out (a_membership A) (HNft col t) bal -> foreign A (HNft col t) ts ->
  w_member (world_run Out A w ts) = MNft s -> ns_contract s = NCw721 col ->
  booked s t <= bal (w_ext (world_run Out A w ts)).
Proof.
  intros HN HL HF Hs Hc. destruct (nd_membership _ _ HN) as (e & i & Hi). pose proof (nd_addrs _ _ HN) as HA.
  destruct (run_backed Out A (a_membership A) (HNft col t) bal (nfts_due col t)) with (ts := ts) (w := w) (v := 0)
    as (v & (_ & _ & HR) & HB).
  - apply in_dao_member.
  - exact HL.
  - intros t0 Ht. apply (HF t0 Ht).
  - intros w0 v x H. exact H.
  - intros w0 v x m H. exact H.
  - intros w0 v H. exact H.
  - intros n w0 e0 s0 to m coins w1 subs d v H Hn (H1 & H2 & H3). pose proof (handle_member _ _ _ _ _ _ _ _ _ _ _ _ H Hn) as E.
    unfold nfts_due. rewrite E. auto.
  - intros w0 e0 self id r w1 more v H Hn (H1 & H2 & H3). destruct (reply_both _ _ _ _ _ _ _ _ _ H) as (E & _).
    unfold nfts_due. rewrite E. auto.
  - intros. eapply nfts_own; eassumption.
  - intros t0 x Ht Hx. destruct (HF t0 Ht) as (_ & Hs'). apply Hs'. exact Hx.
  - eapply init_nfts. exact Hi.
  - lia.
  - rewrite Hs, Hc, N.eqb_refl in HR. lia.
Qed.

(** Rewards: the distributor's balance covers everything all users together can claim. *)
Lemma rewards_held (X : Type) (Out : outside X) (A : addrs) bal ts (w : world X) a ad en mn ini us xs :
  NoDup (dao_addrs A) -> funds_instantiate ad en mn ini = Ok (w_funds w) ->
  honest_ledger Out (a_funds A) (HAmount a) bal -> foreign A (HAmount a) ts -> NoDup us ->
  map_res (fun u => claimable (w_funds (world_run Out A w ts)) u a) us = Ok xs ->
  lsum (fun x => x) xs <= bal (w_ext (world_run Out A w ts)).
Proof.
  intros HA Hi HL HF Hnd Hxs.
  destruct (run_backed Out A (a_funds A) (HAmount a) bal (rewards_due a)) with (ts := ts) (w := w) (v := 0)
    as (v & (b & Hr & Eb & HR) & HB).
  - apply in_dao_funds.
  - exact HL.
  - intros t0 Ht. apply (HF t0 Ht).
  - intros w0 v x H. exact H.
  - intros w0 v x m H. exact H.
  - intros w0 v H. exact H.
  - intros n w0 e0 s0 to m coins w1 subs d v H Hn H1. pose proof (handle_funds _ _ _ _ _ _ _ _ _ _ _ _ H Hn) as E.
    unfold rewards_due. rewrite E. exact H1.
  - intros w0 e0 self id r w1 more v H Hn H1. destruct (reply_both _ _ _ _ _ _ _ _ _ H) as (_ & E).
    unfold rewards_due. rewrite E. exact H1.
  - intros. eapply rewards_own; eassumption.
  - intros t0 x Ht Hx. destruct (HF t0 Ht) as (_ & Hs'). apply Hs'. exact Hx.
  - eapply init_rewards. exact Hi.
  - lia.
  - rewrite <- Eb in Hxs. pose proof (solvency b a us xs Hr Hnd Hxs). lia.
Qed.

(** An NFT that is staked is with the contract and in no claim; one in a claim is with it, not staked, and in that claim once. *)
Lemma nfts_unique (X : Type) (Out : outside X) (A : addrs) bal ts (w : world X) s col t :
  new_dao A w -> honest_ledger Out (a_membership A) (HNft col t) bal -> (forall x, bal x <= 1) -> foreign A (HNft col t) ts ->
  w_member (world_run Out A w ts) = MNft s -> ns_contract s = NCw721 col ->
  (forall u, oget (ns_stakes s) t = Some u ->
     bal (w_ext (world_run Out A w ts)) = 1 /\ forall k c, oget (ns_claims s) k = Some c -> ~ In t (nc_tokens c)) /\
  (forall k c, oget (ns_claims s) k = Some c -> In t (nc_tokens c) ->
     bal (w_ext (world_run Out A w ts)) = 1 /\ oget (ns_stakes s) t = None /\ count t (nc_tokens c) = 1 /\
     forall k' c', k' <> k -> oget (ns_claims s) k' = Some c' -> ~ In t (nc_tokens c')).
Proof.
  intros HN HL HB HF Hs Hc. pose proof (nfts_held _ Out A bal ts w s col t HN HL HF Hs Hc) as HH.
  specialize (HB (w_ext (world_run Out A w ts))). set (b := bal _) in *.
  set (g := fun (_ : N) (c : nft_claim) => count t (nc_tokens c)).
  assert (ES : lsum (fun c => count t (nc_tokens c)) (ovals (ns_claims s)) = osum g (ns_claims s)) by (unfold osum, ovals; rewrite lsum_map; reflexivity).
  assert (E1 : forall k c, oget (ns_claims s) k = Some c -> count t (nc_tokens c) <= lsum (fun c => count t (nc_tokens c)) (ovals (ns_claims s))).
  { intros k c Hk. rewrite ES. pose proof (osum_odel g (ns_claims s) k) as S1. unfold oval in S1. rewrite Hk in S1. change (g k c) with (count t (nc_tokens c)) in S1. lia. }
  assert (E2 : forall l, In t l -> 1 <= count t l).
  { intros l. unfold count. induction l as [|x l IH]; [intros []|]. rewrite lsum_cons. intros [->|H].
    - rewrite N.eqb_refl. lia.
    - specialize (IH H). lia. }
  unfold booked, ohas, is_some in HH. split.
  - intros u Hu. rewrite Hu in HH. split; [lia|]. intros k c Hk Hi. specialize (E1 _ _ Hk). specialize (E2 _ Hi). lia.
  - intros k c Hk Hi. pose proof (E1 _ _ Hk). pose proof (E2 _ Hi). split; [destruct (oget (ns_stakes s) t); lia|].
    split; [destruct (oget (ns_stakes s) t); [lia|reflexivity]|]. split; [destruct (oget (ns_stakes s) t); lia|].
    intros k' c' Hne Hk' Hi'. pose proof (E2 _ Hi').
    assert (E3 : count t (nc_tokens c) + count t (nc_tokens c') <= lsum (fun c => count t (nc_tokens c)) (ovals (ns_claims s))).
    { rewrite ES. pose proof (osum_odel g (ns_claims s) k) as S1. pose proof (osum_odel g (odel (ns_claims s) k) k') as S2.
      unfold oval in S1, S2. rewrite oget_odel in S2. assert (En : (k =? k') = false) by (apply N.eqb_neq; congruence).
      rewrite En, Hk' in S2. rewrite Hk in S1. change (g k c) with (count t (nc_tokens c)) in S1. change (g k' c') with (count t (nc_tokens c')) in S2. lia. }
    destruct (oget (ns_stakes s) t); lia.
Qed.
