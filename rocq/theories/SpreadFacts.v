(** Spreading weights over accounts does not change the outcome. *)
From Verif Require Import Base OMap OMapLemmas Assets PollModel PollSpec PollProofs PollFacts FundsModel FundsSpec FundsProofs MemberModel MemberSpec MemberProofs MemberFacts Msgs
  ControllerModel ControllerSpec ControllerProofs ControllerFacts TreasuryModel EnterpriseModel OutpostsModel WorldModel WorldSpec WorldProofs WorldRun WorldFacts
  LiveSpec LiveResults EndSpec EndFacts RipeSpec RipeFacts PurseSpec BallotSpec BallotProofs BallotFacts RecountSpec RecountFacts MajoritySpec MajorityFacts SwaySpec SwayFacts SpreadSpec.

Lemma lsum_swap (g : addr -> N) (f : addr -> addr) us xs : NoDup us ->
  lsum (fun u => lsum g (filter (fun x => f x =? u) xs)) us = lsum g (filter (fun x => existsb (N.eqb (f x)) us) xs).
Proof.
  intros Hn. induction xs as [|x xs IH].
  - cbn [filter]. apply lsum_zero. intros; reflexivity.
  - transitivity (lsum (fun u => (if u =? f x then g x else 0) + lsum g (filter (fun x => f x =? u) xs)) us).
    + apply lsum_ext_in. intros u _. cbn [filter]. rewrite (N.eqb_sym u). destruct (f x =? u); [rewrite lsum_cons|]; lia.
    + rewrite lsum_add, IH. rewrite (lsum_single (fun _ => g x) us (f x) Hn). cbn [filter]. destruct (existsb (N.eqb (f x)) us); [rewrite lsum_cons|]; lia.
Qed.
Lemma existsb_In a us : existsb (N.eqb a) us = true <-> In a us.
Proof. rewrite existsb_exists. split; [intros (x & Hx & E); apply N.eqb_eq in E; subst; exact Hx|intros H; exists a; split; [exact H|apply N.eqb_refl]]. Qed.

(** Sums over lists that differ in accounts without weight only. *)
Lemma lsum_weighty (g : addr -> N) l1 l2 : NoDup l1 -> NoDup l2 -> (forall x, g x <> 0 -> (In x l1 <-> In x l2)) -> lsum g l1 = lsum g l2.
Proof.
  assert (P : forall l1 l2, NoDup l1 -> (forall x, g x <> 0 -> In x l1 -> In x l2) -> lsum g l1 <= lsum g l2).
  { intros k1 k2 Hn H. transitivity (lsum g (filter (fun x => negb (g x =? 0)) k1)).
    - rewrite lsum_filter. apply N.eq_le_incl, lsum_ext_in. intros x _. destruct (N.eqb_spec (g x) 0) as [->|]; reflexivity.
    - apply lsum_incl; [apply NoDup_filter; exact Hn|]. intros x Hx. apply filter_In in Hx. destruct Hx as (Hx & E). apply H; [|exact Hx]. destruct (N.eqb_spec (g x) 0); [discriminate|assumption]. }
  intros H1 H2 H. apply N.le_antisymm; apply P; auto; intros x Hx; apply H; exact Hx.
Qed.

Lemma spread_support X Y A B (w : world X) id (v : world Y) k f xs o : spread A B w id v k f xs -> support B v k o = support A w id o.
Proof.
  intros (Hn & Hc & Hw & Hb). unfold support.
  rewrite (lsum_ext_in (weight_of (w_member w)) (fun u => lsum (weight_of (w_member v)) (filter (fun x => f x =? u) xs))) by (intros u _; apply Hw).
  rewrite lsum_swap by apply supporters_NoDup. apply lsum_weighty; [apply supporters_NoDup|apply NoDup_filter; exact Hn|].
  intros x Hx. rewrite filter_In, existsb_In, !supporters_In, (Hb x Hx). split; [intros E; split; [exact (Hc x Hx)|exact E]|tauto].
Qed.

Lemma spread_total X Y A B (w : world X) id (v : world Y) k f xs : spread A B w id v k f xs ->
  sum_ok (members_of (w_member w)) -> sum_ok (members_of (w_member v)) -> weight_now v General = weight_now w General.
Proof.
  intros (Hn & Hc & Hw & Hb) H1 H2. unfold weight_now, total_now. cbn [query_total_weight].
  rewrite (roll_total _ xs H2 Hn) by exact Hc.
  set (us := nodup N.eq_dec (map f xs)). assert (Hu : NoDup us) by apply NoDup_nodup.
  rewrite (roll_total _ us H1 Hu).
  - change (ogetN (m_weights (members_of (w_member v)))) with (weight_of (w_member v)). change (ogetN (m_weights (members_of (w_member w)))) with (weight_of (w_member w)).
    rewrite (lsum_ext_in (weight_of (w_member w)) (fun u => lsum (weight_of (w_member v)) (filter (fun x => f x =? u) xs))) by (intros u _; apply Hw).
    rewrite lsum_swap by exact Hu. apply lsum_weighty; [exact Hn|apply NoDup_filter; exact Hn|].
    intros x _. rewrite filter_In, existsb_In. unfold us. rewrite nodup_In. split; [intros Hx; split; [exact Hx|apply in_map; exact Hx]|tauto].
  - intros u Hx. change (weight_of (w_member w) u <> 0) in Hx. rewrite Hw in Hx. unfold us. apply nodup_In, in_map_iff.
    destruct (filter (fun x => f x =? u) xs) as [|x l] eqn:E; [exfalso; apply Hx; reflexivity|]. exists x.
    assert (I : In x (filter (fun x => f x =? u) xs)) by (rewrite E; left; reflexivity). apply filter_In in I. destruct I as (I & J). apply N.eqb_eq in J. auto.
Qed.

Lemma spreading_is_nothing X Y (Out : outside X) (Out' : outside Y) A B (w0 w : world X) (v0 v : world Y) id k pl pl' ql ql' f xs :
  held Out A w0 w id pl pl' -> held Out' B v0 v k ql ql' -> same_rules pl ql -> spread A B w id v k f xs -> p_status ql' = p_status pl'.
Proof.
  intros HH1 HH2 HR HS. destruct (held_counts X Out A w0 w id pl pl' HH1) as (V1 & O1). destruct (held_counts Y Out' B v0 v k ql ql' HH2) as (V2 & O2).
  unfold counts in *. rewrite <- (rules_veto _ _ HR) in V2. destruct HR as (Eq & Et & _).
  rewrite <- Eq, <- Et, (spread_total _ _ _ _ _ _ _ _ _ _ HS O1 O2), !(spread_support _ _ _ _ _ _ _ _ _ _ _ HS) in V2.
  eapply verdict_functional; eassumption.
Qed.

Lemma renamed_spread X Y A B (w : world X) id (v : world Y) k f g : renamed_by A B w id v k f g ->
  spread A B w id v k f (okeys (m_weights (members_of (w_member v)))).
Proof.
  intros (H1 & H2 & H3 & H4). set (xs := okeys _).
  assert (C : forall x, weight_of (w_member v) x <> 0 -> In x xs).
  { intros x Hx. apply okeys_In. unfold weight_of, ogetN in Hx. destruct (oget _ x) as [y|]; [eauto|]. exfalso. apply Hx. reflexivity. }
  split; [apply okeys_NoDup|]. split; [exact C|]. split.
  - intros u. rewrite <- H3. rewrite lsum_filter.
    rewrite (lsum_ext_in _ (fun x => if x =? g u then weight_of (w_member v) x else 0)).
    + rewrite (lsum_single (weight_of (w_member v)) xs (g u) (okeys_NoDup _)). destruct (existsb (N.eqb (g u)) xs) eqn:E; [reflexivity|].
      destruct (N.eq_dec (weight_of (w_member v) (g u)) 0) as [Z|Z]; [exact Z|]. apply C in Z. apply existsb_In in Z. congruence.
    + intros x _. destruct (N.eqb_spec (f x) u) as [E1|E1], (N.eqb_spec x (g u)) as [E2|E2]; try reflexivity; exfalso.
      * apply E2. rewrite <- E1. symmetry. apply H1.
      * apply E1. rewrite E2. apply H2.
  - intros x _. rewrite <- (H4 (f x)), H1. reflexivity.
Qed.

Lemma names_do_not_count X Y (Out : outside X) (Out' : outside Y) A B (w0 w : world X) (v0 v : world Y) id k pl pl' ql ql' f g :
  held Out A w0 w id pl pl' -> held Out' B v0 v k ql ql' -> same_rules pl ql -> renamed_by A B w id v k f g -> p_status ql' = p_status pl'.
Proof. intros HH1 HH2 HR HS. exact (spreading_is_nothing X Y Out Out' A B w0 w v0 v id k pl pl' ql ql' f _ HH1 HH2 HR (renamed_spread _ _ _ _ _ _ _ _ _ _ HS)). Qed.
