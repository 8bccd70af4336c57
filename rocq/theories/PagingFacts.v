(** Listings read page by page are complete, in order and without repetition. *)
From Coq Require Import Sorted.
From Verif Require Import Base OMap OMapLemmas Assets PollModel PollSpec FundsModel MemberModel MemberSpec MemberFacts Msgs
  ControllerModel ControllerFacts TreasuryModel EnterpriseModel FactoryModel OutpostsModel
  WorldModel WorldSpec WorldProofs LiftSpec LiftFacts LiveResults FacadeModel FacadeSpec FacadeProofs FacadeQueries FacadeFacts PagingSpec PagingPolls.

Section Read.
Context {T : Type} (key : T -> N).
Definition after (s : option N) (x : T) : bool := match s with None => true | Some s => s <? key x end.
Definition rising : list T -> Prop := StronglySorted (fun a b => key a < key b).

Lemma after_prefix P S x : rising (P ++ x :: S) -> filter (after (Some (key x))) (P ++ x :: S) = S.
Proof.
  intros H. rewrite filter_app. cbn [filter after]. rewrite N.ltb_irrefl.
  assert (HP : filter (after (Some (key x))) P = []).
  { assert (HA : forall y, In y P -> key y < key x).
    { intros y Hy. clear -H Hy. induction P as [|p P IH]; [destruct Hy|]. cbn in H. inversion H as [|? ? H1 H2]; subst. destruct Hy as [->|Hy].
      - rewrite Forall_forall in H2. apply H2. apply in_or_app. right. left. reflexivity.
      - apply IH; assumption. }
    clear H. induction P as [|p P IH]; [reflexivity|]. cbn [filter after]. pose proof (HA p (or_introl eq_refl)). replace (key x <? key p) with false by (symmetry; apply N.ltb_ge; lia).
    apply IH. intros y Hy. apply HA. right. exact Hy. }
  rewrite HP. cbn [app].
  assert (HS : forall y, In y S -> key x < key y).
  { intros y Hy. clear -H Hy. induction P as [|p P IH]; cbn in H; inversion H as [|? ? H1 H2]; subst; [|apply IH; assumption]. rewrite Forall_forall in H2. apply H2. exact Hy. }
  clear H HP. induction S as [|s S IH]; [reflexivity|]. cbn [filter after]. pose proof (HS s (or_introl eq_refl)). replace (key x <? key s) with true by (symmetry; apply N.ltb_lt; lia).
  f_equal. apply IH. intros y Hy. apply HS. right. exact Hy.
Qed.

Lemma last_any (t : list T) x y z : last (z :: t) x = last (z :: t) y.
Proof. revert z. induction t as [|a t IH]; intros z; [reflexivity|]. exact (IH a). Qed.
Lemma last_split (t : list T) x : exists P, x :: t = P ++ [last t x].
Proof.
  revert x. induction t as [|y t IH]; intros x; [exists []; reflexivity|]. destruct (IH y) as (P & E). exists (x :: P). cbn [app]. f_equal. rewrite E at 1. do 2 f_equal.
  destruct t as [|z t]; [reflexivity|]. exact (last_any t y x z).
Qed.

Lemma read_from k (L : list T) page : (0 < k)%nat -> rising L ->
  (forall s, (s = None \/ exists x, In x L /\ s = Some (key x)) -> page s = Ok (firstn k (filter (after s) L))) ->
  forall fuel S P start, L = P ++ S -> (start = None \/ exists x, In x L /\ start = Some (key x)) -> filter (after start) L = S -> (length S < fuel)%nat ->
  read_listing fuel key page start = Ok S.
Proof.
  intros Hk HR HP. induction fuel as [|n IH]; intros S P start HL Hs HF Hf; [lia|]. cbn [read_listing]. rewrite (HP start Hs), HF. cbn [bind].
  destruct (firstn k S) as [|x t] eqn:E; [destruct S; [reflexivity|destruct k; [lia|discriminate]]|].
  destruct (last_split t x) as (Q & EQ). set (z := last t x) in *.
  assert (ES : S = Q ++ z :: skipn k S). { rewrite <- (firstn_skipn k S) at 1. rewrite E, EQ, <- app_assoc. reflexivity. }
  assert (Hlen : (length (skipn k S) < n)%nat). { assert (length S = length Q + Datatypes.S (length (skipn k S)))%nat by (rewrite ES at 1; rewrite app_length; reflexivity). lia. }
  assert (EL : L = (P ++ Q) ++ z :: skipn k S) by (rewrite <- app_assoc, <- ES; exact HL).
  rewrite (IH (skipn k S) (P ++ Q ++ [z]) (Some (key z))).
  - cbn [bind]. rewrite EQ. f_equal. rewrite <- app_assoc. cbn. symmetry. exact ES.
  - rewrite EL at 1. rewrite <- !app_assoc. reflexivity.
  - right. exists z. split; [|reflexivity]. rewrite EL. apply in_or_app. right. left. reflexivity.
  - rewrite EL at 1. apply after_prefix. rewrite <- EL. exact HR.
  - exact Hlen.
Qed.

Lemma read_all_of k (L : list T) page : (0 < k)%nat -> rising L ->
  (forall s, (s = None \/ exists x, In x L /\ s = Some (key x)) -> page s = Ok (firstn k (filter (after s) L))) -> reads key page L.
Proof.
  intros Hk HR HP fuel Hf. apply (read_from k L page Hk HR HP fuel L [] None); auto. clear. induction L as [|x L IH]; [reflexivity|]. cbn in *. rewrite IH. reflexivity.
Qed.
End Read.

Lemma rising_elems {V} (m : omap V) : rising fst (elems m).
Proof.
  destruct m as [l H]. cbn [elems]. induction l as [|[k v] l IH]; [constructor|]. constructor; [apply IH; eapply sortedb_tail; exact H|].
  apply Forall_forall. intros [k' v'] Hi. cbn. eapply sortedb_gt; eassumption.
Qed.
Lemma rising_filter {T} (key : T -> N) f l : rising key l -> rising key (filter f l).
Proof.
  induction 1 as [|x l Hl IH Hx]; [constructor|]. cbn. destruct (f x); [|exact IH]. constructor; [exact IH|]. rewrite Forall_forall in *. intros y Hy. apply filter_In in Hy. apply Hx. tauto.
Qed.
Lemma rising_map {T U} (key : U -> N) (f : T -> U) (l : list T) : rising (fun x => key (f x)) l -> rising key (map f l).
Proof.
  induction 1 as [|x l Hl IH Hx]; [constructor|]. cbn. constructor; [exact IH|]. rewrite Forall_forall in *. intros y Hy. apply in_map_iff in Hy. destruct Hy as (z & <- & Hz). apply Hx. exact Hz.
Qed.
Lemma orange_after {V} (m : omap V) s : orange m s = filter (after fst s) (elems m).
Proof.
  destruct s as [s|]; [reflexivity|]. unfold orange. symmetry. generalize (elems m). induction l as [|x l IH]; [reflexivity|]. cbn in *. rewrite IH. reflexivity.
Qed.
Lemma filter_swap {T} (f g : T -> bool) l : filter f (filter g l) = filter g (filter f l).
Proof. induction l as [|x l IH]; [reflexivity|]. cbn. destruct (f x) eqn:Ef, (g x) eqn:Eg; cbn; rewrite ?Ef, ?Eg, IH; reflexivity. Qed.
Lemma map_after {T U} (key : U -> N) (f : T -> U) s l : filter (after key s) (map f l) = map f (filter (after (fun x => key (f x)) s) l).
Proof. induction l as [|x l IH]; [reflexivity|]. cbn. unfold after in *. destruct s as [s|]; [destruct (s <? key (f x))|]; cbn; rewrite IH; reflexivity. Qed.
Lemma page_pos limit : limit <> Some 0 -> (0 < N.to_nat (N.min (dflt 50%N limit) 100%N))%nat.
Proof. intros H. destruct limit as [n|]; cbn; [|lia]. assert (n <> 0) by congruence. lia. Qed.

(** * The contracts' own listings *)

Lemma members_read m limit : limit <> Some 0 -> oget (m_weights m) 0 = None ->
  reads fst (fun s => query_members m s limit) (elems (m_weights m)).
Proof.
  intros Hl H0. apply (read_all_of fst _ _ _ (page_pos limit Hl) (rising_elems _)). intros s Hs. unfold query_members, take.
  destruct Hs as [->|([k v] & Hi & ->)]; cbn [bind]; [rewrite orange_after; reflexivity|]. unfold addr_validate. cbn [fst].
  destruct (N.eqb_spec k 0) as [->|]; [apply oget_In in Hi; congruence|]. cbn [bind]. rewrite orange_after. reflexivity.
Qed.

Lemma staked_read s limit : limit <> Some 0 -> reads (fun t => t) (fun p => Ok (query_staked_nfts s p limit)) (okeys (ns_stakes s)).
Proof.
  intros Hl. apply (read_all_of (fun t => t) (N.to_nat (N.min (dflt 50 limit) 100))); [exact (page_pos limit Hl)|apply rising_map; exact (rising_elems (ns_stakes s))|].
  intros p _. unfold query_staked_nfts, take, okeys. rewrite orange_after, map_after, firstn_map. reflexivity.
Qed.

Lemma user_nfts_read s u limit : limit <> Some 0 -> u <> 0 ->
  reads (fun t => t) (fun p => query_user_nfts s u p limit) (map fst (filter (fun ts => snd ts =? u) (elems (ns_stakes s)))).
Proof.
  intros Hl Hu. apply (read_all_of (fun t => t) (N.to_nat (N.min (dflt 50 limit) 100))); [exact (page_pos limit Hl)|apply rising_map, rising_filter; exact (rising_elems (ns_stakes s))|].
  intros p _. unfold query_user_nfts, addr_validate, take. apply N.eqb_neq in Hu. rewrite Hu. cbn [bind]. rewrite orange_after, map_after, firstn_map, filter_swap. reflexivity.
Qed.

Lemma treasuries_read s limit : limit <> Some 0 -> reads fst (fun p => Ok (query_treasuries s p limit)) (elems (op_treasuries s)).
Proof.
  intros Hl. apply (read_all_of fst _ _ _ (page_pos limit Hl) (rising_elems _)). intros p _. unfold query_treasuries, take. rewrite orange_after. reflexivity.
Qed.

Lemma daos_read s limit : limit <> Some 0 -> reads fst (fun p => Ok (query_all_daos s p limit)) (elems (fa_daos s)).
Proof.
  intros Hl. apply (read_all_of fst _ _ _ (page_pos limit Hl) (rising_elems _)). intros p _. unfold query_all_daos, take. rewrite orange_after. reflexivity.
Qed.
(** * Through the facade *)

Lemma reads_ext {T} key (p q : option N -> res (list T)) l : (forall s, p s = q s) -> reads key q l -> reads key p l.
Proof.
  intros E H fuel Hf. rewrite <- (H fuel Hf). clear H Hf. generalize (@None N). induction fuel as [|n IH]; intros s; [reflexivity|]. cbn [read_listing]. rewrite E.
  destruct (q s) as [[|x t]|]; cbn [bind]; try reflexivity. rewrite IH. reflexivity.
Qed.

Lemma flat_pairs (g : gov) id : votes_on_poll g id =
  map snd (flat_map (fun kv => match oget (snd kv) id with Some v => [(fst kv, v)] | None => [] end) (elems (g_votes g))).
Proof. unfold votes_on_poll. induction (elems (g_votes g)) as [|[k m] l IH]; [reflexivity|]. cbn. rewrite map_app, <- IH. destruct (oget m id); reflexivity. Qed.

Lemma pairs_keyed (g : gov) id : keyed_votes g ->
  forall k v, In (k, v) (flat_map (fun kv => match oget (snd kv) id with Some v => [(fst kv, v)] | None => [] end) (elems (g_votes g))) -> v_voter v = k.
Proof.
  intros HK k v H. apply in_flat_map in H. destruct H as ([k' m] & Hk & Hi). cbn [fst snd] in Hi. destruct (oget m id) as [v'|] eqn:Em; [|destruct Hi]. destruct Hi as [Hi|[]]. inversion Hi; subst.
  apply oget_In in Hk. apply (HK k id v). unfold get_vote, votes_of. rewrite Hk. exact Em.
Qed.

Lemma rising_pairs (l : list (N * omap vote)) id : rising fst l -> rising fst (flat_map (fun kv => match oget (snd kv) id with Some v => [(fst kv, v)] | None => [] end) l).
Proof.
  induction 1 as [|[k m] l Hl IH Hx]; [constructor|]. cbn. destruct (oget m id) as [v|]; [|exact IH]. cbn. constructor; [exact IH|]. rewrite Forall_forall in *.
  intros [k' v'] Hi. apply in_flat_map in Hi. destruct Hi as ([k2 m2] & H1 & H2). cbn in H2. destruct (oget m2 id); [|destruct H2]. destruct H2 as [H2|[]]. inversion H2; subst. cbn. exact (Hx _ H1).
Qed.

Lemma rising_ext {T} (k1 k2 : T -> N) l : (forall x, In x l -> k1 x = k2 x) -> rising k1 l -> rising k2 l.
Proof.
  intros E H. induction H as [|x l Hl IH Hx]; [constructor|]. constructor; [apply IH; intros; apply E; right; assumption|]. rewrite Forall_forall in *. intros y Hy.
  rewrite <- (E x (or_introl eq_refl)), <- (E y (or_intror Hy)). apply Hx. exact Hy.
Qed.

Lemma votes_read X (Out : outside X) A w0 ts w e id limit : new_dao A w0 -> w = world_run Out A w0 ts -> lasting w -> limit <> Some 0 ->
  reads v_voter (fun s => in_answer votes_in (v2_query Out A w e (a_enterprise A) (QProposalVotes id s limit))) (votes_on_poll (w_gov w) id).
Proof.
  intros HN HW HL Hl. pose proof (HX Out A w0 ts w HN HW HL) as HW'. pose proof (history_votes_keyed X Out A w0 ts w HN HW) as HK.
  set (all := flat_map (fun kv => match oget (snd kv) id with Some v => [(fst kv, v)] | None => [] end) (elems (g_votes (w_gov w)))).
  assert (Hkey : forall x, In x all -> v_voter (snd x) = fst x) by (intros [k v] Hi; exact (pairs_keyed _ id HK k v Hi)).
  assert (HR : rising (fun x => v_voter (snd x)) all) by (apply (rising_ext fst); [intros x Hx; symmetry; apply Hkey; exact Hx|apply rising_pairs, rising_elems]).
  rewrite flat_pairs. fold all. apply (read_all_of v_voter _ _ _ (page_pos limit Hl)); [apply rising_map; exact HR|].
  intros s _. cbn [v2_query]. unfold v2_proposal_votes, v2_governance. rewrite (controller_seen A w HW'). cbn [bind].
  destruct (oracle_components Out A w HW') as (att & HC & _). rewrite HC. cbn [bind wiring_of c_governance]. unfold gov_at. rewrite N.eqb_refl. cbn [bind in_answer votes_in ok_or].
  f_equal. unfold query_poll_voters, take. fold all. f_equal. rewrite map_after. f_equal.
  clear HR. induction all as [|x l IH]; [reflexivity|]. cbn [filter]. rewrite IH by (intros; apply Hkey; right; assumption). unfold after. rewrite (Hkey x (or_introl eq_refl)).
  rewrite andb_true_r. reflexivity.
Qed.

(** Members of a multisig have valid addresses. *)
Lemma update_fold_zero l : forall (m : members) t ch m' t' ch', Forall (fun uw : N * N => fst uw <> 0) l -> oget (m_weights m) 0 = None ->
  fold_res update_members_one (m, t, ch) l = Ok (m', t', ch') -> oget (m_weights m') 0 = None.
Proof.
  induction l as [|[u x] l IH]; intros m t ch m' t' ch' HF H0 H; cbn [fold_res] in H; [inversion H; subst; exact H0|]. inversion HF as [|? ? F1 F2]; subst. cbn in F1.
  apply bind_ok in H. destruct H as ([[m1 t1] ch1] & H1 & H). eapply IH; [exact F2| |exact H]. unfold update_members_one in H1. apply bind_ok in H1. destruct H1 as (a & _ & H1). apply bind_ok in H1. destruct H1 as (b & _ & H1).
  inversion H1; subst. cbn [set_member_weight with_member_weights m_weights]. rewrite oget_oset_ne; assumption.
Qed.
Lemma set_fold_zero old l : forall (m : members) t ch m' t' ch', Forall (fun uw : N * N => fst uw <> 0) l -> oget (m_weights m) 0 = None ->
  fold_res (set_members_one old) (m, t, ch) l = Ok (m', t', ch') -> oget (m_weights m') 0 = None.
Proof.
  induction l as [|[u x] l IH]; intros m t ch m' t' ch' HF H0 H; cbn [fold_res] in H; [inversion H; subst; exact H0|]. inversion HF as [|? ? F1 F2]; subst. cbn in F1.
  apply bind_ok in H. destruct H as ([[m1 t1] ch1] & H1 & H). eapply IH; [exact F2| |exact H]. unfold set_members_one in H1. apply bind_ok in H1. destruct H1 as (a & _ & H1).
  inversion H1; subst. cbn [set_member_weight with_member_weights m_weights]. rewrite oget_oset_ne; assumption.
Qed.
Lemma dedup_valid l l' : dedup_user_weights l = Ok l' -> Forall (fun uw => fst uw <> 0) l'.
Proof.
  unfold dedup_user_weights. intros H. apply bind_ok in H. destruct H as (l1 & H1 & H). apply bind_ok in H. destruct H as (x & _ & H). inversion H; subst l1. clear H x.
  revert l' H1. induction l as [|[u x] l IH]; intros l' H; cbn [map_res] in H; [inversion H; constructor|].
  apply bind_ok in H. destruct H as (y & Hy & H). apply bind_ok in H. destruct H as (ys & Hys & H). inversion H; subst. constructor; [|apply IH; exact Hys].
  cbn [fst snd] in Hy. unfold addr_validate in Hy. destruct (N.eqb_spec u 0); cbn [bind] in Hy; inversion Hy; subst. exact n.
Qed.

Definition valid_members (s : member_state) : Prop := match s with MMultisig m => oget (m_weights m) 0 = None | _ => True end.

Lemma step_valid s c : valid_members s -> valid_members (fst (member_step s c)).
Proof.
  unfold member_step. intros H. destruct (member_execute (mc_oracle c) s (mc_env c) (mc_sender c) (mc_coins c) (mc_msg c)) as [[s' outs]|] eqn:E; [|exact H].
  unfold member_execute in E. destruct s as [s|s|s|m], (mc_msg c) as [x|x|x|x]; try discriminate;
    apply bind_ok in E; destruct E as ([s1 o1] & E1 & E); inversion E; subst; try exact I. cbn [valid_members] in *. unfold multisig_execute in E1. destruct x as [l|l|h|h].
  - unfold update_members in E1. apply bind_ok in E1. destruct E1 as (u & _ & E1). apply bind_ok in E1. destruct E1 as (l' & Hl & E1). apply bind_ok in E1. destruct E1 as ([[m1 t1] ch1] & Hf & E1). inversion E1; subst.
    exact (update_fold_zero _ _ _ _ _ _ _ (dedup_valid _ _ Hl) H Hf).
  - unfold set_members in E1. apply bind_ok in E1. destruct E1 as (u & _ & E1). apply bind_ok in E1. destruct E1 as (l' & Hl & E1). apply bind_ok in E1. destruct E1 as ([[m1 t1] ch1] & Hf & E1). inversion E1; subst.
    refine (set_fold_zero _ _ _ _ _ _ _ _ (dedup_valid _ _ Hl) _ Hf). cbn. apply oget_empty.
  - apply bind_ok in E1. destruct E1 as (m' & Hm & E1). inversion E1; subst. unfold add_hook in Hm. repeat (apply bind_ok in Hm; destruct Hm as (? & _ & Hm)). inversion Hm; subst. exact H.
  - apply bind_ok in E1. destruct E1 as (m' & Hm & E1). inversion E1; subst. unfold remove_hook in Hm. repeat (apply bind_ok in Hm; destruct Hm as (? & _ & Hm)). inversion Hm; subst. exact H.
Qed.
Lemma run_valid cs : forall s, valid_members s -> valid_members (member_run s cs).
Proof. induction cs as [|c cs IH]; intros s H; [exact H|]. apply (IH (fst (member_step s c))), step_valid, H. Qed.

Lemma new_valid e i s : member_instantiate e i = Ok s -> valid_members s.
Proof.
  destruct i; cbn [member_instantiate]; intros H; apply bind_ok in H; destruct H as (m & Hm & H); inversion H; subst; try exact I. cbn.
  unfold multisig_instantiate in Hm. apply bind_ok in Hm. destruct Hm as (m0 & H0 & Hm). apply bind_ok in Hm. destruct Hm as (m1 & H1 & Hm).
  assert (Z0 : oget (m_weights m0) 0 = None).
  { unfold members_new in H0. apply bind_ok in H0. destruct H0 as (? & _ & H0). inversion H0; subst. apply oget_empty. }
  assert (Z1 : oget (m_weights m1) 0 = None).
  { set (mc := save_checkpoints m0 by_height by_seconds) in *. assert (Zc : oget (m_weights mc) 0 = None) by exact Z0. clearbody mc. destruct initial as [l|]; [|inversion H1; subst; exact Zc].
    apply bind_ok in H1. destruct H1 as (l' & Hl & H1). apply bind_ok in H1. destruct H1 as ([m2 t2] & Hf & H1). inversion H1; subst. cbn. apply dedup_valid in Hl.
    revert Hf Zc. generalize 0 at 1 as t. revert mc. induction l' as [|[u x] l' IH]; intros mc t Hf Zc; cbn [fold_res] in Hf; [inversion Hf; subst; exact Zc|]. inversion Hl as [|? ? F1 F2]; subst. cbn [fst snd] in *.
    apply bind_ok in Hf. destruct Hf as ([m3 t3] & Hs & Hf). refine (IH F2 _ _ Hf _). apply bind_ok in Hs. destruct Hs as (a & _ & Hs). apply bind_ok in Hs. destruct Hs as (b & _ & Hs). inversion Hs; subst.
    cbn [set_member_weight with_member_weights m_weights]. rewrite oget_oset_ne; assumption. }
  unfold save_hooks in Hm. clear -Hm Z1. revert m1 Hm Z1. induction hooks as [|h l IH]; intros m1 Hm Z1; cbn [fold_res] in Hm; [inversion Hm; subst; exact Z1|].
  apply bind_ok in Hm. destruct Hm as (m2 & H2 & Hm). apply (IH _ Hm). apply bind_ok in H2. destruct H2 as (? & _ & H2). inversion H2; subst. exact Z1.
Qed.

Lemma listing_members X (Out : outside X) A w0 ts w e limit m : new_dao A w0 -> w = world_run Out A w0 ts -> lasting w -> limit <> Some 0 ->
  en_type (w_enterprise w) = DaoMultisig -> w_member w = MMultisig m ->
  reads fst (fun s => in_answer members_in (v2_query Out A w e (a_enterprise A) (QMultisigMembers s limit))) (elems (m_weights m)).
Proof.
  intros HN HW HL Hl HT HM. pose proof (HX Out A w0 ts w HN HW HL) as HW'.
  assert (H0 : oget (m_weights m) 0 = None).
  { destruct (membership_history X Out A w0 ts w HN HW) as (css & _ & E & _). destruct (nd_membership _ _ HN) as (en & i & Hi).
    pose proof (run_valid (concat css) _ (new_valid _ _ _ Hi)) as V. rewrite <- E, HM in V. exact V. }
  eapply reads_ext; [|exact (members_read m limit Hl H0)].
  intros s. cbn [v2_query]. unfold v2_multisig_members. rewrite (type_there A w), HT. cbn [bind]. destruct (wired_by A w HW') as (att & E). rewrite E. cbn [bind wiring_of c_membership].
  rewrite (membership_there A w), HM. cbn [bind members_of]. destruct (query_members m s limit); reflexivity.
Qed.

Lemma listing_staked X (Out : outside X) A w0 ts w e limit st : new_dao A w0 -> w = world_run Out A w0 ts -> lasting w -> limit <> Some 0 ->
  en_type (w_enterprise w) = DaoNft -> w_member w = MNft st ->
  reads (fun t => t) (fun s => in_answer nfts_in (v2_query Out A w e (a_enterprise A) (QStakedNfts s limit))) (okeys (ns_stakes st)).
Proof.
  intros HN HW HL Hl HT HM. pose proof (HX Out A w0 ts w HN HW HL) as HW'. eapply reads_ext; [|exact (staked_read st limit Hl)].
  intros s. cbn [v2_query]. unfold v2_staked_nfts. rewrite (type_there A w), HT. cbn [bind]. destruct (wired_by A w HW') as (att & E). rewrite E. cbn [bind wiring_of c_membership].
  rewrite (membership_there A w), HM. reflexivity.
Qed.

Lemma listing_user_nfts X (Out : outside X) A w0 ts w e u limit st : new_dao A w0 -> w = world_run Out A w0 ts -> lasting w -> limit <> Some 0 -> u <> 0 ->
  en_type (w_enterprise w) = DaoNft -> w_member w = MNft st ->
  reads (fun t => t) (fun s => in_answer nfts_in (v2_query Out A w e (a_enterprise A) (QUserStake u s limit))) (map fst (filter (fun ts => snd ts =? u) (elems (ns_stakes st)))).
Proof.
  intros HN HW HL Hl Hu HT HM. pose proof (HX Out A w0 ts w HN HW HL) as HW'. eapply reads_ext; [|exact (user_nfts_read st u limit Hl Hu)].
  intros s. cbn [v2_query]. unfold v2_user_stake. destruct (wired_by A w HW') as (att & E). rewrite E. cbn [bind wiring_of c_membership]. rewrite (type_there A w), HT. cbn [bind].
  rewrite (membership_there A w), HM. cbn [bind query_user_nft_stake]. destruct (query_user_nfts st u s limit); reflexivity.
Qed.

Lemma listing_treasuries X (Out : outside X) A w0 ts w e limit : new_dao A w0 -> w = world_run Out A w0 ts -> lasting w -> limit <> Some 0 ->
  reads fst (fun s => in_answer treasuries_in (v2_query Out A w e (a_enterprise A) (QTreasuries s limit))) (elems (op_treasuries (w_outposts w))).
Proof.
  intros HN HW HL Hl. pose proof (HX Out A w0 ts w HN HW HL) as HW'. eapply reads_ext; [|exact (treasuries_read (w_outposts w) limit Hl)].
  intros s. cbn [v2_query]. destruct (wired_by A w HW') as (att & E). rewrite E. cbn [bind wiring_of c_outposts]. unfold outposts_at. rewrite N.eqb_refl. reflexivity.
Qed.

(** * Proposals *)

Lemma final_not_open p n t : final_status p n <> InProgress t.
Proof. unfold final_status. destruct (negb _); [discriminate|]. destruct (most_voted_over_threshold p); try discriminate. all: repeat match goal with |- context [match ?x with _ => _ end] => destruct x end; discriminate. Qed.

Lemma view_there X (Out : outside X) A (w : world X) now id p pl : wired A w -> NoDup (dao_addrs A) -> oget (ct_proposals (w_ctl w)) id = Some p -> oget (g_polls (w_gov w)) id = Some pl -> p_id pl = id ->
  exists v, to_view (ctl_oracle_of Out A w) (w_ctl w) now pl = Ok v /\ vw_id v = id.
Proof.
  intros HW ND Hp Hpl Hid. destruct (oracle_components Out A w HW) as (att & HC & _).
  assert (Hne : (a_council A =? a_membership A) = false).
  { apply N.eqb_neq. intros E. unfold dao_addrs in ND. do 3 (inversion ND as [|? ? _ ND']; subst; clear ND; rename ND' into ND).
    inversion ND as [|? ? Q _]; subst. apply Q. rewrite <- E. left. reflexivity. }
  assert (HT : forall x t, exists n, total_available (ctl_oracle_of Out A w) x t = Ok n).
  { intros x t. unfold total_available. rewrite HC. cbn [bind wiring_of c_membership Msgs.c_council]. destruct t; cbn.
    - rewrite (membership_there A w). eexists. reflexivity.
    - unfold members_at. unfold addr in *. rewrite Hne, N.eqb_refl. eexists. reflexivity. }
  assert (HS : forall n, exists st ends, simulate (ctl_oracle_of Out A w) id n = Ok (st, ends) /\ forall t, st <> InProgress t).
  { intros n. unfold simulate. rewrite HC. cbn. unfold gov_at. rewrite N.eqb_refl. cbn [bind]. unfold query_simulate, query_poll. rewrite Hpl. cbn [bind ok_or].
    eexists. eexists. split; [reflexivity|]. intros t. apply final_not_open. }
  unfold to_view. rewrite Hid, Hp. cbn [bind ok_or].
  assert (HF : exists st, fix_poll_status (ctl_oracle_of Out A w) (w_ctl w) id (p_status pl) now p = Ok st).
  { unfold fix_poll_status. destruct (is_some (pi_executed_at p)); [eauto|]. destruct (p_status pl); [|eauto..].
    destruct (ends_at <=? now).
    - unfold final_proposal_status. destruct (HT (AtTime ends_at) (pi_type p)) as (n & En). rewrite En. cbn [bind]. destruct (HS n) as (st & ends & Es & Hn). rewrite Es. cbn [bind].
      destruct st; [destruct (Hn _ eq_refl)|eauto..].
    - destruct (_ && _); [|eauto]. destruct (HT Never (pi_type p)) as (n & En). rewrite En. cbn [bind]. destruct (HS n) as (st & ends & Es & Hn). rewrite Es. cbn [bind]. eauto. }
  destruct HF as (st & Est). rewrite Est. cbn [bind]. edestruct HT as (n & En). rewrite En. cbn [bind]. eexists. split; [reflexivity|]. reflexivity.
Qed.

Lemma last_map {T U} (f : T -> U) t x : last (map f t) (f x) = f (last t x).
Proof. induction t as [|y t IH]; [reflexivity|]. cbn [map]. destruct t as [|z t]; [reflexivity|]. exact IH. Qed.

Lemma read_keys {T} (key : T -> N) page (kpage : option N -> list N) : (forall s, exists l, page s = Ok l /\ map key l = kpage s) ->
  forall fuel s ks, read_listing fuel (fun k => k) (fun s => Ok (kpage s)) s = Ok ks ->
  exists l, read_listing fuel key page s = Ok l /\ map key l = ks /\ forall x, In x l -> exists s' l', page s' = Ok l' /\ In x l'.
Proof.
  intros HP. induction fuel as [|n IH]; intros s ks H; cbn [read_listing] in *; [inversion H; exists []; repeat split; intros x []|].
  destruct (HP s) as (l & El & Ek). rewrite El. cbn [bind] in *. rewrite <- Ek in H. destruct l as [|x t]; cbn [map] in H.
  - inversion H. exists []. repeat split. intros x [].
  - rewrite last_map in H. apply bind_ok in H. destruct H as (rest & Hr & H). inversion H; subst ks; clear H. destruct (IH _ _ Hr) as (l' & E1 & E2 & E3). rewrite E1. cbn [bind].
    exists ((x :: t) ++ l'). split; [reflexivity|]. split; [rewrite map_app, E2; reflexivity|]. intros y Hy. apply in_app_or in Hy. destruct Hy as [Hy|Hy]; [eauto|apply E3; exact Hy].
Qed.

Lemma listing_paired X (Out : outside X) A w0 ts w e filt limit : new_dao A w0 -> w = world_run Out A w0 ts -> lasting w -> limit <> Some 0 ->
  (forall id pl, oget (g_polls (w_gov w)) id = Some pl -> oget (ct_proposals (w_ctl w)) id <> None) ->
  exists vs, reads fp_id (fun s => in_answer proposals_in (v2_query Out A w e (a_enterprise A) (QProposals filt s limit))) vs /\
    map fp_id vs = map fst (filter (fun kv => match filt with Some f => filter_eqb (to_filter (p_status (snd kv))) f | None => true end) (elems (g_polls (w_gov w)))) /\
    forall v, In v vs -> v2_query Out A w e (a_enterprise A) (QProposal (fp_id v)) = Ok (AnProposal v).
Proof.
  intros HN HW HL Hl HP. pose proof (HX Out A w0 ts w HN HW HL) as HW'. pose proof (history_keyed X Out A w0 ts w HN HW) as HK.
  set (f := fun kv : N * poll => match filt with Some f => filter_eqb (to_filter (p_status (snd kv))) f | None => true end).
  set (L := filter f (elems (g_polls (w_gov w)))). set (k := N.to_nat (N.min (dflt 50 limit) 100)).
  set (kpage := fun s => firstn k (filter (after (fun x : N => x) s) (map fst L))).
  set (page := fun s => in_answer proposals_in (v2_query Out A w e (a_enterprise A) (QProposals filt s limit))).
  assert (Hpage : forall s, exists l, page s = Ok l /\ map fp_id l = kpage s).
  { intros s. unfold page. cbn [v2_query]. rewrite (controller_seen A w HW'). cbn [bind]. unfold query_proposals. destruct (oracle_components Out A w HW') as (att & HC & _). rewrite HC. cbn [bind wiring_of c_governance].
    cbn [ctl_oracle_of co_polls]. unfold gov_at. rewrite N.eqb_refl. cbn [bind].
    set (pls := query_polls (w_gov w) filt s None (Some (N.min (dflt 50 limit) 100)) false).
    assert (Epl : exists P, pls = map snd P /\ map fst P = kpage s /\ forall x, In x P -> In x (elems (g_polls (w_gov w)))).
    { exists (firstn k (filter (after fst s) L)). split; [|split].
      - unfold pls, query_polls, take. fold k. rewrite firstn_map. f_equal. f_equal. unfold L. clear. induction (elems (g_polls (w_gov w))) as [|x l IH]; [reflexivity|].
        cbn [filter]. rewrite IH. unfold f, after in *. destruct s as [s|]; cbn; [destruct (s <? fst x) eqn:Es|]; cbn; destruct filt as [ff|]; try destruct (filter_eqb _ _); cbn; rewrite ?Es; reflexivity.
      - unfold kpage. rewrite map_after, firstn_map. reflexivity.
      - intros x Hx. apply firstn_In in Hx. apply filter_In in Hx. destruct Hx as (Hx & _). unfold L in Hx. apply filter_In in Hx. tauto. }
    destruct Epl as (P & EP & EK & HIn). rewrite EP. rewrite <- EK. clear EP EK pls kpage.
    assert (HV : exists vs, to_views (ctl_oracle_of Out A w) (w_ctl w) (e_time e) (map snd P) = Ok vs /\ map vw_id vs = map fst P).
    { induction P as [|[id pl] P IH]; [exists []; split; reflexivity|]. cbn [map to_views snd fst].
      pose proof (HIn _ (or_introl eq_refl)) as Hi. apply oget_In in Hi. destruct (oget (ct_proposals (w_ctl w)) id) as [p|] eqn:Ep; [|destruct (HP _ _ Hi Ep)].
      destruct (view_there X Out A w (e_time e) id p pl HW' (nd_addrs _ _ HN) Ep Hi (HK _ _ Hi)) as (v & Ev & Eid). rewrite Ev.
      destruct IH as (vs & E1 & E2); [intros x Hx; apply HIn; right; exact Hx|]. rewrite E1. cbn [bind]. exists (v :: vs). split; [reflexivity|]. cbn. rewrite Eid, E2. reflexivity. }
    destruct HV as (vs & E1 & E2). rewrite E1. cbn [bind in_answer proposals_in ok_or]. eexists. split; [reflexivity|]. rewrite map_map. cbn. exact E2. }
  assert (HR : reads (fun k => k) (fun s => Ok (kpage s)) (map fst L)).
  { apply (read_all_of (fun x => x) k); [exact (page_pos limit Hl)|apply rising_map; unfold L; apply rising_filter, rising_elems|]. intros s _. reflexivity. }
  assert (H0 := HR (S (length (map fst L))) (Nat.lt_succ_diag_r _)). destruct (read_keys fp_id page kpage Hpage _ _ _ H0) as (vs & E1 & E2 & E3).
  exists vs. split; [|split; [exact E2|]].
  - intros fuel Hf. assert (Hf' : (length (map fst L) < fuel)%nat) by (rewrite <- E2, map_length; exact Hf).
    destruct (read_keys fp_id page kpage Hpage _ _ _ (HR fuel Hf')) as (vs' & E1' & E2' & _). rewrite E1'. f_equal.
    (* both readings show the proposals of the same ids *)
    clear -E1 E1' Hf Hf' Hpage HR E2 E2'. revert E1 E1'. 
    assert (G : forall n m s a b, read_listing n fp_id page s = Ok a -> read_listing m fp_id page s = Ok b -> map fp_id a = map fp_id b -> a = b).
    { induction n as [|n IH]; intros m s a b Ha Hb E; [cbn in Ha; inversion Ha; subst; destruct b; [reflexivity|discriminate]|]. destruct m as [|m]; [cbn in Hb; inversion Hb; subst; destruct a; [reflexivity|discriminate]|].
      cbn [read_listing] in Ha, Hb. destruct (page s) as [[|x t]|]; cbn [bind] in *; [congruence| |discriminate].
      apply bind_ok in Ha. destruct Ha as (ra & Ha & Ea). apply bind_ok in Hb. destruct Hb as (rb & Hb & Eb). apply (f_equal (fun r => match r with Ok l => l | Err _ => [] end)) in Ea. apply (f_equal (fun r => match r with Ok l => l | Err _ => [] end)) in Eb. subst a b. f_equal.
      rewrite !map_app in E. apply app_inv_head in E. eapply IH; eassumption. }
    intros E1 E1'. eapply G; [exact E1'|exact E1|congruence].
  - intros v Hv. destruct (E3 v Hv) as (s & l & Es & Hi). unfold page, in_answer in Es. destruct (v2_query Out A w e (a_enterprise A) (QProposals filt s limit)) as [a|] eqn:Ea; [|discriminate].
    cbn [bind] in Es. destruct a; try discriminate. cbn in Es. inversion Es; subst. exact (list_agrees X Out A w0 ts _ e filt s limit _ v HN eq_refl HL Ea Hi).
Qed.

Lemma listing_proposals X (Out : outside X) A w0 ts w e filt limit : new_dao A w0 -> w = world_run Out A w0 ts -> lasting w -> limit <> Some 0 -> no_side_polls A w ->
  exists vs, reads fp_id (fun s => in_answer proposals_in (v2_query Out A w e (a_enterprise A) (QProposals filt s limit))) vs /\
    map fp_id vs = map fst (filter (fun kv => match filt with Some f => filter_eqb (to_filter (p_status (snd kv))) f | None => true end) (elems (g_polls (w_gov w)))) /\
    forall v, In v vs -> v2_query Out A w e (a_enterprise A) (QProposal (fp_id v)) = Ok (AnProposal v).
Proof.
  intros HN HW HL Hl HS. apply (listing_paired X Out A w0 ts w e filt limit HN HW HL Hl). exact (polls_paired X Out A w0 ts w HN HW HL HS).
Qed.

(** Together with [polls_paired] and the converse: polls and proposals are the same ids. *)
Lemma same_ids X (Out : outside X) A w0 ts w id : new_dao A w0 -> w = world_run Out A w0 ts -> lasting w -> no_side_polls A w ->
  (exists pl, oget (g_polls (w_gov w)) id = Some pl) <-> (exists p, oget (ct_proposals (w_ctl w)) id = Some p).
Proof.
  intros HN HW HL HS. split; intros (x & Hx).
  - pose proof (polls_paired X Out A w0 ts w HN HW HL HS _ _ Hx) as H. destruct (oget (ct_proposals (w_ctl w)) id) as [p|]; [eauto|congruence].
  - subst w. destruct (proposal_has_poll X Out A w0 ts id x HN HL Hx) as (pl & Hp). exists pl. apply Hp.
Qed.
