(** The actions of a proposal that was run are all carried out, from the creation of a DAO on. *)
From Coq Require Import Permutation.
From Verif Require Import Base OMap OMapLemmas Assets PollModel PollSpec PollProofs PollFacts FundsModel FundsSpec FundsFacts MemberModel MemberSpec
  MemberProofs MemberFacts Msgs ControllerModel ControllerSpec ControllerProofs ControllerFacts TreasuryModel TreasurySpec TreasuryProofs
  EnterpriseModel EnterpriseSpec EnterpriseFacts OutpostsModel FactoryModel FactorySpec FactoryFacts WorldModel WorldSpec WorldMember WorldProofs WorldRun LiftFacts FacadeSpec
  CreationModel CreationFacts RewardProofs PurseSpec PurseProofs RuleSpec RuleProofs RuleFacts OrderSpec OrderProofs OrderFacts DoneSpec DoneProofs.

Lemma all_done (X : Type) (Out : outside X) A w0 ts w :
  new_dao A w0 -> w = world_run Out A w0 ts -> lasting w -> done A w (w_log w) [].
Proof.
  intros N -> L. apply (run_done Out A (nd_addrs _ _ N) ts w0 (new_wired _ _ N) (new_free A w0 N)); [|exact (proj2 L)].
  rewrite (nd_log _ _ N). apply done_nil.
Qed.

(** If the actions of a proposal were run, everything they mean was delivered afterwards, in their order. *)
Lemma all_carried_out (X : Type) (Out : outside X) A w0 ts w later s id coins before :
  new_dao A w0 -> w = world_run Out A w0 ts -> lasting w ->
  w_log w = later ++ (s, WasmExecute (a_controller A) (ToController (CExecuteActions id)) coins) :: before ->
  exists p, oget (ct_proposals (w_ctl w)) id = Some p /\ carried_out A (en_type (w_enterprise w)) (pi_actions p) later.
Proof.
  intros N Hw L E. apply (proj1 (all_done X Out A w0 ts w N Hw L) _ _ id _ E). unfold run_of. cbn. rewrite N.eqb_refl. reflexivity.
Qed.

(** So each single message of each action was delivered. *)
Lemma in_turn_in {T} (k l : list T) x : in_turn k l -> In x k -> In x l.
Proof. induction 1; intros I; [destruct I|destruct I as [->|I]; [left; reflexivity|right; auto]|right; auto]. Qed.
Lemma each_delivered (X : Type) (Out : outside X) A w0 ts w id p a m :
  new_dao A w0 -> w = world_run Out A w0 ts -> lasting w ->
  In id (runs A w) -> oget (ct_proposals (w_ctl w)) id = Some p -> In a (pi_actions p) -> In m (meant A (en_type (w_enterprise w)) a) ->
  In (a_controller A, m) (w_log w).
Proof.
  intros N Hw L HR HP HI HM. unfold runs in HR. apply in_flat_map in HR. destruct HR as ((s & mm) & Hin & HR). cbn [snd] in HR.
  destruct mm; try contradiction. match type of HR with In _ (match ?x with _ => _ end) => destruct x; try contradiction end. destruct m0; try contradiction.
  destruct (N.eqb_spec contract (a_controller A)) as [->|]; [|contradiction]. destruct HR as [->|[]].
  apply in_split in Hin. destruct Hin as (later & before & E). destruct (all_carried_out X Out A w0 ts w later s id _ before N Hw L E) as (p' & HP' & C).
  rewrite HP in HP'. injection HP' as <-. rewrite E. apply in_or_app. left. apply in_rev. apply (in_turn_in _ _ _ C). apply in_map. apply in_flat_map. exists a. auto.
Qed.

Lemma said_sent A l : flat_map (said A) l = matters A (flat_map (fun x : addr * cosmos_msg => if fst x =? a_controller A then [snd x] else []) l).
Proof.
  induction l as [|x l IH]; [reflexivity|]. cbn [flat_map]. unfold matters in *. rewrite filter_app, <- IH. f_equal. unfold said. destruct (fst x =? a_controller A); reflexivity.
Qed.
Lemma due_runs (X : Type) A (w : world X) l : flat_map (due A w) l =
  matters A (flat_map (meaning A w) (flat_map (fun x : addr * cosmos_msg => match snd x with
                     | WasmExecute to (ToController (CExecuteActions i)) _ => if to =? a_controller A then [i] else []
                     | _ => []
                     end) l)).
Proof.
  induction l as [|x l IH]; [reflexivity|]. cbn [flat_map]. rewrite flat_map_app. unfold matters in *. rewrite filter_app, <- IH. f_equal. unfold due, run_of.
  destruct (snd x); try reflexivity. match goal with |- context [match ?y with ToController _ => _ | _ => _ end] => destruct y; try reflexivity end.
  destruct m; try reflexivity. destruct (_ =? _); [|reflexivity]. cbn [flat_map]. rewrite app_nil_r. reflexivity.
Qed.

(** Apart from errands, the controller has sent exactly what the proposals that were run mean: nothing less, nothing more, nothing twice. *)
Lemma exactly_meant (X : Type) (Out : outside X) A w0 ts w :
  new_dao A w0 -> w = world_run Out A w0 ts -> lasting w ->
  Permutation (matters A (sent_by (a_controller A) w)) (matters A (flat_map (meaning A w) (runs A w))).
Proof.
  intros N Hw L. pose proof (proj2 (all_done X Out A w0 ts w N Hw L)) as B. unfold balanced in B. rewrite app_nil_r, said_sent, due_runs in B. exact B.
Qed.

(** In particular, an order that is no errand and that no proposal means was never sent; and one meant once was sent once. *)
Lemma count_of (X : Type) (Out : outside X) A w0 ts w (f : cosmos_msg -> N) :
  new_dao A w0 -> w = world_run Out A w0 ts -> lasting w -> (forall m, errand A m = true -> f m = 0) ->
  lsum f (sent_by (a_controller A) w) = lsum (fun id => lsum f (meaning A w id)) (runs A w).
Proof.
  intros N Hw L HF. pose proof (exactly_meant X Out A w0 ts w N Hw L) as P.
  assert (S : forall l, lsum f (matters A l) = lsum f l).
  { induction l as [|m l IH]; [reflexivity|]. unfold matters in *. cbn [filter]. rewrite lsum_cons. destruct (errand A m) eqn:E; cbn [negb].
    - rewrite IH, (HF _ E). reflexivity.
    - rewrite lsum_cons, IH. reflexivity. }
  rewrite <- S, (lsum_perm _ _ _ P), S. clear. induction (runs A w) as [|i l IH]; [reflexivity|]. cbn [flat_map]. rewrite lsum_app, IH. reflexivity.
Qed.

(** * DAOs created by the factory *)

Lemma created_done (X : Type) (Out : outside X) (x : X) o s sender m v fresh s' log eo e b :
  fa_tx s (mk_fa_call o sender (FaCreate m v) fresh) = Ok (s', log) -> NoDup fresh -> births_of eo e (fo_self o) log = Ok b ->
  exists d w0, assigned m fresh d /\ dao_of d b x = Some w0 /\
    forall ts, let A := addrs_of d in let w := world_run Out A w0 ts in
      lasting w -> Permutation (matters A (sent_by (a_controller A) w)) (matters A (flat_map (meaning A w) (runs A w))).
Proof.
  intros H Hf Hb. destruct (creation_gives_dao _ _ _ _ _ _ _ _ _ _ _ H Hf Hb) as (d & H1 & _ & H3).
  destruct (H3 X x) as (w0 & Hw & _ & Hn & _). exists d, w0. split; [exact H1|]. split; [exact Hw|].
  intros ts A w L. exact (exactly_meant X Out A w0 ts w Hn eq_refl L).
Qed.
