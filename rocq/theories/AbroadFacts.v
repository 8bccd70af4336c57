(** What a DAO says to other chains, in the form of the property. *)
From Verif Require Import Base OMap OMapLemmas Assets PollModel FundsModel MemberModel MemberSpec Msgs ControllerModel TreasuryModel EnterpriseModel
  OutpostsModel OutpostsFacts WorldModel WorldSpec WorldProofs WorldRun PurseSpec OrderSpec OrderProofs OrderFacts DoneSpec DoneFacts AbroadSpec AbroadProofs.

Lemma new_good (X : Type) (Out : outside X) A (w0 : world X) : new_dao A w0 -> outposts_instantiate (a_enterprise A) = Ok (w_outposts w0) -> good Out A w0.
Proof.
  intros N H. unfold outposts_instantiate in H. apply bind_ok in H. destruct H as (a & Ha & H). apply addr_validate_ok in Ha. destruct Ha as (<- & _).
  injection H as H. constructor; rewrite <- ?H, ?(nd_log _ _ N).
  - exact (wi_en _ _ (new_wired _ _ N)).
  - reflexivity.
  - constructor.
  - intros id cb E. cbn in E. rewrite oget_empty in E. discriminate.
  - split; intros c p E; cbn in E; rewrite oget_empty in E; discriminate.
Qed.
Lemma always_good (X : Type) (Out : outside X) A w0 ts w : new_dao A w0 -> outposts_instantiate (a_enterprise A) = Ok (w_outposts w0) -> w = world_run Out A w0 ts -> good Out A w.
Proof. intros N H ->. apply run_good; [exact (nd_addrs _ _ N)|apply new_good; assumption]. Qed.

(** Every message to another chain answers the call right before it. *)
Lemma said_abroad (X : Type) (Out : outside X) A w0 ts w m before :
  new_dao A w0 -> outposts_instantiate (a_enterprise A) = Ok (w_outposts w0) -> w = world_run Out A w0 ts ->
  sent_after (w_log w) (a_outposts A) m before ->
  exists s om coins l, before = (s, to_outposts A om coins) :: l /\ answered Out A (w_outposts w) l s om [m].
Proof. intros N H Hw S. exact (tidy_sent Out A _ _ _ _ (go_tidy _ _ _ (always_good X Out A w0 ts w N H Hw)) S). Qed.

(** Every call that is accepted is answered at once. *)
Lemma called_abroad (X : Type) (Out : outside X) A w0 ts w s wm coins l :
  new_dao A w0 -> outposts_instantiate (a_enterprise A) = Ok (w_outposts w0) -> w = world_run Out A w0 ts ->
  sent_after (w_log w) s (WasmExecute (a_outposts A) wm coins) l ->
  exists om ms later, wm = ToOutposts om /\ answered Out A (w_outposts w) l s om ms /\
    w_log w = later ++ map (pair (a_outposts A)) ms ++ (s, to_outposts A om coins) :: l.
Proof. intros N H Hw S. exact (tidy_called Out A _ _ _ _ _ _ (go_tidy _ _ _ (always_good X Out A w0 ts w N H Hw)) S). Qed.

(** The contracts it knows on other chains are those that the proxies of ordered deployments reported. *)
Lemma known_abroad (X : Type) (Out : outside X) A w0 ts w ch a :
  new_dao A w0 -> outposts_instantiate (a_enterprise A) = Ok (w_outposts w0) -> w = world_run Out A w0 ts ->
  oget (op_proxies (w_outposts w)) ch = Some a \/ oget (op_treasuries (w_outposts w)) ch = Some a -> reported Out A (w_log w) ch a.
Proof. intros N H Hw [E|E]; [exact (proj1 (go_recorded _ _ _ (always_good X Out A w0 ts w N H Hw)) _ _ E)|exact (proj2 (go_recorded _ _ _ (always_good X Out A w0 ts w N H Hw)) _ _ E)]. Qed.

(** An order to a treasury on another chain is one of a proposal whose actions were run before. *)
Lemma answer_order X (Out : outside X) A o l s om m sp sc d n r dl t wm cs rp : answered Out A o l s om [m] ->
  m = IbcTransfer sp sc d n r dl (WasmExecute t wm cs) rp ->
  exists tm x, om = OpExecute tm x /\ s = a_controller A /\ oget (op_proxies o) (x_chain x) = Some r /\ oget (op_treasuries o) (x_chain x) = Some t /\
    wm = ToTreasury tm /\ cs = [] /\ sp = x_src_port x /\ sc = x_src_channel x /\ d = ULUNA /\ n = 1 /\ rp = None.
Proof.
  intros H E. remember [m] as ms eqn:EM. destruct H as [tm x p t' deadline -> H1 H2|d' m' _ H|d' p m' _ _ H|id d' p m' _ _ _ H|]; try discriminate EM.
  all: injection EM as EM; subst.
  - unfold parcel in E. injection E as <- <- <- <- <- <- <- <- <- <-. exists tm, x. auto 12.
  - destruct H as (a & b & c & _ & H). discriminate H.
  - destruct H as (a & b & H). discriminate H.
  - destruct H as (a & b & H). discriminate H.
Qed.
Lemma remote_commanded X A (w : world X) tm x coins l : routine A w (to_outposts A (OpExecute tm x) coins) \/ commanded A w l (to_outposts A (OpExecute tm x) coins) ->
  commanded A w l (to_outposts A (OpExecute tm x) coins).
Proof.
  intros [H|H]; [exfalso|exact H]. remember (to_outposts A (OpExecute tm x) coins) as m eqn:E. unfold to_outposts in E.
  destruct H as [| | | | |id p d to m _ _ _ _ H]; try discriminate E. subst. destruct (dp_asset d); cbn [deposit_msgs] in H; try (destruct H as [H|[]]; discriminate H).
  apply in_map_iff in H. destruct H as (? & H & _). discriminate H.
Qed.

Lemma orders_abroad (X : Type) (Out : outside X) A w0 ts w sp sc d n receiver deadline t wm cs report before :
  new_dao A w0 -> outposts_instantiate (a_enterprise A) = Ok (w_outposts w0) -> w = world_run Out A w0 ts -> N.of_nat (length (w_log w)) < 2 ^ 64 ->
  sent_after (w_log w) (a_outposts A) (IbcTransfer sp sc d n receiver deadline (WasmExecute t wm cs) report) before ->
  exists tm x coins l, before = (a_controller A, to_outposts A (OpExecute tm x) coins) :: l /\ commanded A w l (to_outposts A (OpExecute tm x) coins) /\
    wm = ToTreasury tm /\ cs = [] /\ oget (op_proxies (w_outposts w)) (x_chain x) = Some receiver /\ oget (op_treasuries (w_outposts w)) (x_chain x) = Some t /\
    sp = x_src_port x /\ sc = x_src_channel x /\ d = ULUNA /\ n = 1 /\ report = None.
Proof.
  intros N H Hw L S. destruct (said_abroad X Out A w0 ts w _ _ N H Hw S) as (s & om & coins & l & -> & Q).
  destruct (answer_order _ _ _ _ _ _ _ _ _ _ _ _ _ _ _ _ _ _ Q eq_refl) as (tm & x & -> & -> & H1 & H2 & H3 & H4 & H5 & H6 & H7 & H8 & H9).
  exists tm, x, coins, l. split; [reflexivity|]. split; [|auto 12]. apply remote_commanded. apply (controller_sends X Out A w0 ts w); [exact N|exact Hw|exact L|].
  destruct S as (later & E). eexists (later ++ [_]). rewrite <- app_assoc. exact E.
Qed.

(** If no custom message interferes, that proposal has passed. *)
Lemma run_passed (X : Type) (Out : outside X) A w0 ts w id p : new_dao A w0 -> w = world_run Out A w0 ts -> N.of_nat (length (w_log w)) < 2 ^ 64 ->
  timely 0 ts -> calm A w -> In id (runs A w) -> oget (ct_proposals (w_ctl w)) id = Some p ->
  exists pl b o n, pi_executed_at p = Some b /\ oget (g_polls (w_gov w)) id = Some pl /\ p_status pl = Passed o n.
Proof.
  intros N Hw L T C I HP. pose proof (run_core Out A (nd_addrs _ _ N) ts 0 w0 (new_core _ _ N) (new_votes _ _ N) T) as K. rewrite <- Hw in K. destruct (K L C) as (K1 & _).
  assert (AC : acted A w id).
  { unfold runs in I. apply in_flat_map in I. destruct I as ((s & y) & I1 & I2). cbn [snd] in I2. destruct y as [| to wm coins | | | | |]; try destruct I2.
    destruct wm; try destruct I2. match goal with c : controller_msg |- _ => destruct c; try destruct I2 end. destruct (N.eqb_spec to (a_controller A)) as [->|]; [|destruct I2].
    destruct I2 as [->|[]]. destruct (c_order _ _ _ K1 _ _ _ I1) as (-> & ->). exact I1. }
  destruct (c_acted _ _ _ K1 id AC) as (p' & b & o & n & Hp & Hb & Hs). rewrite HP in Hp. injection Hp as <-. unfold status_of in Hs.
  destruct (oget (g_polls (w_gov w)) id) as [pl|] eqn:EP; [|discriminate]. injection Hs as Hs. exists pl, b, o, n. auto.
Qed.
Lemma voted_abroad (X : Type) (Out : outside X) A w0 ts w sp sc d n receiver deadline t wm cs report before :
  new_dao A w0 -> outposts_instantiate (a_enterprise A) = Ok (w_outposts w0) -> w = world_run Out A w0 ts -> N.of_nat (length (w_log w)) < 2 ^ 64 ->
  timely 0 ts -> calm A w ->
  sent_after (w_log w) (a_outposts A) (IbcTransfer sp sc d n receiver deadline (WasmExecute t wm cs) report) before ->
  exists tm x coins id p a pl b o k, wm = ToTreasury tm /\ oget (op_treasuries (w_outposts w)) (x_chain x) = Some t /\
    In id (ran A before) /\ oget (ct_proposals (w_ctl w)) id = Some p /\ In a (pi_actions p) /\ commands A a (to_outposts A (OpExecute tm x) coins) /\
    pi_executed_at p = Some b /\ oget (g_polls (w_gov w)) id = Some pl /\ p_status pl = Passed o k.
Proof.
  intros N H Hw L T C S. destruct (orders_abroad X Out A w0 ts w _ _ _ _ _ _ _ _ _ _ _ N H Hw L S) as (tm & x & coins & l & -> & (id & p & a & R1 & R2 & R3 & R4) & -> & _ & _ & H2 & _).
  assert (I : In id (ran A ((a_controller A, to_outposts A (OpExecute tm x) coins) :: l))) by (apply (ran_grow A _ [_]); exact R1).
  assert (I' : In id (runs A w)).
  { change (runs A w) with (ran A (w_log w)). destruct S as (later & ->). apply ran_grow. apply (ran_grow A _ [_]). exact I. }
  destruct (run_passed X Out A w0 ts w id p N Hw L T C I' R2) as (pl & b & o & k & P1 & P2 & P3).
  exists tm, x, coins, id, p, a, pl, b, o, k. auto 12.
Qed.

(** The orders of proposals that were run have been sent. *)
Lemma carried_abroad (X : Type) (Out : outside X) A w0 ts w id p a tm x :
  new_dao A w0 -> outposts_instantiate (a_enterprise A) = Ok (w_outposts w0) -> w = world_run Out A w0 ts -> lasting w ->
  In id (runs A w) -> oget (ct_proposals (w_ctl w)) id = Some p -> In a (pi_actions p) -> order_abroad a = Some (tm, x) ->
  exists r t deadline, oget (op_proxies (w_outposts w)) (x_chain x) = Some r /\ oget (op_treasuries (w_outposts w)) (x_chain x) = Some t /\
    In (a_outposts A, parcel x r deadline (WasmExecute t (ToTreasury tm) []) None) (w_log w).
Proof.
  intros N H Hw L HR HP HI HO.
  assert (D : In (a_controller A, to_outposts A (OpExecute tm x) []) (w_log w)).
  { refine (each_delivered X Out A w0 ts w id p a _ N Hw L HR HP HI _). destruct a as [| | |[?|]|[?|]|[?|]| | |? [?|]| | | | |]; try discriminate HO; injection HO as <- <-; left; reflexivity. }
  apply in_split in D. destruct D as (later & l & E).
  destruct (called_abroad X Out A w0 ts w (a_controller A) (ToOutposts (OpExecute tm x)) [] l N H Hw (ex_intro _ later E)) as (om & ms & later' & EM & Q & ->).
  injection EM as <-. remember (OpExecute tm x) as om eqn:EO. destruct Q as [tm' x' r t deadline _ H1 H2| | | |]; try discriminate EO. injection EO as -> ->.
  exists r, t, deadline. split; [exact H1|]. split; [exact H2|]. apply in_or_app. right. left. reflexivity.
Qed.
