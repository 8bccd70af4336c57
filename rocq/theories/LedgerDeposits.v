(** The controller has the deposits of all proposals that are not resolved yet. *)
From Verif Require Import Base OMap OMapLemmas Assets PollModel PollSpec PollProofs PollFacts FundsModel MemberModel MemberSpec
  MemberProofs MemberFacts Msgs ControllerModel ControllerSpec ControllerProofs ControllerFacts TreasuryModel EnterpriseModel
  EnterpriseSpec EnterpriseFacts OutpostsModel WorldModel WorldSpec WorldMember WorldProofs WorldRun LedgerSpec LedgerProofs.

Lemma given_none u g m : payment u m = [] -> sends g m <> 0 -> exists c k coins, g = HNft c k /\ m = WasmExecute c (ToCw721 (Cw721Transfer u k)) coins.
Proof.
  intros H H1. destruct g as [[d|t|t i]|c k].
  - exfalso. apply H1. destruct m; try reflexivity. discriminate H.
  - exfalso. apply H1. destruct m; try reflexivity. cbn [payment] in H. destruct m; try reflexivity. destruct m; try reflexivity. destruct funds; discriminate H.
  - exfalso. apply H1. reflexivity.
  - unfold sends in H1. destruct m; try (exfalso; apply H1; reflexivity).
    match goal with wm : wasm_msg |- _ => destruct wm; try (exfalso; apply H1; reflexivity) end.
    match goal with cm : cw721_msg |- _ => destruct cm; try (exfalso; apply H1; reflexivity) end.
    destruct (N.eqb_spec contract c) as [->|]; cbn [andb] in H1; [|congruence].
    match type of H1 with context [?t =? k] => destruct (N.eqb_spec t k) as [->|]; [|congruence] end.
    cbn [payment] in H. destruct funds as [|x l]; [|discriminate H]. destruct (N.eqb_spec to u) as [E|E]; [rewrite E; eauto 6|discriminate H].
Qed.

Section D.
Context {X : Type}.
Variable Out : outside X.
Variable A : addrs.
Hypothesis HA : NoDup (dao_addrs A).
Local Notation world := (world X).
Local Notation go := (go Out A).
Local Notation oracle := (ctl_oracle_of Out A).
Local Notation ctl_addr := (a_controller A).
Local Notation gov_addr := (a_governance A).

Variable h : holding.
Variable bal : X -> N.
(** custom messages are known not to make the controller deposit NFTs itself *)
Variable strict : bool.
Hypothesis Hhon : honest_to (plain_payment ctl_addr) Out ctl_addr h bal.
Hypothesis Hkeep : forall t, keeper h = Some t -> is_dao A t = false.
Hypothesis Hcol : forall c k, h = HNft c k -> strict = true /\ honest_collection Out ctl_addr c k bal.

Definition open_in (m : omap proposal_info) : N := osum (fun _ p => owed_for h p) m.
Lemma open_osum s : open_deposits h s = open_in (ct_proposals s).
Proof. unfold open_deposits, open_in, osum, ovals. rewrite lsum_map. reflexivity. Qed.
Definition owed (w : world) : N := open_in (ct_proposals (w_ctl w)).

Definition not_own (m : cosmos_msg) : Prop :=
  forall actions owner tokens coins, m <> WasmExecute ctl_addr (ToController (CCreateProposalNft actions owner tokens)) coins.
Definition good (m : cosmos_msg) : Prop := plain_payment ctl_addr m /\ (strict = true -> not_own m).

Lemma in_dao_ctl : is_dao A ctl_addr = true.
Proof. apply is_dao_in. unfold dao_addrs. cbn [In]. tauto. Qed.

Lemma no_coins : in_coins h [] = 0.
Proof. destruct h as [[]|]; reflexivity. Qed.
Lemma plain_coins to m coins : plain_payment ctl_addr (WasmExecute to m coins) -> coins = [].
Proof.
  unfold plain_payment. cbn [payment]. destruct coins as [|c l]; [reflexivity|]. intros H. exfalso. apply H.
  destruct m; try (left; reflexivity); destruct m; left; reflexivity.
Qed.
Lemma none_plain m : payment ctl_addr m = [] -> plain_payment ctl_addr m.
Proof. unfold plain_payment. intros ->. exact (fun F => F). Qed.
(** something that gives nothing away hands over nothing, unless it fetches *)
Lemma none_sends m : payment ctl_addr m = [] -> sends h m <> 0 -> exists c k coins, h = HNft c k /\ m = WasmExecute c (ToCw721 (Cw721Transfer ctl_addr k)) coins.
Proof. exact (given_none ctl_addr h m). Qed.

(** what a message of the controller hands to others *)
Definition gives (m : cosmos_msg) : N :=
  match m with WasmExecute _ (ToCw721 (Cw721Transfer to _)) _ => if to =? ctl_addr then 0 else sends h m | _ => sends h m end.
Lemma gives_le m : gives m <= sends h m.
Proof. unfold gives. destruct m; try lia. destruct m; try lia. destruct m; try lia. destruct (_ =? _); lia. Qed.
Lemma none_gives m : payment ctl_addr m = [] -> gives m = 0.
Proof.
  intros H. pose proof (gives_le m) as L. destruct (N.eq_dec (sends h m) 0) as [E|E]; [lia|].
  destruct (none_sends _ H E) as (c & k & coins & _ & ->). cbn [gives]. rewrite N.eqb_refl. reflexivity.
Qed.

(** * The governance contract's turn costs nothing *)

Lemma pay_nothing x s to x' : x_pay Out x s to [] = Ok x' -> bal x <= bal x'.
Proof. intros H. pose proof (hl_pay _ _ _ _ _ Hhon _ _ _ _ _ H) as Hp. rewrite no_coins in Hp. destruct (to =? ctl_addr), (s =? ctl_addr); lia. Qed.

Lemma gov_msg_paid n (w : world) e m w' d : go n w e (JMsg ctl_addr (gov_msg_of A m)) = Ok (w', d) ->
  exists x g, gov_execute (w_gov w) e ctl_addr m = Ok (g, d) /\ w' = after_gov A w m x g /\ bal (w_ext w) <= bal x.
Proof.
  destruct n; [discriminate|]. intros H. apply go_msg in H.
  destruct H as [(to & wm & coins & x & w1 & subs & d' & E & Hx & Hh & Hg)|(N & _)]; [|destruct (N _ _ _ eq_refl)].
  unfold gov_msg_of in E. injection E as <- <- <-. apply handle_cases in Hh.
  destruct Hh as [(E & _)|[(_ & gm & g & E & He & -> & ->)|[(E & _)|(_ & E & _)]]].
  - destruct (gov_not_ctl A HA E).
  - injection E as <-. apply go_nil in Hg. destruct Hg as [-> _]. exists x, g. split; [exact He|]. split; [reflexivity|]. exact (pay_nothing _ _ _ _ Hx).
  - destruct (member_not_gov A HA (eq_sym E)).
  - destruct (E eq_refl).
Qed.

Lemma gov_paid n (w : world) e m k rest w' d :
  go n w e (JSubs ctl_addr (mk_sub (gov_msg_of A m) (ReplySuccess k) :: rest)) = Ok (w', d) ->
  exists n' x g dd s more w3 d3, n = S n' /\ gov_execute (w_gov w) e ctl_addr m = Ok (g, dd) /\
    ctl_reply (oracle (after_gov A w m x g)) ctl_addr (w_ctl w) e k (ROk dd) = Ok (s, more) /\
    go n' (set_ctl (after_gov A w m x g) s) e (JSubs ctl_addr more) = Ok (w3, d3) /\
    go n' w3 e (JSubs ctl_addr rest) = Ok (w', d) /\ bal (w_ext w) <= bal x.
Proof.
  intros H. apply go_cons in H. destruct H as (n' & -> & H). exists n'. cbn [sm_msg sm_reply] in H.
  destruct H as [(w1 & d1 & H1 & [(N & _)|(id & w2 & more & w3 & d3 & E & H2 & H3 & H4)])|(id & w2 & more & w3 & d3 & _ & N & _)]; try discriminate.
  assert (k = id) as <- by (destruct E as [E|E]; congruence).
  apply gov_msg_paid in H1. destruct H1 as (x & g & He & -> & HB). apply reply_cases in H2.
  destruct H2 as [(_ & s' & Hr & ->)|(N & _)]; [|congruence].
  exists x, g, d1, s', more, w3, d3. auto 8.
Qed.

Lemma gov_plain_paid n (w : world) e m rest w' d :
  go n w e (JSubs ctl_addr (plain (gov_msg_of A m) :: rest)) = Ok (w', d) ->
  exists n' x g dd, n = S n' /\ gov_execute (w_gov w) e ctl_addr m = Ok (g, dd) /\
    go n' (after_gov A w m x g) e (JSubs ctl_addr rest) = Ok (w', d) /\ bal (w_ext w) <= bal x.
Proof.
  intros H. apply go_cons in H. destruct H as (n' & -> & H). exists n'. cbn [sm_msg sm_reply plain] in H.
  destruct H as [(w1 & d1 & H1 & [(_ & H2)|(id & w2 & more & w3 & d3 & [E|E] & _)])|(id & w2 & more & w3 & d3 & _ & N & _)]; try discriminate.
  apply gov_msg_paid in H1. destruct H1 as (x & g & He & -> & HB). exists x, g, d1. auto.
Qed.

Lemma updates_paid rest : forall changes n (w : world) e w' d,
  go n w e (JSubs ctl_addr (map (fun ch => plain (gov_msg_of A (GUpdateVotes (wc_user ch) (wc_new ch)))) changes ++ rest)) = Ok (w', d) ->
  exists n' g w1, (n' <= n)%nat /\ stepped A w w1 (rev (map (fun ch => GUpdateVotes (wc_user ch) (wc_new ch)) changes)) /\
    updates e (w_gov w) changes = Ok g /\ w_gov w1 = g /\ w_ctl w1 = w_ctl w /\
    go n' w1 e (JSubs ctl_addr rest) = Ok (w', d) /\ bal (w_ext w) <= bal (w_ext w1).
Proof.
  induction changes as [|ch l IH]; intros n w e w' d H.
  - exists n, (w_gov w), w. split; [lia|]. split; [repeat (split; [reflexivity|]); reflexivity|]. repeat (split; [reflexivity|]). split; [exact H|lia].
  - cbn [map app] in H. apply gov_plain_paid in H. destruct H as (n' & x & g & dd & -> & HG & H & HB).
    apply IH in H. destruct H as (n2 & g2 & w1 & L & (S1 & S2 & S5 & S3 & S4) & U & G1 & C1 & H & HB1).
    apply gov_execute_ok in HG. destruct HG as (_ & HU & _).
    exists n2, g2, w1. split; [lia|]. split.
    { split; [exact S1|]. split; [exact S2|]. split; [exact S5|]. split; [exact S3|]. cbn [map rev]. rewrite S4, map_app. cbn. rewrite <- app_assoc. reflexivity. }
    split; [unfold updates; cbn [fold_res]; rewrite HU; exact U|]. split; [exact G1|]. split; [exact C1|]. split; [exact H|]. cbn [w_ext after_gov set_gov set_ext note] in HB1. lia.
Qed.

(** * What a call of the controller does to the deposits *)

Definition fetch (c t : N) : sub_msg := plain (WasmExecute c (ToCw721 (Cw721Transfer ctl_addr t)) []).

(** where a deposit comes from *)
Definition source (o : ctl_oracle) (sender : addr) (coins : list coin) (m : controller_msg) (rest : list sub_msg) (d : option deposit) : Prop :=
  match option_map dp_asset d with
  | None => rest = []
  | Some (DDenom dn n) => In (dn, n) coins /\ rest = []
  | Some (DCw20 t n) => sender = t /\ (exists from hook, m = CReceive from n hook) /\ rest = []
  | Some (DCw721 c ts) => (exists actions owner, m = CCreateProposalNft actions owner ts) /\ NoDup ts /\ rest = map (fetch c) ts /\
      forall t, In t ts -> exists owner approvals, co_nft_owner o c t = Ok (owner, approvals) /\ (owner = sender \/ In sender approvals)
  end.

Definition money (w w1 : world) (sender : addr) (coins : list coin) (m : controller_msg) (subs : list sub_msg) : Prop :=
  (exists info id, pi_executed_at info = None /\ ct_proposals (w_ctl w1) = oset (ct_proposals (w_ctl w)) id info /\
     source (oracle w) sender coins m subs (pi_deposit info)) \/
  (exists id p, m = CExecuteActions id /\ sender = ctl_addr /\ oget (ct_proposals (w_ctl w)) id = Some p /\
     ct_proposals (w_ctl w1) = ct_proposals (w_ctl w) /\
     Forall (fun x => In (sm_msg x) (customs p) \/ (payment ctl_addr (sm_msg x) = [] /\ not_own (sm_msg x))) subs) \/
  (owed w1 + lsum (fun x => gives (sm_msg x)) subs <= owed w /\ Forall (fun x => plain_payment ctl_addr (sm_msg x) /\ not_own (sm_msg x)) subs).

Lemma creation o att s e sender coins m c info rest :
  co_components o = Ok (wiring_of A att) -> creates m ->
  ctl_execute o ctl_addr s e sender coins m = Ok (with_creating s (Some info), mk_sub (gov_msg_of A (GCreatePoll c)) (ReplySuccess 1) :: rest) ->
  pi_executed_at info = None /\ source o sender coins m rest (pi_deposit info).
Proof.
  intros HC Hm H. assert (Q : forall s' i, with_creating s' (Some i) = with_creating s (Some info) -> i = info).
  { intros s' i E. apply (f_equal ct_creating) in E. cbn in E. congruence. }
  destruct m; try contradiction.
  - apply (create_with_coins _ _ _ _ _ _ _ _ _ _ _ HC) in H. destruct H as (d & _ & (en & _ & Es & Eo) & Hd). symmetry in Es. apply Q in Es. subst info.
    injection Eo as _ Er. split; [reflexivity|]. cbn [pi_deposit]. unfold source. destruct d as [d|]; cbn [option_map]; [|exact Er].
    destruct Hd as (dn & n & -> & Hin & _). auto.
  - apply (create_with_nfts _ _ _ _ _ _ _ _ _ _ _ _ HC) in H. destruct H as (nft & out1 & _ & _ & _ & (en & _ & Es & Eo) & Er & Hnd & Hok). symmetry in Es. apply Q in Es. subst info out1.
    cbn [app] in Er. injection Er as _ Er. split; [reflexivity|]. cbn. split; [eauto|]. split; [exact Hnd|]. split; [exact Er|]. exact Hok.
  - apply (council_create_requirements _ _ _ _ _ _ _ _ _ _ HC) in H. destruct H as (cc & w & en & _ & _ & _ & _ & _ & _ & _ & Es & Eo). symmetry in Es. apply Q in Es. subst info.
    injection Eo as _ Er. split; [reflexivity|]. exact Er.
  - apply (create_with_cw20 _ _ _ _ _ _ _ _ _ _ _ _ HC) in H. destruct H as (actions & owner & -> & _ & _ & _ & (en & _ & Es & Eo)). symmetry in Es. apply Q in Es. subst info.
    injection Eo as _ Er. split; [reflexivity|]. cbn. split; [reflexivity|]. split; [eauto|exact Er].
Qed.

Lemma send_sends a to : lsum (fun x => gives (sm_msg x)) (send_deposit a to) <= deposited h a /\
  Forall (fun x => plain_payment ctl_addr (sm_msg x) /\ not_own (sm_msg x)) (send_deposit a to).
Proof.
  assert (L : lsum (fun x => gives (sm_msg x)) (send_deposit a to) <= lsum (fun x => sends h (sm_msg x)) (send_deposit a to)).
  { induction (send_deposit a to) as [|y l IH]; [reflexivity|]. rewrite !lsum_cons. pose proof (gives_le (sm_msg y)). lia. }
  cut (lsum (fun x => sends h (sm_msg x)) (send_deposit a to) <= deposited h a /\
    Forall (fun x => plain_payment ctl_addr (sm_msg x) /\ not_own (sm_msg x)) (send_deposit a to)); [intros (Q1 & Q2); split; [lia|exact Q2]|].
  clear L. destruct a as [d n|t n|c ts]; cbn [send_deposit].
  - split; [|constructor; [|constructor]; split; [|unfold not_own; cbn; congruence]; unfold plain_payment; cbn; intros [F|[]]; discriminate].
    unfold lsum, plain. cbn [fold_right sm_msg]. destruct h as [[d'|t'|t' i]|c' k]; cbn [sends deposited in_coins]; unfold lsum; cbn [fold_right fst snd]; try lia; destruct (d =? d'); lia.
  - split; [|constructor; [|constructor]; split; [|unfold not_own; cbn; congruence]; unfold plain_payment; cbn; intros [F|[]]; discriminate].
    unfold lsum, plain. cbn [fold_right sm_msg]. destruct h as [[d'|t'|t' i]|c' k]; cbn [sends deposited]; try lia; destruct (t =? t'); lia.
  - split.
    + rewrite lsum_map. cbn [plain sm_msg]. destruct h as [[d'|t'|t' i]|c' k]; cbn [sends deposited]; try (rewrite lsum_zero; [lia|reflexivity]).
      destruct (N.eqb_spec c c'); cbn [andb]; [unfold count; lia|rewrite lsum_zero; [lia|reflexivity]].
    + apply Forall_forall. intros x Hx. apply in_map_iff in Hx. destruct Hx as (t & <- & _). split; [|unfold not_own; cbn; congruence].
      unfold plain_payment. cbn. destruct (to =? ctl_addr); [exact (fun F => F)|intros [F|[]]; discriminate].
Qed.

Lemma resolution (w : world) o s e id s' more p :
  resolve_ended o ctl_addr s e id = Ok (s', more) -> oget (ct_proposals s) id = Some p -> pi_executed_at p = None ->
  open_in (ct_proposals s') + lsum (fun x => gives (sm_msg x)) more <= open_in (ct_proposals s) /\
  Forall (fun x => plain_payment ctl_addr (sm_msg x) /\ not_own (sm_msg x)) more.
Proof.
  intros H Hp He. pose proof (resolve_ok _ _ _ _ _ _ _ H) as (pl & p0 & _ & Hp0 & _ & ->). assert (p0 = p) by congruence. subst p0.
  assert (E : open_in (ct_proposals (set_executed s e id p)) + owed_for h p = open_in (ct_proposals s)).
  { unfold open_in, set_executed. cbn [ct_proposals with_proposals].
    pose proof (osum_oset (fun _ p => owed_for h p) (ct_proposals s) id (mk_info (pi_type p) (Some e) (pi_earliest p) (pi_deposit p) (pi_actions p))) as S.
    unfold oval in S. rewrite Hp in S. cbn [owed_for pi_executed_at] in S. lia. }
  assert (R : forall to, lsum (fun x => gives (sm_msg x)) (match pi_deposit p with Some d => send_deposit (dp_asset d) (to d) | None => [] end) <= owed_for h p /\
    Forall (fun x => plain_payment ctl_addr (sm_msg x) /\ not_own (sm_msg x)) (match pi_deposit p with Some d => send_deposit (dp_asset d) (to d) | None => [] end)).
  { intros to. unfold owed_for. rewrite He. destruct (pi_deposit p) as [d|]; [apply send_sends|]. split; [unfold lsum; cbn; lia|constructor]. }
  assert (Z : 0 + lsum (fun x => gives (sm_msg x)) [] <= owed_for h p) by (unfold lsum; cbn; lia).
  cut (lsum (fun x => gives (sm_msg x)) more <= owed_for h p /\ Forall (fun x => plain_payment ctl_addr (sm_msg x) /\ not_own (sm_msg x)) more); [intros (Q1 & Q2); split; [lia|exact Q2]|].
  clear E. unfold resolve_ended in H. apply bind_ok in H. destruct H as (pl' & _ & H). destruct (p_status pl').
  - discriminate.
  - apply bind_ok in H. destruct H as (p1 & Hp1 & H). rewrite Hp in Hp1. cbn in Hp1. injection Hp1 as <-. injection H as <- .
    destruct (R dp_depositor) as (R1 & R2). unfold return_deposit. split.
    + rewrite lsum_cons. cbn [sm_msg]. assert (Z1 : gives (WasmExecute ctl_addr (ToController (CExecuteActions id)) []) = 0) by (cbn [gives]; destruct h as [[]|]; reflexivity). rewrite Z1. exact R1.
    + constructor; [|exact R2]. split; [unfold plain_payment; cbn; exact (fun F => F)|unfold not_own; cbn; congruence].
  - apply bind_ok in H. destruct H as (p1 & Hp1 & H). rewrite Hp in Hp1. cbn in Hp1. injection Hp1 as <-.
    apply bind_ok in H. destruct H as (msgs & Hm & H). injection H as <-.
    destruct (pi_type p); [|injection Hm as <-; split; [exact Z|constructor]].
    assert (T : forall c, co_components o = Ok c -> (match pi_deposit p with Some d => Ok (send_deposit (dp_asset d) (c_treasury c)) | None => Ok [] end) = Ok msgs ->
      lsum (fun x => gives (sm_msg x)) msgs <= owed_for h p /\ Forall (fun x => plain_payment ctl_addr (sm_msg x) /\ not_own (sm_msg x)) msgs).
    { intros c Hc Hm'. destruct (R (fun _ => c_treasury c)) as (R1 & R2). destruct (pi_deposit p); injection Hm' as <-; auto. }
    assert (T' : (match pi_deposit p with Some d => c <- co_components o ;; Ok (send_deposit (dp_asset d) (c_treasury c)) | None => Ok [] end) = Ok msgs ->
      lsum (fun x => gives (sm_msg x)) msgs <= owed_for h p /\ Forall (fun x => plain_payment ctl_addr (sm_msg x) /\ not_own (sm_msg x)) msgs).
    { intros Hm'. destruct (pi_deposit p) as [d|] eqn:Ed; [|injection Hm' as <-; split; [exact Z|constructor]].
      apply bind_ok in Hm'. destruct Hm' as (c & Hc & Hm'). exact (T c Hc Hm'). }
    pose proof (R dp_depositor) as R1. destruct reason; try (apply T'; exact Hm); injection Hm as <-; exact R1.
Qed.

Ltac still := repeat (split; [reflexivity|]); auto.

Lemma mild_own m : mild A m -> not_own m.
Proof. intros (H & _) actions owner tokens coins ->. destruct H as (H & _). exact (H eq_refl _ eq_refl). Qed.

Lemma quiet_subs subs : Forall (fun x => payment ctl_addr (sm_msg x) = [] /\ not_own (sm_msg x)) subs ->
  lsum (fun x => gives (sm_msg x)) subs = 0 /\ Forall (fun x => plain_payment ctl_addr (sm_msg x) /\ not_own (sm_msg x)) subs.
Proof.
  intros H. rewrite Forall_forall in H. split.
  - apply lsum_zero. intros x Hx. apply none_gives. apply H. exact Hx.
  - apply Forall_forall. intros x Hx. destruct (H _ Hx). split; [apply none_plain|]; assumption.
Qed.

Lemma ctl_paid n (w : world) e sender coins m s' subs w' d :
  wired A w -> ctl_execute (oracle w) ctl_addr (w_ctl w) e sender coins m = Ok (s', subs) ->
  go n (set_ctl w s') e (JSubs ctl_addr subs) = Ok (w', d) ->
  exists n' w1 subs1, (n' <= n)%nat /\ turn Out A w e sender m w1 subs1 /\ (exists d', go n' w1 e (JSubs ctl_addr subs1) = Ok (w', d')) /\
    bal (w_ext w) <= bal (w_ext w1) /\ money w w1 sender coins m subs1.
Proof.
  intros HW HX HG. destruct (wired_components Out A _ HW) as (att & HC). pose proof HX as HX0. apply (WorldProofs.ctl_call A HA _ _ _ _ _ _ _ _ _ HC (wi_of _ _ HW)) in HX.
  assert (Same : forall w1 subs1, ct_proposals (w_ctl w1) = ct_proposals (w_ctl w) -> Forall (fun x => payment ctl_addr (sm_msg x) = [] /\ not_own (sm_msg x)) subs1 ->
    money w w1 sender coins m subs1).
  { intros w1 subs1 E F. right. right. apply quiet_subs in F. destruct F as (F1 & F2). unfold owed. rewrite E, F1. split; [lia|exact F2]. }
  destruct HX.
  - apply gov_paid in HG. destruct HG as (n' & x & g & dd & s2 & more & w3 & d3 & -> & HG & HR & H1' & H2' & HB).
    apply gov_execute_ok in HG. destruct HG as (_ & id & HG & ->). unfold ctl_reply in HR. cbn in HR. injection HR as <- <-.
    apply go_nil in H1'. destruct H1' as [-> ->]. eexists n', _, rest. split; [lia|]. split; [|split; [eexists; exact H2'|split; [exact HB|]]].
    + eapply tu_create; try eassumption; try reflexivity. still.
    + destruct (creation _ _ _ _ _ _ _ _ _ _ HC H HX0) as (E1 & E2). left. exists info, id. split; [exact E1|]. split; [reflexivity|exact E2].
  - apply gov_paid in HG. destruct HG as (n' & x & g & dd & s2 & more & w3 & d3 & -> & HG & HR & H1' & H2' & HB).
    apply gov_execute_ok in HG. destruct HG as (_ & HG & ->).
    change (reply_cast_vote (oracle (after_gov A (set_ctl w (with_voting (w_ctl w) (Some (id, k)))) (GCastVote id out sender amount) x g))
      (with_voting (w_ctl w) (Some (id, k))) e = Ok (s2, more)) in HR.
    apply reply_vote_ok in HR. destruct HR as (id' & k' & E & -> & HR). cbn in E. injection E as <- <-.
    apply go_nil in H1'. destruct H1' as [-> ->]. eexists n', _, []. split; [lia|]. split; [|split; [eexists; exact H2'|split; [exact HB|]]].
    + destruct HR as [->|(p0 & t & ea & Hp & _ & _ & _ & ->)].
      * apply (tu_vote _ _ _ _ _ id p p out amount g); try assumption; try reflexivity; [still|].
        intros i. cbn. destruct (N.eqb_spec id i) as [<-|]; [assumption|reflexivity].
      * cbn in Hp. assert (p0 = p) by congruence. subst p0.
        apply (tu_vote _ _ _ _ _ id p (mk_info (pi_type p) (pi_executed_at p) (Some t) (pi_deposit p) (pi_actions p)) out amount g);
          try assumption; try reflexivity; [still|]. intros i. cbn. rewrite oget_oset. reflexivity.
    + destruct HR as [->|(p0 & t & ea & Hp & _ & _ & _ & ->)]; [apply Same; [reflexivity|constructor]|].
      cbn in Hp. right. right. split; [|constructor]. unfold owed, open_in. cbn.
      pose proof (osum_oset (fun _ p => owed_for h p) (ct_proposals (w_ctl w)) id (mk_info (pi_type p0) (pi_executed_at p0) (Some t) (pi_deposit p0) (pi_actions p0))) as S.
      unfold oval in S. rewrite Hp in S. unfold owed_for in S at 2 4. cbn [pi_executed_at pi_deposit] in S. lia.
  - apply gov_plain_paid in HG. destruct HG as (n' & x & g & dd & -> & HG & H2' & HB). apply gov_execute_ok in HG. destruct HG as (_ & HG & _).
    eexists n', _, []. split; [lia|]. split; [|split; [eexists; exact H2'|split; [exact HB|]]].
    + eapply tu_council_vote; try eassumption; try reflexivity. still.
    + apply Same; [reflexivity|constructor].
  - apply gov_paid in HG. destruct HG as (n' & x & g & dd & s2 & more & w3 & d3 & -> & HG & HR & H1' & H2' & HB).
    apply gov_execute_ok in HG. destruct HG as (_ & HG & ->).
    set (w2 := after_gov A (set_ctl w (with_executing (w_ctl w) (Some id))) (GEndPoll id total false early) x g) in *.
    assert (HC2 : co_components (oracle w2) = Ok (wiring_of A att)) by exact HC.
    pose proof HR as HR0. unfold ctl_reply in HR0. cbn in HR0.
    pose proof (resolution w _ _ _ _ _ _ _ HR0 H H0) as RS.
    apply resolve_ok in HR0. destruct HR0 as (pl & p0 & Hpl & Hp & Hst & ->).
    cbn in Hp. assert (p0 = p) by congruence. subst p0.
    pose proof (resolution_messages _ _ _ _ _ _ _ id p pl _ HR eq_refl H HC2 Hpl) as (acts & dep & -> & -> & HD & _).
    cbn [wiring_of c_treasury] in HD.
    apply go_nil in H2'. destruct H2' as [-> ->]. eexists n', _, _. split; [lia|]. split; [|split; [eexists; exact H1'|split; [exact HB|right; right; exact RS]]].
    eapply tu_execute with (pl := pl); try eassumption; try reflexivity; [still| |].
    + unfold ctl_poll in Hpl. rewrite HC2 in Hpl. cbn in Hpl. unfold gov_at in Hpl. rewrite N.eqb_refl in Hpl. cbn [bind] in Hpl.
      apply query_poll_ok. exact Hpl.
    + eapply resolve_safe; [exact Hpl|exact HR].
  - apply updates_paid in HG. destruct HG as (n' & g & w1 & L & (S1 & S2 & S5 & S3 & S4) & U & G1 & C1 & H2 & HB).
    exists n', w1, [funds_notice A changes]. split; [exact L|]. split; [|split; [eexists; exact H2|split; [exact HB|]]].
    + eapply tu_weights; try eassumption; [split; [exact S1|]; split; [exact S2|]; split; [exact S5|]; split; [exact S3|exact S4]|]. rewrite C1. reflexivity.
    + apply Same; [rewrite C1; reflexivity|]. constructor; [|constructor]. split; [reflexivity|]. unfold not_own. cbn. congruence.
  - eexists n, _, subs. split; [lia|]. split; [|split; [eexists; exact HG|split; [reflexivity|]]].
    + eapply tu_actions; try eassumption; try reflexivity.
      split; [reflexivity|]. split; [reflexivity|]. split; [reflexivity|]. split; [assumption|reflexivity].
    + right. left. exists id, p. repeat (split; [assumption || reflexivity|]). eapply Forall_impl; [|eassumption].
      intros y (_ & [Q|(Q1 & Q2)]); [left; exact Q|right; split; [exact Q2|exact (mild_own _ Q1)]].
  - eexists n, _, subs. split; [lia|]. split; [|split; [eexists; exact HG|split; [reflexivity|]]].
    + apply tu_other; try assumption; try reflexivity.
      split; [reflexivity|]. split; [reflexivity|]. split; [reflexivity|]. split; [assumption|reflexivity].
    + apply Same; [assumption|]. eapply Forall_impl; [|eassumption]. intros y (_ & Q1 & Q2). split; [exact Q2|exact (mild_own _ Q1)].
Qed.

(** * What is still to be delivered *)

Definition due (s : addr) (m : cosmos_msg) : N := (if s =? ctl_addr then gives m else 0) + reports ctl_addr h s m.
Definition job_due (j : job) : N :=
  match j with JMsg s m => due s m | JSubs self subs => lsum (fun y => due self (sm_msg y)) subs end.
Definition job_good (j : job) : Prop :=
  match j with JMsg s m => s = ctl_addr -> good m | JSubs self subs => self = ctl_addr -> Forall (fun y => good (sm_msg y)) subs end.

Lemma no_reports s m : is_dao A s = true -> reports ctl_addr h s m = 0.
Proof.
  intros Hs. destruct (N.eq_dec (reports ctl_addr h s m) 0) as [|Hn]; [assumption|].
  apply reports_keeper in Hn. apply Hkeep in Hn. congruence.
Qed.
Lemma own_due subs : job_due (JSubs ctl_addr subs) = lsum (fun y => gives (sm_msg y)) subs.
Proof.
  cbn [job_due]. apply lsum_ext_in. intros y _. unfold due. rewrite no_reports by exact in_dao_ctl. rewrite N.eqb_refl. lia.
Qed.
Lemma dao_due self subs : is_dao A self = true -> self <> ctl_addr -> job_due (JSubs self subs) = 0.
Proof.
  intros Hs Hn. cbn [job_due]. apply lsum_zero. intros y _. unfold due. rewrite no_reports by exact Hs.
  destruct (N.eqb_spec self ctl_addr); [contradiction|reflexivity].
Qed.
Lemma other_due self subs : self <> ctl_addr -> job_due (JSubs self subs) = lsum (fun y => reports ctl_addr h self (sm_msg y)) subs.
Proof. intros Hn. cbn [job_due]. apply lsum_ext_in. intros y _. unfold due. destruct (N.eqb_spec self ctl_addr); [contradiction|lia]. Qed.

(** a message delivered to something outside the DAO *)
Lemma exec_held (w : world) e s to wm coins x subs d k : x_exec Out w e s to wm coins = Ok (x, subs, d) -> is_dao A to = false ->
  (s = ctl_addr -> good (WasmExecute to wm coins)) -> due s (WasmExecute to wm coins) + k <= bal (w_ext w) ->
  job_due (JSubs to subs) + k <= bal x.
Proof.
  intros Hx Hd HG HB. assert (Hn : to <> ctl_addr) by (intros ->; rewrite in_dao_ctl in Hd; discriminate).
  rewrite other_due by exact Hn. unfold due in HB.
  pose proof (hl_exec _ _ _ _ _ Hhon _ _ _ _ _ _ _ _ _ Hx (fun E => proj1 (HG E))) as He.
  destruct (N.eqb_spec s ctl_addr) as [->|]; [|lia].
  destruct (N.eq_dec (gives (WasmExecute to wm coins)) (sends h (WasmExecute to wm coins))) as [E|E]; [lia|].
  assert (Hf : exists c k', h = HNft c k' /\ to = c /\ wm = ToCw721 (Cw721Transfer ctl_addr k')).
  { destruct wm; try (exfalso; apply E; reflexivity). match goal with cm : cw721_msg |- _ => destruct cm as [a b| |]; try (exfalso; apply E; reflexivity) end. cbn [gives] in E.
    destruct (N.eqb_spec a ctl_addr) as [->|]; [|congruence].
    assert (S : sends h (WasmExecute to (ToCw721 (Cw721Transfer ctl_addr b)) coins) <> 0) by congruence. clear - S. unfold sends in S.
    destruct h as [[]|c k']; try congruence. destruct (N.eqb_spec to c) as [->|]; cbn [andb] in S; [|congruence]. destruct (N.eqb_spec b k') as [->|]; [|congruence]. eauto. }
  destruct Hf as (c & k' & Eh & -> & ->). destruct (Hcol _ _ Eh) as (_ & HC).
  destruct (hc_fetch _ _ _ _ _ HC _ _ _ _ _ _ _ Hx) as (-> & Hone). specialize (Hone eq_refl). pose proof (hc_one _ _ _ _ _ HC (w_ext w)). unfold lsum. cbn [fold_right]. lia.
Qed.

(** fetching tokens of the collection itself *)
Lemma go_fetch c k0 : h = HNft c k0 -> forall ts n (w : world) e w' d, go n w e (JSubs ctl_addr (map (fetch c) ts)) = Ok (w', d) ->
  w_ctl w' = w_ctl w /\ bal (w_ext w) <= bal (w_ext w') /\ (In k0 ts -> bal (w_ext w') = 1).
Proof.
  intros Eh. destruct (Hcol _ _ Eh) as (_ & HC). assert (Hd : is_dao A c = false) by (apply Hkeep; rewrite Eh; reflexivity).
  assert (Hn : c <> ctl_addr) by (intros ->; rewrite in_dao_ctl in Hd; discriminate).
  induction ts as [|t ts IH]; intros n w e w' d H.
  - apply go_nil in H. destruct H as [-> _]. split; [reflexivity|]. split; [lia|intros []].
  - cbn [map] in H. apply go_cons in H. destruct H as (n' & -> & H). cbn [fetch plain sm_msg sm_reply] in H.
    destruct H as [(w1 & d1 & H1 & [(_ & H2)|(id & w2 & more & w3 & d3 & [E|E] & _)])|(id & w2 & more & w3 & d3 & _ & E & _)]; try discriminate.
    destruct n' as [|n']; [discriminate|]. apply go_msg in H1. destruct H1 as [(to & wm & coins & x & wa & subs & d' & E & Hx & Hh & Hg)|(NE & _)]; [|destruct (NE _ _ _ eq_refl)].
    injection E as <- <- <-. apply handle_ext in Hh. destruct Hh as [(F & _)|(_ & x' & Hx' & ->)]; [congruence|].
    destruct (hc_fetch _ _ _ _ _ HC _ _ _ _ _ _ _ Hx') as (-> & Hone). apply go_nil in Hg. destruct Hg as [-> _].
    destruct (IH _ _ _ _ _ H2) as (I1 & I2 & I3). cbn [w_ctl w_ext set_ext note] in I1, I2, I3. split; [exact I1|].
    assert (L : bal (w_ext w) <= bal x').
    { pose proof (pay_nothing _ _ _ _ Hx) as P. cbn [w_ext note] in P.
      pose proof (hc_one _ _ _ _ _ HC (w_ext w)). destruct (N.eq_dec t k0) as [->|NE]; [rewrite (Hone eq_refl); lia|].
      assert (G : plain_payment ctl_addr (WasmExecute c (ToCw721 (Cw721Transfer ctl_addr t)) [])) by (apply none_plain; cbn [payment]; rewrite N.eqb_refl; reflexivity).
      pose proof (hl_exec _ _ _ _ _ Hhon _ _ _ _ _ _ _ _ _ Hx' (fun _ => G)) as He. rewrite N.eqb_refl in He.
      assert (S : sends h (WasmExecute c (ToCw721 (Cw721Transfer ctl_addr t)) []) = 0).
      { rewrite Eh. unfold sends. apply N.eqb_neq in NE. rewrite NE. destruct (c =? c); reflexivity. }
      rewrite S in He. unfold lsum in He. cbn [fold_right w_ext set_ext note] in He. lia. }
    split; [lia|]. pose proof (hc_one _ _ _ _ _ HC (w_ext w')). intros [->|Hin]; [specialize (Hone eq_refl); lia|exact (I3 Hin)].
Qed.

(** * Every history *)

Definition tidy (w : world) : Prop := forall id p m, acted A w id -> oget (ct_proposals (w_ctl w)) id = Some p -> In m (customs p) ->
  payment ctl_addr m = [] /\ (strict = true -> not_own m).
Lemma tidy_back (w w' : world) : ahead w w' -> tidy w' -> tidy w.
Proof.
  intros HA' H id p m Ha Hp Hm. pose proof (ahead_acted A _ _ _ HA' Ha) as Ha'. destruct HA' as ((_ & _ & K) & _).
  destruct (K _ _ Hp) as (p' & Hp' & Hc & _). eapply H; [exact Ha'|exact Hp'|]. rewrite (customs_content _ _ Hc). exact Hm.
Qed.

Lemma good_all subs : Forall (fun x => plain_payment ctl_addr (sm_msg x) /\ not_own (sm_msg x)) subs -> Forall (fun y => good (sm_msg y)) subs.
Proof. intros H. eapply Forall_impl; [|exact H]. intros x (Q1 & Q2). split; [exact Q1|intros _; exact Q2]. Qed.

(** after a call of the controller: either the deposits are still covered, or the new proposal's NFT is about to be fetched *)
Lemma turn_held (w w1 : world) sender coins m subs k :
  money w w1 sender coins m subs -> bal (w_ext w) <= bal (w_ext w1) ->
  (sender = ctl_addr -> good (WasmExecute ctl_addr (ToController m) coins)) ->
  (forall id p c, m = CExecuteActions id -> sender = ctl_addr -> oget (ct_proposals (w_ctl w)) id = Some p -> In c (customs p) ->
     payment ctl_addr c = [] /\ (strict = true -> not_own c)) ->
  owed w + in_coins h coins + reports ctl_addr h sender (WasmExecute ctl_addr (ToController m) coins) + k <= bal (w_ext w) ->
  Forall (fun y => good (sm_msg y)) subs /\
  (owed w1 + job_due (JSubs ctl_addr subs) + k <= bal (w_ext w1) \/
   exists c k0 ts, h = HNft c k0 /\ subs = map (fetch c) ts /\ In k0 ts /\ owed w1 + k <= 1).
Proof.
  intros HM HB HG HT H. rewrite own_due. destruct HM as [(info & id & Ex & Ep & HS)|[(id & p & -> & -> & Hp & Ep & HF)|(HF1 & HF2)]].
  - assert (EO : owed w1 <= owed w + owed_for h info).
    { unfold owed, open_in. rewrite Ep. pose proof (osum_oset (fun _ p => owed_for h p) (ct_proposals (w_ctl w)) id info) as S. cbn beta in S. lia. }
    unfold source in HS. assert (EF : owed_for h info = match option_map dp_asset (pi_deposit info) with Some a => deposited h a | None => 0 end).
    { unfold owed_for. rewrite Ex. destruct (pi_deposit info); reflexivity. }
    rewrite EF in EO. destruct (option_map dp_asset (pi_deposit info)) as [[dn a|t a|c ts]|].
    + destruct HS as (Hin & ->). split; [constructor|]. left. unfold lsum at 1. cbn [fold_right].
      assert (L : deposited h (DDenom dn a) <= in_coins h coins).
      { clear - Hin. destruct h as [[d|t|t i]|c k0]; cbn [deposited in_coins]; try lia. destruct (N.eqb_spec dn d) as [->|]; [|lia].
        pose proof (lsum_In_le (fun c : coin => if fst c =? d then snd c else 0) _ _ Hin) as L. cbn [fst snd] in L. rewrite N.eqb_refl in L. exact L. }
      lia.
    + destruct HS as (-> & (from & hook & ->) & ->). split; [constructor|]. left. unfold lsum at 1. cbn [fold_right].
      assert (L : deposited h (DCw20 t a) <= reports ctl_addr h t (WasmExecute ctl_addr (ToController (CReceive from a hook)) coins)).
      { clear. destruct h as [[d|t'|t' i]|c k0]; cbn [deposited reports]; try lia. rewrite N.eqb_refl. lia. }
      lia.
    + destruct HS as ((actions & owner & ->) & Hnd & -> & Hown). split.
      { apply Forall_forall. intros y Hy. apply in_map_iff in Hy. destruct Hy as (t & <- & _). cbn [fetch plain sm_msg]. split.
        - apply none_plain. cbn [payment]. rewrite N.eqb_refl. reflexivity.
        - intros _. unfold not_own. congruence. }
      assert (Z : lsum (fun y => gives (sm_msg y)) (map (fetch c) ts) = 0).
      { rewrite lsum_map. apply lsum_zero. intros t _. apply none_gives. cbn [fetch plain sm_msg payment]. rewrite N.eqb_refl. reflexivity. }
      rewrite Z. destruct (N.eq_dec (deposited h (DCw721 c ts)) 0) as [E0|E0]; [left; lia|].
      right. destruct h as [a|c' k0] eqn:Eh; [destruct a; exact (False_ind _ (E0 eq_refl))|]. cbn [deposited] in E0.
      destruct (N.eqb_spec c c') as [<-|]; [|congruence]. exists c, k0, ts. split; [reflexivity|]. split; [reflexivity|].
      assert (Hin : In k0 ts) by (apply count_pos; lia). split; [exact Hin|].
      destruct (Hcol _ _ eq_refl) as (Est & HC). destruct (Hown _ Hin) as (ow & ap & Ho & Hw). change (x_nft_owner Out (w_ext w) c k0 = Ok (ow, ap)) in Ho.
      assert (B0 : bal (w_ext w) = 0).
      { pose proof (hc_one _ _ _ _ _ HC (w_ext w)) as B1. destruct (N.eq_dec (bal (w_ext w)) 1) as [E1|]; [|lia].
        destruct (hc_owner _ _ _ _ _ HC _ _ _ Ho E1) as (-> & ->). destruct Hw as [E|[]]. exfalso. subst sender.
        destruct (HG eq_refl) as (_ & NO). exact (NO Est _ _ _ _ eq_refl). }
      cbn [deposited] in EO. rewrite N.eqb_refl, (count_nodup _ _ Hnd) in EO. destruct (existsb (N.eqb k0) ts); lia.
    + subst subs. split; [constructor|]. left. unfold lsum at 1. cbn [fold_right]. lia.
  - assert (HQ : Forall (fun x => payment ctl_addr (sm_msg x) = [] /\ (strict = true -> not_own (sm_msg x))) subs).
    { eapply Forall_impl; [|exact HF]. intros x [Q|(Q1 & Q2)]; [exact (HT _ _ _ eq_refl eq_refl Hp Q)|auto]. }
    split; [eapply Forall_impl; [|exact HQ]; intros x (Q1 & Q2); split; [apply none_plain|]; assumption|]. left.
    assert (Z : lsum (fun y => gives (sm_msg y)) subs = 0).
    { apply lsum_zero. intros y Hy. apply none_gives. rewrite Forall_forall in HQ. apply HQ. exact Hy. }
    rewrite Z. unfold owed in *. rewrite Ep. lia.
  - split; [apply good_all; exact HF2|]. left. lia.
Qed.

Lemma quiet_owed (w w1 : world) : quiet A w w1 -> owed w1 = owed w.
Proof. intros (Q1 & Q2 & _). unfold owed. rewrite Q1. reflexivity. Qed.

Lemma reply_held (w : world) e self id r w1 more k : on_reply Out A w e self id r = Ok (w1, more) -> self <> ctl_addr ->
  owed w + k <= bal (w_ext w) -> owed w1 + job_due (JSubs self more) + k <= bal (w_ext w1).
Proof.
  intros H Hn HB. pose proof (reply_cases _ _ _ _ _ _ _ _ _ H) as [(E & _)|(_ & Q)]; [contradiction|]. rewrite (quiet_owed _ _ Q).
  destruct (reply_ext _ _ _ _ _ _ _ _ _ H) as [(Hd & ->)|(Hd & x & Hx & ->)].
  - rewrite dao_due by assumption. lia.
  - rewrite other_due by assumption. cbn [w_ext set_ext]. pose proof (hl_reply _ _ _ _ _ Hhon _ _ _ _ _ _ _ Hx). lia.
Qed.

Lemma go_held n : forall (w : world) e j w' d k, go n w e j = Ok (w', d) -> wired A w ->
  match j with JSubs self subs => self = ctl_addr -> fine subs | JMsg _ _ => True end ->
  size w' < M64 -> tidy w' -> job_good j -> owed w + job_due j + k <= bal (w_ext w) -> owed w' + k <= bal (w_ext w').
Proof.
  induction n as [n IH] using lt_wf_ind. intros w e j w' d k H HW HF HS HN HC HP.
  destruct j as [s m|self [|x rest]].
  - destruct n as [|n]; [discriminate|].
    apply go_msg in H. destruct H as [(to & wm & coins & x & w1 & subs & d' & -> & Hx & Hh & Hg)|(NE & Ho)].
    + destruct (start_wired A w s (WasmExecute to wm coins) x HW) as (W0 & K0 & S0).
      assert (LG : w_log (set_ext (note w s (WasmExecute to wm coins)) x) = (s, WasmExecute to wm coins) :: w_log w) by reflexivity.
      assert (O0 : owed (set_ext (note w s (WasmExecute to wm coins)) x) = owed w) by reflexivity.
      pose proof (hl_pay _ _ _ _ _ Hhon _ _ _ _ _ Hx) as Hp. cbn [job_due] in HP. cbn [w_ext note] in Hp.
      assert (Hz : (if s =? ctl_addr then in_coins h coins else 0) = 0).
      { destruct (N.eqb_spec s ctl_addr) as [E|]; [|reflexivity]. destruct (HC E) as (Q & _). apply plain_coins in Q. subst coins. apply no_coins. }
      rewrite Hz in Hp. assert (B0 : w_ext (set_ext (note w s (WasmExecute to wm coins)) x) = x) by reflexivity.
      set (w0 := set_ext (note w s (WasmExecute to wm coins)) x) in *.
      pose proof (go_size _ _ _ _ _ _ _ _ Hg) as GS.
      pose proof (handle_ext _ _ _ _ _ _ _ _ _ _ _ _ Hh) as HE.
      apply handle_cases in Hh. destruct Hh as [(-> & cm & s' & -> & He & -> & _)|HH].
      * rewrite N.eqb_refl in Hp. destruct (ctl_paid _ _ _ _ _ _ _ _ _ _ W0 He Hg) as (n' & w1 & subs1 & L & T & (d2 & G) & HB & HM).
        pose proof (go_size _ _ _ _ _ _ _ _ G) as GS1.
        pose proof T as TW. apply turn_wired in TW; [|assumption|lia]. destruct TW as (W1 & K1 & F1).
        destruct (layer1 Out A HA _ _ _ _ _ _ G W1 (fun _ => F1) HS) as (_ & K2).
        assert (LW : exists l, w_log w' = l ++ w_log w0).
        { destruct (go_log _ _ _ _ _ _ _ _ Hg) as (l & El). exists l. exact El. }
        pose proof (tidy_back w0 w' (conj (kept_trans _ _ _ K1 K2) LW) HN) as HN0.
        destruct (turn_held _ _ _ _ _ _ k HM HB) as (HG1 & HH).
        { exact HC. }
        { intros id p c -> E Hp' Hc. apply (HN0 id p c); [|exact Hp'|exact Hc]. subst s. unfold acted. rewrite LG.
          destruct (HC eq_refl) as (Q & _). apply plain_coins in Q. rewrite Q. left. reflexivity. }
        { rewrite O0, B0. unfold due in HP. lia. }
        destruct HH as [HH|(c & k0 & ts & Eh & -> & Hin & HO)].
        -- exact (IH n' ltac:(lia) _ _ _ _ _ k G W1 (fun _ => F1) HS HN (fun _ => HG1) HH).
        -- destruct (go_fetch _ _ Eh _ _ _ _ _ _ G) as (E1 & _ & E2). rewrite (E2 Hin). unfold owed in *. rewrite E1. exact HO.
      * assert (NC : to <> ctl_addr).
        { destruct HH as [(-> & _)|[(-> & _)|(N1 & _)]]; [apply (gov_not_ctl A HA)|apply (member_not_ctl A HA)|exact N1]. }
        assert (W1 : wired A w1 /\ owed w1 = owed w0 \/ (exists g, to = gov_addr /\ subs = [] /\ w1 = set_gov w0 g)).
        { destruct HH as [(-> & gm & g & -> & He & -> & ->)|[(-> & mm & s' & outs & -> & He & -> & -> & _)|(N1 & N2 & N3 & Q)]].
          - right. eauto.
          - left. split; [apply (member_wired A w0 s' W0)|reflexivity].
          - left. split; [apply (quiet_wired A _ _ Q W0)|exact (quiet_owed _ _ Q)]. }
        destruct W1 as [(W1 & O1)|(g & -> & -> & ->)].
        -- apply (IH n ltac:(lia) _ _ _ _ _ k Hg W1 (fun E => False_ind _ (NC E)) HS HN (fun E => False_ind _ (NC E))). rewrite O1, O0.
           destruct HE as [(Hd & E)|(Hd & x' & Hx' & ->)].
           ++ rewrite (dao_due _ _ Hd NC), E, B0. destruct (to =? ctl_addr); lia.
           ++ cbn [w_ext set_ext]. rewrite <- N.add_assoc, (N.add_comm (owed w)), <- N.add_assoc. eapply exec_held; [exact Hx'|exact Hd|exact HC|]. rewrite B0. destruct (to =? ctl_addr); lia.
        -- apply go_nil in Hg. destruct Hg as [-> _]. change (owed w + k <= bal x). destruct (gov_addr =? ctl_addr); lia.
    + cbn [job_due] in HP. unfold due in HP. destruct (other_ext _ _ _ _ _ _ _ _ Ho) as [->|[->|(x & Hx & ->)]]; [change (owed w + k <= bal (w_ext w)); lia|change (owed w + k <= bal (w_ext w)); lia|].
      change (owed w + k <= bal x).
      pose proof (hl_msg _ _ _ _ _ Hhon _ _ _ _ _ _ Hx (fun E => proj1 (HC E))) as Hm. cbn [w_ext note] in Hm.
      assert (EG : gives m = sends h m) by (destruct m; try reflexivity; destruct (NE _ _ _ eq_refl)). rewrite EG in HP. lia.
  - apply go_nil in H. destruct H as [-> _]. lia.
  - apply go_cons in H. destruct H as (n' & -> & H).
    assert (EP : job_due (JSubs self (x :: rest)) = due self (sm_msg x) + job_due (JSubs self rest)) by (unfold job_due; rewrite lsum_cons; reflexivity).
    rewrite EP in HP. clear EP.
    assert (GX : job_good (JMsg self (sm_msg x))). { intros E. exact (Forall_inv (HC E)). }
    assert (GR : job_good (JSubs self rest)). { intros E. exact (Forall_inv_tail (HC E)). }
    assert (HR : forall wa id r wb more wc dc wd dd, sm_reply x = ReplySuccess id \/ sm_reply x = ReplyAlways id ->
      wired A wa -> owed wa + job_due (JSubs self rest) + k <= bal (w_ext wa) -> on_reply Out A wa e self id r = Ok (wb, more) -> go n' wb e (JSubs self more) = Ok (wc, dc) ->
      go n' wc e (JSubs self rest) = Ok (wd, dd) -> size wd < M64 -> tidy wd -> owed wd + k <= bal (w_ext wd)).
    { intros wa id r wb more wc dc wd dd HI Wa Ka Hr Hg1 Hg2 Sd Nd.
      pose proof (go_size _ _ _ _ _ _ _ _ Hg2) as S2.
      assert (Wb : wired A wb /\ owed wb + job_due (JSubs self more) + (job_due (JSubs self rest) + k) <= bal (w_ext wb) /\ (self = ctl_addr -> fine more) /\ job_good (JSubs self more)).
      { pose proof Hr as Hr0. apply reply_cases in Hr. destruct Hr as [(Es & s' & Hr & ->)|(NN & Q)].
        - assert (id = 3) as ->. { specialize (HF Es). inversion HF; subst. destruct HI as [E|E], H2 as [F|F]; congruence. }
          apply reply_3 in Hr. destruct Hr as [-> ->]. rewrite set_ctl_same. split; [exact Wa|].
          change (job_due (JSubs self [])) with 0. split; [lia|]. split; intros _; constructor.
        - split; [apply (quiet_wired A _ _ Q Wa)|]. split; [apply (reply_held _ _ _ _ _ _ _ _ Hr0 NN); lia|]. split; intros E; destruct (NN E). }
      destruct Wb as (Wb & Kb & Fb & Cb).
      destruct (layer1 Out A HA _ _ _ _ _ _ Hg1 Wb Fb ltac:(lia)) as (Wc & K1).
      destruct (layer1 Out A HA _ _ _ _ _ _ Hg2 Wc (fun E => Forall_inv_tail (HF E)) Sd) as (_ & K2).
      pose proof (tidy_back _ _ (conj K2 (go_log _ _ _ _ _ _ _ _ Hg2)) Nd) as Nc.
      pose proof (IH n' ltac:(lia) _ _ _ _ _ (job_due (JSubs self rest) + k) Hg1 Wb Fb ltac:(lia) Nc Cb Kb) as Kc.
      exact (IH n' ltac:(lia) _ _ _ _ _ k Hg2 Wc (fun E => Forall_inv_tail (HF E)) Sd Nd GR ltac:(lia)). }
    assert (HP1 : owed w + job_due (JMsg self (sm_msg x)) + (job_due (JSubs self rest) + k) <= bal (w_ext w)) by (change (job_due (JMsg self (sm_msg x))) with (due self (sm_msg x)); lia).
    destruct H as [(w1 & d1 & H1 & [(_ & H2)|(id & w2 & more & w3 & d3 & E & H2 & H3 & H4)])|(id & w2 & more & w3 & d3 & _ & E & H2 & H3 & H4)].
    + pose proof (go_size _ _ _ _ _ _ _ _ H2).
      destruct (layer1 Out A HA _ _ _ _ _ _ H1 HW I ltac:(lia)) as (W1 & _).
      destruct (layer1 Out A HA _ _ _ _ _ _ H2 W1 (fun E => Forall_inv_tail (HF E)) HS) as (_ & K2).
      pose proof (tidy_back _ _ (conj K2 (go_log _ _ _ _ _ _ _ _ H2)) HN) as N1.
      pose proof (IH n' ltac:(lia) _ _ _ _ _ (job_due (JSubs self rest) + k) H1 HW I ltac:(lia) N1 GX HP1) as K1.
      exact (IH n' ltac:(lia) _ _ _ _ _ k H2 W1 (fun E => Forall_inv_tail (HF E)) HS HN GR ltac:(lia)).
    + assert (size w1 < M64).
      { pose proof (go_size _ _ _ _ _ _ _ _ H3). pose proof (go_size _ _ _ _ _ _ _ _ H4). apply reply_log in H2. unfold size in *. rewrite H2 in *. lia. }
      destruct (layer1 Out A HA _ _ _ _ _ _ H1 HW I ltac:(lia)) as (W1 & _).
      assert (N1 : tidy w1).
      { assert (Wb : wired A w2 /\ kept w1 w2 /\ (self = ctl_addr -> fine more)).
        { pose proof H2 as Hr. apply reply_cases in Hr. destruct Hr as [(-> & s' & Hr & ->)|(NN & Q)].
          - assert (id = 3) as ->. { specialize (HF eq_refl). inversion HF as [|? ? F0 ?]; subst. destruct E as [E|E], F0 as [F|F]; congruence. }
            apply reply_3 in Hr. destruct Hr as [-> ->]. rewrite set_ctl_same. split; [exact W1|]. split; [apply kept_refl|]. intros _; constructor.
          - destruct (quiet_wired A _ _ Q W1) as (Wq & Kq). split; [exact Wq|]. split; [exact Kq|]. intros E'; destruct (NN E'). }
        destruct Wb as (W2 & K12 & F2). pose proof (go_size _ _ _ _ _ _ _ _ H4).
        destruct (layer1 Out A HA _ _ _ _ _ _ H3 W2 F2 ltac:(lia)) as (W3 & K23).
        destruct (layer1 Out A HA _ _ _ _ _ _ H4 W3 (fun E => Forall_inv_tail (HF E)) HS) as (_ & K34).
        apply (tidy_back w1 w'); [|exact HN]. split; [exact (kept_trans _ _ _ K12 (kept_trans _ _ _ K23 K34))|].
        destruct (go_log _ _ _ _ _ _ _ _ H3) as (l3 & E3). destruct (go_log _ _ _ _ _ _ _ _ H4) as (l4 & E4). apply reply_log in H2. exists (l4 ++ l3). rewrite E4, E3, H2, app_assoc. reflexivity. }
      pose proof (IH n' ltac:(lia) _ _ _ _ _ (job_due (JSubs self rest) + k) H1 HW I ltac:(lia) N1 GX HP1) as K1.
      eapply (HR w1); try eassumption. lia.
    + eapply (HR w); try eassumption; [right; exact E|]. lia.
Qed.

Lemma run_held ts : forall w : world, wired A w -> size (world_run Out A w ts) < M64 -> tidy (world_run Out A w ts) ->
  (forall t x, keeper h = Some t -> In x ts -> tx_signer x <> t) -> owed w <= bal (w_ext w) ->
  owed (world_run Out A w ts) <= bal (w_ext (world_run Out A w ts)).
Proof.
  induction ts as [|t ts IH]; intros w HW HS HN HK HP; [exact HP|].
  change (world_run Out A w (t :: ts)) with (world_run Out A (world_step Out A w t) ts) in *. pose proof (run_size Out A ts (world_step Out A w t)) as S1.
  assert (HK' : forall t0 x, keeper h = Some t0 -> In x ts -> tx_signer x <> t0) by (intros; eapply HK; [eassumption|right; assumption]).
  destruct (step_cases Out A w t) as [E|(d & Hd & H)]; [rewrite E in *; apply IH; assumption|].
  assert (H1 : wired A (world_step Out A w t)) by (eapply layer1; [exact HA|exact H|exact HW|exact I|lia]).
  apply IH; try assumption. destruct (run_ahead Out A HA ts _ H1 HS) as (_ & A2 & _).
  destruct (dao_signer A _ Hd) as (N1 & _).
  assert (G : owed (world_step Out A w t) + 0 <= bal (w_ext (world_step Out A w t))); [|lia].
  eapply go_held; [exact H|exact HW|exact I|lia|exact (tidy_back _ _ A2 HN)|intros E; contradiction|].
  cbn [job_due]. unfold due. destruct (N.eqb_spec (tx_signer t) ctl_addr); [contradiction|].
  destruct (N.eq_dec (reports ctl_addr h (tx_signer t) (tx_msg t)) 0) as [->|Hr]; [lia|].
  apply reports_keeper in Hr. exfalso. exact (HK _ t Hr (or_introl eq_refl) eq_refl).
Qed.

End D.

Lemma deposits_held (X : Type) (Out : outside X) A a bal w0 ts w :
  new_dao A w0 -> w = world_run Out A w0 ts -> lasting w -> thrifty A w ->
  honest_to (plain_payment (a_controller A)) Out (a_controller A) (HAmount a) bal -> foreign A (HAmount a) ts ->
  open_deposits (HAmount a) (w_ctl w) <= bal (w_ext w).
Proof.
  intros HN -> (_ & HL) HT HH HF. rewrite open_osum.
  assert (E0 : owed (HAmount a) w0 = 0).
  { unfold owed, open_in. rewrite (proj2 (new_records A w0 HN)). apply osum_empty. }
  refine (run_held Out A (nd_addrs _ _ HN) (HAmount a) bal false HH _ _ ts w0 (new_wired A w0 HN) HL _ _ _).
  - intros t Ht. apply HF. exact Ht.
  - intros c k E. discriminate E.
  - intros id p m Ha Hp Hm. split; [exact (HT id p m Ha Hp Hm)|discriminate].
  - intros t x Ht Hx. apply (HF t Ht). exact Hx.
  - rewrite E0. lia.
Qed.

Lemma nft_deposits_held (X : Type) (Out : outside X) A c k bal w0 ts w :
  new_dao A w0 -> w = world_run Out A w0 ts -> lasting w -> thrifty A w -> no_self_deposits A w ->
  honest_to (plain_payment (a_controller A)) Out (a_controller A) (HNft c k) bal ->
  honest_collection Out (a_controller A) c k bal -> foreign A (HNft c k) ts ->
  open_deposits (HNft c k) (w_ctl w) <= bal (w_ext w) /\ bal (w_ext w) <= 1.
Proof.
  intros HN -> (_ & HL) HT HO HH HC HF. split; [|apply HC]. rewrite open_osum.
  assert (E0 : owed (HNft c k) w0 = 0).
  { unfold owed, open_in. rewrite (proj2 (new_records A w0 HN)). apply osum_empty. }
  refine (run_held Out A (nd_addrs _ _ HN) (HNft c k) bal true HH _ _ ts w0 (new_wired A w0 HN) HL _ _ _).
  - intros t Ht. apply HF. exact Ht.
  - intros c' k' E. injection E as <- <-. split; [reflexivity|exact HC].
  - intros id p m Ha Hp Hm. split; [exact (HT id p m Ha Hp Hm)|]. intros _. exact (HO id p m Ha Hp Hm).
  - intros t x Ht Hx. apply (HF t Ht). exact Hx.
  - rewrite E0. lia.
Qed.
