(** A distribution among members with 180 and 90 votes, and histories without one. *)
From Verif Require Import Base OMap OMapLemmas Assets PollModel PollSpec FundsModel FundsSpec MemberModel MemberSpec Msgs ControllerModel
  ControllerSpec TreasuryModel TreasurySpec EnterpriseModel OutpostsModel WorldModel WorldSpec TreasuryExamples WorldExamples WorldCases
  LedgerSpec LedgerExamples LedgerCases RewardSpec RewardCases ExitSpec ShareSpec.

Lemma equal_at_first u : reward_weight (ledger_dao false) u = weight_of (w_member (ledger_dao false)) u.
Proof. unfold reward_weight, weight_of. assert (E1 : elems (f_weights (w_funds (ledger_dao false))) = []) by (vm_compute; reflexivity).
  assert (E2 : elems (m_weights (members_of (w_member (ledger_dao false)))) = []) by (vm_compute; reflexivity).
  assert (Z : forall m : omap N, elems m = [] -> ogetN m u = 0).
  { intros m Hm. unfold ogetN. destruct (oget m u) eqn:E; [|reflexivity]. apply oget_In in E. rewrite Hm in E. destruct E. }
   rewrite ?(Z _ E1), ?(Z _ E2). reflexivity.
Qed.

Lemma share_case :
  let w := world_run chain dao_at (ledger_dao false) token_story in
  new_dao dao_at (ledger_dao false) /\ funds_instantiate 3 1 None [] = Ok (w_funds (ledger_dao false)) /\
  (forall u, reward_weight (ledger_dao false) u = weight_of (w_member (ledger_dao false)) u) /\ lasting w /\ undisturbed dao_at w /\
  distribution 11 FDistributeNative [(70, 540)] [(Native 70, 540)] /\
  own_votes w 11 = 180 /\ own_votes w 12 = 90 /\ sharing_votes w = 270 /\
  map (fun u => claimable (w_funds w) u (Native 70)) [11; 12] = [Ok 0; Ok 7] /\
  match world_tx chain dao_at w (to_funds 2090 11 [(70, 540)] FDistributeNative) with
  | Ok w' => map (fun u => claimable (w_funds w') u (Native 70)) [11; 12] = [Ok 360; Ok 187]
  | Err _ => False
  end.
Proof.
  cbv zeta. split; [exact (ledger_new false)|]. split; [vm_compute; reflexivity|]. split; [exact equal_at_first|].
  split; [split; vm_compute; reflexivity|]. split; [apply undisturbed_check; vm_compute; reflexivity|].
  split; [exact (CoinsShared 11 [(70, 540)])|].
  split; [vm_compute; reflexivity|]. split; [vm_compute; reflexivity|]. split; [vm_compute; reflexivity|]. split; vm_compute; reflexivity.
Qed.

(** Coin 70 and token 90 are on the list: 11 can share 540 of the coin and the token's contract can report 20, but nobody can share coin 71. *)
Lemma sharing_case :
  let w := world_run chain dao_at (ledger_dao false) token_story in
  treasury_instantiate 3 (Some [Native 70; Cw20 90]) None = Ok (w_treasury (ledger_dao false)) /\
  NoDup [Native 70; Cw20 90] /\ (forall a, In a [Native 70; Cw20 90] <-> listed (w_treasury w) a) /\
  is_ok (world_tx chain dao_at w (mk_tx 4 (clock 2090) 11 (WasmExecute 6 (ToFunds FDistributeNative) [(70, 540)]))) = true /\
  is_ok (world_tx chain dao_at w (mk_tx 4 (clock 2090) 90 (WasmExecute 6 (ToFunds (FReceive 20 true)) []))) = true /\
  is_ok (world_tx chain dao_at w (mk_tx 4 (clock 2090) 11 (WasmExecute 6 (ToFunds FDistributeNative) [(71, 0)]))) = false /\
  is_ok (world_tx chain dao_at (ledger_dao false) (mk_tx 4 (clock 2090) 11 (WasmExecute 6 (ToFunds FDistributeNative) [(70, 540)]))) = false.
Proof.
  cbv zeta. split; [vm_compute; reflexivity|]. split; [repeat constructor; cbn; intuition discriminate|]. split.
  - assert (E : w_treasury (world_run chain dao_at (ledger_dao false) token_story) = mk_treasury 3 (oset oempty 70 tt) (oset oempty 90 tt) oempty oempty no_old_dao) by (vm_compute; reflexivity).
    intros a. rewrite E. destruct a as [d|t|t i]; cbn [listed tr_natives tr_cw20s tr_cw1155s].
    + destruct (N.eqb_spec d 70) as [->|Hd].
      * rewrite oget_oset_eq. split; [reflexivity|left; reflexivity].
      * rewrite oget_oset_ne by congruence. split; [intros [H|[H|[]]]; congruence|]. intros H. rewrite oget_empty in H. discriminate.
    + destruct (N.eqb_spec t 90) as [->|Hd].
      * rewrite oget_oset_eq. split; [reflexivity|right; left; reflexivity].
      * rewrite oget_oset_ne by congruence. split; [intros [H|[H|[]]]; congruence|]. intros H. rewrite oget_empty in H. discriminate.
    + split; [intros [H|[H|[]]]; discriminate|]. intros (m & H & _). rewrite oget_empty in H. discriminate.
  - split; [vm_compute; reflexivity|]. split; [vm_compute; reflexivity|]. split; vm_compute; reflexivity.
Qed.

(** 11's reward in coins of 22 stays while 12 and 11 itself unstake; 11's claim ends it. *)
Lemma kept_case :
  let w := world_run chain dao_at (ledger_dao false) (firstn 4 token_story) in
  let w' := world_run chain dao_at w (firstn 3 (skipn 4 token_story)) in
  (exists l, w_log w' = l ++ w_log w /\ l <> [] /\ (forall x, In x l -> ~ takes dao_at 11 (Native 70) x) /\ (forall x, In x l -> ~ brings dao_at (Native 70) x)) /\
  claimable (w_funds w) 11 (Native 70) = Ok 22 /\ claimable (w_funds w') 11 (Native 70) = Ok 22 /\
  claimable (w_funds (world_run chain dao_at w' (skipn 7 token_story))) 11 (Native 70) = Ok 0.
Proof.
  cbv zeta. split; [|split; [vm_compute; reflexivity|split; vm_compute; reflexivity]].
  set (w := world_run chain dao_at (ledger_dao false) (firstn 4 token_story)). set (w' := world_run chain dao_at w (firstn 3 (skipn 4 token_story))).
  exists (firstn (length (w_log w') - length (w_log w)) (w_log w')).
  assert (E : w_log w' = firstn (length (w_log w') - length (w_log w)) (w_log w') ++ w_log w) by (vm_compute; reflexivity).
  split; [exact E|].
  set (l := firstn (length (w_log w') - length (w_log w)) (w_log w')) in *.
  assert (F : forallb (fun x => match snd x with WasmExecute _ (ToFunds (FUpdateUserWeights _)) _ => true | WasmExecute _ (ToFunds _) _ => false | _ => true end) l = true) by (vm_compute; reflexivity).
  split; [assert (G : length l <> O) by (vm_compute; discriminate); intros Z; rewrite Z in G; apply G; reflexivity|].
  clearbody l. rewrite forallb_forall in F. split; intros x Hx H; specialize (F x Hx); unfold takes, brings in H; destruct (snd x) as [|c m f| | | | |]; try exact H;
    destruct m as [| |m| | | | | | | | | |]; try exact H; destruct m; try exact H; discriminate F.
Qed.
