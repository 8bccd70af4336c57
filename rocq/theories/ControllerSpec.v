(** What the controller properties mean, independently of how the model computes. *)
From Verif Require Import Base OMap Assets PollModel PollSpec FundsModel MemberModel Msgs ControllerModel.

(** A share greater than nothing and at most everything. *)
Definition proper_share (v : N) : Prop := 0 < v /\ v <= DEC.

Definition sane_config (t : dao_type) (g : gov_config) : Prop :=
  0 < gc_vote_duration g /\ proper_share (gc_quorum g) /\ proper_share (gc_threshold g) /\
  (forall v, gc_veto_threshold g = Some v -> proper_share v) /\
  (t = DaoMultisig -> gc_minimum_deposit g = None).

Definition sane_council (c : council_config) : Prop :=
  proper_share (cc_quorum c) /\ proper_share (cc_threshold c).

(** The action types a council can ever be given. *)
Inductive council_power : action_type -> Prop :=
| cp_metadata : council_power TUpdateMetadata
| cp_assets : council_power TUpdateAssetWhitelist
| cp_nfts : council_power TUpdateNftWhitelist
| cp_upgrade : council_power TUpgradeDao
| cp_deploy : council_power TDeployTreasury.

(** The messages that hand a deposit over to [to]: one transfer, or one per NFT. *)
Inductive hands_over (to : addr) : deposit_asset -> list sub_msg -> Prop :=
| ho_native d n : hands_over to (DDenom d n) [mk_sub (BankSend to [(d, n)]) ReplyNever]
| ho_cw20 t n : hands_over to (DCw20 t n) [mk_sub (WasmExecute t (ToCw20 (Cw20Transfer to n)) []) ReplyNever]
| ho_nft c ts msgs :
    Forall2 (fun t m => m = mk_sub (WasmExecute c (ToCw721 (Cw721Transfer to t)) []) ReplyNever) ts msgs ->
    hands_over to (DCw721 c ts) msgs.

(** The documented rule: who gets the deposit of a resolved general proposal. *)
Inductive deposit_goes (treasury depositor : addr) : poll_status -> addr -> Prop :=
| dg_passed o n : deposit_goes treasury depositor (Passed o n) depositor
| dg_quorum : deposit_goes treasury depositor (Rejected QuorumNotReached) treasury
| dg_veto : deposit_goes treasury depositor (Rejected IsVetoOutcome) treasury
| dg_threshold : deposit_goes treasury depositor (Rejected ThresholdNotReached) depositor
| dg_both : deposit_goes treasury depositor (Rejected QuorumAndThresholdNotReached) depositor
| dg_no : deposit_goes treasury depositor (Rejected IsRejectingOutcome) depositor
| dg_draw a b n : deposit_goes treasury depositor (Rejected (OutcomeDraw a b n)) depositor.

(** All of a proposal's record but the two time marks. *)
Definition content (p : proposal_info) := (pi_type p, pi_deposit p, pi_actions p).

(** Messages that could move assets held by the controller. *)
Definition pays_out (self : addr) (m : cosmos_msg) : Prop :=
  match m with
  | BankSend _ _ => True
  | WasmExecute _ _ (_ :: _) => True
  | WasmExecute _ (ToCw20 _) _ => True
  | WasmExecute _ (ToCw721 (Cw721Transfer to _)) _ => to <> self
  | WasmExecute _ (ToCw721 _) _ => True
  | WasmExecute _ (ToCw1155 _) _ => True
  | WasmExecute _ (ToOther _) _ => True
  | WasmInstantiate _ _ _ | WasmMigrate _ _ _ | WasmUpdateAdmin _ _ | IbcTransfer _ _ _ _ _ _ _ _ | OtherMsg _ => True
  | _ => False
  end.

(** What an action is documented to do: change the stored configuration and send messages to the DAO's
    contracts [c] (the enterprise contract is [ct_enterprise]). *)
Section Effects.
  Variables (c : components) (t : dao_type) (cur : N).

  Definition to_contract (a : addr) (m : wasm_msg) : sub_msg := mk_sub (WasmExecute a m []) ReplyNever.
  (** the treasury on this chain, or the one on another chain through the outposts contract *)
  Definition treasury_order (target : option cross_spec) (m : treasury_msg) : sub_msg :=
    match target with
    | None => to_contract (c_treasury c) (ToTreasury m)
    | Some x => to_contract (c_outposts c) (ToOutposts (OpExecute m x))
    end.

  Inductive effect (s : ctl) : proposal_action -> ctl -> list sub_msg -> Prop :=
  | ef_metadata u : effect s (PUpdateMetadata u) s [to_contract (ct_enterprise s) (ToEnterprise (EnUpdateMetadata u))]
  | ef_config u g msgs :
      gc_quorum g = apply_change (gc_quorum (ct_config s)) (gu_quorum u) ->
      gc_threshold g = apply_change (gc_threshold (ct_config s)) (gu_threshold u) ->
      gc_veto_threshold g = apply_change (gc_veto_threshold (ct_config s)) (gu_veto_threshold u) ->
      gc_vote_duration g = apply_change (gc_vote_duration (ct_config s)) (gu_vote_duration u) ->
      gc_minimum_deposit g = apply_change (gc_minimum_deposit (ct_config s)) (gu_minimum_deposit u) ->
      gc_allow_early g = apply_change (gc_allow_early (ct_config s)) (gu_allow_early u) ->
      sane_config t g ->
      match gu_unlocking_period u with
      | NoChange => msgs = []
      | Change d =>
          (forall secs, d = DTime secs -> gc_vote_duration g <= secs) /\
          msgs = match t with
                 | DaoToken => [to_contract (c_membership c) (ToMembership (TokenMsg (TCommon (SUpdatePeriod (Some d)))))]
                 | DaoDenom => [to_contract (c_membership c) (ToMembership (DenomMsg (DCommon (SUpdatePeriod (Some d)))))]
                 | DaoNft => [to_contract (c_membership c) (ToMembership (NftMsg (NUpdatePeriod (Some d))))]
                 | DaoMultisig => []
                 end
      end ->
      effect s (PUpdateGovConfig u) (with_config s g) msgs
  | ef_no_council :
      effect s (PUpdateCouncil None) (with_council s None)
        [to_contract (c_council c) (ToMembership (MultisigMsg (MSetMembers [])))]
  | ef_council spec allowed :
      NoDup (cs_members spec) -> ~ In 0 (cs_members spec) ->
      allowed = match cs_allowed spec with Some l => l | None => [TUpgradeDao] end ->
      Forall council_power allowed ->
      proper_share (cs_quorum spec) -> proper_share (cs_threshold spec) ->
      effect s (PUpdateCouncil (Some spec))
        (with_council s (Some (mk_council_config allowed (cs_quorum spec) (cs_threshold spec))))
        [to_contract (c_council c) (ToMembership (MultisigMsg (MSetMembers (map (fun m => (m, 1)) (cs_members spec)))))]
  | ef_assets target add remove :
      effect s (PUpdateAssets target add remove) s [treasury_order target (TrUpdateAssets add remove)]
  | ef_nfts target add remove :
      effect s (PUpdateNfts target add remove) s [treasury_order target (TrUpdateNfts add remove)]
  | ef_funding target to assets :
      effect s (PRequestFunding target to assets) s [treasury_order target (TrSpend to assets)]
  | ef_upgrade v msgs : cur < v ->
      effect s (PUpgradeDao v msgs) s [to_contract (ct_enterprise s) (ToEnterprise (EnUpgradeDao v msgs))]
  | ef_msgs msgs : effect s (PExecuteMsgs (map Some msgs)) s (map (fun m => mk_sub m ReplyNever) msgs)
  | ef_treasury_msgs msgs target : effect s (PExecuteTreasuryMsgs msgs target) s [treasury_order target (TrExecute msgs)]
  | ef_enterprise_msgs msgs :
      effect s (PExecuteEnterpriseMsgs msgs) s [to_contract (ct_enterprise s) (ToEnterprise (EnExecuteMsgs msgs))]
  | ef_multisig edits : t = DaoMultisig -> NoDup (map fst edits) -> ~ In 0 (map fst edits) ->
      effect s (PModifyMultisig edits) s [to_contract (c_membership c) (ToMembership (MultisigMsg (MUpdateMembers edits)))]
  | ef_distribute funds :
      effect s (PDistributeFunds funds) s [to_contract (c_treasury c) (ToTreasury (TrDistribute funds (c_funds c)))]
  | ef_minimum w : effect s (PUpdateMinimumWeight w) s [to_contract (c_funds c) (ToFunds (FUpdateMinimum w))]
  | ef_deploy d : effect s (PDeployTreasury d) s [to_contract (c_outposts c) (ToOutposts (OpDeploy d))].

  (** the effects of a list of actions, in order *)
  Inductive effects : ctl -> list proposal_action -> ctl -> list sub_msg -> Prop :=
  | efs_nil s : effects s [] s []
  | efs_cons s a s1 m1 l s2 m2 : effect s a s1 m1 -> effects s1 l s2 m2 -> effects s (a :: l) s2 (m1 ++ m2).
End Effects.

(** The answers of the oracle are those of the governance contract [g], at its address. *)
Definition asks_governance (o : ctl_oracle) (c : components) (g : gov) : Prop :=
  co_components o = Ok c /\
  (forall id, co_poll o (c_governance c) id = query_poll g id) /\
  (forall id avail, co_simulate o (c_governance c) id avail =
     match query_poll g id with Ok p => Ok (final_status p avail, p_ends_at p) | Err x => Err x end).

(** The oracle answers used to serve a call with total weight: at the end of the poll or now. *)
Definition total_for (o : ctl_oracle) (c : components) (t : proposal_type) (x : expiration) : res N :=
  match t with General => co_total o (c_membership c) x | Council => co_total o (c_council c) x end.

(** An action that may be proposed in a DAO of type [t], version [cur] and configuration [g]. *)
Definition valid_asset (a : asset) : Prop :=
  match a with Native _ => True | Cw20 t => t <> 0 | Cw1155 t _ => t <> 0 end.
Definition changes_apart {A} (add remove : list A) : Prop :=
  NoDup add /\ NoDup remove /\ forall x, In x add -> ~ In x remove.

Inductive well_formed (t : dao_type) (cur : N) (g : gov_config) : proposal_action -> Prop :=
| wf_assets_here add remove :
    (forall a, In a (add ++ remove) -> valid_asset a) -> changes_apart add remove ->
    well_formed t cur g (PUpdateAssets None add remove)
| wf_assets_abroad x add remove : well_formed t cur g (PUpdateAssets (Some x) add remove)
| wf_nfts target add remove :
    (forall a, In a (add ++ remove) -> a <> 0) -> changes_apart add remove ->
    well_formed t cur g (PUpdateNfts target add remove)
| wf_upgrade v msgs : cur < v -> well_formed t cur g (PUpgradeDao v msgs)
| wf_msgs msgs : well_formed t cur g (PExecuteMsgs (map Some msgs))
| wf_treasury_msgs msgs target : well_formed t cur g (PExecuteTreasuryMsgs (map Some msgs) target)
| wf_enterprise_msgs msgs : well_formed t cur g (PExecuteEnterpriseMsgs (map Some msgs))
| wf_multisig edits :
    t = DaoMultisig -> NoDup (map fst edits) -> ~ In 0 (map fst edits) -> well_formed t cur g (PModifyMultisig edits)
| wf_no_council : well_formed t cur g (PUpdateCouncil None)
| wf_council spec :
    NoDup (cs_members spec) -> ~ In 0 (cs_members spec) ->
    (forall l, cs_allowed spec = Some l -> Forall council_power l) ->
    proper_share (cs_quorum spec) -> proper_share (cs_threshold spec) ->
    well_formed t cur g (PUpdateCouncil (Some spec))
| wf_distribute funds :
    (forall a n, In (a, n) funds -> valid_asset a /\ forall c id, a <> Cw1155 c id) ->
    well_formed t cur g (PDistributeFunds funds)
| wf_funding_here to assets :
    to <> 0 -> (forall a n, In (a, n) assets -> valid_asset a /\ forall c id, a <> Cw1155 c id) ->
    well_formed t cur g (PRequestFunding None to assets)
| wf_funding_abroad x to assets : well_formed t cur g (PRequestFunding (Some x) to assets)
| wf_config u g' :
    gc_quorum g' = apply_change (gc_quorum g) (gu_quorum u) ->
    gc_threshold g' = apply_change (gc_threshold g) (gu_threshold u) ->
    gc_veto_threshold g' = apply_change (gc_veto_threshold g) (gu_veto_threshold u) ->
    gc_vote_duration g' = apply_change (gc_vote_duration g) (gu_vote_duration u) ->
    gc_minimum_deposit g' = apply_change (gc_minimum_deposit g) (gu_minimum_deposit u) ->
    sane_config t g' -> well_formed t cur g (PUpdateGovConfig u)
| wf_metadata u : well_formed t cur g (PUpdateMetadata u)
| wf_minimum w : well_formed t cur g (PUpdateMinimumWeight w)
| wf_deploy d : well_formed t cur g (PDeployTreasury d).
