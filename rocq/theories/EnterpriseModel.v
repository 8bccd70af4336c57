(** The enterprise contract (a DAO's root), the version registry and the attestation contract:
    contracts/enterprise/src, contracts/enterprise-versioning/src, contracts/attestation/src. *)
From Verif Require Import Base OMap Msgs.

(** * Version registry (contracts/enterprise-versioning/src/contract.rs) *)

(** packages/enterprise-versioning-api/src/api.rs:66-84 [VersionInfo]; the changelog is one number. Code ids
    are u64. *)
Record version_info := mk_version_info {
  vi_version : N;
  vi_changelog : N;
  vi_attestation : N;
  vi_enterprise : N;
  vi_governance : N;
  vi_controller : N;
  vi_outposts : N;
  vi_treasury : N;
  vi_funds : N;
  vi_token : N;
  vi_denom : N;
  vi_nft : N;
  vi_multisig : N
}.

(** api.rs:96-111 [EditVersionMsg] *)
Record version_edit := mk_version_edit {
  ve_version : N;
  ve_changelog : option N;
  ve_attestation : option N;
  ve_enterprise : option N;
  ve_governance : option N;
  ve_controller : option N;
  ve_outposts : option N;
  ve_treasury : option N;
  ve_funds : option N;
  ve_token : option N;
  ve_denom : option N;
  ve_nft : option N;
  ve_multisig : option N
}.

(** state.rs: [ADMIN], [VERSIONS]; the key (major, minor, patch) is encoded by [version] (Msgs.v), which
    orders the same way *)
Record registry := mk_registry { rg_admin : addr; rg_versions : omap version_info }.

(** contract.rs:31-43 [instantiate] *)
Definition registry_instantiate (admin : N) : res registry :=
  a <- addr_validate admin ;; Ok (mk_registry a oempty).

Inductive registry_msg :=
| RgUpdateAdmin (a : N)
| RgAddVersion (v : version_info)
| RgEditVersion (e : version_edit).

(** contract.rs:124-180 [apply_edit_changes] *)
Definition apply_edit (v : version_info) (e : version_edit) : version_info :=
  mk_version_info (vi_version v)
    (dflt (vi_changelog v) (ve_changelog e))
    (dflt (vi_attestation v) (ve_attestation e))
    (dflt (vi_enterprise v) (ve_enterprise e))
    (dflt (vi_governance v) (ve_governance e))
    (dflt (vi_controller v) (ve_controller e))
    (dflt (vi_outposts v) (ve_outposts e))
    (dflt (vi_treasury v) (ve_treasury e))
    (dflt (vi_funds v) (ve_funds e))
    (dflt (vi_token v) (ve_token e))
    (dflt (vi_denom v) (ve_denom e))
    (dflt (vi_nft v) (ve_nft e))
    (dflt (vi_multisig v) (ve_multisig e)).

(** contract.rs:62-122 [update_admin], [add_version], [edit_version] *)
Definition registry_execute (r : registry) (sender : addr) (m : registry_msg) : res registry :=
  match m with
  | RgUpdateAdmin a =>
      _ <- guard (sender =? rg_admin r) EUnauthorized ;;
      a <- addr_validate a ;;
      Ok (mk_registry a (rg_versions r))
  | RgAddVersion v =>
      _ <- guard (rg_admin r =? sender) EUnauthorized ;;
      _ <- guard (negb (ohas (rg_versions r) (vi_version v))) EVersionExists ;;
      Ok (mk_registry (rg_admin r) (oset (rg_versions r) (vi_version v) v))
  | RgEditVersion e =>
      _ <- guard (rg_admin r =? sender) EUnauthorized ;;
      v <- ok_or (oget (rg_versions r) (ve_version e)) EVersionNotFound ;;
      Ok (mk_registry (rg_admin r) (oset (rg_versions r) (ve_version e) (apply_edit v e)))
  end.

(** contract.rs:207-219 [query_version] *)
Definition query_version (r : registry) (v : N) : res version_info :=
  ok_or (oget (rg_versions r) v) EVersionNotFound.

(** contract.rs:221-238 [query_versions] *)
Definition query_versions (r : registry) (start_after limit : option N) : list version_info :=
  map snd (take (N.min (dflt 10 limit) 50) (orange (rg_versions r) start_after)).

(** contract.rs:240-256 [query_latest_version]; the last of the ascending order *)
Definition query_latest_version (r : registry) : res version_info :=
  match rev (elems (rg_versions r)) with
  | [] => Err ENoVersions
  | x :: _ => Ok (snd x)
  end.

(** Histories of calls; a failed call leaves the state as it was. *)
Definition registry_step (r : registry) (c : addr * registry_msg) : registry :=
  match registry_execute r (fst c) (snd c) with Ok r' => r' | Err _ => r end.
Definition registry_run (r : registry) (l : list (addr * registry_msg)) : registry :=
  fold_left registry_step l r.

(** * Attestation (contracts/attestation/src/contract.rs) *)

(** state.rs: [ATTESTATION_TEXT], [USER_SIGNATURES] *)
Record attestation := mk_attestation { at_text : N; at_signed : omap unit }.

(** contract.rs:17-28 [instantiate] *)
Definition attestation_instantiate (text : N) : attestation := mk_attestation text oempty.

(** contract.rs:44-49 [sign_attestation], the only message *)
Definition sign_attestation (a : attestation) (sender : addr) : attestation :=
  mk_attestation (at_text a) (oset (at_signed a) sender tt).

(** contract.rs:76-85 [query_has_user_signed] *)
Definition has_user_signed (a : attestation) (user : N) : res bool :=
  u <- addr_validate user ;; Ok (ohas (at_signed a) u).

(** * Enterprise (contracts/enterprise/src/contract.rs) *)

(** state.rs. [en_components] is [None] until [COMPONENT_CONTRACTS] is first saved. *)
Record enterprise := mk_enterprise {
  en_creation : N;
  en_factory : addr;
  en_versioning : addr;
  en_metadata : metadata;
  en_version : N;
  en_type : dao_type;
  en_finalized : bool;
  en_components : option components
}.

Definition en_set_components (e : enterprise) (c : option components) :=
  mk_enterprise (en_creation e) (en_factory e) (en_versioning e) (en_metadata e) (en_version e) (en_type e)
    (en_finalized e) c.

(** What the handlers ask: the address and the creator of the contract itself, and the registry at a given
    address. [eo_fuel] bounds the number of pages read (gas). *)
Record en_oracle := mk_en_oracle {
  eo_self : addr;
  eo_creator : N;
  eo_fuel : nat;
  eo_versions : addr -> option N -> option N -> res (list version_info);
  eo_version : addr -> N -> res version_info
}.

(** The oracle of an enterprise contract whose registry address always belongs to registry [r]. *)
Definition registry_oracle (self : addr) (creator : N) (fuel : nat) (r : registry) : en_oracle :=
  mk_en_oracle self creator fuel (fun _ s l => Ok (query_versions r s l)) (fun _ v => query_version r v).

(** contract.rs:55-85 [instantiate] *)
Definition enterprise_instantiate (e : env) (factory versioning : N) (creation : option N) (t : dao_type) (v : N)
    (md : metadata) : res enterprise :=
  f <- addr_validate factory ;;
  r <- addr_validate versioning ;;
  Ok (mk_enterprise (dflt (e_time e) creation) f r md v t false None).

(** validate.rs:7-15 [enterprise_governance_controller_caller_only]; [COMPONENT_CONTRACTS.load] fails before
    the wiring is set *)
Definition en_controller_only (e : enterprise) (sender : addr) : res components :=
  c <- ok_or (en_components e) ENotFound ;;
  _ <- guard (sender =? c_controller c) EUnauthorized ;;
  Ok c.

Definition validate_opt (a : option N) : res (option addr) :=
  match a with None => Ok None | Some a => a <- addr_validate a ;; Ok (Some a) end.

(** contract.rs:102-169 [finalize_instantiation] *)
Definition finalize_instantiation (o : en_oracle) (e : enterprise) (sender : addr) (m : components) : res enterprise :=
  _ <- guard (negb (en_finalized e)) EAlreadyInitialized ;;
  creator <- addr_validate (eo_creator o) ;;
  _ <- guard (creator =? sender) EUnauthorized ;;
  g <- addr_validate (c_governance m) ;;
  c <- addr_validate (c_controller m) ;;
  t <- addr_validate (c_treasury m) ;;
  op <- addr_validate (c_outposts m) ;;
  f <- addr_validate (c_funds m) ;;
  mb <- addr_validate (c_membership m) ;;
  cl <- addr_validate (c_council m) ;;
  a <- validate_opt (c_attestation m) ;;
  Ok (mk_enterprise (en_creation e) (en_factory e) (en_versioning e) (en_metadata e) (en_version e) (en_type e)
        true (Some (mk_components g c t op f mb cl a))).

(** contract.rs:171-204 [update_metadata] *)
Definition update_metadata (e : enterprise) (sender : addr) (u : metadata_update) : res enterprise :=
  _ <- en_controller_only e sender ;;
  let d := en_metadata e in
  Ok (mk_enterprise (en_creation e) (en_factory e) (en_versioning e)
        (mk_metadata (apply_change (md_name d) (mu_name u))
           (apply_change (md_description d) (mu_description u))
           (apply_change (md_logo d) (mu_logo u))
           (apply_change (md_github d) (mu_github u))
           (apply_change (md_discord d) (mu_discord u))
           (apply_change (md_twitter d) (mu_twitter u))
           (apply_change (md_telegram d) (mu_telegram u)))
        (en_version e) (en_type e) (en_finalized e) (en_components e)).

(** contract.rs:221-231: the map of migrate messages; a second message for a version is an error *)
Definition migrate_map (msgs : list (N * N)) : res (omap N) :=
  fold_res (fun (m : omap N) (x : N * N) =>
    if ohas m (fst x) then Err EDuplicateMigrateMsg else Ok (oset m (fst x) (snd x))) oempty msgs.

(** contract.rs:283-293: the inner loop over one page; [true] means the outer loop is left *)
Fixpoint take_versions (target : N) (page acc : list version_info) : list version_info * bool :=
  match page with
  | [] => (acc, false)
  | v :: rest =>
      if target <? vi_version v then (acc, true)
      else if vi_version v =? target then (acc ++ [v], true)
      else take_versions target rest (acc ++ [v])
  end.

(** contract.rs:257-299 [get_versions_between_current_and_target]: pages of at most 100 (the registry caps
    them at 50), each starting after the last version of the one before *)
Fixpoint versions_loop (fuel : nat) (page : option N -> res (list version_info)) (target : N) (last : option N)
    (acc : list version_info) : res (list version_info) :=
  match fuel with
  | O => Err EGas
  | S n =>
      l <- page last ;;
      match rev l with
      | [] => Ok acc
      | v :: _ =>
          let '(acc, stop) := take_versions target l acc in
          if stop then Ok acc else versions_loop n page target (Some (vi_version v)) acc
      end
  end.
Definition versions_between (o : en_oracle) (e : enterprise) (target : N) : res (list version_info) :=
  versions_loop (eo_fuel o) (fun last => eo_versions o (en_versioning e) last (Some 100)) target
    (Some (en_version e)) [].

(** The JSON object [{}], the message of a migration for which none is given. *)
Definition EMPTY_MSG : N := 0.

(** contract.rs:206-255 [upgrade_dao] *)
Definition upgrade_dao (o : en_oracle) (e : enterprise) (sender : addr) (target : N) (msgs : list (N * N))
  : res (enterprise * list sub_msg) :=
  _ <- guard (en_version e <? target) EMigratingToLowerVersion ;;
  _ <- en_controller_only e sender ;;
  m <- migrate_map msgs ;;
  vs <- versions_between o e target ;;
  Ok (mk_enterprise (en_creation e) (en_factory e) (en_versioning e) (en_metadata e) target (en_type e)
        (en_finalized e) (en_components e),
      map (fun v => plain (WasmMigrate (eo_self o) (vi_enterprise v) (dflt EMPTY_MSG (oget m (vi_version v))))) vs).

(** contract.rs:301-334 [update_config] *)
Definition update_en_config (e : enterprise) (sender : addr) (versioning factory : modify N) : res enterprise :=
  _ <- en_controller_only e sender ;;
  v <- (match versioning with Change a => addr_validate a | NoChange => Ok (en_versioning e) end) ;;
  f <- (match factory with Change a => addr_validate a | NoChange => Ok (en_factory e) end) ;;
  Ok (mk_enterprise (en_creation e) f v (en_metadata e) (en_version e) (en_type e) (en_finalized e) (en_components e)).

(** contract.rs:336-360 [set_attestation] *)
Definition set_attestation (o : en_oracle) (e : enterprise) (sender : addr) (text : N)
  : res (enterprise * list sub_msg) :=
  _ <- en_controller_only e sender ;;
  v <- eo_version o (en_versioning e) (en_version e) ;;
  Ok (e, [mk_sub (WasmInstantiate None (vi_attestation v) (InitAttestation text)) (ReplySuccess 1)]).

Definition with_attestation (c : components) (a : option addr) : components :=
  mk_components (c_governance c) (c_controller c) (c_treasury c) (c_outposts c) (c_funds c) (c_membership c)
    (c_council c) a.

(** contract.rs:362-376 [remove_attestation] *)
Definition remove_attestation (e : enterprise) (sender : addr) : res enterprise :=
  c <- en_controller_only e sender ;;
  Ok (en_set_components e (Some (with_attestation c None))).

(** contract.rs:378-388 [execute_msgs] *)
Definition en_execute_msgs (e : enterprise) (sender : addr) (msgs : list (option cosmos_msg))
  : res (enterprise * list sub_msg) :=
  _ <- en_controller_only e sender ;;
  l <- parse_msgs msgs ;;
  Ok (e, map plain l).

(** contract.rs:88-100 [execute] *)
Definition enterprise_execute (o : en_oracle) (e : enterprise) (sender : addr) (m : enterprise_msg)
  : res (enterprise * list sub_msg) :=
  match m with
  | EnFinalize c => e <- finalize_instantiation o e sender c ;; Ok (e, [])
  | EnUpdateMetadata u => e <- update_metadata e sender u ;; Ok (e, [])
  | EnUpgradeDao v msgs => upgrade_dao o e sender v msgs
  | EnUpdateConfig v f => e <- update_en_config e sender v f ;; Ok (e, [])
  | EnSetAttestation t => set_attestation o e sender t
  | EnRemoveAttestation => e <- remove_attestation e sender ;; Ok (e, [])
  | EnExecuteMsgs l => en_execute_msgs e sender l
  end.

(** contract.rs:391-414 [reply]: the address of the new attestation contract *)
Definition enterprise_reply (e : enterprise) (id : N) (r : reply_result) : res (enterprise * list sub_msg) :=
  if id =? 1 then
    match r with
    | ROk (Some a) =>
        a <- addr_validate a ;;
        c <- ok_or (en_components e) ENotFound ;;
        Ok (en_set_components e (Some (with_attestation c (Some a))), [])
    | _ => Err EStd
    end
  else Err EUnknownReply.

(** contract.rs:431-443 [query_dao_info]: creation date, metadata, type and version *)
Definition query_dao_info (e : enterprise) : N * metadata * dao_type * N :=
  (en_creation e, en_metadata e, en_type e, en_version e).

(** contract.rs:445-463 [query_component_contracts]: factory, registry and components *)
Definition query_component_contracts (e : enterprise) : res (addr * addr * components) :=
  c <- ok_or (en_components e) ENotFound ;;
  Ok (en_factory e, en_versioning e, c).

(** contract.rs:467-487 [query_is_restricted_user]; [signed a] is the query to the attestation contract at [a] *)
Definition query_is_restricted_user (signed : addr -> N -> res bool) (e : enterprise) (user : N) : res bool :=
  c <- ok_or (en_components e) ENotFound ;;
  match c_attestation c with
  | None => Ok false
  | Some a => s <- signed a user ;; Ok (negb s)
  end.

(** contract.rs:490-560 [migrate]: the outposts, distributor and membership contracts go to the code of
    version 1.2.1 *)
Definition enterprise_migrate (o : en_oracle) (e : enterprise) : res (list sub_msg) :=
  v <- eo_version o (en_versioning e) (version 1 2 1) ;;
  c <- ok_or (en_components e) ENotFound ;;
  let member_code :=
    match en_type e with
    | DaoDenom => vi_denom v
    | DaoToken => vi_token v
    | DaoNft => vi_nft v
    | DaoMultisig => vi_multisig v
    end in
  Ok [plain (WasmMigrate (c_outposts c) (vi_outposts v) EMPTY_MSG);
      plain (WasmMigrate (c_funds c) (vi_funds v) EMPTY_MSG);
      plain (WasmMigrate (c_membership c) member_code EMPTY_MSG);
      plain (WasmMigrate (c_council c) (vi_multisig v) EMPTY_MSG)].

(** Histories: calls and replies, each with the answers of the other contracts at that time; a failed call
    leaves the state as it was. *)
Inductive en_event :=
| EvCall (o : en_oracle) (sender : addr) (m : enterprise_msg)
| EvReply (id : N) (r : reply_result).
Definition en_handle (e : enterprise) (v : en_event) : res (enterprise * list sub_msg) :=
  match v with
  | EvCall o s m => enterprise_execute o e s m
  | EvReply id r => enterprise_reply e id r
  end.
Definition en_step (e : enterprise) (v : en_event) : enterprise :=
  match en_handle e v with Ok (e', _) => e' | Err _ => e end.
Definition en_run (e : enterprise) (l : list en_event) : enterprise := fold_left en_step l e.
