(** Concrete treasuries: nobody's hypotheses are empty. *)
From Verif Require Import Base OMap Assets FundsModel MemberModel Msgs TreasuryModel TreasurySpec.

Definition tr_get (r : res treasury) : treasury :=
  match r with Ok t => t | Err _ => mk_treasury 0 oempty oempty oempty oempty no_old_dao end.
(** Admin 3; native coins 70 to 104, cw20 tokens 50 to 52 and the collection 60 are listed. *)
Definition tr_new : treasury :=
  tr_get (treasury_instantiate 3 (Some (map Native [70; 71; 72; 73; 74; 75; 76; 77; 78; 79; 80; 81; 82; 83; 84; 85; 86; 87; 88; 89;
     90; 91; 92; 93; 94; 95; 96; 97; 98; 99; 100; 101; 102; 103; 104] ++ [Cw20 50; Cw20 51; Native 70; Cw20 52])) (Some [60; 61])).
(** The same with an old cw1155 entry, which only the storage of an older version can hold. *)
Definition tr_1155 : treasury := tr_set_cw1155s tr_new (of_list [(40, of_list [(1, tt); (5, tt)]); (41, of_list [(2, tt)])]).

Definition old_token : old_dao :=
  mk_old_dao (Some DaoToken) (Some 50) oempty
    (of_list [(101, [mk_old_claim (LCw20 5) (RHeight 9); mk_old_claim (LCw20 6) (RTimestamp 77)]);
              (105, [mk_old_claim (LCw20 0) (RHeight 3); mk_old_claim (LCw20 8) (RHeight 12)])])
    (of_list [(101, 30); (102, 0); (103, 50); (104, 7)]) oempty oempty (Some (Some 7)) (Some MigrationInProgress)
    (mk_snap (Some 87) oempty) (mk_snap (Some 87) oempty).
Definition old_nft : old_dao :=
  mk_old_dao (Some DaoNft) (Some 60) oempty
    (of_list [(101, [mk_old_claim (LCw721 [11; 12]) (RHeight 9)]); (105, [mk_old_claim (LCw721 [13]) (RHeight 12)])])
    oempty (of_list [(1, (101, 1)); (2, (102, 2)); (3, (101, 3))]) oempty (Some (Some 7)) (Some MigrationInProgress)
    snap_empty snap_empty.
Definition old_multisig : old_dao :=
  mk_old_dao (Some DaoMultisig) None (of_list [(101, 3); (102, 4)]) oempty oempty oempty oempty (Some (Some 7)) (Some MigrationInProgress)
    snap_empty snap_empty.
Definition tr_token : treasury := tr_set_old tr_new old_token.
Definition tr_nft : treasury := tr_set_old tr_new old_nft.

Definition step_call (sender : addr) (limit : option N) : treasury_call := mk_tcall 10 sender (TrMigrationStep limit).
Definition tr_calls : list treasury_call :=
  [ step_call 900 (Some 3); mk_tcall 0 900 (TrSpend 900 [(Native 70, 5)]); step_call 901 (Some 2);
    mk_tcall 0 3 (TrSpend 900 [(Native 70, 5); (Cw20 50, 6)]); step_call 900 (Some 2); step_call 900 None; step_call 900 None ].
