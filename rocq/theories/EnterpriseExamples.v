(** Concrete registries, DAOs and attestations. *)
From Verif Require Import Base OMap Assets MemberModel Msgs EnterpriseModel EnterpriseSpec.

Definition ADM : N := 9.
Definition REG : N := 30.
Definition SELF : N := 1.
Definition FACTORY : N := 31.

(** Version 1.0.i with codes derived from i. *)
Definition info (a b c : N) : version_info :=
  let k := 1000 * (100 * a + b) + 20 * c in
  mk_version_info (version a b c) c (k + 1) (k + 2) (k + 3) (k + 4) (k + 5) (k + 6) (k + 7) (k + 8) (k + 9) (k + 10) (k + 11).

Definition start_registry : registry := mk_registry ADM oempty.
(** 1.0.0 ... 1.0.119, then 2.0.0, added out of order. *)
Definition releases : list (addr * registry_msg) :=
  (ADM, RgAddVersion (info 2 0 0)) ::
  map (fun i => (ADM, RgAddVersion (info 1 0 (N.of_nat i)))) (rev (seq 0 120)).
Definition reg : registry := registry_run start_registry releases.

Definition md0 : metadata := mk_metadata 100 None (Some 5) None None (Some 6) None.
Definition new_dao : enterprise := mk_enterprise 77 FACTORY REG md0 (version 1 0 0) DaoToken false None.
Definition wiring : components := mk_components 2 3 4 5 6 7 8 None.
Definition CREATOR : N := 31.
Definition orc : en_oracle := registry_oracle SELF CREATOR 200 reg.
Definition dao : enterprise := en_run new_dao [EvCall orc CREATOR (EnFinalize wiring)].
Definition CONTROLLER : N := 3.
