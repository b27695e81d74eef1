(** Properties C122 and C123: WithOverwriteExistingKeysOnImport among the options
    of ImportKeys. *)
From Verif Require Import Base Spec Spec_ImportOptions Model_Unicode Model_Functions Model_Crand Model_Types Model_Keys
  Model_Import Model_Station Model_Persist Spec_Persist Proofs_ImportOptions Examples Examples_Persist Props_Persist.

(** C122 is false: the file has a key ALPHA and so has the receiver; with the
    option nothing is imported, with the setting of the receiver it is. *)
Definition receiver (over : bool) : station :=
  mkSt ex_path (st_pfk ex_over) (st_salt ex_over) true false over (mkInst 5 40 110 80 [ex_key idA 17 40 []] [] callVQ).
Theorem c122_refuted : exists s' h' s2 h2,
  import_station ex_lib uni_id ex_env ex_fs_import ex_mem (receiver false) (fun k => equal_runes (Some (kid k)) (Some idA))
    [WithPersistence [47; 120]; WithPFKString ex_pfk_hex; WithOverwriteExistingKeysOnImport true] [] (repeat 5 200) =
    (Ok tt, 0, s', h') /\ s' = receiver false /\
  import_station ex_lib uni_id ex_env ex_fs_import ex_mem (receiver true) (fun k => equal_runes (Some (kid k)) (Some idA))
    [WithPersistence [47; 120]; WithPFKString ex_pfk_hex] [] (repeat 5 200) =
    (Ok tt, 1, s2, h2) /\ i_keys (st_inst s2) <> i_keys (st_inst (receiver true)).
Proof.
  do 4 eexists. split; [vm_compute; reflexivity|]. split; [vm_compute; reflexivity|]. split; [vm_compute; reflexivity|].
  vm_compute. discriminate.
Qed.
Print Assumptions c122_refuted.

Theorem c123_options : forall L U e f h s flt opts opts' answers t, other_options opts = other_options opts' ->
  import_station L U e f h s flt opts answers t = import_station L U e f h s flt opts' answers t.
Proof. exact import_options. Qed.
Print Assumptions c123_options.
Example c123_case : forall b c, ex_import [WithOverwriteExistingKeysOnImport b; WithPFKString ex_pfk_hex; WithOverwritePersistenceIfExists c] =
  ex_import [WithPFKString ex_pfk_hex] /\ exists s' h', ex_import [WithPFKString ex_pfk_hex] = (Ok tt, 4, s', h').
Proof.
  intros b c. split; [apply c123_options; reflexivity|]. do 2 eexists. vm_compute. reflexivity.
Qed.
