(** * Specification: what [--quiet] should mean, and what a test of the ciphers should print. *)
From Verif Require Import Bytes Cli CliConfig CliHash SpecHash SpecCipher SpecVerifyText CliTold SpecTold CliMain.
Open Scope N_scope.

Definition quietly (o : options) : options := mkOpts true (o_verbose o) (o_format o).
Definition loudly (o : options) : options := mkOpts false (o_verbose o) (o_format o).

(** The commands that say nothing when quiet, those that find names, and those that do not care *)
Inductive silent : task -> Prop :=
| silent_create c path src follow deep pats s : silent (DoCreate c path src follow deep pats s)
| silent_verify contents crc path file : silent (DoVerify contents crc path file)
| silent_extract file name output preserve : silent (DoExtract file name output preserve)
| silent_add : silent DoAdd | silent_remove : silent DoRemove
| silent_show file k : silent (DoShow file k) | silent_tables file detailed : silent (DoTables file detailed)
| silent_jenkins : silent DoJenkins.
Inductive careless : task -> Prop :=
| careless_info path file : careless (DoInfo path file)
| careless_list file all pattern regex hashes : careless (DoList file all pattern regex hashes)
| careless_file file name : careless (DoFileInfo file name)
| careless_generate name t all : careless (DoGenerate name t all)
| careless_compare a b : careless (DoCompare a b)
| careless_crypto name : careless (DoCrypto name).
(** The commands that write files *)
Inductive writing : task -> Prop :=
| writing_create c path src follow deep pats s : writing (DoCreate c path src follow deep pats s)
| writing_extract file name output preserve : writing (DoExtract file name output preserve).

(** What a test of the hashes prints about a name *)
Definition hashes_said (hash : nat -> bytes -> N) (s : bytes) (ls : list bytes) : Prop :=
  exists h0 h1 h2 h3, shows h0 (hash 0%nat s) /\ shows h1 (hash 1%nat s) /\ shows h2 (hash 2%nat s) /\ shows h3 (hash 3%nat s) /\
  ls = [[]; lit "Input: " ++ s; lit "  Table offset: " ++ h0; lit "  Name A:       " ++ h1; lit "  Name B:       " ++ h2; lit "  File key:     " ++ h3].
Definition key_said (hash : nat -> bytes -> N) (s l : bytes) : Prop :=
  exists h, shows h (hash 3%nat s) /\ l = lit "File key for '" ++ s ++ lit "': " ++ h.
