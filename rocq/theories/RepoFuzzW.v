(** The inputs kept in fuzz/test_cases/parse_response, on which the fuzz targets once crashed, run on the model of the targets:
    fuzz/src (the run_test_cases of each). Tests of how well the model matches the code, not proofs of anything. *)
From Verif Require Import Base NameM WireM RRM SerM ValM QueryM FuzzM ShaW RepoW.
Local Open Scope N_scope.

Definition fuzz_cases : list bytes :=
  [[66;66;128;224;0;1;192;255;255;192;192;192;192;192;192;192;192;192;192;192;192;192;192;192;192;192;192;192;192;192;192;192;192;192;192;192;192;192;192;192;192;192;192;192;192;192;192;192;192;192;192;192;192;192;192;192;192;192;192;192;192;192;192;192;192;192;192;192;192;192;192;192;192;192;192;192;192;192;192;192;192;192;192;192;192;192;192;192;192;192;192;192;192;192;192;192;192;192;192;192;192;192;192;192;192;192;192;192;192;192;192;192;192;192;192;192;192;192;192;192;192;192;192;192;192;192;192;192;192;192;192;192;192;192;192;192;192;192;192;192;192;192;192;192;192;192;192;192;192;192;192;192;192;192;192;192;192;192;192;192;192;192;192;192;192;192;192;192;192;192;192;192;192;192;192;192;192;192;192;192;192;192;192;192;192;192;192;192;192;192;192;192;192;192;192;192;192;192;192;192;192;192;192;192;192;192;192;192;192;192;192;192;192;192;0;0;192;45;52;231;85;35;75;13;13;13;13;13;13;13;13;13;13;13;13;13;0;0;0;0;0;0;0;8;13;13;13;13;13;13;13;13;13;13;13;13;13;13;65;54;2;0;0;0;0;0;0;2;0;0;0;0;0;0;0;0;205;62;157;158;75;169;100;23;176;70;235;6;142;242;54;0];
   [66;66;128;224;0;1;0;115;8;94;0;0;0;0;0;0;0;0;0;16;0;1;0;0;0;8;0;0;0;0;0;0];
   [66;66;128;224;0;1;0;115;8;94;0;0;0;0;0;0;0;0;0;16;0;1;0;0;0;8;0;0;0;0;0;0;255;0;0;0;0;0;0;0;0;0;0;0;0;0;0;0;0;0;0;2;0;0;0;0;192;45;52;231;85;35;75;13;13;13;13;13;13;13;13;13;13;13;13;13;13;13;13;13;13;178;13;13;13;13;13;13;13;13;65;54;2;0;0;0;0;0;0;2;0;0;0;0;0;0;0;0;9;62;157;158;75;169;100;23;176;70;235;6;255;255;255;255;255;255;255;255;142;242;54;0];
   [66;66;128;224;0;1;192;255;255;192;192;192;192;192;192;192;192;192;192;192;192;192;192;192;192;192;192;192;192;192;192;192;192;192;192;192;192;192;192;192;192;192;192;192;192;192;192;192;192;192;192;192;192;192;192;192;192;192;192;192;192;192;192;192;192;192;192;192;192;192;192;192;192;192;192;192;192;192;192;192;192;192;192;192;192;192;192;192;192;192;192;192;192;192;192;192;192;192;192;192;192;192;192;192;192;192;192;192;192;192;192;192;192;192;192;192;192;192;192;192;192;192;192;192;192;192;192;192;192;192;192;192;192;192;192;192;192;192;192;192;192;192;192;192;192;192;192;192;192;192;192;192;192;192;192;192;192;192;192;192;192;192;192;192;192;192;192;192;192;192;192;192;192;192;192;192;192;192;192;192;192;192;192;192;192;192;192;192;192;192;192;192;192;192;192;192;192;192;192;192;192;192;192;192;192;192;192;192;192;192;192;192;192;192;0;0;192;45;52;231;85;35;75;13;13;13;13;13;13;13;13;13;13;13;13;13;0;0;0;0;0;0;0;8;13;13;13;13;13;13;13;13;13;13;13;13;13;13;65;54;2;0;0;0;0;0;0;2;0;0;0;0;0;0;0;0;205;62;157;158;75;169;100;23;176;70;235;6;142;242;54;0]].
Definition no_crash {E A} (r : outcome E A) : bool := match r with Ok _ | Err _ => true | Panic | Loop => false end.
Definition run_test_cases : bool :=
  forallb (fun dbg => forallb (fun data => no_crash (fuzz_response dbg data) && no_crash (fuzz_proof_builder dbg 200 data)
    && no_crash (parse_stream_validate repo_env dbg 200 data)) fuzz_cases) [false; true].
Check (@eq_refl bool true <: run_test_cases = true).
