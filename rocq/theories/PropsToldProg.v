(** PropsToldProg.v -- property C100 for stream input and for programs with input and output,
    arrays and functions. *)
From Coq Require Import ZArith List Bool.
From Verif Require Import Base CType ExceptionPolicy Promotion SafeBase SafeSpec Program Stream IOProgram
  ArrayProgram FunProgram BaseStream ToldSpec ToldProgSpec ToldProgFacts.
Import ListNotations.
Local Open Scope Z_scope.

(** an error found by >> is reported to the policy of the variable, in every base *)
Theorem C100_input : forall b D s i old i' v m, input_b b D s i old = Some (i', v, m) ->
  told (fun E => E = sE s) m.
Proof. exact input_b_told. Qed.
Print Assumptions C100_input.

(** a program raises only what a policy that occurs in it throws *)
Theorem C100_input_programs : forall n D G c p p' e, io_exec n D G p c = Some (p', RRaised e) ->
  exists E, occurs_io G c E /\ answers E e HThrow.
Proof. exact io_raised. Qed.
Print Assumptions C100_input_programs.

Theorem C100_array_programs : forall n D G A c p p' e, a_exec n D G A p c = Some (p', RRaised e) ->
  exists E, occurs_array G A c E /\ answers E e HThrow.
Proof. exact a_raised. Qed.
Print Assumptions C100_array_programs.

(** with functions: a policy that occurs in the command or in a function of the program *)
Theorem C100_function_programs : forall n D glob F G c s s' e,
  f_exec D glob F n G s c = Some (s', RRaised e) ->
  exists E, (occurs_fcmd G c E \/ exists d, In d F /\ occurs_function d E) /\ answers E e HThrow.
Proof. exact f_raised. Qed.
Print Assumptions C100_function_programs.

(** malformed text for a variable of a policy that ignores arithmetic errors raises nothing and
    stores 0; for one of the default policy it raises *)
Example C100_input_nonvacuous :
  let lax := safe LP64 Int Native (mkEP HIgnore HIgnore HIgnore HIgnore) in
  let dft := safe LP64 Int Native default_exception_policy in
  let G := fun v : nat => match v with O => OSafe lax | _ => OSafe dft end in
  let s := fun _ : nat => Some 7 in
  input_b BHex LP64 lax (mkIs [120] false false) (Some 7)
    = Some (mkIs [120] true false, Some 0, ([(arithmetic_error, domain_error)], Ret tt))
  /\ (exists p, io_exec 5 LP64 G (s, mkIs [120] false false, []) (IORead 0) = Some (p, RDone))
  /\ (exists p, io_exec 5 LP64 G (s, mkIs [120] false false, []) (IORead 1) = Some (p, RRaised domain_error))
  /\ answers default_exception_policy domain_error HThrow.
Proof. cbv zeta. repeat split; try (eexists; vm_compute; reflexivity); vm_compute; reflexivity. Qed.

(** an element 300 of an array of int is assigned to a range type; a function whose parameter has
    that type is called with 300 *)
Example C100_programs_nonvacuous :
  let r := OSafe (mkSafe Int 0 100 Native default_exception_policy) in
  let G := fun _ : nat => r in
  let f := mkFun [0%nat] G (fun _ => 0) (FDo CSkip) (ORaw Int) (EConst (ORaw Int) 1) in
  (exists p, a_exec 5 LP64 G (fun _ => (ORaw Int, 2%nat)) ((fun _ => Some 7), (fun _ => [5; 300]))
               (AGet 0 0 (EConst (ORaw Int) 1)) = Some (p, RRaised positive_overflow_error))
  /\ (exists s', f_exec LP64 (fun _ => false) [f] 5 G (fun _ => Some 7) (FCall 0 0 [EConst (ORaw Int) 300])
               = Some (s', RRaised positive_overflow_error)).
Proof. cbv zeta. split; eexists; vm_compute; reflexivity. Qed.
