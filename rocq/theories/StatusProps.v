(** Errors that are printed at once, and the output file (utils.cpp:916-939, pass_two.cpp:321-327,
    storage.cpp:281-290, main.cpp's exit). *)
From Coq Require Import String.
From Verif Require Import Programs.
From Verif Require Import Base BaseProofs State MonadProofs UtilsModel ErrorsModel StorageModel ParserModel PassTwoModel
  PreopModel PassOneModel DirectiveModel Knot ExportModel MainModel Validate PassTwoSpec PassTwoProofs PassTwoProps SessionSpec SessionProps.

(** A run with status 2, for which errors were printed, always leaves an output file: no such
    error keeps it from being written. *)
Theorem c95_written : forall fuel w argv files s a,
  main fuel w argv = Done 2 files (Some s) -> read_args w args0 argv = AGo a -> a_normal a = true ->
  exists input b l, a_input a = Some input /\
    files = l ++ [(match a_output a with Some o => o | None => change_extension input (zs "bin") end, b)].
Proof. intros fuel w argv files s a H Ha Hn. apply (c17_success_writes fuel w argv 2 files s a H); [discriminate|exact Ha|exact Hn]. Qed.

(** A bit number outside 0..7 gives the bytes that 0 gives; the two runs differ in their status alone. *)
Theorem c95_bit : forall C v z o s, room 1 s -> is_byte o -> ~ 0 <= v <= 7 ->
  exists s0, write_arg C 0 ARG_BIT_NUM z o s = Ok tt s0 /\ write_arg C v ARG_BIT_NUM z o s = Ok tt (set_exitc (Z.max 2 (s_exitc s)) s0).
Proof.
  intros C v z o s Hr Ho Hv. exists (emitted [u8 o] s). split.
  - rewrite (write_arg_bit C 0 z o s Hr). reflexivity.
  - rewrite (write_arg_bit C v z o s Hr). replace ((0 <=? v) && (v <=? 7)) with false by lia.
    reflexivity.
Qed.

(** A pass goes on to its end, with the status it has, exactly when all that was recorded is of four
    kinds: references to anonymous labels (256) or labels (262) that do not exist, no error at all,
    and expressions nested too deeply. *)
Theorem c95_goes_on : forall s, Forall (fun e => e_sess e = 1) (s_errs s) ->
  ((exists s', end_session 1 s = Ok tt s' /\ s_exitc s' = s_exitc s) <->
   Forall (fun e => In (e_code e) [256; 262; 0; SPASM_ERR_RECURSION_DEPTH]) (s_errs s)).
Proof.
  intros s H. assert (L : lead 1 (s_errs s) = s_errs s).
  { induction H as [|e l He _ IH]; [reflexivity|]. cbn [lead]. rewrite He. change (1 =? 1) with true. cbv iota. now rewrite IH. }
  assert (K : existsb (fun e => is_fatal (e_code e)) (s_errs s) = false <-> Forall (fun e => In (e_code e) [256; 262; 0; SPASM_ERR_RECURSION_DEPTH]) (s_errs s)).
  { clear. induction (s_errs s) as [|e l IH]; [split; [constructor|reflexivity]|]. cbn [existsb]. rewrite orb_false_iff, IH. clear IH.
    unfold is_fatal, SPASM_ERR_LOCAL_LABEL_FORWARD_REF, SPASM_ERR_LABEL_NOT_FOUND, SPASM_ERR_RECURSION_DEPTH.
    split; [intros (A & B); constructor; [cbn [In]; lia|exact B]|]. intros X. inversion X as [|? ? A B]; subst. split; [cbn [In] in A; lia|exact B]. }
  rewrite <- K. unfold end_session. rewrite bind_get, bind_get, bind_upd, bind_upd, L. change (1 =? 1) with true. cbn [andb].
  destruct (existsb _ _).
  - split; [intros (s' & E & _); discriminate|discriminate].
  - split; [reflexivity|]. intros _. eexists. split; [reflexivity|]. reflexivity.
Qed.

(** Whole programs: a bit number that does not exist, also one that is known only later; a name that
    is a label and a define; #include and #import without a name; and an anonymous label that does
    not exist, for which even the status is 0. *)
Theorem c95_refuted :
  Validate.assemble 100 [] (prog [" bit 9,a"]%string) = Some (2, Some [203; 71], []) /\
  Validate.assemble 100 [] (prog [" bit 0,a"]%string) = Some (0, Some [203; 71], []) /\
  Validate.assemble 100 [] (prog [" res k,(hl)"; "k .equ 8"]%string) = Some (2, Some [203; 134], []) /\
  Validate.assemble 100 [] (prog ["a: .db 1"; "#define a 3"; " .db 2"]%string) = Some (2, Some [1; 2], []) /\
  Validate.assemble 100 [] (prog ["#include"; " .db 2"]%string) = Some (2, Some [2], []) /\
  Validate.assemble 100 [] (prog ["#import"; " .db 2"]%string) = Some (2, Some [2], []) /\
  Validate.assemble 100 [] (prog [" jr +_"; " .db 2"]%string) = Some (0, Some [24; 0; 2], [SPASM_ERR_LOCAL_LABEL_FORWARD_REF]).
Proof. vm_compute. repeat (split; [reflexivity|]). reflexivity. Qed.

(** The hypotheses are met, and both sides of c95_goes_on occur. *)
Example c95_goes_on_case : let s := set_sess 1 (init_state false [] [] []) in
  (exists s', end_session 1 (noted false 256 (noted false 262 s)) = Ok tt s' /\ s_exitc s' = 0) /\
  end_session 1 (noted false 256 (noted false 263 s)) = Exit 3 (set_sess 0 s).
Proof. split; [eexists; split; reflexivity|reflexivity]. Qed.

Example c95_case :
  match main 100 (world_of [(zs "a.asm", prog [" bit 9,a"]%string)]) [zs "a.asm"],
        read_args (world_of [(zs "a.asm", prog [" bit 9,a"]%string)]) args0 [zs "a.asm"] with
  | Done c files (Some s), AGo a => c = 2 /\ a_normal a = true /\ files = [(zs "a.bin", [203; 71])]
  | _, _ => False
  end.
Proof. vm_compute. split; [reflexivity|]. split; reflexivity. Qed.
Print Assumptions c95_written.
Print Assumptions c95_bit.
Print Assumptions c95_goes_on.
Print Assumptions c95_refuted.
