(** Properties C44 and C69: which inputs keep the converter to DynamoDB JSON, and the program, from ending. Only statements,
    examples and assumptions. *)
From Verif Require Import Base U8Pool Buffer BufferSpec Jiter RJiter RJiterSpec Scan ScanSpec IdSpec DdbSpec Conv NormalToDdb DdbToNormal ConvSpec Cli CliSpec SoundSpec.
From Verif Require Import ScanExamples NoJson N2dHang CliHang.

Notation cells := (repeat 0%N).
(** C44, what holds of every input, if the reader does not fail: the conversion ends, or the writer never fails and the input is
    a stream of values (as leniently as the parser reads them), white space, and a literal cut short. With [whole], the input is
    all read at once, and there are fewer ways to be lenient. *)
Theorem C44_hangs_only_partial : forall whole rd w rb xb pretty wrapper,
  8 <= len rb -> (forall e, ~ In (Fail e) (sched rd)) -> (whole = true -> sched rd = [] /\ len (src rd) <= len rb) -> len (held w) <= wcap w ->
  (exists w' v, eventually (fun fuel => convert_normal_to_ddb fuel rd w rb xb pretty wrapper) (Done (w', v))) \/
  (wfail w = None /\ exists vs w0 l, lax_documents whole true vs (src rd) (w0 ++ l) /\ blanks w0 /\ cut_literal l).
Proof. exact n2d_hangs_only. Qed.
(** The first case: a literal cut short inside an object, and one at top level with a writer that fails at some time. *)
Example C44_hangs_only_example :
  (exists w' e i, eventually (fun fuel => convert_normal_to_ddb fuel (mkReader (bs "1 {""a"": tru}") [Chunk 3; Chunk 1]) (mkWriter [] None) (cells 16) (cells 200) false false) (Done (w', Err (e, i)))) /\
  (exists w' e i, eventually (fun fuel => convert_normal_to_ddb fuel (mkReader (bs "tru ") [Chunk 1]) (mkWriter [] (Some (100, 7%N))) (cells 16) (cells 200) false false) (Done (w', Err (e, i)))).
Proof.
  split.
  - eexists _, _, _. exists 30. intros fuel Hf. replace fuel with (30 + (fuel - 30)) by lia. vm_compute. reflexivity.
  - eexists _, _, _. exists 30. intros fuel Hf. replace fuel with (30 + (fuel - 30)) by lia. vm_compute. reflexivity.
Qed.
(** And such inputs do so, whatever the fuel. The values, if there are any before the literal, are laid out so that the parser
    reads them for certain, and the literal is behind white space only. *)
Theorem C44_hangs_partial : forall m vs rd w rb xb pretty wrapper w0 l,
  sane m -> 8 <= size_of m -> may_fail m = false -> start m (rj_new rd rb) ->
  documents_until (layout m) vs (src rd) (w0 ++ l) -> spaces w0 -> cut_literal l -> n2d_room xb vs -> Forall ordinary vs -> atoms_apart false vs -> wfail w = None ->
  forall fuel, convert_normal_to_ddb fuel rd w rb xb pretty wrapper = Diverge.
Proof. exact n2d_hangs. Qed.
Definition ex_cut : bytes := bs " {  ""k"":[1, false ]} [""x""]  nul" ++ [10%N] ++ bs "[]".
Definition ex_before : list json := [JObject [(bs "k", JArray [JNumber (bs "1"); JFalse])]; JArray [JString (bs "x")]].
Example C44_hangs_example :
  start (InChunks 16 true) (rj_new (mkReader ex_cut [Chunk 3; Chunk 0; Chunk 5]) (cells 16)) /\
  documents_until (layout (InChunks 16 true)) ex_before ex_cut (bs "  " ++ bs "nul" ++ [10%N] ++ bs "[]") /\ spaces (bs "  ") /\
  cut_literal (bs "nul" ++ [10%N] ++ bs "[]") /\ n2d_room (cells 200) ex_before /\ Forall ordinary ex_before /\ atoms_apart false ex_before.
Proof.
  split; [|split; [|split; [|split; [|split; [|split]]]]].
  - split; [unfold valid, wf; vm_compute; repeat split; repeat constructor|]. split; [reflexivity|]. split; [|reflexivity].
    intros _. split; vm_compute; repeat constructor.
  - unfold ex_before. let l := eval vm_compute in ex_cut in change ex_cut with l. eapply until_more; [now_document|]. eapply until_more; [now_document|]. apply until_end.
  - repeat constructor.
  - exists (bs "null"). split; [cbn; tauto|]. split; [eexists; reflexivity|]. intros r. vm_compute. discriminate.
  - split; [apply Nat.leb_le; vm_compute; reflexivity|]. repeat constructor; vm_compute; discriminate || lia.
  - repeat constructor; vm_compute; discriminate.
  - repeat split; cbn; auto; discriminate.
Qed.

(** C69, conversions to DynamoDB JSON: the program ends, or the output takes any amount, is another file than the input, and
    the input is as above. *)
Theorem C69_hangs_only_partial : forall a o, to_convert a = ToDdb -> (forall e, ~ In (Fail e) (chunks o)) ->
  (exists x, eventually (fun fuel => main a fuel o) (Done x)) \/
  (same_file a = false /\ budget o (output_path a) = Some None /\
   exists input vs w0 l, input_of a o = Some input /\ lax_documents false true vs input (w0 ++ l) /\ blanks w0 /\ cut_literal l).
Proof. exact main_hangs_only. Qed.
Definition to_ddb (path : string) : args := mkArgs ToDdb (Some "in"%string) (Some path) false false true.
Definition with_input (input : bytes) (room : option (nat * io_kind)) : world :=
  mkWorld (fun p => if String.eqb p "in" then Some input else None) [] [] (fun _ => Some room).
Example C69_hangs_only_example :
  (exists c, main (to_ddb "in") 30 (with_input (bs "tru ") None) = Done (c, Success)) /\
  (exists c e i, main (to_ddb "out") 30 (with_input (bs "[tru ]") None) = Done (c, Failure e i)).
Proof. split; [eexists|eexists _, _, _]; vm_compute; reflexivity. Qed.
Theorem C69_hangs_partial : forall a o input vs w0 l,
  to_convert a = ToDdb -> input_of a o = Some input -> same_file a = false -> budget o (output_path a) = Some None ->
  (forall e, ~ In (Fail e) (chunks o)) -> documents_until (chunk_layout (len rjiter_buffer) false) vs input (w0 ++ l) -> spaces w0 -> cut_literal l ->
  n2d_room context_buffer vs -> Forall ordinary vs -> atoms_apart false vs -> forall fuel, main a fuel o = Diverge.
Proof. exact main_hangs. Qed.
Example C69_hangs_example : let o := with_input ex_cut None in
  input_of (to_ddb "out") o = Some ex_cut /\ same_file (to_ddb "out") = false /\ budget o (output_path (to_ddb "out")) = Some None /\
  documents_until (chunk_layout (len rjiter_buffer) false) ex_before ex_cut (bs "  " ++ bs "nul" ++ [10%N] ++ bs "[]") /\ n2d_room context_buffer ex_before.
Proof.
  cbv zeta. split; [reflexivity|]. split; [reflexivity|]. split; [reflexivity|]. split.
  - apply (until_larger 16); [apply Nat.leb_le; vm_compute; reflexivity|].
    unfold ex_before. let l := eval vm_compute in ex_cut in change ex_cut with l. eapply until_more; [now_document|]. eapply until_more; [now_document|]. apply until_end.
  - split; [apply Nat.leb_le; vm_compute; reflexivity|]. repeat constructor; vm_compute; discriminate || lia.
Qed.
Print Assumptions C44_hangs_only_partial.
Print Assumptions C44_hangs_partial.
Print Assumptions C69_hangs_only_partial.
Print Assumptions C69_hangs_partial.
