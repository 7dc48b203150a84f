(** Property C84 of the names that callbacks remember. Only statements, examples and assumptions. *)
From Verif Require Import Base U8Pool Buffer Jiter RJiter Scan Conv NormalToDdb DdbToNormal IdTransform MemorySpec.
From Verif Require Import Memory ScanExamples.

Notation cells := (repeat 0%N).

(** C84. The identity transform and both converters keep, from one callback to the next, a slice of the scanner's stack of names
    whose lifetime they have widened by force (scan_json/src/idtransform.rs:217-221, normal_to_ddb.rs:605, ddb_to_normal.rs:561-612).
    The scanner overwrites the stack as it goes. That does not matter: were the remembered bytes replaced, before every lookup and
    before every end action, by anything at all, the same text would be written and the same result returned, for all input, all
    ways of reading and writing it, and all buffers. *)
Theorem C84_idtransform : forall (g : nat -> bytes) (fuel : nat) (r : rj) (w : writer) (p : pool),
  (do (s, v) <- scan (disturbed (fun n => spoil_idt (g n)) idt_callbacks) (mkOptions [] true) fuel (mkS r (idt_new w, 0) p);
   Done (mkS (parser s) (fst (user s)) (stack s), v)) = scan idt_callbacks (mkOptions [] true) fuel (mkS r (idt_new w) p).
Proof. exact idt_undisturbed. Qed.
Print Assumptions C84_idtransform.

Theorem C84_to_ddb : forall (g : nat -> option bytes) (fuel : nat) (rd : reader) (w : writer) (rjiter_buffer context_buffer : bytes) (is_pretty wrapper : bool),
  (do (c, v) <- convert (disturbed (fun n => spoil (g n)) (n2d_callbacks wrapper)) (fun c => fst c) 34 fuel rd rjiter_buffer context_buffer (conv_new w is_pretty, 0);
   Done (cout (fst c), v)) = convert_normal_to_ddb fuel rd w rjiter_buffer context_buffer is_pretty wrapper.
Proof. exact n2d_undisturbed. Qed.
Print Assumptions C84_to_ddb.

Theorem C84_from_ddb : forall (g : nat -> option bytes) (fuel : nat) (rd : reader) (w : writer) (rjiter_buffer context_buffer : bytes) (is_pretty : bool) (mode : wrapper_mode),
  (do (c, v) <- convert (disturbed (fun n => spoil_d2n (g n)) (d2n_callbacks mode)) (fun c => base (fst c)) 68 fuel rd rjiter_buffer context_buffer (d2n_new w is_pretty, 0);
   Done (cout (base (fst c)), v)) = convert_ddb_to_normal fuel rd w rjiter_buffer context_buffer is_pretty mode.
Proof. exact d2n_undisturbed. Qed.
Print Assumptions C84_from_ddb.

(** The remembered name is spoilt differently each time. *)
Definition ex_spoilt (n : nat) : bytes := repeat 88%N n.
Example C84_example :
  (match scan (disturbed (fun n => spoil_idt (ex_spoilt n)) idt_callbacks) (mkOptions [] true) 100
           (mkS (rj_new (mkReader (bs "{""abc"": {""d"":[1, {}]}, ""e"":2}") [Chunk 12; Chunk 4]) (cells 16)) (idt_new (mkWriter [] None), 0) (ex_pool 200 10)) with
   | Done (s, v) => Some (written (out (fst (user s))), snd (user s), v)
   | _ => None
   end = Some (bs "{""abc"":{""d"":[1,{}]},""e"":2}", 20, Ok tt)) /\
  (match convert (disturbed (fun n => spoil (Some (ex_spoilt n))) (n2d_callbacks true)) (fun c => fst c) 34 100
           (mkReader (bs "{""abc"": {""d"":[1, {}]}, ""e"":2}") [Chunk 12; Chunk 4]) (cells 16) (cells 400) (conv_new (mkWriter [] None) false, 0) with
   | Done (c, v) => Some (written (cout (fst c)), field (fst c), v)
   | _ => None
   end = Some (bs "{""Item"":{""abc"":{""M"":{""d"":{""L"":[{""N"":""1""},{""M"":{}}]}}},""e"":{""N"":""2""}}}" ++ [10%N], Some (ex_spoilt 19), Ok tt)) /\
  (match convert (disturbed (fun n => spoil_d2n (Some (ex_spoilt n))) (d2n_callbacks AsWrapper)) (fun c => base (fst c)) 68 100
           (mkReader (bs "{""Item"":{""abc"":{""M"":{""d"":{""NS"":[""1"",""2""]}}},""e"":{""N"":""2""}}}") [Chunk 12; Chunk 4]) (cells 16) (cells 800) (d2n_new (mkWriter [] None) false, 0) with
   | Done (c, v) => Some (written (cout (base (fst c))), snd c, v)
   | _ => None
   end = Some (bs "{""abc"":{""d"":[1,2]},""e"":2}" ++ [10%N], 38, Ok tt)).
Proof. repeat split; vm_compute; reflexivity. Qed.
Print Assumptions C84_example.

(** What the theorems exclude: callbacks that note a name and write it when its value has ended. *)
Definition ex_late : callbacks conv :=
  mkCallbacks
    (fun name x c => match name, names x with
                     | PNone, key :: _ => (set_field c key, None)
                     | _, _ => (c, None)
                     end)
    (fun name x c => (c, match name with
                         | PNone => Some (fun c => match field c with Some key => put key "late" c | None => Done (c, Ok tt) end)
                         | _ => None
                         end)).
Example C84_late_example :
  let input := bs "{""abc"": 1}" in
  let run (g : nat -> conv -> conv) :=
    match convert (disturbed g ex_late) (fun c => fst c) 34 100 (mkReader input []) (cells 16) (cells 400) (conv_new (mkWriter [] None) false, 0) with
    | Done (c, v) => Some (written (cout (fst c)), v)
    | _ => None
    end in
  run (fun n c => c) = Some (bs "abc", Ok tt) /\ run (fun n => spoil (Some (ex_spoilt n))) = Some (ex_spoilt 4, Ok tt).
Proof. split; vm_compute; reflexivity. Qed.
Print Assumptions C84_late_example.
