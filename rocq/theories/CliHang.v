(** When the command line program does not end. *)
From Verif Require Import Base U8Pool PoolSpec Buffer BufferSpec Jiter RJiter RJiterSpec Scan ScanSpec IdSpec DdbSpec Conv NormalToDdb DdbToNormal ConvSpec Cli CliSpec SoundSpec.
From Verif Require Import BufferProofs RJiterProofs RJiterIndexProofs ScanTokens ScanParser ScanProofs SoundResults N2dSound CliProofs N2dHang.

Lemma input_read a o input : input_of a o = Some input -> match input_path a with Some p => file o p | None => Some (stdin o) end = Some input.
Proof. intros H. exact H. Qed.
Lemma main_hangs a o input vs w0 l : to_convert a = ToDdb -> input_of a o = Some input -> same_file a = false -> budget o (output_path a) = Some None ->
  (forall e, ~ In (Fail e) (chunks o)) -> documents_until (chunk_layout (len rjiter_buffer) false) vs input (w0 ++ l) -> spaces w0 -> cut_literal l ->
  n2d_room context_buffer vs -> Forall ordinary vs -> atoms_apart false vs -> forall fuel, main a fuel o = Diverge.
Proof.
  intros Ha Hi Hsame Hb Hq HD Hw0 Hl Hr Ho Hap fuel. unfold main. rewrite (input_read _ _ _ Hi), Hb, Hsame. unfold run, conversion. rewrite Ha.
  rewrite (n2d_hangs (InChunks (len rjiter_buffer) false) vs (mkReader input (chunks o)) _ rjiter_buffer context_buffer (pretty_print a) (negb (without_item a)) w0 l big_buffer big_buffer); auto.
  split; [apply valid_new|]. split; [reflexivity|]. split; [discriminate|]. apply quiet_new, Hq.
Qed.
Lemma main_hangs_only a o : to_convert a = ToDdb -> (forall e, ~ In (Fail e) (chunks o)) ->
  (exists x, eventually (fun fuel => main a fuel o) (Done x)) \/
  (same_file a = false /\ budget o (output_path a) = Some None /\
   exists input vs w0 l, input_of a o = Some input /\ lax_documents false true vs input (w0 ++ l) /\ blanks w0 /\ cut_literal l).
Proof.
  intros Ha Hq. unfold main. change (match input_path a with Some p => file o p | None => Some (stdin o) end) with (input_of a o). destruct (input_of a o) as [input|] eqn:Hi.
  2: { left. eexists. exists 0. intros fuel _. reflexivity. }
  destruct (budget o (output_path a)) as [room|] eqn:Hb; [|left; eexists; exists 0; intros fuel _; reflexivity].
  unfold run, conversion. rewrite Ha.
  destruct (n2d_hangs_only false (mkReader (if same_file a then [] else input) (chunks o)) (mkBuffered [] [] (if unbuffered a then 0 else default_capacity) room) rjiter_buffer context_buffer
    (pretty_print a) (negb (without_item a)) big_buffer Hq ltac:(discriminate) (Nat.le_0_l _)) as [(w' & v & n & Hn)|(Hr & vs & w0 & l & Hd & Hw & Hl)].
  - left. destruct v as [[]|[e i]]; eexists; exists n; intros fuel Hf; rewrite (Hn fuel Hf); reflexivity.
  - right. cbn [wfail src] in *. subst room. destruct (same_file a).
    + exfalso. assert (Hnil : w0 ++ l = []).
      { revert Hd. generalize (w0 ++ l). intros r Hd. inversion Hd; subst; [reflexivity|]. exfalso.
        match goal with H : lax_document _ _ _ [] _ |- _ => apply document_shorter in H; cbn in H; lia end. }
      apply app_eq_nil in Hnil as (_ & ->). destruct Hl as (word & Hin & (r & E) & _). destruct Hin as [<-|[<-|[<-|[]]]]; discriminate.
    + split; [reflexivity|]. split; [reflexivity|]. exists input, vs, w0, l. auto.
Qed.

(** What fits in a buffer fits in a larger one. *)
Lemma chunk_larger c c' clean : c <= c' ->
  (forall b v l r, value_at (chunk_layout c clean) b v l r -> value_at (chunk_layout c' clean) b v l r) /\
  (forall vs l r, items_at (chunk_layout c clean) vs l r -> items_at (chunk_layout c' clean) vs l r) /\
  (forall ms l r, members_at (chunk_layout c clean) ms l r -> members_at (chunk_layout c' clean) ms l r).
Proof.
  intros Hc. assert (HK : forall k w, key_ok (chunk_layout c clean) k w -> key_ok (chunk_layout c' clean) k w) by (cbn; intros; lia).
  assert (HN : forall t r, number_ok (chunk_layout c clean) t r -> number_ok (chunk_layout c' clean) t r) by (cbn; intros t r (A & B); split; [lia|exact B]).
  apply grammar_ind; intros; econstructor; eauto.
Qed.
Lemma until_larger c c' clean vs l r : c <= c' -> documents_until (chunk_layout c clean) vs l r -> documents_until (chunk_layout c' clean) vs l r.
Proof.
  intros Hc. induction 1 as [l|v vs l l1 r (w & l' & E & Hw & Hv) _ IH]; [constructor|]. econstructor; [|exact IH].
  exists w, l'. split; [exact E|]. split; [exact Hw|]. apply (chunk_larger c c' clean Hc), Hv.
Qed.
