(** * PropErrorDebug: C144, the Debug texts of errors. *)
From Coq Require Import Strings.String.
From Verif Require Import Base Types SpecWire SpecTexts ErrorDebug SpecErrorDebug ErrorDebugProofs.
Local Open Scope list_scope.

(** C144.  Two errors have the same Debug text when and only when they are the same error and carry the same: the text,
    or the text of the error they wrap. *)
Theorem C144_debug_text : forall special a b p q, text_ok a p -> text_ok b q ->
  (error_debug special a p = error_debug special b q <-> a = b /\ (quotes a \/ wraps a -> p = q)).
Proof. exact debug_exact. Qed.
Print Assumptions C144_debug_text.

(** The whole text of every error. *)
Theorem C144_whole : forall special e p, text_ok e p -> error_text special e p (error_debug special e p).
Proof. exact debug_whole. Qed.
Print Assumptions C144_whole.

Example C144_ex : text_ok VersionError [x61; x22] /\ quotes VersionError /\ wraps (NoiseError HexError) /\
  error_debug (fun _ => false) VersionError [x61; x22] = list_byte_of_string "VersionError(""a\"""")" /\
  error_debug (fun _ => false) (UnexpectedMessageType 0 16) [] = list_byte_of_string "UnexpectedMessageType(0, 16)" /\
  error_debug (fun _ => false) (NoiseError HexError) [x61] = list_byte_of_string "NoiseError(Hex(a))".
Proof.
  split; [intros _; exists [97; 34]%N; split; [constructor; [left; discriminate|constructor; [left; discriminate|constructor]]|reflexivity]|].
  split; [cbn; tauto|]. split; [cbn; tauto|]. vm_compute. repeat split.
Qed.
