(** * PropTexts: C102-C103, the texts of flags and errors. *)
From Coq Require Import Strings.String.
From Verif Require Import Base Types SpecWire SpecTypes TypesFacts Display SpecTexts TextProofs.
Local Open Scope N_scope.
Local Open Scope list_scope.

(** C102. *)
Theorem C102_flags_text : forall fs f, flags_ok fs f -> flags_debug fs f = flags_text fs f.
Proof. exact flags_text_exact. Qed.
Print Assumptions C102_flags_text.
Theorem C102_flags_told_apart : forall fs f g, flags_ok fs f -> flags_ok fs g -> flags_debug fs f = flags_debug fs g -> f = g.
Proof. exact flags_text_tells. Qed.
Print Assumptions C102_flags_told_apart.

Example C102_ex : flags_ok MiningSetupFlags 5 /\ flags_ok MiningSetupFlags 7 /\
  flags_debug MiningSetupFlags 5 = list_byte_of_string "REQUIRES_STANDARD_JOBS | REQUIRES_VERSION_ROLLING" /\
  flags_debug MiningSuccessFlags 0 = list_byte_of_string "NONE".
Proof.
  split; [apply (proj1 (flags_from_bits_iff MiningSetupFlags 5 5)); reflexivity|].
  split; [apply (proj1 (flags_from_bits_iff MiningSetupFlags 7 7)); reflexivity|]. split; vm_compute; reflexivity.
Qed.

(** C103.  Full statement: two different errors of the library have different texts.  Refuted; below, exactly
    which errors share a text, and the text for an unexpected message type. *)
Theorem C103_error_texts_refuted : forall p, exists a b, a <> b /\ own_text a /\ own_text b /\
  error_display a p = error_display b p.
Proof. exact error_clash. Qed.
Print Assumptions C103_error_texts_refuted.
Theorem C103_error_texts_exact_partial : forall a b p q, own_text a -> own_text b ->
  (error_display a p = error_display b q <->
   (~ quotes a /\ a = b) \/ (quotes a /\ quotes b /\ p = q) \/ (wrong_length a /\ wrong_length b)).
Proof. exact error_exact. Qed.
Print Assumptions C103_error_texts_exact_partial.
Theorem C103_unexpected_type_text : forall ext msg p, exists e m, decimal e ext /\ decimal m msg /\
  error_display (UnexpectedMessageType ext msg) p =
  list_byte_of_string "parsed message type `" ++ e ++ list_byte_of_string "/" ++ m ++
  list_byte_of_string "` does not match expected message".
Proof. exact unexpected_text. Qed.
Print Assumptions C103_unexpected_type_text.

Example C103_ex : own_text VersionError /\ own_text ParseError /\ quotes VersionError /\ quotes ParseError /\
  error_display (UnexpectedMessageType 0 16) [] =
    list_byte_of_string "parsed message type `0/16` does not match expected message" /\
  error_display VersionError [x61] = error_display ParseError [x61].
Proof. repeat split; try (vm_compute; reflexivity); vm_compute; tauto. Qed.
