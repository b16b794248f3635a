(** * ErrorDebugProofs: the Debug texts of errors are told apart. *)
From Coq Require Import Strings.String.
From Verif Require Import Base Types SpecWire Display SpecTexts TextProofs DebugTexts SpecDebugTexts DebugTextProofs ErrorDebug SpecErrorDebug.
Local Open Scope list_scope.

(** A name is followed by an opening bracket or by nothing. *)
Definition opens (r : bytes) : Prop := match r with [] => True | c :: _ => c = x28 end.
Lemma opens_peel : forall a b r s, forallb letterb a = true -> forallb letterb b = true -> opens r -> opens s ->
  a ++ r = b ++ s -> a = b /\ r = s.
Proof.
  intros a b r s A B R S E. apply (span (fun c => letterb c = true)) in E; [exact E|apply Forall_forall, forallb_forall; assumption..| |].
  - destruct r as [|c r]; [exact I|]. cbn in R. subst c. discriminate.
  - destruct s as [|c s]; [exact I|]. cbn in S. subst c. discriminate.
Qed.

Definition noise_name (e : noise_error) : string :=
  match e with
  | DecryptionError => "DecryptionError" | UnsupportedMessageLengthError => "UnsupportedMessageLengthError"
  | ExhaustedNonceError => "ExhaustedNonceError" | InvalidKeyError => "InvalidKeyError"
  | InvalidPublicKeyError => "InvalidPublicKeyError" | EmptyKeyError => "EmptyKeyError" | InvalidInputError => "InvalidInputError"
  | DerivePublicKeyFromEmptyKeyError => "DerivePublicKeyFromEmptyKeyError" | HexError => "Hex"
  | MissingnsError => "MissingnsError" | MissingneError => "MissingneError" | MissingHsMacError => "MissingHsMacError"
  | MissingrsError => "MissingrsError" | MissingreError => "MissingreError"
  end%string.
Lemma noise_name_inj : forall a b, noise_name a = noise_name b -> a = b.
Proof. intros a b E. destruct a, b; try reflexivity; discriminate E. Qed.
Lemma noise_form : forall h e, exists r, noise_debug h e = lit (noise_name e) ++ r /\ opens r /\ (e <> HexError -> r = []).
Proof.
  intros h e. destruct e; try (exists []; split; [rewrite app_nil_r; reflexivity|split; [exact I|reflexivity]]).
  exists (lit "(" ++ h ++ lit ")"). split; [reflexivity|]. split; [reflexivity|]. intro H. contradiction.
Qed.
Lemma noise_letters : forall e, forallb letterb (lit (noise_name e)) = true.
Proof. destruct e; reflexivity. Qed.
Lemma noise_tells : forall h h' a b, noise_debug h a = noise_debug h' b -> a = b /\ (a = HexError -> h = h').
Proof.
  intros h h' a b E.
  assert (N : a = b).
  { destruct (noise_form h a) as (r & R & O & _), (noise_form h' b) as (s & S & P & _).
    pose proof E as E'. rewrite R, S in E'. apply opens_peel in E' as [E' _]; auto using noise_letters.
    apply noise_name_inj, lit_inj, E'. }
  split; [exact N|]. intros ->. subst b. cbn [noise_debug] in E. unfold debug_tuple in E.
  apply app_inv_head, app_inv_head, app_inv_tail in E. exact E.
Qed.

Inductive same_variant : error -> error -> Prop :=
| sv_same : forall e, same_variant e e
| sv_type : forall a b c d, same_variant (UnexpectedMessageType a b) (UnexpectedMessageType c d)
| sv_bit : forall a b, same_variant (UnexpectedChannelBit a) (UnexpectedChannelBit b)
| sv_noise : forall a b, same_variant (NoiseError a) (NoiseError b).
Definition error_name (e : error) : string :=
  match e with
  | Base58Error => "Base58Error" | VersionError => "VersionError" | IOError => "IOError" | Utf8Error => "Utf8Error"
  | FromUtf8Error => "FromUtf8Error" | ProtocolMismatchError => "ProtocolMismatchError" | RequirementError => "RequirementError"
  | DeserializationError => "DeserializationError" | ParseError => "ParseError" | AuthorityKeyError => "AuthorityKeyError"
  | SystemTimeError => "SystemTimeError" | TryFromSliceError => "TryFromSliceError" | Unimplemented => "Unimplemented"
  | UnknownErrorCode => "UnknownErrorCode" | UnknownMessageType => "UnknownMessageType" | UnknownFlags => "UnknownFlags"
  | UnexpectedMessageType _ _ => "UnexpectedMessageType" | UnexpectedChannelBit _ => "UnexpectedChannelBit" | NoiseError _ => "NoiseError"
  end%string.
Lemma error_name_tells : forall a b, error_name a = error_name b -> same_variant a b.
Proof. intros a b E. destruct a, b; try discriminate E; constructor. Qed.
Lemma error_letters : forall e, forallb letterb (lit (error_name e)) = true.
Proof. destruct e; reflexivity. Qed.
Lemma error_form : forall special e p, exists r, error_debug special e p = lit (error_name e) ++ r /\ opens r.
Proof.
  intros special e p. destruct e; try (exists []; split; [rewrite app_nil_r; reflexivity|exact I]); eexists; split; reflexivity.
Qed.
Lemma tuple_inj : forall n a b, debug_tuple n a = debug_tuple n b -> a = b.
Proof. intros n a b E. unfold debug_tuple in E. apply app_inv_head, app_inv_head, app_inv_tail in E. exact E. Qed.
Lemma str_inj : forall special a b, utf8_text a -> utf8_text b -> debug_str special a = debug_str special b -> a = b.
Proof.
  intros special a b A B E. destruct (str_tells' special a b A B [] []) as [X _]; [rewrite E; reflexivity|exact X].
Qed.
Lemma quote_or_wrap : forall e, {quotes e} + {wraps e} + {~ quotes e /\ ~ wraps e}.
Proof.
  intros e. destruct e as [ | | | | | | | | | | | | | | | |x y|x|x]; try destruct x;
    first [left; left; cbn; tauto|left; right; cbn; tauto
          |right; split; intro H; cbn in H; repeat (destruct H as [H|H]; [discriminate H|]); exact H].
Qed.
Lemma debug_exact : forall special a b p q, text_ok a p -> text_ok b q ->
  (error_debug special a p = error_debug special b q <-> a = b /\ (quotes a \/ wraps a -> p = q)).
Proof.
  intros special a b p q A B. split.
  - intro E.
    assert (V : same_variant a b).
    { destruct (error_form special a p) as (r & R & O), (error_form special b q) as (s & S & P).
      pose proof E as E'. rewrite R, S in E'. apply opens_peel in E' as [E' _]; auto using error_letters.
      apply error_name_tells, lit_inj, E'. }
    destruct V as [e|x y x' y'|x x'|x x'].
    + split; [reflexivity|]. intros [Q|W].
      * specialize (A Q). specialize (B Q). cbn in Q.
        repeat (destruct Q as [<-|Q]; [apply tuple_inj, str_inj in E; assumption|]). contradiction.
      * cbn in W. repeat (destruct W as [<-|W]; [first [apply tuple_inj in E; exact E|apply tuple_inj, tuple_inj in E; exact E]|]). contradiction.
    + apply tuple_inj, dec_peel in E as [-> E]; [|cbn; intros [? ?]; auto..]. apply app_inv_head, dec_inj in E as ->.
      split; [reflexivity|]. intros [H|H]; cbn in H; repeat (destruct H as [H|H]; [discriminate H|]); contradiction.
    + apply tuple_inj in E. split; [destruct x, x'; first [reflexivity|discriminate E]|].
      intros [H|H]; cbn in H; repeat (destruct H as [H|H]; [discriminate H|]); contradiction.
    + apply tuple_inj, noise_tells in E as [-> E]. split; [reflexivity|].
      intros [H|H]; cbn in H; repeat (destruct H as [H|H]; [try discriminate H|]); try contradiction. injection H as <-. apply E. reflexivity.
  - intros [<- H]. destruct (quote_or_wrap a) as [[Q|W]|[Q W]]; [rewrite H by auto; reflexivity..|].
    destruct a as [ | | | | | | | | | | | | | | | |x y|x|x]; try reflexivity; try (exfalso; first [apply Q; cbn; tauto|apply W; cbn; tauto]).
    destruct x; try reflexivity. exfalso. apply W. cbn. tauto.
Qed.

Lemma noise_whole : forall h e, noise_text h e (noise_debug h e).
Proof. intros h []; try reflexivity. exists h. split; reflexivity. Qed.
Lemma debug_whole : forall special e p, text_ok e p -> error_text special e p (error_debug special e p).
Proof.
  intros special e p A. unfold text_ok in A.
  destruct e as [ | | | | | | | | | | | | | | | |x y|x|x]; try reflexivity;
    try (exists p; split; reflexivity);
    try (exists (debug_str special p); split; [apply string_shown, A; cbn; tauto|reflexivity]).
  - exists (dec x ++ lit ", " ++ dec y). split; [|reflexivity]. exists (dec x), (dec y). auto using dec_decimal.
  - destruct x; eexists; split; reflexivity.
  - exists (noise_debug p x). split; [apply noise_whole|reflexivity].
Qed.
