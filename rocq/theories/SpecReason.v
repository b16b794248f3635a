(** * SpecReason: what the text of a failure has to say.

    Nothing here refers to the decoders, constructors or texts of the model. *)
From Coq Require Import Strings.String.
From Verif Require Import Base Types Messages Frame SpecWire SpecTypes SpecTexts.
Local Open Scope N_scope.
Local Open Scope list_scope.

(** ** Where a string stops being UTF-8 *)

(** The bytes are a text, or the beginning of one. *)
Definition begins_text (bs : bytes) : Prop := exists more, utf8_text (bs ++ more).

(** [v] bytes are the longest prefix that is a text.  With [None] the string only ends too early; with [Some k]
    some byte cannot stand where it is, and [k] bytes from [v] on are to blame: those that begin a character
    up to that byte, or that byte itself if there are none. *)
Definition utf8_fault (bs : bytes) (v : nat) (k : option nat) : Prop :=
  (v <= length bs)%nat /\ utf8_text (firstn v bs) /\
  (forall i, (v < i <= length bs)%nat -> ~ utf8_text (firstn i bs)) /\
  match k with
  | None => (v < length bs)%nat /\ begins_text bs
  | Some k => exists j, (v + j < length bs)%nat /\ begins_text (firstn (v + j) bs) /\
      ~ begins_text (firstn (v + j + 1) bs) /\ k = Nat.max 1 j
  end.

Definition says (s : string) : bytes := list_byte_of_string s.
Definition utf8_message (bs text : bytes) : Prop :=
  exists v k dv, utf8_fault bs v k /\ decimal dv (N.of_nat v) /\
  match k with
  | Some k => exists dk, decimal dk (N.of_nat k) /\
      text = says "invalid utf-8 sequence of " ++ dk ++ says " bytes from index " ++ dv
  | None => text = says "incomplete utf-8 byte sequence from index " ++ dv
  end.

(** ** Readings (see SpecDecode.v) with the text of the error *)
Definition told (A : Type) : Type := outcome (error * bytes) A.
(** The outcome without the text. *)
Definition erase {A} (o : told A) : Result A :=
  match o with Ok a => Ok a | Err (e, _) => Err e | Panic => Panic end.
Definition telling (A : Type) : Type := bytes -> told (A * bytes) -> Prop.

Definition t_gives {A} (v : A) : telling A := fun rest r => r = Ok (v, rest).
Definition t_fails {A} (e : error) (s : string) : telling A := fun _ r => r = Err (e, says s).
Definition t_next {A B} (a : telling A) (f : A -> telling B) : telling B := fun rest r =>
  exists ra, a rest ra /\
  match ra with
  | Ok (x, rest') => f x rest' r
  | Err e => r = Err e
  | Panic => False
  end.
Definition t_check {A} (wrong : Prop) (e : error) (s : string) (k : telling A) : telling A := fun rest r =>
  (wrong /\ r = Err (e, says s)) \/ (~ wrong /\ k rest r).

Definition t_raw (k : N) : telling bytes := fun rest r =>
  (len rest < k /\ r = Err (ParseError, says "out of bounds error")) \/
  (k <= len rest /\ r = Ok (firstn (N.to_nat k) rest, skipn (N.to_nat k) rest)).
Definition t_int (k : N) : telling N := t_next (t_raw k) (fun b => t_gives (spec_val (wire b))).
Definition t_flags (fs : flagset) : telling N :=
  t_next (t_int 4) (fun v => t_check (~ flags_ok fs v) UnknownFlags "" (t_gives v)).
Definition t_text : telling str0 :=
  t_next (t_int 1) (fun n => t_next (t_raw n) (fun s rest r =>
    (utf8_text s /\ r = Ok (mkStr0 n s, rest)) \/
    (~ utf8_text s /\ exists t, utf8_message s t /\ r = Err (FromUtf8Error, t)))).
Definition t_prefix32 : telling b0 :=
  t_next (t_int 1) (fun n => t_next (t_raw n) (fun d =>
    t_check (32 < n) RequirementError "bytes size cannot be greater than MAX_LENGTH" (t_gives (mkB0 n d)))).
Definition t_code {A} (image : A -> list N) : telling A :=
  t_next t_text (fun s rest r =>
    (exists c, len (str0_data s) :: wire (str0_data s) = image c /\ r = Ok (c, rest)) \/
    ((forall c, len (str0_data s) :: wire (str0_data s) <> image c) /\ r = Err (UnknownErrorCode, []))).

Definition t_sc (fs : flagset) : telling setup_connection :=
  t_next (t_int 2) (fun mi => t_next (t_int 2) (fun ma => t_next (t_flags fs) (fun fl =>
  t_next t_text (fun eh => t_next (t_int 2) (fun ep => t_next t_text (fun ve => t_next t_text (fun hv =>
  t_next t_text (fun fw => t_next t_text (fun di =>
  t_check (str0_data ve = []) RequirementError "vendor field in SetupConnection MUST NOT be empty"
  (t_check (str0_data fw = []) RequirementError "firmware field in SetupConnection MUST NOT be empty"
  (t_check (mi < 2) VersionError "min_version must be atleast 2"
  (t_check (ma < 2) VersionError "max_version must be atleast 2"
  (t_gives (mkSC mi ma fl eh ep ve hv fw di)))))))))))))).
Definition t_sce (fs : flagset) : telling setup_connection_error :=
  t_next (t_flags fs) (fun fl => t_next (t_code lay_sc_code) (fun c =>
  t_check (fl = 0 /\ c = UnsupportedFeatureFlags) RequirementError
    "a full set of unsupported flags MUST be returned to the client" (t_gives (mkSCE fl c)))).

Definition telling_of (k : kind) : telling (msg_of k) :=
  match k return telling (msg_of k) with
  | K_CommonSetupConnection =>
      t_next (t_int 1) (fun p =>
        match p with
        | 0 => t_next (t_sc MiningSetupFlags) (fun v => t_gives (CSC_Mining v))
        | 1 => t_next (t_sc JnSetupFlags) (fun v => t_gives (CSC_JobNegotiation v))
        | 2 | 3 => t_fails Unimplemented ""
        | _ => t_fails DeserializationError "received unknown protocol byte in setup connection message"
        end)
  | K_MiningSetupConnection => t_sc MiningSetupFlags
  | K_JnSetupConnection => t_sc JnSetupFlags
  | K_MiningSetupConnectionSuccess =>
      t_next (t_int 2) (fun v => t_next (t_flags MiningSuccessFlags) (fun fl => t_gives (mkSCS v fl)))
  | K_JnSetupConnectionSuccess =>
      t_next (t_int 2) (fun v => t_next (t_flags JnSuccessFlags) (fun fl => t_gives (mkSCS v fl)))
  | K_MiningSetupConnectionError => t_sce MiningSetupFlags
  | K_JnSetupConnectionError => t_sce JnSetupFlags
  | K_ChannelEndpointChanged => t_next (t_int 4) (fun c => t_gives (mkCEC c))
  | K_OpenStandardMiningChannel =>
      t_next (t_int 4) (fun r => t_next t_text (fun u => t_next (t_int 4) (fun h => t_next (t_raw 32) (fun t =>
      t_gives (mkOSMC r u h t)))))
  | K_OpenStandardMiningChannelSuccess =>
      t_next (t_int 4) (fun r => t_next (t_int 4) (fun c => t_next (t_raw 32) (fun t => t_next t_prefix32 (fun x =>
      t_next (t_int 4) (fun g => t_gives (mkOSMCS r c t x g))))))
  | K_OpenStandardMiningChannelError | K_OpenExtendedMiningChannelError =>
      t_next (t_int 4) (fun r => t_next (t_code lay_omc_code) (fun c => t_gives (mkOMCE r c)))
  | K_OpenExtendedMiningChannel =>
      t_next (t_int 4) (fun r => t_next t_text (fun u => t_next (t_int 4) (fun h => t_next (t_raw 32) (fun t =>
      t_next (t_int 2) (fun s => t_gives (mkOEMC r u h t s))))))
  | K_OpenExtendedMiningChannelSuccess =>
      t_next (t_int 4) (fun r => t_next (t_int 4) (fun c => t_next (t_raw 32) (fun t => t_next (t_int 2) (fun s =>
      t_next t_prefix32 (fun x => t_gives (mkOEMCS r c t s x))))))
  | K_UpdateChannel =>
      t_next (t_int 4) (fun c => t_next (t_int 4) (fun h => t_next (t_raw 32) (fun t => t_gives (mkUC c h t))))
  end.

(** ** The requirements on a SetupConnection, in the order in which they are checked, each with its complaint *)
Definition too_long (s : bytes) : Prop := 255 < len s.
Definition setup_complaints (mi ma : N) (host vendor hardware firmware device : bytes) : list (Prop * (error * string)) :=
  [ (vendor = [], (RequirementError, "vendor field in SetupConnection MUST NOT be empty"%string));
    (firmware = [], (RequirementError, "firmware field in SetupConnection MUST NOT be empty"%string));
    (mi < 2, (VersionError, "min_version must be atleast 2"%string));
    (ma < 2, (VersionError, "max_version must be atleast 2"%string));
    (too_long host \/ too_long vendor \/ too_long hardware \/ too_long firmware \/ too_long device,
     (RequirementError, "string size cannot be greater than MAX_LENGTH"%string)) ].
(** [n] is the first that is violated. *)
Definition first_violated {A} (l : list (Prop * A)) (n : nat) (a : A) : Prop :=
  exists w, nth_error l n = Some (w, a) /\ w /\ forall i w' a', (i < n)%nat -> nth_error l i = Some (w', a') -> ~ w'.
Definition none_violated {A} (l : list (Prop * A)) : Prop := forall w a, In (w, a) l -> ~ w.

(** What is printed when a frame cannot be read; the bit is the one in the frame. *)
Definition frame_shows (e : error) : bytes :=
  match e with
  | ParseError => says "`out of bounds error`"
  | UnknownMessageType => says "the received message type is unknown"
  | UnexpectedChannelBit true => says "parsed channel bit `true` does not match expected message"
  | UnexpectedChannelBit false => says "parsed channel bit `false` does not match expected message"
  | _ => []
  end.
