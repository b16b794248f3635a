(** * SpecTexts: what the texts of flags and errors tell. *)
From Coq Require Import Strings.String.
From Verif Require Import Base Types SpecWire.
Local Open Scope N_scope.
Local Open Scope list_scope.

(** The name of each flag, by its bit, and the text for no flags. *)
Definition bit_names (fs : flagset) : list (N * string) :=
  match fs with
  | MiningSetupFlags => [(0, "REQUIRES_STANDARD_JOBS"); (1, "REQUIRES_WORK_SELECTION"); (2, "REQUIRES_VERSION_ROLLING")]
  | MiningSuccessFlags => [(0, "REQUIRES_FIXED_VERSION"); (1, "REQUIRES_EXTENDED_CHANNELS")]
  | JnSetupFlags => [(0, "REQUIRES_ASYNC_JOB_MINING")]
  | JnSuccessFlags => []
  end%string.
Definition no_flags (fs : flagset) : string :=
  match fs with MiningSetupFlags | JnSetupFlags => "(empty)" | MiningSuccessFlags | JnSuccessFlags => "NONE" end%string.
Definition flags_text (fs : flagset) (bits : N) : bytes :=
  list_byte_of_string
    (if bits =? 0 then no_flags fs
     else String.concat " | " (map snd (filter (fun p => N.testbit bits (fst p)) (bit_names fs)))).

(** Errors whose text is chosen by this library (the others show the text of an error of another crate), and
    those that show a text in backquotes. *)
Definition own_text (e : error) : Prop :=
  match e with
  | Base58Error | IOError | Utf8Error | FromUtf8Error | AuthorityKeyError | SystemTimeError | TryFromSliceError
  | NoiseError HexError => False
  | _ => True
  end.
Definition quotes (e : error) : Prop :=
  In e [VersionError; ProtocolMismatchError; RequirementError; DeserializationError; ParseError].
Definition wrong_length (e : error) : Prop :=
  In e [NoiseError MissingnsError; NoiseError MissingneError; NoiseError MissingHsMacError; NoiseError MissingrsError;
        NoiseError MissingreError].

(** Decimal digits, the most significant first, no leading zero. *)
Definition decimal (ds : bytes) (n : N) : Prop :=
  ds <> [] /\ Forall (fun d => 48 <= d <= 57) (wire ds) /\
  fold_left (fun acc d => 10 * acc + (d - 48)) (wire ds) 0 = n /\
  (hd_error ds = Some x30 -> ds = [x30]).
