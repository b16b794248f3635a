(** * SpecDecode: what every byte string decodes to, message type by message type, errors included.

    A reading tells what the bytes in front of the reader give: a value and the bytes that follow it, or the
    error.  It is a relation because validity of UTF-8 and of flags are propositions.  Nothing here refers to
    the decoders or constructors of the model. *)
From Verif Require Import Base Types Messages Frame SpecWire SpecTypes.

Definition reading (A : Type) : Type := bytes -> Result (A * bytes) -> Prop.

(** The value is [v]; nothing more is read. *)
Definition gives {A} (v : A) : reading A := fun rest r => r = Ok (v, rest).
Definition fails {A} (e : error) : reading A := fun _ r => r = Err e.
(** First one thing, then another that may depend on it; the first error is the result. *)
Definition next {A B} (a : reading A) (f : A -> reading B) : reading B := fun rest r =>
  exists ra, a rest ra /\
  match ra with
  | Ok (x, rest') => f x rest' r
  | Err e => r = Err e
  | Panic => False
  end.
Definition check {A} (wrong : Prop) (e : error) (k : reading A) : reading A := fun rest r =>
  (wrong /\ r = Err e) \/ (~ wrong /\ k rest r).

Definition raw (k : nat) : reading bytes := fun rest r =>
  (len rest < N.of_nat k /\ r = Err ParseError) \/
  (N.of_nat k <= len rest /\ r = Ok (firstn k rest, skipn k rest)).
Definition int (k : nat) : reading N := next (raw k) (fun b => gives (spec_val (wire b))).
Definition flag_bits (fs : flagset) : reading N :=
  next (int 4) (fun v => check (~ flags_ok fs v) UnknownFlags (gives v)).
Definition text : reading str0 := fun rest r =>
  exists r0, spec_decode_str STR0_255 rest r0 /\
  r = match r0 with Ok (s, n) => Ok (s, skipn (N.to_nat n) rest) | Err e => Err e | Panic => Panic end.
Definition prefix32 : reading b0 := fun rest r =>
  r = match spec_decode_b0 B0_32 rest with Ok (v, n) => Ok (v, skipn (N.to_nat n) rest) | Err e => Err e | Panic => Panic end.
Definition code {A} (image : A -> list N) : reading A :=
  next text (fun s rest r =>
    (exists c, len (str0_data s) :: wire (str0_data s) = image c /\ r = Ok (c, rest)) \/
    ((forall c, len (str0_data s) :: wire (str0_data s) <> image c) /\ r = Err UnknownErrorCode)).

Definition read_sc (fs : flagset) : reading setup_connection :=
  next (int 2) (fun mi => next (int 2) (fun ma => next (flag_bits fs) (fun fl =>
  next text (fun eh => next (int 2) (fun ep => next text (fun ve => next text (fun hv => next text (fun fw => next text (fun di =>
  check (str0_data ve = [] \/ str0_data fw = []) RequirementError
  (check (mi < 2 \/ ma < 2) VersionError
  (gives (mkSC mi ma fl eh ep ve hv fw di)))))))))))).

Definition reading_of (k : kind) : reading (msg_of k) :=
  match k return reading (msg_of k) with
  | K_CommonSetupConnection =>
      next (int 1) (fun p =>
        match p with
        | 0 => next (read_sc MiningSetupFlags) (fun v => gives (CSC_Mining v))
        | 1 => next (read_sc JnSetupFlags) (fun v => gives (CSC_JobNegotiation v))
        | 2 | 3 => fails Unimplemented
        | _ => fails DeserializationError
        end)
  | K_MiningSetupConnection => read_sc MiningSetupFlags
  | K_JnSetupConnection => read_sc JnSetupFlags
  | K_MiningSetupConnectionSuccess =>
      next (int 2) (fun v => next (flag_bits MiningSuccessFlags) (fun fl => gives (mkSCS v fl)))
  | K_JnSetupConnectionSuccess =>
      next (int 2) (fun v => next (flag_bits JnSuccessFlags) (fun fl => gives (mkSCS v fl)))
  | K_MiningSetupConnectionError =>
      next (flag_bits MiningSetupFlags) (fun fl => next (code lay_sc_code) (fun c =>
      check (fl = 0 /\ c = UnsupportedFeatureFlags) RequirementError (gives (mkSCE fl c))))
  | K_JnSetupConnectionError =>
      next (flag_bits JnSetupFlags) (fun fl => next (code lay_sc_code) (fun c =>
      check (fl = 0 /\ c = UnsupportedFeatureFlags) RequirementError (gives (mkSCE fl c))))
  | K_ChannelEndpointChanged => next (int 4) (fun c => gives (mkCEC c))
  | K_OpenStandardMiningChannel =>
      next (int 4) (fun r => next text (fun u => next (int 4) (fun h => next (raw 32) (fun t => gives (mkOSMC r u h t)))))
  | K_OpenStandardMiningChannelSuccess =>
      next (int 4) (fun r => next (int 4) (fun c => next (raw 32) (fun t => next prefix32 (fun x => next (int 4) (fun g =>
      gives (mkOSMCS r c t x g))))))
  | K_OpenStandardMiningChannelError =>
      next (int 4) (fun r => next (code lay_omc_code) (fun c => gives (mkOMCE r c)))
  | K_OpenExtendedMiningChannel =>
      next (int 4) (fun r => next text (fun u => next (int 4) (fun h => next (raw 32) (fun t => next (int 2) (fun s =>
      gives (mkOEMC r u h t s))))))
  | K_OpenExtendedMiningChannelSuccess =>
      next (int 4) (fun r => next (int 4) (fun c => next (raw 32) (fun t => next (int 2) (fun s => next prefix32 (fun x =>
      gives (mkOEMCS r c t s x))))))
  | K_OpenExtendedMiningChannelError =>
      next (int 4) (fun r => next (code lay_omc_code) (fun c => gives (mkOMCE r c)))
  | K_UpdateChannel =>
      next (int 4) (fun c => next (int 4) (fun h => next (raw 32) (fun t => gives (mkUC c h t))))
  end.
