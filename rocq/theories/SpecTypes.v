(** * SpecTypes: admissible values and layouts for every wire type, and decoding tables.

    Written from the English descriptions; nothing here refers to the parser, the encoders or the
    constructors of the model. *)
From Verif Require Import Base Types Messages Frame Catalog SpecWire.

(** Length-header size and maximal data length of the byte-string types. *)
Definition spec_b0_hdr (t : b0type) : nat :=
  match t with B0_31 => 1 | B0_32 => 1 | B0_255 => 1 | B0_64K => 2 | B0_16M => 3 end.
Definition spec_b0_limit (t : b0type) : N :=
  match t with B0_31 => 31 | B0_32 => 32 | B0_255 => 255 | B0_64K => 65535 | B0_16M => 16777215 end.
Definition spec_str_limit (t : str0type) : N := match t with STR0_32 => 32 | STR0_255 => 255 end.

Definition protocol_number (p : protocol) : N :=
  match p with
  | PMining => 0 | PJobNegotiation => 1 | PTemplateDistribution => 2 | PJobDistribution => 3
  end.

(** Values of each type that the Rust type system / constructors can produce. *)
Definition ok (t : ty) : val t -> Prop :=
  match t with
  | T_u8 => u8_ok | T_u16 => u16_ok | T_u32 => u32_ok | T_f32 => u32_ok
  | T_bool => fun _ => True
  | T_U24 => fun v => v < 16777216
  | T_U256 => u256_ok
  | T_B0 t => b0_ok (spec_b0_limit t)
  | T_STR0 t => str_ok (spec_str_limit t)
  | T_flags fs => flags_ok fs
  | T_sc_code => fun _ => True
  | T_omc_code => fun _ => True
  | T_protocol => fun _ => True
  | T_msg k => msg_ok k
  | T_frame => fun m => len (m_payload m) < 16777216
  end.

(** Wire image of each value. *)
Definition lay (t : ty) : val t -> list N :=
  match t with
  | T_u8 => spec_le 1 | T_u16 => spec_le 2 | T_u32 => spec_le 4 | T_f32 => spec_le 4
  | T_bool => fun b : bool => if b then [1] else [0]
  | T_U24 => spec_le 3
  | T_U256 => wire
  | T_B0 t => lay_b0 (spec_b0_hdr t)
  | T_STR0 _ => lay_str
  | T_flags _ => spec_le 4
  | T_sc_code => lay_sc_code
  | T_omc_code => lay_omc_code
  | T_protocol => fun p => [protocol_number p]
  | T_msg k => layout k
  | T_frame => frame_layout
  end.

(** Decoding table of the byte-string types: what the bytes [rest] in front of the cursor decode to,
    and how many bytes are consumed on success. *)
Definition spec_decode_b0 (t : b0type) (rest : bytes) : Result (b0 * N) :=
  let h := spec_b0_hdr t in
  let header := firstn h rest in
  let body := skipn h rest in
  let n := spec_val (wire header) in
  if len header <? N.of_nat h then Err ParseError
  else if len body <? n then Err ParseError
  else if spec_b0_limit t <? n then Err RequirementError
  else Ok (mkB0 n (firstn (N.to_nat n) body), N.of_nat h + n).

(** Decoding table of the string types, as a relation (UTF-8 validity is a proposition). *)
Definition spec_decode_str (t : str0type) (rest : bytes) (r : Result (str0 * N)) : Prop :=
  match rest with
  | [] => r = Err ParseError
  | h :: body =>
      let n := Byte.to_N h in
      let s := firstn (N.to_nat n) body in
      (len body < n /\ r = Err ParseError) \/
      (n <= len body /\ ~ utf8_text s /\ r = Err FromUtf8Error) \/
      (n <= len body /\ utf8_text s /\ spec_str_limit t < n /\ r = Err RequirementError) \/
      (n <= len body /\ utf8_text s /\ n <= spec_str_limit t /\ r = Ok (mkStr0 n s, 1 + n))
  end.

(** All message types, in the order of the specification. *)
Definition all_types : list message_type :=
  [ MT_SetupConnection; MT_SetupConnectionSuccess; MT_SetupConnectionError; MT_ChannelEndpointChanged;
    MT_OpenStandardMiningChannel; MT_OpenStandardMiningChannelSuccess; MT_OpenStandardMiningChannelError;
    MT_OpenExtendedMiningChannel; MT_OpenExtendedMiningChannelSuccess; MT_OpenExtendedMiningChannelError;
    MT_UpdateChannel; MT_UpdateChannelError; MT_CloseChannel; MT_SetExtranoncePrefix;
    MT_SubmitSharesStandard; MT_SubmitSharesExtended; MT_SubmitSharesSuccess; MT_SubmitSharesError;
    MT_NewMiningJob; MT_NewExtendedMiningJob; MT_SetNewPrevHash; MT_SetTarget; MT_SetCustomMiningJob;
    MT_SetCustomMiningJobSuccess; MT_SetCustomMiningJobError; MT_Reconnect; MT_SetGroupChannel;
    MT_TestMessage1; MT_TestMessage2 ].

(** The type registered for extension type [ext] and message type byte [code]. *)
Definition spec_lookup (ext code : N) : option message_type :=
  if ext =? 0 then find (fun t => fst (spec_code t) =? code) all_types else None.

(** Decoding table of frames: outcome and number of bytes consumed on success. *)
Definition spec_decode_frame (rest : bytes) : Result (message * N) :=
  match wire rest with
  | e0 :: e1 :: code :: _ =>
      let channel := 128 <=? e1 in
      match spec_lookup (e0 + 256 * (e1 mod 128)) code with
      | None => Err UnknownMessageType
      | Some t =>
          if negb (Bool.eqb (snd (spec_code t)) channel) then Err (UnexpectedChannelBit channel)
          else
            let header := firstn 3 (skipn 3 rest) in
            let body := skipn 6 rest in
            let n := spec_val (wire header) in
            if len header <? 3 then Err ParseError
            else if len body <? n then Err ParseError
            else Ok (mkMessage t (firstn (N.to_nat n) body), 6 + n)
      end
  | _ => Err ParseError
  end.

(** Reading [n] values one after the other from one cursor. *)
From Verif Require Import Codec.
Fixpoint read_many {A} (d : De A) (n : nat) : De (list A) :=
  fun pf p =>
    match n with
    | O => (p, Ok [])
    | S n' =>
        match d pf p with
        | (p1, Ok a) =>
            match read_many d n' pf p1 with
            | (p2, Ok l) => (p2, Ok (a :: l))
            | (p2, r) => (p2, r)
            end
        | (p1, Err e) => (p1, Err e)
        | (p1, Panic) => (p1, Panic)
        end
    end.

(** The parser that has consumed [pre] and stands in front of [rest]. *)
Definition cursor (pre rest : bytes) : parser := mkParser (pre ++ rest) (len pre).

(** A sequence of [next_by] calls; the results so far are kept. *)
Fixpoint take_steps (steps : list N) : De (list bytes) :=
  fun pf p =>
    match steps with
    | [] => (p, Ok [])
    | s :: steps' =>
        match next_by s pf p with
        | (p1, Ok b) =>
            match take_steps steps' pf p1 with
            | (p2, Ok l) => (p2, Ok (b :: l))
            | (p2, r) => (p2, r)
            end
        | (p1, Err e) => (p1, Err e)
        | (p1, Panic) => (p1, Panic)
        end
    end.

Definition sum (l : list N) : N := fold_right N.add 0 l.

(** Arguments of well-typed Rust calls: a String is UTF-8, integers are in range, flags come from the
    flag type, [[u8; 32]] has 32 bytes. [constructed k m]: some well-typed call of the public
    constructor(s) of message kind [k] returned [m]. *)
Inductive constructed : forall k, msg_of k -> Prop :=
| C_csc_mining : forall mi ma fl eh ep ve hv fw di m,
    u16_ok mi -> u16_ok ma -> flags_ok MiningSetupFlags fl -> utf8_text eh -> u16_ok ep ->
    utf8_text ve -> utf8_text hv -> utf8_text fw -> utf8_text di ->
    csc_new_mining mi ma fl eh ep ve hv fw di = Ok m -> constructed K_CommonSetupConnection m
| C_csc_jn : forall mi ma fl eh ep ve hv fw di m,
    u16_ok mi -> u16_ok ma -> flags_ok JnSetupFlags fl -> utf8_text eh -> u16_ok ep ->
    utf8_text ve -> utf8_text hv -> utf8_text fw -> utf8_text di ->
    csc_new_job_negotation mi ma fl eh ep ve hv fw di = Ok m -> constructed K_CommonSetupConnection m
| C_sc_mining : forall mi ma fl eh ep ve hv fw di m,
    u16_ok mi -> u16_ok ma -> flags_ok MiningSetupFlags fl -> utf8_text eh -> u16_ok ep ->
    utf8_text ve -> utf8_text hv -> utf8_text fw -> utf8_text di ->
    sc_new mi ma fl eh ep ve hv fw di = Ok m -> constructed K_MiningSetupConnection m
| C_sc_jn : forall mi ma fl eh ep ve hv fw di m,
    u16_ok mi -> u16_ok ma -> flags_ok JnSetupFlags fl -> utf8_text eh -> u16_ok ep ->
    utf8_text ve -> utf8_text hv -> utf8_text fw -> utf8_text di ->
    sc_new mi ma fl eh ep ve hv fw di = Ok m -> constructed K_JnSetupConnection m
| C_scs_mining : forall v fl m, u16_ok v -> flags_ok MiningSuccessFlags fl ->
    scs_new v fl = Ok m -> constructed K_MiningSetupConnectionSuccess m
| C_scs_jn : forall v fl m, u16_ok v -> flags_ok JnSuccessFlags fl ->
    scs_new v fl = Ok m -> constructed K_JnSetupConnectionSuccess m
| C_sce_mining : forall fl c m, flags_ok MiningSetupFlags fl ->
    sce_new fl c = Ok m -> constructed K_MiningSetupConnectionError m
| C_sce_jn : forall fl c m, flags_ok JnSetupFlags fl ->
    sce_new fl c = Ok m -> constructed K_JnSetupConnectionError m
| C_cec : forall c m, u32_ok c -> cec_new c = Ok m -> constructed K_ChannelEndpointChanged m
| C_osmc : forall r u h t m, u32_ok r -> utf8_text u -> u32_ok h -> u256_ok t ->
    osmc_new r u h t = Ok m -> constructed K_OpenStandardMiningChannel m
| C_osmcs : forall r c t x g m, u32_ok r -> u32_ok c -> u256_ok t -> u32_ok g ->
    osmcs_new r c t x g = Ok m -> constructed K_OpenStandardMiningChannelSuccess m
| C_osmce : forall r c m, u32_ok r -> omce_new r c = Ok m -> constructed K_OpenStandardMiningChannelError m
| C_oemc : forall r u h t s m, u32_ok r -> utf8_text u -> u32_ok h -> u256_ok t -> u16_ok s ->
    oemc_new r u h t s = Ok m -> constructed K_OpenExtendedMiningChannel m
| C_oemcs : forall r c t s x m, u32_ok r -> u32_ok c -> u256_ok t -> u16_ok s ->
    oemcs_new r c t s x = Ok m -> constructed K_OpenExtendedMiningChannelSuccess m
| C_oemce : forall r c m, u32_ok r -> omce_new r c = Ok m -> constructed K_OpenExtendedMiningChannelError m
| C_uc : forall c h t m, u32_ok c -> u32_ok h -> u256_ok t -> uc_new c h t = Ok m ->
    constructed K_UpdateChannel m.

(** A writer that takes whole buffers until some call fails; [taken] is what it accepted so far and
    [failed] tells whether a call failed. *)
Record whole_writer {W} (wr : writer W) (taken : W -> bytes) (failed : W -> bool) : Prop := {
  ww_ok : forall w buf w' n, wr w buf = (w', Some n) ->
            n = len buf /\ taken w' = taken w ++ buf /\ failed w' = failed w;
  ww_fail : forall w buf w', wr w buf = (w', None) ->
            (exists p s, buf = p ++ s /\ taken w' = taken w ++ p) /\ failed w' = true }.

(** Buffers offered to a writer one after another until a call fails, with the counts it returned. *)
Fixpoint offer {W} (wr : W -> bytes -> W * option N) (cs : list bytes) (w : W) : W * option (list N) :=
  match cs with
  | [] => (w, Some [])
  | buf :: cs' =>
      match wr w buf with
      | (w', None) => (w', None)
      | (w', Some n) => let '(w'', r) := offer wr cs' w' in (w'', option_map (cons n) r)
      end
  end.

(** The hash rates (f32 bit patterns) inside a message. *)
Definition hash_rates (k : kind) : msg_of k -> list N :=
  match k with
  | K_OpenStandardMiningChannel => fun m => [osmc_nominal_hash_rate m]
  | K_OpenExtendedMiningChannel => fun m => [oemc_nominal_hash_rate m]
  | K_UpdateChannel => fun m => [uc_nominal_hash_rate m]
  | _ => fun _ => []
  end.
(** IEEE-754 binary32: NaN has an all-ones exponent and a non-zero fraction; -0.0 is 0x80000000. *)
Definition is_nan_bits (x : N) : Prop := 0x7f800000 < x mod 0x80000000.
Definition neg_zero_bits : N := 0x80000000.

(** Equality of binary32 numbers: NaN equals nothing, the two zeros are equal, otherwise same bits. *)
Definition same_rate (x y : N) : Prop :=
  ~ is_nan_bits x /\ ~ is_nan_bits y /\ (x = y \/ (x mod 0x80000000 = 0 /\ y mod 0x80000000 = 0)).
(** The message with its hash rate (if any) replaced by 0.0. *)
Definition zero_rate (k : kind) : msg_of k -> msg_of k :=
  match k with
  | K_OpenStandardMiningChannel => fun m =>
      mkOSMC (osmc_request_id m) (osmc_user_identity m) 0 (osmc_max_target m)
  | K_OpenExtendedMiningChannel => fun m =>
      mkOEMC (oemc_request_id m) (oemc_user_identity m) 0 (oemc_max_target m) (oemc_min_extranonce_size m)
  | K_UpdateChannel => fun m => mkUC (uc_channel_id m) 0 (uc_max_target m)
  | _ => fun m => m
  end.
