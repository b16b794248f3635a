(** * SpecGenerated: two fields of a declaration exchanged.

    Nothing here refers to the parser, the encoders, the decoders or the generated tests. *)
From Verif Require Import Base Types Messages Catalog Macro.

(** The field of type [t] after the fields [l], and another value in its place. *)
Fixpoint field_after (l : list ty) {t : ty} {r : list ty} : fields (l ++ t :: r) -> val t :=
  match l with
  | [] => fun v => fst v
  | _ :: l' => fun v => field_after l' (snd v)
  end.
Fixpoint put_after (l : list ty) {t : ty} {r : list ty} (x : val t) : fields (l ++ t :: r) -> fields (l ++ t :: r) :=
  match l with
  | [] => fun v => (x, snd v)
  | _ :: l' => fun v => (fst v, put_after l' x (snd v))
  end.

(** Two fields of the type [t], [l] before the first and [m] between them. *)
Definition first_of (l : list ty) {t : ty} {m r : list ty} (v : fields (l ++ t :: m ++ t :: r)) : val t := field_after l v.
Fixpoint second_of (l : list ty) {t : ty} {m r : list ty} : fields (l ++ t :: m ++ t :: r) -> val t :=
  match l with
  | [] => fun v => field_after m (snd v)
  | _ :: l' => fun v => second_of l' (snd v)
  end.
Fixpoint exchange (l : list ty) {t : ty} {m r : list ty} : fields (l ++ t :: m ++ t :: r) -> fields (l ++ t :: m ++ t :: r) :=
  match l with
  | [] => fun v => (field_after m (snd v), put_after m (fst v) (snd v))
  | _ :: l' => fun v => (fst v, exchange l' (snd v))
  end.

(** A SetupConnection with min_version and max_version exchanged. *)
Definition versions_exchanged (m : setup_connection) : setup_connection :=
  mkSC (sc_max_version m) (sc_min_version m) (sc_flags m) (sc_endpoint_host m) (sc_endpoint_port m) (sc_vendor m)
       (sc_hardware_version m) (sc_firmware m) (sc_device_id m).

(** What the tests of mining::SetupConnection are given, macro_message/setup_connection.rs:166-199 with all flags of
    mining/setup_connection.rs. *)
Definition given_deserialized : setup_connection :=
  let str b := mkStr0 (len b) b in
  mkSC 2 2 7 (str [x30; x2e; x30; x2e; x30; x2e; x30]) 8545 (str [x42; x69; x74; x6d; x61; x69; x6e])
       (str [x53; x39; x69; x20; x31; x33; x2e; x35])
       (str [x62; x72; x61; x69; x69; x6e; x73; x2d; x6f; x73; x2d; x32; x30; x31; x38; x2d; x30; x39; x2d; x32; x32; x2d; x31;
             x2d; x68; x61; x73; x68])
       (str [x73; x6f; x6d; x65; x2d; x64; x65; x76; x69; x63; x65; x2d; x75; x75; x69; x64]).
Definition given_serialized : bytes :=
  [x02; x00; x02; x00; x07; x00; x00; x00;
   x07; x30; x2e; x30; x2e; x30; x2e; x30; x61; x21; x07; x42; x69; x74; x6d; x61; x69; x6e;
   x08; x53; x39; x69; x20; x31; x33; x2e; x35;
   x1c; x62; x72; x61; x69; x69; x6e; x73; x2d; x6f; x73; x2d; x32; x30; x31; x38; x2d; x30; x39; x2d; x32; x32; x2d; x31;
   x2d; x68; x61; x73; x68; x10; x73; x6f; x6d; x65; x2d; x64; x65; x76; x69; x63; x65; x2d; x75; x75; x69; x64].
