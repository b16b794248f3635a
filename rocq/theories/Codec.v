(** * Codec: ByteParser, deserializers, writers, serializers.  Definitions only. *)
From Verif Require Import Base.

(** ** Reading *)

(** Build profile: overflow checks on (debug) or off (release). *)
Inductive profile := Debug | Release.

Definition USIZE_MOD : N := 2 ^ 64.

(** [a + b] on usize (64-bit target): panics with overflow checks, wraps without. *)
Definition usize_add (pf : profile) (a b : N) : option N :=
  if a + b <? USIZE_MOD then Some (a + b)
  else match pf with Debug => None | Release => Some ((a + b) mod USIZE_MOD) end.

(** stratumv2/src/codec/parser.rs:6-14 [ByteParser], [ByteParser::new]. *)
Record parser := mkParser { p_bytes : bytes; p_start : N }.

(** [slice.get(s..e)]: None when s > e or e > len. *)
Definition slice_get (bs : bytes) (s e : N) : option bytes :=
  if (s <=? e) && (e <=? len bs)
  then Some (firstn (N.to_nat (e - s)) (skipn (N.to_nat s) bs))
  else None.

(** A Rust function [fn(&mut ByteParser) -> Result<A>]; the parser is returned on failure too. *)
Definition De (A : Type) : Type := profile -> parser -> parser * Result A.

Definition de_ret {A} (a : A) : De A := fun _ p => (p, Ok a).
Definition de_lift {A} (o : Result A) : De A := fun _ p => (p, o).
Definition de_bind {A B} (m : De A) (f : A -> De B) : De B :=
  fun pf p =>
    match m pf p with
    | (p', Ok a) => f a pf p'
    | (p', Err e) => (p', Err e)
    | (p', Panic) => (p', Panic)
    end.

Declare Scope de_scope.
Delimit Scope de_scope with de.
Notation "x <- m ;; k" := (de_bind m (fun x => k))
  (at level 61, m at next level, right associativity) : de_scope.

(** stratumv2/src/codec/parser.rs:16-26 [ByteParser::next_by]. *)
Definition next_by (step : N) : De bytes :=
  fun pf p =>
    match usize_add pf (p_start p) step with
    | None => (p, Panic)
    | Some offset =>
        match slice_get (p_bytes p) (p_start p) offset with
        | None => (p, Err ParseError)
        | Some b => (mkParser (p_bytes p) offset, Ok b)
        end
    end.

(** [array.clone_from_slice(src)] into a [k]-byte array: panics when the lengths differ. *)
Definition clone_from_slice (k : N) (src : bytes) : Result bytes :=
  if len src =? k then Ok src else Panic.

(** stratumv2/src/codec/deserialize.rs:12-15 [deserialize]. *)
Definition deserialize {A} (d : De A) (pf : profile) (bs : bytes) : Result A :=
  snd (d pf (mkParser bs 0)).

(** ** Writing *)

(** A serializer talks to its [io::Write] only through [write(buf)?]; it is modelled as the tree of
    such calls: the continuation gets the count returned by [write]. *)
Inductive wprog (A : Type) : Type :=
| WRet (r : Result A)
| WWrite (buf : bytes) (k : N -> wprog A).
Arguments WRet {A} _.
Arguments WWrite {A} _ _.

Fixpoint wbind {A B} (m : wprog A) (f : A -> wprog B) : wprog B :=
  match m with
  | WRet (Ok a) => f a
  | WRet (Err e) => WRet (Err e)
  | WRet Panic => WRet Panic
  | WWrite buf k => WWrite buf (fun n => wbind (k n) f)
  end.

Declare Scope ser_scope.
Delimit Scope ser_scope with ser.
Notation "x <- m ;; k" := (wbind m (fun x => k))
  (at level 61, m at next level, right associativity) : ser_scope.

Definition wok {A} (a : A) : wprog A := WRet (Ok a).
Definition wwrite (buf : bytes) : wprog N := WWrite buf (fun n => wok n).

(** An [io::Write] implementation: state and [write]; [None] is [Err(io::Error)], [Some n] is [Ok(n)]. *)
Definition writer (W : Type) : Type := W -> bytes -> W * option N.

(** Run a serializer against a writer; a failing [write] aborts with IOError
    ([?] with [From<io::Error>], stratumv2/src/error.rs:12-13). *)
Fixpoint run {W A} (wr : writer W) (m : wprog A) (w : W) : W * Result A :=
  match m with
  | WRet r => (w, r)
  | WWrite buf k =>
      match wr w buf with
      | (w', Some n) => run wr (k n) w'
      | (w', None) => (w', Err IOError)
      end
  end.

(** [impl io::Write for Vec<u8>]: takes everything, never fails. *)
Definition vec_writer : writer bytes := fun w buf => (w ++ buf, Some (len buf)).

(** stratumv2/src/codec/serialize.rs:12-17 [serialize]. *)
Definition serialize (m : wprog N) : Result bytes :=
  match run vec_writer m [] with
  | (w, Ok _) => Ok w
  | (_, Err e) => Err e
  | (_, Panic) => Panic
  end.
