(** * SpecSum: numbers reported by a machine of 32 or 64 bits. *)
From Verif Require Import Base Codec Word SpecWord.

(** What becomes of a sum: kept if a usize can hold it; else a panic with overflow checks, and the low bits without. *)
Definition shown (w : width) (pf : profile) (n : N) : Result N :=
  if n <? usize_end w then Ok n
  else match pf with Debug => Panic | Release => Ok (n mod usize_end w) end.

(** The contract of io::Write: a call that succeeds reports at most what it was offered. *)
Definition honest {W} (wr : writer W) : Prop := forall w buf w' n, wr w buf = (w', Some n) -> n <= len buf.

(** The counts are numbers of type usize. *)
Definition usize_counts (w : width) {W} (wr : writer W) : Prop := forall st buf st' n, wr st buf = (st', Some n) -> n < usize_end w.
