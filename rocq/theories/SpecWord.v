(** * SpecWord: byte slices on a 32-bit and on a 64-bit machine. *)
From Verif Require Import Base Word.

(** A Rust slice or Vec has at most isize::MAX bytes. *)
Definition slice_on (w : width) (bs : bytes) : Prop :=
  match w with W32 => len bs <= 2147483647 | W64 => len bs <= 9223372036854775807 end.
(** The first number that a usize cannot hold. *)
Definition usize_end (w : width) : N := match w with W32 => 4294967296 | W64 => 18446744073709551616 end.
