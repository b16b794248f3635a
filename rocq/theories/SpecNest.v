(** * SpecNest: nested messages on the wire.

    Nothing here refers to the parser, the encoders or the decoders of the model. *)
From Verif Require Import Base Types Messages Frame Catalog SpecWire SpecTypes SpecDecode Macro SpecMacro SpecPieces Nest.

(** A value that the constructors can build. *)
Fixpoint shape_ok {A} (s : shape A) : A -> Prop :=
  match s with
  | S_lib t => ok t
  | S_msg fs open new => fun m => shapes_ok fs (open m) /\ new (open m) = Ok m
  end
with shapes_ok {F} (fs : shapes F) : F -> Prop :=
  match fs with
  | S_nil => fun _ => True
  | S_cons s fs' => fun v => shape_ok s (fst v) /\ shapes_ok fs' (snd v)
  end.

(** The images of the innermost fields, one after the other: the nesting leaves no trace. *)
Fixpoint shape_lay {A} (s : shape A) : A -> list N :=
  match s with
  | S_lib t => lay t
  | S_msg fs open _ => fun m => shapes_lay fs (open m)
  end
with shapes_lay {F} (fs : shapes F) : F -> list N :=
  match fs with
  | S_nil => fun _ => []
  | S_cons s fs' => fun v => shape_lay s (fst v) ++ shapes_lay fs' (snd v)
  end.

(** Constructors that do not panic and store what they are given, at every level. *)
Fixpoint storing {A} (s : shape A) : Prop :=
  match s with
  | S_lib _ => True
  | S_msg fs open new => all_storing fs /\
      forall v, shapes_ok fs v -> new v <> Panic /\ forall m, new v = Ok m -> open m = v
  end
with all_storing {F} (fs : shapes F) : Prop :=
  match fs with
  | S_nil => True
  | S_cons s fs' => storing s /\ all_storing fs'
  end.

(** No constructor answers ParseError itself. *)
Fixpoint no_parse_error {A} (s : shape A) : Prop :=
  match s with
  | S_lib _ => True
  | S_msg fs open new => all_no_parse_error fs /\ forall v, shapes_ok fs v -> new v <> Err ParseError
  end
with all_no_parse_error {F} (fs : shapes F) : Prop :=
  match fs with
  | S_nil => True
  | S_cons s fs' => no_parse_error s /\ all_no_parse_error fs'
  end.

(** [bool] occurs nowhere (255 bytes other than 0 and 1 read as a bool too). *)
Fixpoint no_bool {A} (s : shape A) : Prop :=
  match s with
  | S_lib t => t <> T_bool
  | S_msg fs _ _ => all_no_bool fs
  end
with all_no_bool {F} (fs : shapes F) : Prop :=
  match fs with
  | S_nil => True
  | S_cons s fs' => no_bool s /\ all_no_bool fs'
  end.

(** What the bytes in front of the reader give: the first error, inner errors before outer ones. *)
Fixpoint shape_reading {A} (s : shape A) : reading A :=
  match s with
  | S_lib t => reading_ty t
  | S_msg fs _ new => next (shapes_reading fs) (fun v rest r =>
      r = match new v with Ok m => Ok (m, rest) | Err e => Err e | Panic => Panic end)
  end
with shapes_reading {F} (fs : shapes F) : reading F :=
  match fs with
  | S_nil => gives tt
  | S_cons s fs' => next (shape_reading s) (fun x => next (shapes_reading fs') (fun xs => gives (x, xs)))
  end.

Fixpoint shape_enough {A} (s : shape A) : N :=
  match s with
  | S_lib t => enough_for t
  | S_msg fs _ _ => shapes_enough fs
  end
with shapes_enough {F} (fs : shapes F) : N :=
  match fs with
  | S_nil => 0
  | S_cons s fs' => shape_enough s + shapes_enough fs'
  end.

(** The shape of a list of wire types. *)
Fixpoint flat (ts : list ty) : shapes (fields ts) :=
  match ts return shapes (fields ts) with
  | [] => S_nil
  | t :: ts' => S_cons (S_lib t) (flat ts')
  end.
