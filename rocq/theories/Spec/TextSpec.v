(** * Specification vocabulary for texts, lines and columns (no parser definitions used) *)
From Coq Require Import ZArith List Bool.
From Verif.Model Require Import Str.
Import ListNotations.
Local Open Scope Z_scope.

(** A text is its lines joined by newlines (10). *)
Fixpoint join (ps : list str) : str :=
  match ps with
  | [] => []
  | [p] => p
  | p :: qs => p ++ 10 :: join qs
  end.
Definition one_line (p : str) : Prop := ~ In 10 p.

(** The Unicode White_Space characters: tab to carriage return, space, next line, no-break space, ogham space mark,
    en quad to hair space, line and paragraph separator, narrow no-break space, medium mathematical space,
    ideographic space. *)
Definition white_space : list Z :=
  [9; 10; 11; 12; 13; 32; 133; 160; 5760; 8192; 8193; 8194; 8195; 8196; 8197; 8198; 8199; 8200; 8201; 8202; 8232; 8233; 8239; 8287; 12288].
Definition white (c : Z) : bool := existsb (Z.eqb c) white_space.
(** Blank: white space only. *)
Definition blank (p : str) : bool := forallb white p.
(** The lines that count. *)
Definition content (ps : list str) : list str := filter (fun p => negb (blank p)) ps.

(** The UTF-8 encoding of a character, and of a text. *)
Definition utf8 (c : Z) : list Z :=
  if c <? 128 then [c]
  else if c <? 2048 then [192 + c / 64; 128 + c mod 64]
  else if c <? 65536 then [224 + c / 4096; 128 + c / 64 mod 64; 128 + c mod 64]
  else [240 + c / 262144; 128 + c / 4096 mod 64; 128 + c / 64 mod 64; 128 + c mod 64].
Definition encoded (p : str) : list Z := flat_map utf8 p.

(** Bytes [lo..hi) of a line are exactly [x]: what lies before is [lo] bytes long, UTF-8 encoded. *)
Definition columns (line : str) (lo hi : nat) (x : str) : Prop :=
  exists p q, line = p ++ x ++ q /\ blen p = lo /\ (blen p + blen x)%nat = hi.
(** Two lines carry the same thing in columns [lo..hi) (possibly: neither has these columns). *)
Definition same_columns (lo hi : nat) (a b : str) : Prop :=
  forall x, columns a lo hi x <-> columns b lo hi x.
(** plain ASCII *)
Definition ascii (p : str) : Prop := forall c, In c p -> 0 <= c < 128.
