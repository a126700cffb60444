(** * Text: code points and UTF-16 *)
From Coq Require Import ZArith List Bool Lia.
From Verif Require Import Py.
Import ListNotations.
Open Scope Z_scope.

(** the UTF-16 code units of a code point *)
Definition utf16 (c : Z) : list Z := if c <? 0x10000 then [c] else [0xD800 + (c - 0x10000) / 0x400; 0xDC00 + (c - 0x10000) mod 0x400].
(** and of a text *)
Definition utf16s (l : list Z) : list Z := flat_map utf16 l.
(** code points other than surrogates *)
Definition scalar (c : Z) : Prop := 0 <= c < 0xD800 \/ 0xE000 <= c <= 0x10FFFF.
