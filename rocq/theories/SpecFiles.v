(** Vocabulary for system files. *)
From Coq Require Import List NArith ZArith Bool Lia.
From Verif Require Import Base Deku Utils Types Physical Link File SpecFail.
Import ListNotations.
Open Scope N_scope.

(** A string in a field of [n] bytes: cut off or filled up with NUL. *)
Definition field (n : nat) (s : list N) : list N := firstn n s ++ repeat 0 (n - length s).

(** File ids with a name of their own; the remaining ones share the names Rfu, D7AalpRfu and
    Other. *)
Definition named_file_ids : list N :=
  [0; 1; 2; 3; 4; 5; 6; 8; 9; 0xA; 0xB; 0xC; 0xD; 0xE; 0xF; 0x10; 0x11; 0x12; 0x13; 0x17; 0x18; 0x19;
   0x1B; 0x1C; 0x20; 0x21; 0x22; 0x23; 0x24; 0x25; 0x26; 0x27; 0x28; 0x29; 0x2A; 0x2B; 0x2C; 0x2D; 0x2E].
