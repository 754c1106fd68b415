(** Published vectors and the layout of Poseidon.  The vectors are copied from the first entries of /repo/src/test_vectors/keys.rs ([tv_...]) and
    /repo/src/test_vectors/note_encryption.rs ([ne_...]). *)
From Coq Require Import ZArith List.
From Coq Require Import Init.Byte.
From Verif Require Import Prelude Fields PallasCurve Poseidon.
Import ListNotations.
Open Scope Z_scope.

Definition tv_sk : bytes := [x5d; x7a; x8f; x73; x9a; x2d; x9e; x94; x5b; x0c; xe1; x52; xa8; x04; x9e; x29; x4c; x4d; x6e; x66; xb1; x64; x93; x9d; xaf; xfa; x2e; xf6; xee; x69; x21; x48].
Definition tv_nk : bytes := [x9f; x2f; x82; x67; x38; x94; x5a; xd0; x1f; x47; xf7; x0d; xb0; xc3; x67; xc2; x46; xc2; x0c; x61; xff; x55; x83; x94; x8c; x39; xde; xa9; x68; xfe; xfd; x1b].
Definition tv_rivk : bytes := [x02; x1c; xcf; x89; x60; x4f; x5f; x7c; xc6; xe0; x34; xb3; x2d; x33; x89; x08; xb8; x19; xfb; xe3; x25; xfe; xe6; x45; x8b; x56; xb4; xca; x71; xa7; xe4; x3d].
Definition tv_dk : bytes := [x31; xd6; xa6; x85; xbe; x57; x0f; x9f; xaf; x3c; xa8; xb0; x52; xe8; x87; x84; x0b; x2c; x9f; x8d; x67; x22; x4c; xa8; x2a; xef; xb9; xe2; xee; x5b; xed; xaf].
Definition tv_default_d : bytes := [x8f; xf3; x38; x69; x71; xcb; x64; xb8; xe7; x78; x99].
Definition ne_ock : bytes := [x4e; x9d; x45; x94; x6b; x3e; xea; xe7; xfe; x30; x5d; x5b; x90; x50; x36; x14; x1f; x9f; x40; x09; xa6; x29; x4b; x96; xc7; x22; xa4; xa0; xbe; x68; x5d; xff].
Definition ne_op : bytes := [x63; xf7; x12; x5d; xf4; x83; x6f; xd2; x81; x6b; x02; x4e; xe7; x0e; xfe; x09; xfb; x9a; x7b; x38; x63; xc6; xea; xcd; xf9; x5e; x03; x89; x49; x50; x69; x2c; x56; x66; x9d; x64; x3f; x78; x0b; x6a; xd8; xb3; xd3; x5a; xd7; x46; x8a; xaa; x73; x27; x66; x57; x5f; x84; xa9; x5d; x20; xa6; x25; xff; x38; x77; xea; x3f].
Definition ne_c_out : bytes := [xcb; xdf; x68; xa5; x7f; xb4; xa4; x6f; x34; x60; xff; x22; x7b; xc6; x18; xda; xe1; x12; x29; x45; xb3; x80; xc7; xe5; x49; xcf; x4a; x6e; x8b; xf3; x75; x49; xba; xe1; x89; x1f; xd8; xd1; xa4; x94; x4f; xdf; x41; x0f; x07; x02; xed; xa5; x44; x2f; x0e; xa0; x1a; x5d; xf0; x12; xa0; xae; x4d; x84; xed; x79; x80; x33; x28; xbd; x1f; xd5; xfa; xc7; x19; x21; x6a; x77; x6d; xe6; x4f; xd1; x67; xdb].

(** Poseidon as the paper lays it out: every round adds its constants, applies x^5 to the whole state (a full
    round) or to its first word (a partial round), and mixes; four full rounds, 56 partial ones, four full ones. *)
Definition add_constants (s c : Z * Z * Z) : Z * Z * Z :=
  let '(x, y, z) := s in let '(a, b, d) := c in (fadd x a, fadd y b, fadd z d).
Definition full_round (s c : Z * Z * Z) : Z * Z * Z :=
  let '(x, y, z) := add_constants s c in poseidon_mix (pow5 x, pow5 y, pow5 z).
Definition partial_round (s c : Z * Z * Z) : Z * Z * Z :=
  let '(x, y, z) := add_constants s c in poseidon_mix (pow5 x, y, z).
Definition poseidon_spec (a b : Z) : Z :=
  let s := fold_left full_round (firstn 4 poseidon_rc) (a, b, 2 * 2 ^ 64) in
  let s := fold_left partial_round (firstn 56 (skipn 4 poseidon_rc)) s in
  let '(x, _, _) := fold_left full_round (skipn 60 poseidon_rc) s in x.
