(** src/constants/sinsemilla.rs:29-62 and src/constants/fixed_bases/*.rs: the generators the crate
    hard-codes, as the byte arrays of the source. *)
From Coq Require Import ZArith List.
Import ListNotations.
Open Scope Z_scope.

(** Little-endian value of a Rust [u8; 32] constant. *)
Fixpoint le_const (l : list Z) : Z :=
  match l with [] => 0 | b :: l' => b + 256 * le_const l' end.

(** src/constants/sinsemilla.rs:29-38. *)
Definition q_note_commit_m : Z * Z :=
  (le_const [93; 116; 168; 64; 9; 186; 14; 50; 42; 221; 70; 253; 90; 15; 150; 197; 93; 237; 176; 121; 180; 242; 159; 247; 13; 205; 251; 86; 160; 7; 128; 23],
   le_const [99; 172; 73; 115; 90; 10; 39; 135; 158; 94; 219; 129; 136; 18; 34; 136; 44; 201; 244; 110; 217; 194; 190; 78; 131; 112; 198; 138; 147; 88; 160; 50]).

(** src/constants/sinsemilla.rs:41-50. *)
Definition q_commit_ivk_m : Z * Z :=
  (le_const [242; 130; 15; 121; 146; 47; 203; 107; 50; 162; 40; 81; 36; 204; 27; 66; 250; 65; 162; 90; 184; 129; 204; 125; 17; 200; 169; 74; 241; 12; 188; 5],
   le_const [190; 222; 173; 207; 206; 229; 90; 190; 241; 165; 109; 201; 29; 53; 196; 70; 75; 5; 222; 32; 70; 7; 89; 239; 230; 190; 26; 212; 246; 76; 1; 27]).

(** src/constants/sinsemilla.rs:53-62. *)
Definition q_merkle_crh : Z * Z :=
  (le_const [160; 198; 41; 127; 249; 199; 185; 248; 112; 16; 141; 192; 85; 185; 190; 201; 153; 14; 137; 239; 90; 54; 15; 160; 185; 24; 168; 99; 150; 210; 22; 22],
   le_const [98; 234; 242; 37; 206; 174; 233; 134; 150; 21; 116; 5; 234; 150; 28; 226; 121; 89; 163; 79; 62; 242; 196; 45; 153; 32; 175; 227; 163; 66; 134; 53]).

(** src/constants/fixed_bases/commit_ivk_r.rs:5-14. *)
Definition gen_commit_ivk_r : Z * Z :=
  (le_const [24; 161; 248; 95; 110; 72; 35; 152; 199; 237; 26; 211; 226; 127; 149; 2; 72; 137; 128; 64; 10; 41; 52; 22; 78; 19; 112; 80; 205; 44; 162; 37],
   le_const [169; 221; 127; 227; 179; 147; 231; 63; 199; 166; 88; 27; 251; 66; 68; 107; 148; 87; 75; 40; 196; 144; 200; 194; 235; 250; 162; 102; 153; 210; 207; 41]).

(** src/constants/fixed_bases/note_commit_r.rs:5-14. *)
Definition gen_note_commit_r : Z * Z :=
  (le_const [19; 110; 252; 15; 72; 44; 2; 44; 124; 164; 20; 252; 92; 197; 158; 35; 242; 61; 111; 147; 171; 159; 35; 205; 51; 69; 169; 40; 195; 6; 178; 38],
   le_const [227; 55; 207; 34; 198; 83; 65; 195; 246; 220; 224; 35; 120; 192; 199; 121; 198; 225; 102; 35; 47; 26; 84; 169; 76; 192; 109; 104; 75; 86; 222; 60]).

(** src/constants/fixed_bases/nullifier_k.rs:5-14. *)
Definition gen_nullifier_k : Z * Z :=
  (le_const [117; 202; 71; 228; 167; 106; 111; 211; 155; 219; 181; 204; 146; 177; 126; 94; 207; 201; 244; 250; 113; 85; 55; 46; 141; 25; 168; 156; 22; 170; 231; 37],
   le_const [204; 1; 224; 26; 226; 220; 184; 45; 51; 180; 193; 193; 158; 164; 224; 95; 117; 255; 8; 32; 68; 115; 4; 136; 132; 51; 26; 27; 133; 31; 92; 21]).

(** src/constants/fixed_bases/spend_auth_g.rs:5-14. *)
Definition gen_spend_auth_g : Z * Z :=
  (le_const [99; 201; 117; 184; 132; 114; 26; 141; 12; 161; 112; 123; 227; 12; 127; 12; 95; 68; 95; 62; 124; 24; 141; 59; 6; 214; 241; 40; 179; 35; 85; 55],
   le_const [201; 59; 12; 123; 129; 62; 227; 76; 216; 189; 5; 192; 254; 20; 201; 223; 251; 36; 214; 254; 252; 188; 16; 123; 219; 102; 26; 223; 127; 53; 208; 26]).

(** src/constants/fixed_bases/value_commit_r.rs:6-15. *)
Definition gen_value_commit_r : Z * Z :=
  (le_const [145; 90; 60; 136; 104; 198; 195; 14; 47; 128; 144; 238; 69; 215; 110; 64; 72; 32; 141; 234; 91; 35; 102; 79; 187; 9; 164; 15; 85; 68; 244; 7],
   le_const [202; 217; 114; 167; 200; 70; 47; 14; 70; 129; 146; 243; 241; 41; 146; 39; 194; 183; 111; 228; 201; 44; 86; 33; 140; 98; 38; 175; 119; 103; 19; 36]).

(** src/constants/fixed_bases/value_commit_v.rs:6-15. *)
Definition gen_value_commit_v : Z * Z :=
  (le_const [103; 67; 249; 58; 110; 189; 167; 42; 140; 124; 90; 43; 127; 163; 4; 254; 50; 178; 155; 79; 112; 106; 168; 247; 66; 15; 61; 142; 122; 89; 112; 47],
   le_const [142; 242; 90; 175; 126; 196; 19; 164; 219; 227; 255; 167; 102; 167; 158; 29; 66; 108; 109; 19; 99; 127; 145; 30; 175; 25; 25; 49; 105; 81; 14; 45]).

Definition hard_coded_points : list (Z * Z) :=
  [q_note_commit_m; q_commit_ivk_m; q_merkle_crh; gen_commit_ivk_r; gen_note_commit_r; gen_nullifier_k; gen_spend_auth_g; gen_value_commit_r; gen_value_commit_v].
