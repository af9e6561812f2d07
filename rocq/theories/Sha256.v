(** SHA-256 (FIPS 180-4), the function computed by crate sha2 behind
    tools.rs:142-146 [hash], merkletree.rs:60 and every other [Sha256] use in
    the repository.  The repository calls an external crate; this file models
    its documented input/output behaviour.  Model file: definitions, plus
    standard test vectors as checks. *)
From Verif Require Import Base.

Definition mask32 : N := 4294967295.
Definition w32 (x : N) : N := N.land x mask32.
Definition rotr (x n : N) : N := N.lor (N.shiftr x n) (w32 (N.shiftl x (32 - n))).
Definition not32 (x : N) : N := N.lxor x mask32.
Definition ch (x y z : N) := N.lxor (N.land x y) (N.land (not32 x) z).
Definition maj (x y z : N) := N.lxor (N.lxor (N.land x y) (N.land x z)) (N.land y z).
Definition bsig0 x := N.lxor (N.lxor (rotr x 2) (rotr x 13)) (rotr x 22).
Definition bsig1 x := N.lxor (N.lxor (rotr x 6) (rotr x 11)) (rotr x 25).
Definition ssig0 x := N.lxor (N.lxor (rotr x 7) (rotr x 18)) (N.shiftr x 3).
Definition ssig1 x := N.lxor (N.lxor (rotr x 17) (rotr x 19)) (N.shiftr x 10).

Definition sha_k : list N :=
  [1116352408; 1899447441; 3049323471; 3921009573; 961987163; 1508970993; 2453635748; 2870763221;
   3624381080; 310598401; 607225278; 1426881987; 1925078388; 2162078206; 2614888103; 3248222580;
   3835390401; 4022224774; 264347078; 604807628; 770255983; 1249150122; 1555081692; 1996064986;
   2554220882; 2821834349; 2952996808; 3210313671; 3336571891; 3584528711; 113926993; 338241895;
   666307205; 773529912; 1294757372; 1396182291; 1695183700; 1986661051; 2177026350; 2456956037;
   2730485921; 2820302411; 3259730800; 3345764771; 3516065817; 3600352804; 4094571909; 275423344;
   430227734; 506948616; 659060556; 883997877; 958139571; 1322822218; 1537002063; 1747873779;
   1955562222; 2024104815; 2227730452; 2361852424; 2428436474; 2756734187; 3204031479; 3329325298].

Definition sha_iv : list N :=
  [1779033703; 3144134277; 1013904242; 2773480762; 1359893119; 2600822924; 528734635; 1541459225].

(** Message schedule: most recent word first. *)
Fixpoint expand (n : nat) (r : list N) : list N :=
  match n with
  | O => r
  | S k =>
      let w := w32 (ssig1 (nth 1 r 0) + nth 6 r 0 + ssig0 (nth 14 r 0) + nth 15 r 0) in
      expand k (w :: r)
  end.

Fixpoint words_of (l : bytes) : list N :=
  match l with
  | a :: b :: c :: d :: t => from_be [a; b; c; d] :: words_of t
  | _ => []
  end.

Record st8 := St8 { sa : N; sb : N; sc : N; sd : N; se : N; sf : N; sg : N; sh : N }.

Definition round (s : st8) (kw : N * N) : st8 :=
  let t1 := sh s + bsig1 (se s) + ch (se s) (sf s) (sg s) + fst kw + snd kw in
  let t2 := bsig0 (sa s) + maj (sa s) (sb s) (sc s) in
  St8 (w32 (t1 + t2)) (sa s) (sb s) (sc s) (w32 (sd s + t1)) (se s) (sf s) (sg s).

Definition compress (h : st8) (block : bytes) : st8 :=
  let w := rev (expand 48 (rev (words_of block))) in
  let s := fold_left round (combine sha_k w) h in
  St8 (w32 (sa h + sa s)) (w32 (sb h + sb s)) (w32 (sc h + sc s)) (w32 (sd h + sd s))
      (w32 (se h + se s)) (w32 (sf h + sf s)) (w32 (sg h + sg s)) (w32 (sh h + sh s)).

Definition sha_pad (m : bytes) : bytes :=
  let len := N.of_nat (length m) in
  let k := (119 - len mod 64) mod 64 in
  m ++ [128] ++ repeat 0 (N.to_nat k) ++ to_be 8 (8 * len).

Fixpoint blocks (fuel : nat) (m : bytes) (h : st8) : st8 :=
  match fuel with
  | O => h
  | S f => match m with
           | [] => h
           | _ => blocks f (skipn 64 m) (compress h (firstn 64 m))
           end
  end.

Definition sha_init : st8 :=
  St8 (nth 0 sha_iv 0) (nth 1 sha_iv 0) (nth 2 sha_iv 0) (nth 3 sha_iv 0)
      (nth 4 sha_iv 0) (nth 5 sha_iv 0) (nth 6 sha_iv 0) (nth 7 sha_iv 0).

(** tools.rs:142-146 [hash] *)
Definition sha256 (m : bytes) : bytes :=
  let p := sha_pad m in
  let s := blocks (length p) p sha_init in
  to_be 4 (sa s) ++ to_be 4 (sb s) ++ to_be 4 (sc s) ++ to_be 4 (sd s) ++
  to_be 4 (se s) ++ to_be 4 (sf s) ++ to_be 4 (sg s) ++ to_be 4 (sh s).

Example sha256_empty : sha256 [] =
  [227; 176; 196; 66; 152; 252; 28; 20; 154; 251; 244; 200; 153; 111; 185; 36; 39; 174; 65; 228; 100; 155; 147; 76; 164; 149; 153; 27; 120; 82; 184; 85].
Proof. vm_compute. reflexivity. Qed.
Example sha256_abc : sha256 [97; 98; 99] =
  [186; 120; 22; 191; 143; 1; 207; 234; 65; 65; 64; 222; 93; 174; 34; 35; 176; 3; 97; 163; 150; 23; 122; 156; 180; 16; 255; 97; 242; 0; 21; 173].
Proof. vm_compute. reflexivity. Qed.
Example sha256_56 : sha256 [97; 98; 99; 100; 98; 99; 100; 101; 99; 100; 101; 102; 100; 101; 102; 103; 101; 102; 103; 104; 102; 103; 104; 105; 103; 104; 105; 106; 104; 105; 106; 107; 105; 106; 107; 108; 106; 107; 108; 109; 107; 108; 109; 110; 108; 109; 110; 111; 109; 110; 111; 112; 110; 111; 112; 113] =
  [36; 141; 106; 97; 210; 6; 56; 184; 229; 192; 38; 147; 12; 62; 96; 57; 163; 60; 228; 89; 100; 255; 33; 103; 246; 236; 237; 212; 25; 219; 6; 193].
Proof. vm_compute. reflexivity. Qed.
Example sha256_55 : sha256 [0; 1; 2; 3; 4; 5; 6; 7; 8; 9; 10; 11; 12; 13; 14; 15; 16; 17; 18; 19; 20; 21; 22; 23; 24; 25; 26; 27; 28; 29; 30; 31; 32; 33; 34; 35; 36; 37; 38; 39; 40; 41; 42; 43; 44; 45; 46; 47; 48; 49; 50; 51; 52; 53; 54] =
  [70; 62; 178; 142; 114; 248; 46; 10; 150; 192; 164; 204; 83; 105; 12; 87; 18; 129; 19; 31; 103; 42; 162; 41; 224; 212; 90; 229; 155; 89; 139; 89].
Proof. vm_compute. reflexivity. Qed.
Example sha256_63 : sha256 [0; 1; 2; 3; 4; 5; 6; 7; 8; 9; 10; 11; 12; 13; 14; 15; 16; 17; 18; 19; 20; 21; 22; 23; 24; 25; 26; 27; 28; 29; 30; 31; 32; 33; 34; 35; 36; 37; 38; 39; 40; 41; 42; 43; 44; 45; 46; 47; 48; 49; 50; 51; 52; 53; 54; 55; 56; 57; 58; 59; 60; 61; 62] =
  [41; 175; 38; 134; 253; 83; 55; 74; 54; 176; 132; 102; 148; 204; 52; 33; 119; 228; 40; 209; 100; 117; 21; 240; 120; 120; 77; 105; 205; 185; 228; 136].
Proof. vm_compute. reflexivity. Qed.
Example sha256_64 : sha256 [0; 1; 2; 3; 4; 5; 6; 7; 8; 9; 10; 11; 12; 13; 14; 15; 16; 17; 18; 19; 20; 21; 22; 23; 24; 25; 26; 27; 28; 29; 30; 31; 32; 33; 34; 35; 36; 37; 38; 39; 40; 41; 42; 43; 44; 45; 46; 47; 48; 49; 50; 51; 52; 53; 54; 55; 56; 57; 58; 59; 60; 61; 62; 63] =
  [253; 234; 185; 172; 243; 113; 3; 98; 189; 38; 88; 205; 201; 162; 158; 143; 156; 117; 127; 207; 152; 17; 96; 58; 140; 68; 124; 209; 217; 21; 17; 8].
Proof. vm_compute. reflexivity. Qed.
Example sha256_119 : sha256 [0; 1; 2; 3; 4; 5; 6; 7; 8; 9; 10; 11; 12; 13; 14; 15; 16; 17; 18; 19; 20; 21; 22; 23; 24; 25; 26; 27; 28; 29; 30; 31; 32; 33; 34; 35; 36; 37; 38; 39; 40; 41; 42; 43; 44; 45; 46; 47; 48; 49; 50; 51; 52; 53; 54; 55; 56; 57; 58; 59; 60; 61; 62; 63; 64; 65; 66; 67; 68; 69; 70; 71; 72; 73; 74; 75; 76; 77; 78; 79; 80; 81; 82; 83; 84; 85; 86; 87; 88; 89; 90; 91; 92; 93; 94; 95; 96; 97; 98; 99; 100; 101; 102; 103; 104; 105; 106; 107; 108; 109; 110; 111; 112; 113; 114; 115; 116; 117; 118] =
  [218; 24; 121; 126; 215; 195; 167; 119; 240; 132; 127; 66; 151; 36; 162; 216; 205; 81; 56; 230; 237; 40; 149; 195; 250; 26; 109; 57; 209; 143; 126; 198].
Proof. vm_compute. reflexivity. Qed.
Example sha256_120 : sha256 [0; 1; 2; 3; 4; 5; 6; 7; 8; 9; 10; 11; 12; 13; 14; 15; 16; 17; 18; 19; 20; 21; 22; 23; 24; 25; 26; 27; 28; 29; 30; 31; 32; 33; 34; 35; 36; 37; 38; 39; 40; 41; 42; 43; 44; 45; 46; 47; 48; 49; 50; 51; 52; 53; 54; 55; 56; 57; 58; 59; 60; 61; 62; 63; 64; 65; 66; 67; 68; 69; 70; 71; 72; 73; 74; 75; 76; 77; 78; 79; 80; 81; 82; 83; 84; 85; 86; 87; 88; 89; 90; 91; 92; 93; 94; 95; 96; 97; 98; 99; 100; 101; 102; 103; 104; 105; 106; 107; 108; 109; 110; 111; 112; 113; 114; 115; 116; 117; 118; 119] =
  [245; 43; 35; 219; 31; 187; 109; 237; 137; 239; 66; 162; 60; 224; 200; 146; 44; 69; 242; 92; 80; 181; 104; 169; 59; 241; 192; 117; 66; 11; 187; 124].
Proof. vm_compute. reflexivity. Qed.
Example sha256_200 : sha256 [3; 10; 17; 24; 31; 38; 45; 52; 59; 66; 73; 80; 87; 94; 101; 108; 115; 122; 129; 136; 143; 150; 157; 164; 171; 178; 185; 192; 199; 206; 213; 220; 227; 234; 241; 248; 255; 6; 13; 20; 27; 34; 41; 48; 55; 62; 69; 76; 83; 90; 97; 104; 111; 118; 125; 132; 139; 146; 153; 160; 167; 174; 181; 188; 195; 202; 209; 216; 223; 230; 237; 244; 251; 2; 9; 16; 23; 30; 37; 44; 51; 58; 65; 72; 79; 86; 93; 100; 107; 114; 121; 128; 135; 142; 149; 156; 163; 170; 177; 184; 191; 198; 205; 212; 219; 226; 233; 240; 247; 254; 5; 12; 19; 26; 33; 40; 47; 54; 61; 68; 75; 82; 89; 96; 103; 110; 117; 124; 131; 138; 145; 152; 159; 166; 173; 180; 187; 194; 201; 208; 215; 222; 229; 236; 243; 250; 1; 8; 15; 22; 29; 36; 43; 50; 57; 64; 71; 78; 85; 92; 99; 106; 113; 120; 127; 134; 141; 148; 155; 162; 169; 176; 183; 190; 197; 204; 211; 218; 225; 232; 239; 246; 253; 4; 11; 18; 25; 32; 39; 46; 53; 60; 67; 74; 81; 88; 95; 102; 109; 116] =
  [44; 126; 24; 201; 66; 239; 6; 91; 82; 106; 45; 78; 85; 70; 40; 55; 73; 205; 61; 223; 181; 29; 143; 199; 31; 66; 113; 115; 99; 104; 95; 70].
Proof. vm_compute. reflexivity. Qed.
