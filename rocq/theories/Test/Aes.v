(** AES-128 decryption of one block, FIPS-197, used only to run the repository's own tests of encrypted frames.
    The model takes the block cipher as a parameter ([aes_decrypt_block] in Model/Decrypt.v, [env_aes] in
    Model/Output.v), and every theorem about it holds for every block cipher.  Nothing here models code in /repo. *)
From Coq Require Import List NArith Bool.
Import ListNotations.
Open Scope N_scope.

Definition sbox : list N :=
  [99; 124; 119; 123; 242; 107; 111; 197; 48; 1; 103; 43; 254; 215; 171; 118;
   202; 130; 201; 125; 250; 89; 71; 240; 173; 212; 162; 175; 156; 164; 114; 192;
   183; 253; 147; 38; 54; 63; 247; 204; 52; 165; 229; 241; 113; 216; 49; 21;
   4; 199; 35; 195; 24; 150; 5; 154; 7; 18; 128; 226; 235; 39; 178; 117;
   9; 131; 44; 26; 27; 110; 90; 160; 82; 59; 214; 179; 41; 227; 47; 132;
   83; 209; 0; 237; 32; 252; 177; 91; 106; 203; 190; 57; 74; 76; 88; 207;
   208; 239; 170; 251; 67; 77; 51; 133; 69; 249; 2; 127; 80; 60; 159; 168;
   81; 163; 64; 143; 146; 157; 56; 245; 188; 182; 218; 33; 16; 255; 243; 210;
   205; 12; 19; 236; 95; 151; 68; 23; 196; 167; 126; 61; 100; 93; 25; 115;
   96; 129; 79; 220; 34; 42; 144; 136; 70; 238; 184; 20; 222; 94; 11; 219;
   224; 50; 58; 10; 73; 6; 36; 92; 194; 211; 172; 98; 145; 149; 228; 121;
   231; 200; 55; 109; 141; 213; 78; 169; 108; 86; 244; 234; 101; 122; 174; 8;
   186; 120; 37; 46; 28; 166; 180; 198; 232; 221; 116; 31; 75; 189; 139; 138;
   112; 62; 181; 102; 72; 3; 246; 14; 97; 53; 87; 185; 134; 193; 29; 158;
   225; 248; 152; 17; 105; 217; 142; 148; 155; 30; 135; 233; 206; 85; 40; 223;
   140; 161; 137; 13; 191; 230; 66; 104; 65; 153; 45; 15; 176; 84; 187; 22].
Definition sub (x : N) : N := nth (N.to_nat x) sbox 0.
Fixpoint index_of (x i : N) (l : list N) : N :=
  match l with [] => 0 | y :: l' => if x =? y then i else index_of x (i + 1) l' end.
Definition inv_sbox : list N := Eval vm_compute in map (fun n => index_of (N.of_nat n) 0 sbox) (seq 0 256).
Definition inv_sub (x : N) : N := nth (N.to_nat x) inv_sbox 0.

Definition xtime (a : N) : N := if a <? 128 then 2 * a else N.lxor (2 * a - 256) 0x1B.
Definition times (k a : N) : N :=
  let a2 := xtime a in let a4 := xtime a2 in let a8 := xtime a4 in
  N.lxor (if N.testbit k 0 then a else 0) (N.lxor (if N.testbit k 1 then a2 else 0)
    (N.lxor (if N.testbit k 2 then a4 else 0) (if N.testbit k 3 then a8 else 0))).
Definition xors (a b : list N) : list N := map (fun p => N.lxor (fst p) (snd p)) (combine a b).

(** the round keys, last one first *)
Fixpoint expand (rounds : nat) (rcon : N) (key : list N) (done : list (list N)) : list (list N) :=
  match rounds with
  | O => key :: done
  | S rounds' =>
      match key with
      | [a0; a1; a2; a3; b0; b1; b2; b3; c0; c1; c2; c3; d0; d1; d2; d3] =>
          let w0 := xors [a0; a1; a2; a3] [N.lxor (sub d1) rcon; sub d2; sub d3; sub d0] in
          let w1 := xors w0 [b0; b1; b2; b3] in
          let w2 := xors w1 [c0; c1; c2; c3] in
          let w3 := xors w2 [d0; d1; d2; d3] in
          expand rounds' (xtime rcon) (w0 ++ w1 ++ w2 ++ w3) (key :: done)
      | _ => []
      end
  end.

Definition inv_shift_rows (s : list N) : list N :=
  map (fun i => nth i s 0) [0; 13; 10; 7; 4; 1; 14; 11; 8; 5; 2; 15; 12; 9; 6; 3]%nat.
Definition inv_mix (c : list N) : list N :=
  match c with
  | [a; b; c; d] =>
      [N.lxor (N.lxor (times 14 a) (times 11 b)) (N.lxor (times 13 c) (times 9 d));
       N.lxor (N.lxor (times 9 a) (times 14 b)) (N.lxor (times 11 c) (times 13 d));
       N.lxor (N.lxor (times 13 a) (times 9 b)) (N.lxor (times 14 c) (times 11 d));
       N.lxor (N.lxor (times 11 a) (times 13 b)) (N.lxor (times 9 c) (times 14 d))]
  | _ => []
  end.
Definition inv_mix_columns (s : list N) : list N :=
  inv_mix (firstn 4 s) ++ inv_mix (firstn 4 (skipn 4 s)) ++ inv_mix (firstn 4 (skipn 8 s)) ++ inv_mix (firstn 4 (skipn 12 s)).
Fixpoint rounds (keys : list (list N)) (s : list N) : list N :=
  match keys with
  | [] => s
  | [k] => xors (map inv_sub (inv_shift_rows s)) k
  | k :: keys' => rounds keys' (inv_mix_columns (xors (map inv_sub (inv_shift_rows s)) k))
  end.
Definition aes128_decrypt (key block : list N) : list N :=
  match expand 10 1 key [] with
  | k :: keys => rounds keys (xors block k)
  | [] => []
  end.

(** FIPS-197, appendix C.1 *)
Example fips197 :
  aes128_decrypt [0; 1; 2; 3; 4; 5; 6; 7; 8; 9; 10; 11; 12; 13; 14; 15]
    [0x69; 0xC4; 0xE0; 0xD8; 0x6A; 0x7B; 0x04; 0x30; 0xD8; 0xCD; 0xB7; 0x80; 0x70; 0xB4; 0xC5; 0x5A]
  = [0; 0x11; 0x22; 0x33; 0x44; 0x55; 0x66; 0x77; 0x88; 0x99; 0xAA; 0xBB; 0xCC; 0xDD; 0xEE; 0xFF].
Proof. vm_compute. reflexivity. Qed.
