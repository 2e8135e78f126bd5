(** The straight-line limb arithmetic of src/curve25519.rs and of
    [assign_twice_square] in src/ed25519.rs, statement by statement. *)
From Verif Require Import Base M_Slp.

(** Names of the local variables of the Rust functions. *)
Local Notation f0 := 1%positive.
Local Notation f1 := 2%positive.
Local Notation f2 := 3%positive.
Local Notation f3 := 4%positive.
Local Notation f4 := 5%positive.
Local Notation f5 := 6%positive.
Local Notation f6 := 7%positive.
Local Notation f7 := 8%positive.
Local Notation f8 := 9%positive.
Local Notation f9 := 10%positive.
Local Notation g0 := 11%positive.
Local Notation g1 := 12%positive.
Local Notation g2 := 13%positive.
Local Notation g3 := 14%positive.
Local Notation g4 := 15%positive.
Local Notation g5 := 16%positive.
Local Notation g6 := 17%positive.
Local Notation g7 := 18%positive.
Local Notation g8 := 19%positive.
Local Notation g9 := 20%positive.
Local Notation g1_19 := 21%positive.
Local Notation g2_19 := 22%positive.
Local Notation g3_19 := 23%positive.
Local Notation g4_19 := 24%positive.
Local Notation g5_19 := 25%positive.
Local Notation g6_19 := 26%positive.
Local Notation g7_19 := 27%positive.
Local Notation g8_19 := 28%positive.
Local Notation g9_19 := 29%positive.
Local Notation f1_2 := 30%positive.
Local Notation f3_2 := 31%positive.
Local Notation f5_2 := 32%positive.
Local Notation f7_2 := 33%positive.
Local Notation f9_2 := 34%positive.
Local Notation f0g0 := 35%positive.
Local Notation f0g1 := 36%positive.
Local Notation f0g2 := 37%positive.
Local Notation f0g3 := 38%positive.
Local Notation f0g4 := 39%positive.
Local Notation f0g5 := 40%positive.
Local Notation f0g6 := 41%positive.
Local Notation f0g7 := 42%positive.
Local Notation f0g8 := 43%positive.
Local Notation f0g9 := 44%positive.
Local Notation f1g0 := 45%positive.
Local Notation f1g1_2 := 46%positive.
Local Notation f1g2 := 47%positive.
Local Notation f1g3_2 := 48%positive.
Local Notation f1g4 := 49%positive.
Local Notation f1g5_2 := 50%positive.
Local Notation f1g6 := 51%positive.
Local Notation f1g7_2 := 52%positive.
Local Notation f1g8 := 53%positive.
Local Notation f1g9_38 := 54%positive.
Local Notation f2g0 := 55%positive.
Local Notation f2g1 := 56%positive.
Local Notation f2g2 := 57%positive.
Local Notation f2g3 := 58%positive.
Local Notation f2g4 := 59%positive.
Local Notation f2g5 := 60%positive.
Local Notation f2g6 := 61%positive.
Local Notation f2g7 := 62%positive.
Local Notation f2g8_19 := 63%positive.
Local Notation f2g9_19 := 64%positive.
Local Notation f3g0 := 65%positive.
Local Notation f3g1_2 := 66%positive.
Local Notation f3g2 := 67%positive.
Local Notation f3g3_2 := 68%positive.
Local Notation f3g4 := 69%positive.
Local Notation f3g5_2 := 70%positive.
Local Notation f3g6 := 71%positive.
Local Notation f3g7_38 := 72%positive.
Local Notation f3g8_19 := 73%positive.
Local Notation f3g9_38 := 74%positive.
Local Notation f4g0 := 75%positive.
Local Notation f4g1 := 76%positive.
Local Notation f4g2 := 77%positive.
Local Notation f4g3 := 78%positive.
Local Notation f4g4 := 79%positive.
Local Notation f4g5 := 80%positive.
Local Notation f4g6_19 := 81%positive.
Local Notation f4g7_19 := 82%positive.
Local Notation f4g8_19 := 83%positive.
Local Notation f4g9_19 := 84%positive.
Local Notation f5g0 := 85%positive.
Local Notation f5g1_2 := 86%positive.
Local Notation f5g2 := 87%positive.
Local Notation f5g3_2 := 88%positive.
Local Notation f5g4 := 89%positive.
Local Notation f5g5_38 := 90%positive.
Local Notation f5g6_19 := 91%positive.
Local Notation f5g7_38 := 92%positive.
Local Notation f5g8_19 := 93%positive.
Local Notation f5g9_38 := 94%positive.
Local Notation f6g0 := 95%positive.
Local Notation f6g1 := 96%positive.
Local Notation f6g2 := 97%positive.
Local Notation f6g3 := 98%positive.
Local Notation f6g4_19 := 99%positive.
Local Notation f6g5_19 := 100%positive.
Local Notation f6g6_19 := 101%positive.
Local Notation f6g7_19 := 102%positive.
Local Notation f6g8_19 := 103%positive.
Local Notation f6g9_19 := 104%positive.
Local Notation f7g0 := 105%positive.
Local Notation f7g1_2 := 106%positive.
Local Notation f7g2 := 107%positive.
Local Notation f7g3_38 := 108%positive.
Local Notation f7g4_19 := 109%positive.
Local Notation f7g5_38 := 110%positive.
Local Notation f7g6_19 := 111%positive.
Local Notation f7g7_38 := 112%positive.
Local Notation f7g8_19 := 113%positive.
Local Notation f7g9_38 := 114%positive.
Local Notation f8g0 := 115%positive.
Local Notation f8g1 := 116%positive.
Local Notation f8g2_19 := 117%positive.
Local Notation f8g3_19 := 118%positive.
Local Notation f8g4_19 := 119%positive.
Local Notation f8g5_19 := 120%positive.
Local Notation f8g6_19 := 121%positive.
Local Notation f8g7_19 := 122%positive.
Local Notation f8g8_19 := 123%positive.
Local Notation f8g9_19 := 124%positive.
Local Notation f9g0 := 125%positive.
Local Notation f9g1_38 := 126%positive.
Local Notation f9g2_19 := 127%positive.
Local Notation f9g3_38 := 128%positive.
Local Notation f9g4_19 := 129%positive.
Local Notation f9g5_38 := 130%positive.
Local Notation f9g6_19 := 131%positive.
Local Notation f9g7_38 := 132%positive.
Local Notation f9g8_19 := 133%positive.
Local Notation f9g9_38 := 134%positive.
Local Notation h0 := 135%positive.
Local Notation h1 := 136%positive.
Local Notation h2 := 137%positive.
Local Notation h3 := 138%positive.
Local Notation h4 := 139%positive.
Local Notation h5 := 140%positive.
Local Notation h6 := 141%positive.
Local Notation h7 := 142%positive.
Local Notation h8 := 143%positive.
Local Notation h9 := 144%positive.
Local Notation carry0 := 145%positive.
Local Notation carry4 := 146%positive.
Local Notation carry1 := 147%positive.
Local Notation carry5 := 148%positive.
Local Notation carry2 := 149%positive.
Local Notation carry6 := 150%positive.
Local Notation carry3 := 151%positive.
Local Notation carry7 := 152%positive.
Local Notation carry8 := 153%positive.
Local Notation carry9 := 154%positive.
Local Notation f0_2 := 155%positive.
Local Notation f2_2 := 156%positive.
Local Notation f4_2 := 157%positive.
Local Notation f6_2 := 158%positive.
Local Notation f5_38 := 159%positive.
Local Notation f6_19 := 160%positive.
Local Notation f7_38 := 161%positive.
Local Notation f8_19 := 162%positive.
Local Notation f9_38 := 163%positive.
Local Notation f0f0 := 164%positive.
Local Notation f0f1_2 := 165%positive.
Local Notation f0f2_2 := 166%positive.
Local Notation f0f3_2 := 167%positive.
Local Notation f0f4_2 := 168%positive.
Local Notation f0f5_2 := 169%positive.
Local Notation f0f6_2 := 170%positive.
Local Notation f0f7_2 := 171%positive.
Local Notation f0f8_2 := 172%positive.
Local Notation f0f9_2 := 173%positive.
Local Notation f1f1_2 := 174%positive.
Local Notation f1f2_2 := 175%positive.
Local Notation f1f3_4 := 176%positive.
Local Notation f1f4_2 := 177%positive.
Local Notation f1f5_4 := 178%positive.
Local Notation f1f6_2 := 179%positive.
Local Notation f1f7_4 := 180%positive.
Local Notation f1f8_2 := 181%positive.
Local Notation f1f9_76 := 182%positive.
Local Notation f2f2 := 183%positive.
Local Notation f2f3_2 := 184%positive.
Local Notation f2f4_2 := 185%positive.
Local Notation f2f5_2 := 186%positive.
Local Notation f2f6_2 := 187%positive.
Local Notation f2f7_2 := 188%positive.
Local Notation f2f8_38 := 189%positive.
Local Notation f2f9_38 := 190%positive.
Local Notation f3f3_2 := 191%positive.
Local Notation f3f4_2 := 192%positive.
Local Notation f3f5_4 := 193%positive.
Local Notation f3f6_2 := 194%positive.
Local Notation f3f7_76 := 195%positive.
Local Notation f3f8_38 := 196%positive.
Local Notation f3f9_76 := 197%positive.
Local Notation f4f4 := 198%positive.
Local Notation f4f5_2 := 199%positive.
Local Notation f4f6_38 := 200%positive.
Local Notation f4f7_38 := 201%positive.
Local Notation f4f8_38 := 202%positive.
Local Notation f4f9_38 := 203%positive.
Local Notation f5f5_38 := 204%positive.
Local Notation f5f6_38 := 205%positive.
Local Notation f5f7_76 := 206%positive.
Local Notation f5f8_38 := 207%positive.
Local Notation f5f9_76 := 208%positive.
Local Notation f6f6_19 := 209%positive.
Local Notation f6f7_38 := 210%positive.
Local Notation f6f8_38 := 211%positive.
Local Notation f6f9_38 := 212%positive.
Local Notation f7f7_38 := 213%positive.
Local Notation f7f8_38 := 214%positive.
Local Notation f7f9_76 := 215%positive.
Local Notation f8f8_19 := 216%positive.
Local Notation f8f9_38 := 217%positive.
Local Notation f9f9_38 := 218%positive.
Local Notation q := 219%positive.

(** curve25519.rs:120-362 macro [fe_mul!]: [f0..f9], [g0..g9] are the limbs read at lines 122-141; the results are the limbs stored at lines 351-360.  A literal [1 << n] is written as a number. *)
Definition fe_mul_prog : prog := {|
  params := [f0; f1; f2; f3; f4; f5; f6; f7; f8; f9; g0; g1; g2; g3; g4; g5; g6; g7; g8; g9];
  body := [
    Let g1_19 (Mul 32 (C 19) g1);
    Let g2_19 (Mul 32 (C 19) g2);
    Let g3_19 (Mul 32 (C 19) g3);
    Let g4_19 (Mul 32 (C 19) g4);
    Let g5_19 (Mul 32 (C 19) g5);
    Let g6_19 (Mul 32 (C 19) g6);
    Let g7_19 (Mul 32 (C 19) g7);
    Let g8_19 (Mul 32 (C 19) g8);
    Let g9_19 (Mul 32 (C 19) g9);
    Let f1_2 (Mul 32 (C 2) f1);
    Let f3_2 (Mul 32 (C 2) f3);
    Let f5_2 (Mul 32 (C 2) f5);
    Let f7_2 (Mul 32 (C 2) f7);
    Let f9_2 (Mul 32 (C 2) f9);
    Let f0g0 (Mul 64 f0 g0);
    Let f0g1 (Mul 64 f0 g1);
    Let f0g2 (Mul 64 f0 g2);
    Let f0g3 (Mul 64 f0 g3);
    Let f0g4 (Mul 64 f0 g4);
    Let f0g5 (Mul 64 f0 g5);
    Let f0g6 (Mul 64 f0 g6);
    Let f0g7 (Mul 64 f0 g7);
    Let f0g8 (Mul 64 f0 g8);
    Let f0g9 (Mul 64 f0 g9);
    Let f1g0 (Mul 64 f1 g0);
    Let f1g1_2 (Mul 64 f1_2 g1);
    Let f1g2 (Mul 64 f1 g2);
    Let f1g3_2 (Mul 64 f1_2 g3);
    Let f1g4 (Mul 64 f1 g4);
    Let f1g5_2 (Mul 64 f1_2 g5);
    Let f1g6 (Mul 64 f1 g6);
    Let f1g7_2 (Mul 64 f1_2 g7);
    Let f1g8 (Mul 64 f1 g8);
    Let f1g9_38 (Mul 64 f1_2 g9_19);
    Let f2g0 (Mul 64 f2 g0);
    Let f2g1 (Mul 64 f2 g1);
    Let f2g2 (Mul 64 f2 g2);
    Let f2g3 (Mul 64 f2 g3);
    Let f2g4 (Mul 64 f2 g4);
    Let f2g5 (Mul 64 f2 g5);
    Let f2g6 (Mul 64 f2 g6);
    Let f2g7 (Mul 64 f2 g7);
    Let f2g8_19 (Mul 64 f2 g8_19);
    Let f2g9_19 (Mul 64 f2 g9_19);
    Let f3g0 (Mul 64 f3 g0);
    Let f3g1_2 (Mul 64 f3_2 g1);
    Let f3g2 (Mul 64 f3 g2);
    Let f3g3_2 (Mul 64 f3_2 g3);
    Let f3g4 (Mul 64 f3 g4);
    Let f3g5_2 (Mul 64 f3_2 g5);
    Let f3g6 (Mul 64 f3 g6);
    Let f3g7_38 (Mul 64 f3_2 g7_19);
    Let f3g8_19 (Mul 64 f3 g8_19);
    Let f3g9_38 (Mul 64 f3_2 g9_19);
    Let f4g0 (Mul 64 f4 g0);
    Let f4g1 (Mul 64 f4 g1);
    Let f4g2 (Mul 64 f4 g2);
    Let f4g3 (Mul 64 f4 g3);
    Let f4g4 (Mul 64 f4 g4);
    Let f4g5 (Mul 64 f4 g5);
    Let f4g6_19 (Mul 64 f4 g6_19);
    Let f4g7_19 (Mul 64 f4 g7_19);
    Let f4g8_19 (Mul 64 f4 g8_19);
    Let f4g9_19 (Mul 64 f4 g9_19);
    Let f5g0 (Mul 64 f5 g0);
    Let f5g1_2 (Mul 64 f5_2 g1);
    Let f5g2 (Mul 64 f5 g2);
    Let f5g3_2 (Mul 64 f5_2 g3);
    Let f5g4 (Mul 64 f5 g4);
    Let f5g5_38 (Mul 64 f5_2 g5_19);
    Let f5g6_19 (Mul 64 f5 g6_19);
    Let f5g7_38 (Mul 64 f5_2 g7_19);
    Let f5g8_19 (Mul 64 f5 g8_19);
    Let f5g9_38 (Mul 64 f5_2 g9_19);
    Let f6g0 (Mul 64 f6 g0);
    Let f6g1 (Mul 64 f6 g1);
    Let f6g2 (Mul 64 f6 g2);
    Let f6g3 (Mul 64 f6 g3);
    Let f6g4_19 (Mul 64 f6 g4_19);
    Let f6g5_19 (Mul 64 f6 g5_19);
    Let f6g6_19 (Mul 64 f6 g6_19);
    Let f6g7_19 (Mul 64 f6 g7_19);
    Let f6g8_19 (Mul 64 f6 g8_19);
    Let f6g9_19 (Mul 64 f6 g9_19);
    Let f7g0 (Mul 64 f7 g0);
    Let f7g1_2 (Mul 64 f7_2 g1);
    Let f7g2 (Mul 64 f7 g2);
    Let f7g3_38 (Mul 64 f7_2 g3_19);
    Let f7g4_19 (Mul 64 f7 g4_19);
    Let f7g5_38 (Mul 64 f7_2 g5_19);
    Let f7g6_19 (Mul 64 f7 g6_19);
    Let f7g7_38 (Mul 64 f7_2 g7_19);
    Let f7g8_19 (Mul 64 f7 g8_19);
    Let f7g9_38 (Mul 64 f7_2 g9_19);
    Let f8g0 (Mul 64 f8 g0);
    Let f8g1 (Mul 64 f8 g1);
    Let f8g2_19 (Mul 64 f8 g2_19);
    Let f8g3_19 (Mul 64 f8 g3_19);
    Let f8g4_19 (Mul 64 f8 g4_19);
    Let f8g5_19 (Mul 64 f8 g5_19);
    Let f8g6_19 (Mul 64 f8 g6_19);
    Let f8g7_19 (Mul 64 f8 g7_19);
    Let f8g8_19 (Mul 64 f8 g8_19);
    Let f8g9_19 (Mul 64 f8 g9_19);
    Let f9g0 (Mul 64 f9 g0);
    Let f9g1_38 (Mul 64 f9_2 g1_19);
    Let f9g2_19 (Mul 64 f9 g2_19);
    Let f9g3_38 (Mul 64 f9_2 g3_19);
    Let f9g4_19 (Mul 64 f9 g4_19);
    Let f9g5_38 (Mul 64 f9_2 g5_19);
    Let f9g6_19 (Mul 64 f9 g6_19);
    Let f9g7_38 (Mul 64 f9_2 g7_19);
    Let f9g8_19 (Mul 64 f9 g8_19);
    Let f9g9_38 (Mul 64 f9_2 g9_19);
    Let h0 (sum 64 f0g0 [V f1g9_38; V f2g8_19; V f3g7_38; V f4g6_19; V f5g5_38; V f6g4_19; V f7g3_38; V
      f8g2_19; V f9g1_38]);
    Let h1 (sum 64 f0g1 [V f1g0; V f2g9_19; V f3g8_19; V f4g7_19; V f5g6_19; V f6g5_19; V f7g4_19; V
      f8g3_19; V f9g2_19]);
    Let h2 (sum 64 f0g2 [V f1g1_2; V f2g0; V f3g9_38; V f4g8_19; V f5g7_38; V f6g6_19; V f7g5_38; V
      f8g4_19; V f9g3_38]);
    Let h3 (sum 64 f0g3 [V f1g2; V f2g1; V f3g0; V f4g9_19; V f5g8_19; V f6g7_19; V f7g6_19; V f8g5_19;
      V f9g4_19]);
    Let h4 (sum 64 f0g4 [V f1g3_2; V f2g2; V f3g1_2; V f4g0; V f5g9_38; V f6g8_19; V f7g7_38; V f8g6_19;
      V f9g5_38]);
    Let h5 (sum 64 f0g5 [V f1g4; V f2g3; V f3g2; V f4g1; V f5g0; V f6g9_19; V f7g8_19; V f8g7_19; V f9g6_19]);
    Let h6 (sum 64 f0g6 [V f1g5_2; V f2g4; V f3g3_2; V f4g2; V f5g1_2; V f6g0; V f7g9_38; V f8g8_19; V
      f9g7_38]);
    Let h7 (sum 64 f0g7 [V f1g6; V f2g5; V f3g4; V f4g3; V f5g2; V f6g1; V f7g0; V f8g9_19; V f9g8_19]);
    Let h8 (sum 64 f0g8 [V f1g7_2; V f2g6; V f3g5_2; V f4g4; V f5g3_2; V f6g2; V f7g1_2; V f8g0; V f9g9_38]);
    Let h9 (sum 64 f0g9 [V f1g8; V f2g7; V f3g6; V f4g5; V f5g4; V f6g3; V f7g2; V f8g1; V f9g0]);
    Let carry0 (Shr (Add 64 h0 (C 33554432)) 26);
    Let h1 (Add 64 h1 carry0);
    Let h0 (Sub 64 h0 (Shl 64 carry0 26));
    Let carry4 (Shr (Add 64 h4 (C 33554432)) 26);
    Let h5 (Add 64 h5 carry4);
    Let h4 (Sub 64 h4 (Shl 64 carry4 26));
    Let carry1 (Shr (Add 64 h1 (C 16777216)) 25);
    Let h2 (Add 64 h2 carry1);
    Let h1 (Sub 64 h1 (Shl 64 carry1 25));
    Let carry5 (Shr (Add 64 h5 (C 16777216)) 25);
    Let h6 (Add 64 h6 carry5);
    Let h5 (Sub 64 h5 (Shl 64 carry5 25));
    Let carry2 (Shr (Add 64 h2 (C 33554432)) 26);
    Let h3 (Add 64 h3 carry2);
    Let h2 (Sub 64 h2 (Shl 64 carry2 26));
    Let carry6 (Shr (Add 64 h6 (C 33554432)) 26);
    Let h7 (Add 64 h7 carry6);
    Let h6 (Sub 64 h6 (Shl 64 carry6 26));
    Let carry3 (Shr (Add 64 h3 (C 16777216)) 25);
    Let h4 (Add 64 h4 carry3);
    Let h3 (Sub 64 h3 (Shl 64 carry3 25));
    Let carry7 (Shr (Add 64 h7 (C 16777216)) 25);
    Let h8 (Add 64 h8 carry7);
    Let h7 (Sub 64 h7 (Shl 64 carry7 25));
    Let carry4 (Shr (Add 64 h4 (C 33554432)) 26);
    Let h5 (Add 64 h5 carry4);
    Let h4 (Sub 64 h4 (Shl 64 carry4 26));
    Let carry8 (Shr (Add 64 h8 (C 33554432)) 26);
    Let h9 (Add 64 h9 carry8);
    Let h8 (Sub 64 h8 (Shl 64 carry8 26));
    Let carry9 (Shr (Add 64 h9 (C 16777216)) 25);
    Let h0 (Add 64 h0 (Mul 64 carry9 (C 19)));
    Let h9 (Sub 64 h9 (Shl 64 carry9 25));
    Let carry0 (Shr (Add 64 h0 (C 33554432)) 26);
    Let h1 (Add 64 h1 carry0);
    Let h0 (Sub 64 h0 (Shl 64 carry0 26))];
  outs := [As 32 h0; As 32 h1; As 32 h2; As 32 h3; As 32 h4; As 32 h5; As 32 h6; As 32 h7; As 32 h8; As
      32 h9] |}.

(** curve25519.rs:364-519 macro [fe_sq!]. *)
Definition fe_sq_prog : prog := {|
  params := [f0; f1; f2; f3; f4; f5; f6; f7; f8; f9];
  body := [
    Let f0_2 (Mul 32 (C 2) f0);
    Let f1_2 (Mul 32 (C 2) f1);
    Let f2_2 (Mul 32 (C 2) f2);
    Let f3_2 (Mul 32 (C 2) f3);
    Let f4_2 (Mul 32 (C 2) f4);
    Let f5_2 (Mul 32 (C 2) f5);
    Let f6_2 (Mul 32 (C 2) f6);
    Let f7_2 (Mul 32 (C 2) f7);
    Let f5_38 (Mul 32 (C 38) f5);
    Let f6_19 (Mul 32 (C 19) f6);
    Let f7_38 (Mul 32 (C 38) f7);
    Let f8_19 (Mul 32 (C 19) f8);
    Let f9_38 (Mul 32 (C 38) f9);
    Let f0f0 (Mul 64 f0 f0);
    Let f0f1_2 (Mul 64 f0_2 f1);
    Let f0f2_2 (Mul 64 f0_2 f2);
    Let f0f3_2 (Mul 64 f0_2 f3);
    Let f0f4_2 (Mul 64 f0_2 f4);
    Let f0f5_2 (Mul 64 f0_2 f5);
    Let f0f6_2 (Mul 64 f0_2 f6);
    Let f0f7_2 (Mul 64 f0_2 f7);
    Let f0f8_2 (Mul 64 f0_2 f8);
    Let f0f9_2 (Mul 64 f0_2 f9);
    Let f1f1_2 (Mul 64 f1_2 f1);
    Let f1f2_2 (Mul 64 f1_2 f2);
    Let f1f3_4 (Mul 64 f1_2 f3_2);
    Let f1f4_2 (Mul 64 f1_2 f4);
    Let f1f5_4 (Mul 64 f1_2 f5_2);
    Let f1f6_2 (Mul 64 f1_2 f6);
    Let f1f7_4 (Mul 64 f1_2 f7_2);
    Let f1f8_2 (Mul 64 f1_2 f8);
    Let f1f9_76 (Mul 64 f1_2 f9_38);
    Let f2f2 (Mul 64 f2 f2);
    Let f2f3_2 (Mul 64 f2_2 f3);
    Let f2f4_2 (Mul 64 f2_2 f4);
    Let f2f5_2 (Mul 64 f2_2 f5);
    Let f2f6_2 (Mul 64 f2_2 f6);
    Let f2f7_2 (Mul 64 f2_2 f7);
    Let f2f8_38 (Mul 64 f2_2 f8_19);
    Let f2f9_38 (Mul 64 f2 f9_38);
    Let f3f3_2 (Mul 64 f3_2 f3);
    Let f3f4_2 (Mul 64 f3_2 f4);
    Let f3f5_4 (Mul 64 f3_2 f5_2);
    Let f3f6_2 (Mul 64 f3_2 f6);
    Let f3f7_76 (Mul 64 f3_2 f7_38);
    Let f3f8_38 (Mul 64 f3_2 f8_19);
    Let f3f9_76 (Mul 64 f3_2 f9_38);
    Let f4f4 (Mul 64 f4 f4);
    Let f4f5_2 (Mul 64 f4_2 f5);
    Let f4f6_38 (Mul 64 f4_2 f6_19);
    Let f4f7_38 (Mul 64 f4 f7_38);
    Let f4f8_38 (Mul 64 f4_2 f8_19);
    Let f4f9_38 (Mul 64 f4 f9_38);
    Let f5f5_38 (Mul 64 f5 f5_38);
    Let f5f6_38 (Mul 64 f5_2 f6_19);
    Let f5f7_76 (Mul 64 f5_2 f7_38);
    Let f5f8_38 (Mul 64 f5_2 f8_19);
    Let f5f9_76 (Mul 64 f5_2 f9_38);
    Let f6f6_19 (Mul 64 f6 f6_19);
    Let f6f7_38 (Mul 64 f6 f7_38);
    Let f6f8_38 (Mul 64 f6_2 f8_19);
    Let f6f9_38 (Mul 64 f6 f9_38);
    Let f7f7_38 (Mul 64 f7 f7_38);
    Let f7f8_38 (Mul 64 f7_2 f8_19);
    Let f7f9_76 (Mul 64 f7_2 f9_38);
    Let f8f8_19 (Mul 64 f8 f8_19);
    Let f8f9_38 (Mul 64 f8 f9_38);
    Let f9f9_38 (Mul 64 f9 f9_38);
    Let h0 (sum 64 f0f0 [V f1f9_76; V f2f8_38; V f3f7_76; V f4f6_38; V f5f5_38]);
    Let h1 (sum 64 f0f1_2 [V f2f9_38; V f3f8_38; V f4f7_38; V f5f6_38]);
    Let h2 (sum 64 f0f2_2 [V f1f1_2; V f3f9_76; V f4f8_38; V f5f7_76; V f6f6_19]);
    Let h3 (sum 64 f0f3_2 [V f1f2_2; V f4f9_38; V f5f8_38; V f6f7_38]);
    Let h4 (sum 64 f0f4_2 [V f1f3_4; V f2f2; V f5f9_76; V f6f8_38; V f7f7_38]);
    Let h5 (sum 64 f0f5_2 [V f1f4_2; V f2f3_2; V f6f9_38; V f7f8_38]);
    Let h6 (sum 64 f0f6_2 [V f1f5_4; V f2f4_2; V f3f3_2; V f7f9_76; V f8f8_19]);
    Let h7 (sum 64 f0f7_2 [V f1f6_2; V f2f5_2; V f3f4_2; V f8f9_38]);
    Let h8 (sum 64 f0f8_2 [V f1f7_4; V f2f6_2; V f3f5_4; V f4f4; V f9f9_38]);
    Let h9 (sum 64 f0f9_2 [V f1f8_2; V f2f7_2; V f3f6_2; V f4f5_2]);
    Let carry0 (Shr (Add 64 h0 (C 33554432)) 26);
    Let h1 (Add 64 h1 carry0);
    Let h0 (Sub 64 h0 (Shl 64 carry0 26));
    Let carry4 (Shr (Add 64 h4 (C 33554432)) 26);
    Let h5 (Add 64 h5 carry4);
    Let h4 (Sub 64 h4 (Shl 64 carry4 26));
    Let carry1 (Shr (Add 64 h1 (C 16777216)) 25);
    Let h2 (Add 64 h2 carry1);
    Let h1 (Sub 64 h1 (Shl 64 carry1 25));
    Let carry5 (Shr (Add 64 h5 (C 16777216)) 25);
    Let h6 (Add 64 h6 carry5);
    Let h5 (Sub 64 h5 (Shl 64 carry5 25));
    Let carry2 (Shr (Add 64 h2 (C 33554432)) 26);
    Let h3 (Add 64 h3 carry2);
    Let h2 (Sub 64 h2 (Shl 64 carry2 26));
    Let carry6 (Shr (Add 64 h6 (C 33554432)) 26);
    Let h7 (Add 64 h7 carry6);
    Let h6 (Sub 64 h6 (Shl 64 carry6 26));
    Let carry3 (Shr (Add 64 h3 (C 16777216)) 25);
    Let h4 (Add 64 h4 carry3);
    Let h3 (Sub 64 h3 (Shl 64 carry3 25));
    Let carry7 (Shr (Add 64 h7 (C 16777216)) 25);
    Let h8 (Add 64 h8 carry7);
    Let h7 (Sub 64 h7 (Shl 64 carry7 25));
    Let carry4 (Shr (Add 64 h4 (C 33554432)) 26);
    Let h5 (Add 64 h5 carry4);
    Let h4 (Sub 64 h4 (Shl 64 carry4 26));
    Let carry8 (Shr (Add 64 h8 (C 33554432)) 26);
    Let h9 (Add 64 h9 carry8);
    Let h8 (Sub 64 h8 (Shl 64 carry8 26));
    Let carry9 (Shr (Add 64 h9 (C 16777216)) 25);
    Let h0 (Add 64 h0 (Mul 64 carry9 (C 19)));
    Let h9 (Sub 64 h9 (Shl 64 carry9 25));
    Let carry0 (Shr (Add 64 h0 (C 33554432)) 26);
    Let h1 (Add 64 h1 carry0);
    Let h0 (Sub 64 h0 (Shl 64 carry0 26))];
  outs := [As 32 h0; As 32 h1; As 32 h2; As 32 h3; As 32 h4; As 32 h5; As 32 h6; As 32 h7; As 32 h8; As
      32 h9] |}.

(** curve25519.rs:762-828 [mul121666]. *)
Definition mul121666_prog : prog := {|
  params := [f0; f1; f2; f3; f4; f5; f6; f7; f8; f9];
  body := [
    Let h0 (Mul 64 f0 (C 121666));
    Let h1 (Mul 64 f1 (C 121666));
    Let h2 (Mul 64 f2 (C 121666));
    Let h3 (Mul 64 f3 (C 121666));
    Let h4 (Mul 64 f4 (C 121666));
    Let h5 (Mul 64 f5 (C 121666));
    Let h6 (Mul 64 f6 (C 121666));
    Let h7 (Mul 64 f7 (C 121666));
    Let h8 (Mul 64 f8 (C 121666));
    Let h9 (Mul 64 f9 (C 121666));
    Let carry9 (Shr (Add 64 h9 (C 16777216)) 25);
    Let h0 (Add 64 h0 (Mul 64 carry9 (C 19)));
    Let h9 (Sub 64 h9 (Shl 64 carry9 25));
    Let carry1 (Shr (Add 64 h1 (C 16777216)) 25);
    Let h2 (Add 64 h2 carry1);
    Let h1 (Sub 64 h1 (Shl 64 carry1 25));
    Let carry3 (Shr (Add 64 h3 (C 16777216)) 25);
    Let h4 (Add 64 h4 carry3);
    Let h3 (Sub 64 h3 (Shl 64 carry3 25));
    Let carry5 (Shr (Add 64 h5 (C 16777216)) 25);
    Let h6 (Add 64 h6 carry5);
    Let h5 (Sub 64 h5 (Shl 64 carry5 25));
    Let carry7 (Shr (Add 64 h7 (C 16777216)) 25);
    Let h8 (Add 64 h8 carry7);
    Let h7 (Sub 64 h7 (Shl 64 carry7 25));
    Let carry0 (Shr (Add 64 h0 (C 33554432)) 26);
    Let h1 (Add 64 h1 carry0);
    Let h0 (Sub 64 h0 (Shl 64 carry0 26));
    Let carry2 (Shr (Add 64 h2 (C 33554432)) 26);
    Let h3 (Add 64 h3 carry2);
    Let h2 (Sub 64 h2 (Shl 64 carry2 26));
    Let carry4 (Shr (Add 64 h4 (C 33554432)) 26);
    Let h5 (Add 64 h5 carry4);
    Let h4 (Sub 64 h4 (Shl 64 carry4 26));
    Let carry6 (Shr (Add 64 h6 (C 33554432)) 26);
    Let h7 (Add 64 h7 carry6);
    Let h6 (Sub 64 h6 (Shl 64 carry6 26));
    Let carry8 (Shr (Add 64 h8 (C 33554432)) 26);
    Let h9 (Add 64 h9 carry8);
    Let h8 (Sub 64 h8 (Shl 64 carry8 26))];
  outs := [As 32 h0; As 32 h1; As 32 h2; As 32 h3; As 32 h4; As 32 h5; As 32 h6; As 32 h7; As 32 h8; As
      32 h9] |}.

(** curve25519.rs:704-745: the carries and stores of [assign_from_bytes], from the loaded [i64] values [h0..h9]. *)
Definition from_bytes_prog : prog := {|
  params := [h0; h1; h2; h3; h4; h5; h6; h7; h8; h9];
  body := [
    Let carry9 (Shr (Add 64 h9 (C 16777216)) 25);
    Let h0 (Add 64 h0 (Mul 64 carry9 (C 19)));
    Let h9 (Sub 64 h9 (Shl 64 carry9 25));
    Let carry1 (Shr (Add 64 h1 (C 16777216)) 25);
    Let h2 (Add 64 h2 carry1);
    Let h1 (Sub 64 h1 (Shl 64 carry1 25));
    Let carry3 (Shr (Add 64 h3 (C 16777216)) 25);
    Let h4 (Add 64 h4 carry3);
    Let h3 (Sub 64 h3 (Shl 64 carry3 25));
    Let carry5 (Shr (Add 64 h5 (C 16777216)) 25);
    Let h6 (Add 64 h6 carry5);
    Let h5 (Sub 64 h5 (Shl 64 carry5 25));
    Let carry7 (Shr (Add 64 h7 (C 16777216)) 25);
    Let h8 (Add 64 h8 carry7);
    Let h7 (Sub 64 h7 (Shl 64 carry7 25));
    Let carry0 (Shr (Add 64 h0 (C 33554432)) 26);
    Let h1 (Add 64 h1 carry0);
    Let h0 (Sub 64 h0 (Shl 64 carry0 26));
    Let carry2 (Shr (Add 64 h2 (C 33554432)) 26);
    Let h3 (Add 64 h3 carry2);
    Let h2 (Sub 64 h2 (Shl 64 carry2 26));
    Let carry4 (Shr (Add 64 h4 (C 33554432)) 26);
    Let h5 (Add 64 h5 carry4);
    Let h4 (Sub 64 h4 (Shl 64 carry4 26));
    Let carry6 (Shr (Add 64 h6 (C 33554432)) 26);
    Let h7 (Add 64 h7 carry6);
    Let h6 (Sub 64 h6 (Shl 64 carry6 26));
    Let carry8 (Shr (Add 64 h8 (C 33554432)) 26);
    Let h9 (Add 64 h9 carry8);
    Let h8 (Sub 64 h8 (Shl 64 carry8 26))];
  outs := [As 32 h0; As 32 h1; As 32 h2; As 32 h3; As 32 h4; As 32 h5; As 32 h6; As 32 h7; As 32 h8; As
      32 h9] |}.

(** curve25519.rs:924-955: the carries of [write_bytes], from the limbs and [q]. *)
Definition write_bytes_prog : prog := {|
  params := [h0; h1; h2; h3; h4; h5; h6; h7; h8; h9; q];
  body := [
    Let h0 (Add 32 h0 (Mul 32 (C 19) q));
    Let carry0 (Shr h0 26);
    Let h1 (Add 32 h1 carry0);
    Let h0 (Sub 32 h0 (Shl 32 carry0 26));
    Let carry1 (Shr h1 25);
    Let h2 (Add 32 h2 carry1);
    Let h1 (Sub 32 h1 (Shl 32 carry1 25));
    Let carry2 (Shr h2 26);
    Let h3 (Add 32 h3 carry2);
    Let h2 (Sub 32 h2 (Shl 32 carry2 26));
    Let carry3 (Shr h3 25);
    Let h4 (Add 32 h4 carry3);
    Let h3 (Sub 32 h3 (Shl 32 carry3 25));
    Let carry4 (Shr h4 26);
    Let h5 (Add 32 h5 carry4);
    Let h4 (Sub 32 h4 (Shl 32 carry4 26));
    Let carry5 (Shr h5 25);
    Let h6 (Add 32 h6 carry5);
    Let h5 (Sub 32 h5 (Shl 32 carry5 25));
    Let carry6 (Shr h6 26);
    Let h7 (Add 32 h7 carry6);
    Let h6 (Sub 32 h6 (Shl 32 carry6 26));
    Let carry7 (Shr h7 25);
    Let h8 (Add 32 h8 carry7);
    Let h7 (Sub 32 h7 (Shl 32 carry7 25));
    Let carry8 (Shr h8 26);
    Let h9 (Add 32 h9 carry8);
    Let h8 (Sub 32 h8 (Shl 32 carry8 26));
    Let carry9 (Shr h9 25);
    Let h9 (Sub 32 h9 (Shl 32 carry9 25))];
  outs := [V h0; V h1; V h2; V h3; V h4; V h5; V h6; V h7; V h8; V h9] |}.

(** ed25519.rs:180-335 [assign_twice_square]. *)
Definition twice_sq_prog : prog := {|
  params := [f0; f1; f2; f3; f4; f5; f6; f7; f8; f9];
  body := [
    Let f0_2 (Mul 32 (C 2) f0);
    Let f1_2 (Mul 32 (C 2) f1);
    Let f2_2 (Mul 32 (C 2) f2);
    Let f3_2 (Mul 32 (C 2) f3);
    Let f4_2 (Mul 32 (C 2) f4);
    Let f5_2 (Mul 32 (C 2) f5);
    Let f6_2 (Mul 32 (C 2) f6);
    Let f7_2 (Mul 32 (C 2) f7);
    Let f5_38 (Mul 32 (C 38) f5);
    Let f6_19 (Mul 32 (C 19) f6);
    Let f7_38 (Mul 32 (C 38) f7);
    Let f8_19 (Mul 32 (C 19) f8);
    Let f9_38 (Mul 32 (C 38) f9);
    Let f0f0 (Mul 64 f0 f0);
    Let f0f1_2 (Mul 64 f0_2 f1);
    Let f0f2_2 (Mul 64 f0_2 f2);
    Let f0f3_2 (Mul 64 f0_2 f3);
    Let f0f4_2 (Mul 64 f0_2 f4);
    Let f0f5_2 (Mul 64 f0_2 f5);
    Let f0f6_2 (Mul 64 f0_2 f6);
    Let f0f7_2 (Mul 64 f0_2 f7);
    Let f0f8_2 (Mul 64 f0_2 f8);
    Let f0f9_2 (Mul 64 f0_2 f9);
    Let f1f1_2 (Mul 64 f1_2 f1);
    Let f1f2_2 (Mul 64 f1_2 f2);
    Let f1f3_4 (Mul 64 f1_2 f3_2);
    Let f1f4_2 (Mul 64 f1_2 f4);
    Let f1f5_4 (Mul 64 f1_2 f5_2);
    Let f1f6_2 (Mul 64 f1_2 f6);
    Let f1f7_4 (Mul 64 f1_2 f7_2);
    Let f1f8_2 (Mul 64 f1_2 f8);
    Let f1f9_76 (Mul 64 f1_2 f9_38);
    Let f2f2 (Mul 64 f2 f2);
    Let f2f3_2 (Mul 64 f2_2 f3);
    Let f2f4_2 (Mul 64 f2_2 f4);
    Let f2f5_2 (Mul 64 f2_2 f5);
    Let f2f6_2 (Mul 64 f2_2 f6);
    Let f2f7_2 (Mul 64 f2_2 f7);
    Let f2f8_38 (Mul 64 f2_2 f8_19);
    Let f2f9_38 (Mul 64 f2 f9_38);
    Let f3f3_2 (Mul 64 f3_2 f3);
    Let f3f4_2 (Mul 64 f3_2 f4);
    Let f3f5_4 (Mul 64 f3_2 f5_2);
    Let f3f6_2 (Mul 64 f3_2 f6);
    Let f3f7_76 (Mul 64 f3_2 f7_38);
    Let f3f8_38 (Mul 64 f3_2 f8_19);
    Let f3f9_76 (Mul 64 f3_2 f9_38);
    Let f4f4 (Mul 64 f4 f4);
    Let f4f5_2 (Mul 64 f4_2 f5);
    Let f4f6_38 (Mul 64 f4_2 f6_19);
    Let f4f7_38 (Mul 64 f4 f7_38);
    Let f4f8_38 (Mul 64 f4_2 f8_19);
    Let f4f9_38 (Mul 64 f4 f9_38);
    Let f5f5_38 (Mul 64 f5 f5_38);
    Let f5f6_38 (Mul 64 f5_2 f6_19);
    Let f5f7_76 (Mul 64 f5_2 f7_38);
    Let f5f8_38 (Mul 64 f5_2 f8_19);
    Let f5f9_76 (Mul 64 f5_2 f9_38);
    Let f6f6_19 (Mul 64 f6 f6_19);
    Let f6f7_38 (Mul 64 f6 f7_38);
    Let f6f8_38 (Mul 64 f6_2 f8_19);
    Let f6f9_38 (Mul 64 f6 f9_38);
    Let f7f7_38 (Mul 64 f7 f7_38);
    Let f7f8_38 (Mul 64 f7_2 f8_19);
    Let f7f9_76 (Mul 64 f7_2 f9_38);
    Let f8f8_19 (Mul 64 f8 f8_19);
    Let f8f9_38 (Mul 64 f8 f9_38);
    Let f9f9_38 (Mul 64 f9 f9_38);
    Let h0 (sum 64 f0f0 [V f1f9_76; V f2f8_38; V f3f7_76; V f4f6_38; V f5f5_38]);
    Let h1 (sum 64 f0f1_2 [V f2f9_38; V f3f8_38; V f4f7_38; V f5f6_38]);
    Let h2 (sum 64 f0f2_2 [V f1f1_2; V f3f9_76; V f4f8_38; V f5f7_76; V f6f6_19]);
    Let h3 (sum 64 f0f3_2 [V f1f2_2; V f4f9_38; V f5f8_38; V f6f7_38]);
    Let h4 (sum 64 f0f4_2 [V f1f3_4; V f2f2; V f5f9_76; V f6f8_38; V f7f7_38]);
    Let h5 (sum 64 f0f5_2 [V f1f4_2; V f2f3_2; V f6f9_38; V f7f8_38]);
    Let h6 (sum 64 f0f6_2 [V f1f5_4; V f2f4_2; V f3f3_2; V f7f9_76; V f8f8_19]);
    Let h7 (sum 64 f0f7_2 [V f1f6_2; V f2f5_2; V f3f4_2; V f8f9_38]);
    Let h8 (sum 64 f0f8_2 [V f1f7_4; V f2f6_2; V f3f5_4; V f4f4; V f9f9_38]);
    Let h9 (sum 64 f0f9_2 [V f1f8_2; V f2f7_2; V f3f6_2; V f4f5_2]);
    Let h0 (Add 64 h0 h0);
    Let h1 (Add 64 h1 h1);
    Let h2 (Add 64 h2 h2);
    Let h3 (Add 64 h3 h3);
    Let h4 (Add 64 h4 h4);
    Let h5 (Add 64 h5 h5);
    Let h6 (Add 64 h6 h6);
    Let h7 (Add 64 h7 h7);
    Let h8 (Add 64 h8 h8);
    Let h9 (Add 64 h9 h9);
    Let carry0 (Shr (Add 64 h0 (C 33554432)) 26);
    Let h1 (Add 64 h1 carry0);
    Let h0 (Sub 64 h0 (Shl 64 carry0 26));
    Let carry4 (Shr (Add 64 h4 (C 33554432)) 26);
    Let h5 (Add 64 h5 carry4);
    Let h4 (Sub 64 h4 (Shl 64 carry4 26));
    Let carry1 (Shr (Add 64 h1 (C 16777216)) 25);
    Let h2 (Add 64 h2 carry1);
    Let h1 (Sub 64 h1 (Shl 64 carry1 25));
    Let carry5 (Shr (Add 64 h5 (C 16777216)) 25);
    Let h6 (Add 64 h6 carry5);
    Let h5 (Sub 64 h5 (Shl 64 carry5 25));
    Let carry2 (Shr (Add 64 h2 (C 33554432)) 26);
    Let h3 (Add 64 h3 carry2);
    Let h2 (Sub 64 h2 (Shl 64 carry2 26));
    Let carry6 (Shr (Add 64 h6 (C 33554432)) 26);
    Let h7 (Add 64 h7 carry6);
    Let h6 (Sub 64 h6 (Shl 64 carry6 26));
    Let carry3 (Shr (Add 64 h3 (C 16777216)) 25);
    Let h4 (Add 64 h4 carry3);
    Let h3 (Sub 64 h3 (Shl 64 carry3 25));
    Let carry7 (Shr (Add 64 h7 (C 16777216)) 25);
    Let h8 (Add 64 h8 carry7);
    Let h7 (Sub 64 h7 (Shl 64 carry7 25));
    Let carry4 (Shr (Add 64 h4 (C 33554432)) 26);
    Let h5 (Add 64 h5 carry4);
    Let h4 (Sub 64 h4 (Shl 64 carry4 26));
    Let carry8 (Shr (Add 64 h8 (C 33554432)) 26);
    Let h9 (Add 64 h9 carry8);
    Let h8 (Sub 64 h8 (Shl 64 carry8 26));
    Let carry9 (Shr (Add 64 h9 (C 16777216)) 25);
    Let h0 (Add 64 h0 (Mul 64 carry9 (C 19)));
    Let h9 (Sub 64 h9 (Shl 64 carry9 25));
    Let carry0 (Shr (Add 64 h0 (C 33554432)) 26);
    Let h1 (Add 64 h1 carry0);
    Let h0 (Sub 64 h0 (Shl 64 carry0 26))];
  outs := [As 32 h0; As 32 h1; As 32 h2; As 32 h3; As 32 h4; As 32 h5; As 32 h6; As 32 h7; As 32 h8; As
      32 h9] |}.
