(** The straight-line scalar arithmetic of src/ed25519.rs. *)
From Verif Require Import Base M_Slp.

(** Names of the local variables of the Rust functions. *)
Local Notation a0 := 1%positive.
Local Notation a1 := 2%positive.
Local Notation a2 := 3%positive.
Local Notation a3 := 4%positive.
Local Notation a4 := 5%positive.
Local Notation a5 := 6%positive.
Local Notation a6 := 7%positive.
Local Notation a7 := 8%positive.
Local Notation a8 := 9%positive.
Local Notation a9 := 10%positive.
Local Notation a10 := 11%positive.
Local Notation a11 := 12%positive.
Local Notation b0 := 13%positive.
Local Notation b1 := 14%positive.
Local Notation b2 := 15%positive.
Local Notation b3 := 16%positive.
Local Notation b4 := 17%positive.
Local Notation b5 := 18%positive.
Local Notation b6 := 19%positive.
Local Notation b7 := 20%positive.
Local Notation b8 := 21%positive.
Local Notation b9 := 22%positive.
Local Notation b10 := 23%positive.
Local Notation b11 := 24%positive.
Local Notation c0 := 25%positive.
Local Notation c1 := 26%positive.
Local Notation c2 := 27%positive.
Local Notation c3 := 28%positive.
Local Notation c4 := 29%positive.
Local Notation c5 := 30%positive.
Local Notation c6 := 31%positive.
Local Notation c7 := 32%positive.
Local Notation c8 := 33%positive.
Local Notation c9 := 34%positive.
Local Notation c10 := 35%positive.
Local Notation c11 := 36%positive.
Local Notation s0 := 37%positive.
Local Notation s1 := 38%positive.
Local Notation s2 := 39%positive.
Local Notation s3 := 40%positive.
Local Notation s4 := 41%positive.
Local Notation s5 := 42%positive.
Local Notation s6 := 43%positive.
Local Notation s7 := 44%positive.
Local Notation s8 := 45%positive.
Local Notation s9 := 46%positive.
Local Notation s10 := 47%positive.
Local Notation s11 := 48%positive.
Local Notation s12 := 49%positive.
Local Notation s13 := 50%positive.
Local Notation s14 := 51%positive.
Local Notation s15 := 52%positive.
Local Notation s16 := 53%positive.
Local Notation s17 := 54%positive.
Local Notation s18 := 55%positive.
Local Notation s19 := 56%positive.
Local Notation s20 := 57%positive.
Local Notation s21 := 58%positive.
Local Notation s22 := 59%positive.
Local Notation s23 := 60%positive.
Local Notation carry0 := 61%positive.
Local Notation carry2 := 62%positive.
Local Notation carry4 := 63%positive.
Local Notation carry6 := 64%positive.
Local Notation carry8 := 65%positive.
Local Notation carry10 := 66%positive.
Local Notation carry12 := 67%positive.
Local Notation carry14 := 68%positive.
Local Notation carry16 := 69%positive.
Local Notation carry18 := 70%positive.
Local Notation carry20 := 71%positive.
Local Notation carry22 := 72%positive.
Local Notation carry1 := 73%positive.
Local Notation carry3 := 74%positive.
Local Notation carry5 := 75%positive.
Local Notation carry7 := 76%positive.
Local Notation carry9 := 77%positive.
Local Notation carry11 := 78%positive.
Local Notation carry13 := 79%positive.
Local Notation carry15 := 80%positive.
Local Notation carry17 := 81%positive.
Local Notation carry19 := 82%positive.
Local Notation carry21 := 83%positive.

(** ed25519.rs:424-837: the body of [sc_muladd] from the loaded limbs of [a], [b], [c] to the final limbs [s0..s11]. *)
Definition sc_muladd_prog : prog := {|
  params := [a0; a1; a2; a3; a4; a5; a6; a7; a8; a9; a10; a11; b0; b1; b2; b3; b4; b5; b6; b7; b8; b9;
      b10; b11; c0; c1; c2; c3; c4; c5; c6; c7; c8; c9; c10; c11];
  body := [
    Let s0 (Add 64 c0 (Mul 64 a0 b0));
    Let s1 (Add 64 (Add 64 c1 (Mul 64 a0 b1)) (Mul 64 a1 b0));
    Let s2 (sum 64 c2 [Mul 64 a0 b2; Mul 64 a1 b1; Mul 64 a2 b0]);
    Let s3 (sum 64 c3 [Mul 64 a0 b3; Mul 64 a1 b2; Mul 64 a2 b1; Mul 64 a3 b0]);
    Let s4 (sum 64 c4 [Mul 64 a0 b4; Mul 64 a1 b3; Mul 64 a2 b2; Mul 64 a3 b1; Mul 64 a4 b0]);
    Let s5 (sum 64 c5 [Mul 64 a0 b5; Mul 64 a1 b4; Mul 64 a2 b3; Mul 64 a3 b2; Mul 64 a4 b1; Mul 64 a5 b0]);
    Let s6 (sum 64 c6 [Mul 64 a0 b6; Mul 64 a1 b5; Mul 64 a2 b4; Mul 64 a3 b3; Mul 64 a4 b2; Mul 64 a5
      b1; Mul 64 a6 b0]);
    Let s7 (sum 64 c7 [Mul 64 a0 b7; Mul 64 a1 b6; Mul 64 a2 b5; Mul 64 a3 b4; Mul 64 a4 b3; Mul 64 a5
      b2; Mul 64 a6 b1; Mul 64 a7 b0]);
    Let s8 (sum 64 c8 [Mul 64 a0 b8; Mul 64 a1 b7; Mul 64 a2 b6; Mul 64 a3 b5; Mul 64 a4 b4; Mul 64 a5
      b3; Mul 64 a6 b2; Mul 64 a7 b1; Mul 64 a8 b0]);
    Let s9 (sum 64 c9 [Mul 64 a0 b9; Mul 64 a1 b8; Mul 64 a2 b7; Mul 64 a3 b6; Mul 64 a4 b5; Mul 64 a5
      b4; Mul 64 a6 b3; Mul 64 a7 b2; Mul 64 a8 b1; Mul 64 a9 b0]);
    Let s10 (sum 64 c10 [Mul 64 a0 b10; Mul 64 a1 b9; Mul 64 a2 b8; Mul 64 a3 b7; Mul 64 a4 b6; Mul 64
      a5 b5; Mul 64 a6 b4; Mul 64 a7 b3; Mul 64 a8 b2; Mul 64 a9 b1; Mul 64 a10 b0]);
    Let s11 (sum 64 c11 [Mul 64 a0 b11; Mul 64 a1 b10; Mul 64 a2 b9; Mul 64 a3 b8; Mul 64 a4 b7; Mul 64
      a5 b6; Mul 64 a6 b5; Mul 64 a7 b4; Mul 64 a8 b3; Mul 64 a9 b2; Mul 64 a10 b1; Mul 64 a11 b0]);
    Let s12 (sum 64 (Mul 64 a1 b11) [Mul 64 a2 b10; Mul 64 a3 b9; Mul 64 a4 b8; Mul 64 a5 b7; Mul 64 a6
      b6; Mul 64 a7 b5; Mul 64 a8 b4; Mul 64 a9 b3; Mul 64 a10 b2; Mul 64 a11 b1]);
    Let s13 (sum 64 (Mul 64 a2 b11) [Mul 64 a3 b10; Mul 64 a4 b9; Mul 64 a5 b8; Mul 64 a6 b7; Mul 64 a7
      b6; Mul 64 a8 b5; Mul 64 a9 b4; Mul 64 a10 b3; Mul 64 a11 b2]);
    Let s14 (sum 64 (Mul 64 a3 b11) [Mul 64 a4 b10; Mul 64 a5 b9; Mul 64 a6 b8; Mul 64 a7 b7; Mul 64 a8
      b6; Mul 64 a9 b5; Mul 64 a10 b4; Mul 64 a11 b3]);
    Let s15 (sum 64 (Mul 64 a4 b11) [Mul 64 a5 b10; Mul 64 a6 b9; Mul 64 a7 b8; Mul 64 a8 b7; Mul 64 a9
      b6; Mul 64 a10 b5; Mul 64 a11 b4]);
    Let s16 (sum 64 (Mul 64 a5 b11) [Mul 64 a6 b10; Mul 64 a7 b9; Mul 64 a8 b8; Mul 64 a9 b7; Mul 64 a10
      b6; Mul 64 a11 b5]);
    Let s17 (sum 64 (Mul 64 a6 b11) [Mul 64 a7 b10; Mul 64 a8 b9; Mul 64 a9 b8; Mul 64 a10 b7; Mul 64
      a11 b6]);
    Let s18 (sum 64 (Mul 64 a7 b11) [Mul 64 a8 b10; Mul 64 a9 b9; Mul 64 a10 b8; Mul 64 a11 b7]);
    Let s19 (sum 64 (Mul 64 a8 b11) [Mul 64 a9 b10; Mul 64 a10 b9; Mul 64 a11 b8]);
    Let s20 (Add 64 (Add 64 (Mul 64 a9 b11) (Mul 64 a10 b10)) (Mul 64 a11 b9));
    Let s21 (Add 64 (Mul 64 a10 b11) (Mul 64 a11 b10));
    Let s22 (Mul 64 a11 b11);
    Let s23 (C 0);
    Let carry0 (Shr (Add 64 s0 (C 1048576)) 21);
    Let s1 (Add 64 s1 carry0);
    Let s0 (Sub 64 s0 (Shl 64 carry0 21));
    Let carry2 (Shr (Add 64 s2 (C 1048576)) 21);
    Let s3 (Add 64 s3 carry2);
    Let s2 (Sub 64 s2 (Shl 64 carry2 21));
    Let carry4 (Shr (Add 64 s4 (C 1048576)) 21);
    Let s5 (Add 64 s5 carry4);
    Let s4 (Sub 64 s4 (Shl 64 carry4 21));
    Let carry6 (Shr (Add 64 s6 (C 1048576)) 21);
    Let s7 (Add 64 s7 carry6);
    Let s6 (Sub 64 s6 (Shl 64 carry6 21));
    Let carry8 (Shr (Add 64 s8 (C 1048576)) 21);
    Let s9 (Add 64 s9 carry8);
    Let s8 (Sub 64 s8 (Shl 64 carry8 21));
    Let carry10 (Shr (Add 64 s10 (C 1048576)) 21);
    Let s11 (Add 64 s11 carry10);
    Let s10 (Sub 64 s10 (Shl 64 carry10 21));
    Let carry12 (Shr (Add 64 s12 (C 1048576)) 21);
    Let s13 (Add 64 s13 carry12);
    Let s12 (Sub 64 s12 (Shl 64 carry12 21));
    Let carry14 (Shr (Add 64 s14 (C 1048576)) 21);
    Let s15 (Add 64 s15 carry14);
    Let s14 (Sub 64 s14 (Shl 64 carry14 21));
    Let carry16 (Shr (Add 64 s16 (C 1048576)) 21);
    Let s17 (Add 64 s17 carry16);
    Let s16 (Sub 64 s16 (Shl 64 carry16 21));
    Let carry18 (Shr (Add 64 s18 (C 1048576)) 21);
    Let s19 (Add 64 s19 carry18);
    Let s18 (Sub 64 s18 (Shl 64 carry18 21));
    Let carry20 (Shr (Add 64 s20 (C 1048576)) 21);
    Let s21 (Add 64 s21 carry20);
    Let s20 (Sub 64 s20 (Shl 64 carry20 21));
    Let carry22 (Shr (Add 64 s22 (C 1048576)) 21);
    Let s23 (Add 64 s23 carry22);
    Let s22 (Sub 64 s22 (Shl 64 carry22 21));
    Let carry1 (Shr (Add 64 s1 (C 1048576)) 21);
    Let s2 (Add 64 s2 carry1);
    Let s1 (Sub 64 s1 (Shl 64 carry1 21));
    Let carry3 (Shr (Add 64 s3 (C 1048576)) 21);
    Let s4 (Add 64 s4 carry3);
    Let s3 (Sub 64 s3 (Shl 64 carry3 21));
    Let carry5 (Shr (Add 64 s5 (C 1048576)) 21);
    Let s6 (Add 64 s6 carry5);
    Let s5 (Sub 64 s5 (Shl 64 carry5 21));
    Let carry7 (Shr (Add 64 s7 (C 1048576)) 21);
    Let s8 (Add 64 s8 carry7);
    Let s7 (Sub 64 s7 (Shl 64 carry7 21));
    Let carry9 (Shr (Add 64 s9 (C 1048576)) 21);
    Let s10 (Add 64 s10 carry9);
    Let s9 (Sub 64 s9 (Shl 64 carry9 21));
    Let carry11 (Shr (Add 64 s11 (C 1048576)) 21);
    Let s12 (Add 64 s12 carry11);
    Let s11 (Sub 64 s11 (Shl 64 carry11 21));
    Let carry13 (Shr (Add 64 s13 (C 1048576)) 21);
    Let s14 (Add 64 s14 carry13);
    Let s13 (Sub 64 s13 (Shl 64 carry13 21));
    Let carry15 (Shr (Add 64 s15 (C 1048576)) 21);
    Let s16 (Add 64 s16 carry15);
    Let s15 (Sub 64 s15 (Shl 64 carry15 21));
    Let carry17 (Shr (Add 64 s17 (C 1048576)) 21);
    Let s18 (Add 64 s18 carry17);
    Let s17 (Sub 64 s17 (Shl 64 carry17 21));
    Let carry19 (Shr (Add 64 s19 (C 1048576)) 21);
    Let s20 (Add 64 s20 carry19);
    Let s19 (Sub 64 s19 (Shl 64 carry19 21));
    Let carry21 (Shr (Add 64 s21 (C 1048576)) 21);
    Let s22 (Add 64 s22 carry21);
    Let s21 (Sub 64 s21 (Shl 64 carry21 21));
    Let s11 (Add 64 s11 (Mul 64 s23 (C 666643)));
    Let s12 (Add 64 s12 (Mul 64 s23 (C 470296)));
    Let s13 (Add 64 s13 (Mul 64 s23 (C 654183)));
    Let s14 (Sub 64 s14 (Mul 64 s23 (C 997805)));
    Let s15 (Add 64 s15 (Mul 64 s23 (C 136657)));
    Let s16 (Sub 64 s16 (Mul 64 s23 (C 683901)));
    Let s10 (Add 64 s10 (Mul 64 s22 (C 666643)));
    Let s11 (Add 64 s11 (Mul 64 s22 (C 470296)));
    Let s12 (Add 64 s12 (Mul 64 s22 (C 654183)));
    Let s13 (Sub 64 s13 (Mul 64 s22 (C 997805)));
    Let s14 (Add 64 s14 (Mul 64 s22 (C 136657)));
    Let s15 (Sub 64 s15 (Mul 64 s22 (C 683901)));
    Let s9 (Add 64 s9 (Mul 64 s21 (C 666643)));
    Let s10 (Add 64 s10 (Mul 64 s21 (C 470296)));
    Let s11 (Add 64 s11 (Mul 64 s21 (C 654183)));
    Let s12 (Sub 64 s12 (Mul 64 s21 (C 997805)));
    Let s13 (Add 64 s13 (Mul 64 s21 (C 136657)));
    Let s14 (Sub 64 s14 (Mul 64 s21 (C 683901)));
    Let s8 (Add 64 s8 (Mul 64 s20 (C 666643)));
    Let s9 (Add 64 s9 (Mul 64 s20 (C 470296)));
    Let s10 (Add 64 s10 (Mul 64 s20 (C 654183)));
    Let s11 (Sub 64 s11 (Mul 64 s20 (C 997805)));
    Let s12 (Add 64 s12 (Mul 64 s20 (C 136657)));
    Let s13 (Sub 64 s13 (Mul 64 s20 (C 683901)));
    Let s7 (Add 64 s7 (Mul 64 s19 (C 666643)));
    Let s8 (Add 64 s8 (Mul 64 s19 (C 470296)));
    Let s9 (Add 64 s9 (Mul 64 s19 (C 654183)));
    Let s10 (Sub 64 s10 (Mul 64 s19 (C 997805)));
    Let s11 (Add 64 s11 (Mul 64 s19 (C 136657)));
    Let s12 (Sub 64 s12 (Mul 64 s19 (C 683901)));
    Let s6 (Add 64 s6 (Mul 64 s18 (C 666643)));
    Let s7 (Add 64 s7 (Mul 64 s18 (C 470296)));
    Let s8 (Add 64 s8 (Mul 64 s18 (C 654183)));
    Let s9 (Sub 64 s9 (Mul 64 s18 (C 997805)));
    Let s10 (Add 64 s10 (Mul 64 s18 (C 136657)));
    Let s11 (Sub 64 s11 (Mul 64 s18 (C 683901)));
    Let carry6 (Shr (Add 64 s6 (C 1048576)) 21);
    Let s7 (Add 64 s7 carry6);
    Let s6 (Sub 64 s6 (Shl 64 carry6 21));
    Let carry8 (Shr (Add 64 s8 (C 1048576)) 21);
    Let s9 (Add 64 s9 carry8);
    Let s8 (Sub 64 s8 (Shl 64 carry8 21));
    Let carry10 (Shr (Add 64 s10 (C 1048576)) 21);
    Let s11 (Add 64 s11 carry10);
    Let s10 (Sub 64 s10 (Shl 64 carry10 21));
    Let carry12 (Shr (Add 64 s12 (C 1048576)) 21);
    Let s13 (Add 64 s13 carry12);
    Let s12 (Sub 64 s12 (Shl 64 carry12 21));
    Let carry14 (Shr (Add 64 s14 (C 1048576)) 21);
    Let s15 (Add 64 s15 carry14);
    Let s14 (Sub 64 s14 (Shl 64 carry14 21));
    Let carry16 (Shr (Add 64 s16 (C 1048576)) 21);
    Let s17 (Add 64 s17 carry16);
    Let s16 (Sub 64 s16 (Shl 64 carry16 21));
    Let carry7 (Shr (Add 64 s7 (C 1048576)) 21);
    Let s8 (Add 64 s8 carry7);
    Let s7 (Sub 64 s7 (Shl 64 carry7 21));
    Let carry9 (Shr (Add 64 s9 (C 1048576)) 21);
    Let s10 (Add 64 s10 carry9);
    Let s9 (Sub 64 s9 (Shl 64 carry9 21));
    Let carry11 (Shr (Add 64 s11 (C 1048576)) 21);
    Let s12 (Add 64 s12 carry11);
    Let s11 (Sub 64 s11 (Shl 64 carry11 21));
    Let carry13 (Shr (Add 64 s13 (C 1048576)) 21);
    Let s14 (Add 64 s14 carry13);
    Let s13 (Sub 64 s13 (Shl 64 carry13 21));
    Let carry15 (Shr (Add 64 s15 (C 1048576)) 21);
    Let s16 (Add 64 s16 carry15);
    Let s15 (Sub 64 s15 (Shl 64 carry15 21));
    Let s5 (Add 64 s5 (Mul 64 s17 (C 666643)));
    Let s6 (Add 64 s6 (Mul 64 s17 (C 470296)));
    Let s7 (Add 64 s7 (Mul 64 s17 (C 654183)));
    Let s8 (Sub 64 s8 (Mul 64 s17 (C 997805)));
    Let s9 (Add 64 s9 (Mul 64 s17 (C 136657)));
    Let s10 (Sub 64 s10 (Mul 64 s17 (C 683901)));
    Let s4 (Add 64 s4 (Mul 64 s16 (C 666643)));
    Let s5 (Add 64 s5 (Mul 64 s16 (C 470296)));
    Let s6 (Add 64 s6 (Mul 64 s16 (C 654183)));
    Let s7 (Sub 64 s7 (Mul 64 s16 (C 997805)));
    Let s8 (Add 64 s8 (Mul 64 s16 (C 136657)));
    Let s9 (Sub 64 s9 (Mul 64 s16 (C 683901)));
    Let s3 (Add 64 s3 (Mul 64 s15 (C 666643)));
    Let s4 (Add 64 s4 (Mul 64 s15 (C 470296)));
    Let s5 (Add 64 s5 (Mul 64 s15 (C 654183)));
    Let s6 (Sub 64 s6 (Mul 64 s15 (C 997805)));
    Let s7 (Add 64 s7 (Mul 64 s15 (C 136657)));
    Let s8 (Sub 64 s8 (Mul 64 s15 (C 683901)));
    Let s2 (Add 64 s2 (Mul 64 s14 (C 666643)));
    Let s3 (Add 64 s3 (Mul 64 s14 (C 470296)));
    Let s4 (Add 64 s4 (Mul 64 s14 (C 654183)));
    Let s5 (Sub 64 s5 (Mul 64 s14 (C 997805)));
    Let s6 (Add 64 s6 (Mul 64 s14 (C 136657)));
    Let s7 (Sub 64 s7 (Mul 64 s14 (C 683901)));
    Let s1 (Add 64 s1 (Mul 64 s13 (C 666643)));
    Let s2 (Add 64 s2 (Mul 64 s13 (C 470296)));
    Let s3 (Add 64 s3 (Mul 64 s13 (C 654183)));
    Let s4 (Sub 64 s4 (Mul 64 s13 (C 997805)));
    Let s5 (Add 64 s5 (Mul 64 s13 (C 136657)));
    Let s6 (Sub 64 s6 (Mul 64 s13 (C 683901)));
    Let s0 (Add 64 s0 (Mul 64 s12 (C 666643)));
    Let s1 (Add 64 s1 (Mul 64 s12 (C 470296)));
    Let s2 (Add 64 s2 (Mul 64 s12 (C 654183)));
    Let s3 (Sub 64 s3 (Mul 64 s12 (C 997805)));
    Let s4 (Add 64 s4 (Mul 64 s12 (C 136657)));
    Let s5 (Sub 64 s5 (Mul 64 s12 (C 683901)));
    Let s12 (C 0);
    Let carry0 (Shr (Add 64 s0 (C 1048576)) 21);
    Let s1 (Add 64 s1 carry0);
    Let s0 (Sub 64 s0 (Shl 64 carry0 21));
    Let carry2 (Shr (Add 64 s2 (C 1048576)) 21);
    Let s3 (Add 64 s3 carry2);
    Let s2 (Sub 64 s2 (Shl 64 carry2 21));
    Let carry4 (Shr (Add 64 s4 (C 1048576)) 21);
    Let s5 (Add 64 s5 carry4);
    Let s4 (Sub 64 s4 (Shl 64 carry4 21));
    Let carry6 (Shr (Add 64 s6 (C 1048576)) 21);
    Let s7 (Add 64 s7 carry6);
    Let s6 (Sub 64 s6 (Shl 64 carry6 21));
    Let carry8 (Shr (Add 64 s8 (C 1048576)) 21);
    Let s9 (Add 64 s9 carry8);
    Let s8 (Sub 64 s8 (Shl 64 carry8 21));
    Let carry10 (Shr (Add 64 s10 (C 1048576)) 21);
    Let s11 (Add 64 s11 carry10);
    Let s10 (Sub 64 s10 (Shl 64 carry10 21));
    Let carry1 (Shr (Add 64 s1 (C 1048576)) 21);
    Let s2 (Add 64 s2 carry1);
    Let s1 (Sub 64 s1 (Shl 64 carry1 21));
    Let carry3 (Shr (Add 64 s3 (C 1048576)) 21);
    Let s4 (Add 64 s4 carry3);
    Let s3 (Sub 64 s3 (Shl 64 carry3 21));
    Let carry5 (Shr (Add 64 s5 (C 1048576)) 21);
    Let s6 (Add 64 s6 carry5);
    Let s5 (Sub 64 s5 (Shl 64 carry5 21));
    Let carry7 (Shr (Add 64 s7 (C 1048576)) 21);
    Let s8 (Add 64 s8 carry7);
    Let s7 (Sub 64 s7 (Shl 64 carry7 21));
    Let carry9 (Shr (Add 64 s9 (C 1048576)) 21);
    Let s10 (Add 64 s10 carry9);
    Let s9 (Sub 64 s9 (Shl 64 carry9 21));
    Let carry11 (Shr (Add 64 s11 (C 1048576)) 21);
    Let s12 (Add 64 s12 carry11);
    Let s11 (Sub 64 s11 (Shl 64 carry11 21));
    Let s0 (Add 64 s0 (Mul 64 s12 (C 666643)));
    Let s1 (Add 64 s1 (Mul 64 s12 (C 470296)));
    Let s2 (Add 64 s2 (Mul 64 s12 (C 654183)));
    Let s3 (Sub 64 s3 (Mul 64 s12 (C 997805)));
    Let s4 (Add 64 s4 (Mul 64 s12 (C 136657)));
    Let s5 (Sub 64 s5 (Mul 64 s12 (C 683901)));
    Let s12 (C 0);
    Let carry0 (Shr s0 21);
    Let s1 (Add 64 s1 carry0);
    Let s0 (Sub 64 s0 (Shl 64 carry0 21));
    Let carry1 (Shr s1 21);
    Let s2 (Add 64 s2 carry1);
    Let s1 (Sub 64 s1 (Shl 64 carry1 21));
    Let carry2 (Shr s2 21);
    Let s3 (Add 64 s3 carry2);
    Let s2 (Sub 64 s2 (Shl 64 carry2 21));
    Let carry3 (Shr s3 21);
    Let s4 (Add 64 s4 carry3);
    Let s3 (Sub 64 s3 (Shl 64 carry3 21));
    Let carry4 (Shr s4 21);
    Let s5 (Add 64 s5 carry4);
    Let s4 (Sub 64 s4 (Shl 64 carry4 21));
    Let carry5 (Shr s5 21);
    Let s6 (Add 64 s6 carry5);
    Let s5 (Sub 64 s5 (Shl 64 carry5 21));
    Let carry6 (Shr s6 21);
    Let s7 (Add 64 s7 carry6);
    Let s6 (Sub 64 s6 (Shl 64 carry6 21));
    Let carry7 (Shr s7 21);
    Let s8 (Add 64 s8 carry7);
    Let s7 (Sub 64 s7 (Shl 64 carry7 21));
    Let carry8 (Shr s8 21);
    Let s9 (Add 64 s9 carry8);
    Let s8 (Sub 64 s8 (Shl 64 carry8 21));
    Let carry9 (Shr s9 21);
    Let s10 (Add 64 s10 carry9);
    Let s9 (Sub 64 s9 (Shl 64 carry9 21));
    Let carry10 (Shr s10 21);
    Let s11 (Add 64 s11 carry10);
    Let s10 (Sub 64 s10 (Shl 64 carry10 21));
    Let carry11 (Shr s11 21);
    Let s12 (Add 64 s12 carry11);
    Let s11 (Sub 64 s11 (Shl 64 carry11 21));
    Let s0 (Add 64 s0 (Mul 64 s12 (C 666643)));
    Let s1 (Add 64 s1 (Mul 64 s12 (C 470296)));
    Let s2 (Add 64 s2 (Mul 64 s12 (C 654183)));
    Let s3 (Sub 64 s3 (Mul 64 s12 (C 997805)));
    Let s4 (Add 64 s4 (Mul 64 s12 (C 136657)));
    Let s5 (Sub 64 s5 (Mul 64 s12 (C 683901)));
    Let carry0 (Shr s0 21);
    Let s1 (Add 64 s1 carry0);
    Let s0 (Sub 64 s0 (Shl 64 carry0 21));
    Let carry1 (Shr s1 21);
    Let s2 (Add 64 s2 carry1);
    Let s1 (Sub 64 s1 (Shl 64 carry1 21));
    Let carry2 (Shr s2 21);
    Let s3 (Add 64 s3 carry2);
    Let s2 (Sub 64 s2 (Shl 64 carry2 21));
    Let carry3 (Shr s3 21);
    Let s4 (Add 64 s4 carry3);
    Let s3 (Sub 64 s3 (Shl 64 carry3 21));
    Let carry4 (Shr s4 21);
    Let s5 (Add 64 s5 carry4);
    Let s4 (Sub 64 s4 (Shl 64 carry4 21));
    Let carry5 (Shr s5 21);
    Let s6 (Add 64 s6 carry5);
    Let s5 (Sub 64 s5 (Shl 64 carry5 21));
    Let carry6 (Shr s6 21);
    Let s7 (Add 64 s7 carry6);
    Let s6 (Sub 64 s6 (Shl 64 carry6 21));
    Let carry7 (Shr s7 21);
    Let s8 (Add 64 s8 carry7);
    Let s7 (Sub 64 s7 (Shl 64 carry7 21));
    Let carry8 (Shr s8 21);
    Let s9 (Add 64 s9 carry8);
    Let s8 (Sub 64 s8 (Shl 64 carry8 21));
    Let carry9 (Shr s9 21);
    Let s10 (Add 64 s10 carry9);
    Let s9 (Sub 64 s9 (Shl 64 carry9 21));
    Let carry10 (Shr s10 21);
    Let s11 (Add 64 s11 carry10);
    Let s10 (Sub 64 s10 (Shl 64 carry10 21))];
  outs := [V s0; V s1; V s2; V s3; V s4; V s5; V s6; V s7; V s8; V s9; V s10; V s11] |}.

(** ed25519.rs:915-1170: the body of [sc_reduce] from the loaded limbs to the final limbs. *)
Definition sc_reduce_prog : prog := {|
  params := [s0; s1; s2; s3; s4; s5; s6; s7; s8; s9; s10; s11; s12; s13; s14; s15; s16; s17; s18; s19;
      s20; s21; s22; s23];
  body := [
    Let s11 (Add 64 s11 (Mul 64 s23 (C 666643)));
    Let s12 (Add 64 s12 (Mul 64 s23 (C 470296)));
    Let s13 (Add 64 s13 (Mul 64 s23 (C 654183)));
    Let s14 (Sub 64 s14 (Mul 64 s23 (C 997805)));
    Let s15 (Add 64 s15 (Mul 64 s23 (C 136657)));
    Let s16 (Sub 64 s16 (Mul 64 s23 (C 683901)));
    Let s10 (Add 64 s10 (Mul 64 s22 (C 666643)));
    Let s11 (Add 64 s11 (Mul 64 s22 (C 470296)));
    Let s12 (Add 64 s12 (Mul 64 s22 (C 654183)));
    Let s13 (Sub 64 s13 (Mul 64 s22 (C 997805)));
    Let s14 (Add 64 s14 (Mul 64 s22 (C 136657)));
    Let s15 (Sub 64 s15 (Mul 64 s22 (C 683901)));
    Let s9 (Add 64 s9 (Mul 64 s21 (C 666643)));
    Let s10 (Add 64 s10 (Mul 64 s21 (C 470296)));
    Let s11 (Add 64 s11 (Mul 64 s21 (C 654183)));
    Let s12 (Sub 64 s12 (Mul 64 s21 (C 997805)));
    Let s13 (Add 64 s13 (Mul 64 s21 (C 136657)));
    Let s14 (Sub 64 s14 (Mul 64 s21 (C 683901)));
    Let s8 (Add 64 s8 (Mul 64 s20 (C 666643)));
    Let s9 (Add 64 s9 (Mul 64 s20 (C 470296)));
    Let s10 (Add 64 s10 (Mul 64 s20 (C 654183)));
    Let s11 (Sub 64 s11 (Mul 64 s20 (C 997805)));
    Let s12 (Add 64 s12 (Mul 64 s20 (C 136657)));
    Let s13 (Sub 64 s13 (Mul 64 s20 (C 683901)));
    Let s7 (Add 64 s7 (Mul 64 s19 (C 666643)));
    Let s8 (Add 64 s8 (Mul 64 s19 (C 470296)));
    Let s9 (Add 64 s9 (Mul 64 s19 (C 654183)));
    Let s10 (Sub 64 s10 (Mul 64 s19 (C 997805)));
    Let s11 (Add 64 s11 (Mul 64 s19 (C 136657)));
    Let s12 (Sub 64 s12 (Mul 64 s19 (C 683901)));
    Let s6 (Add 64 s6 (Mul 64 s18 (C 666643)));
    Let s7 (Add 64 s7 (Mul 64 s18 (C 470296)));
    Let s8 (Add 64 s8 (Mul 64 s18 (C 654183)));
    Let s9 (Sub 64 s9 (Mul 64 s18 (C 997805)));
    Let s10 (Add 64 s10 (Mul 64 s18 (C 136657)));
    Let s11 (Sub 64 s11 (Mul 64 s18 (C 683901)));
    Let carry6 (Shr (Add 64 s6 (C 1048576)) 21);
    Let s7 (Add 64 s7 carry6);
    Let s6 (Sub 64 s6 (Shl 64 carry6 21));
    Let carry8 (Shr (Add 64 s8 (C 1048576)) 21);
    Let s9 (Add 64 s9 carry8);
    Let s8 (Sub 64 s8 (Shl 64 carry8 21));
    Let carry10 (Shr (Add 64 s10 (C 1048576)) 21);
    Let s11 (Add 64 s11 carry10);
    Let s10 (Sub 64 s10 (Shl 64 carry10 21));
    Let carry12 (Shr (Add 64 s12 (C 1048576)) 21);
    Let s13 (Add 64 s13 carry12);
    Let s12 (Sub 64 s12 (Shl 64 carry12 21));
    Let carry14 (Shr (Add 64 s14 (C 1048576)) 21);
    Let s15 (Add 64 s15 carry14);
    Let s14 (Sub 64 s14 (Shl 64 carry14 21));
    Let carry16 (Shr (Add 64 s16 (C 1048576)) 21);
    Let s17 (Add 64 s17 carry16);
    Let s16 (Sub 64 s16 (Shl 64 carry16 21));
    Let carry7 (Shr (Add 64 s7 (C 1048576)) 21);
    Let s8 (Add 64 s8 carry7);
    Let s7 (Sub 64 s7 (Shl 64 carry7 21));
    Let carry9 (Shr (Add 64 s9 (C 1048576)) 21);
    Let s10 (Add 64 s10 carry9);
    Let s9 (Sub 64 s9 (Shl 64 carry9 21));
    Let carry11 (Shr (Add 64 s11 (C 1048576)) 21);
    Let s12 (Add 64 s12 carry11);
    Let s11 (Sub 64 s11 (Shl 64 carry11 21));
    Let carry13 (Shr (Add 64 s13 (C 1048576)) 21);
    Let s14 (Add 64 s14 carry13);
    Let s13 (Sub 64 s13 (Shl 64 carry13 21));
    Let carry15 (Shr (Add 64 s15 (C 1048576)) 21);
    Let s16 (Add 64 s16 carry15);
    Let s15 (Sub 64 s15 (Shl 64 carry15 21));
    Let s5 (Add 64 s5 (Mul 64 s17 (C 666643)));
    Let s6 (Add 64 s6 (Mul 64 s17 (C 470296)));
    Let s7 (Add 64 s7 (Mul 64 s17 (C 654183)));
    Let s8 (Sub 64 s8 (Mul 64 s17 (C 997805)));
    Let s9 (Add 64 s9 (Mul 64 s17 (C 136657)));
    Let s10 (Sub 64 s10 (Mul 64 s17 (C 683901)));
    Let s4 (Add 64 s4 (Mul 64 s16 (C 666643)));
    Let s5 (Add 64 s5 (Mul 64 s16 (C 470296)));
    Let s6 (Add 64 s6 (Mul 64 s16 (C 654183)));
    Let s7 (Sub 64 s7 (Mul 64 s16 (C 997805)));
    Let s8 (Add 64 s8 (Mul 64 s16 (C 136657)));
    Let s9 (Sub 64 s9 (Mul 64 s16 (C 683901)));
    Let s3 (Add 64 s3 (Mul 64 s15 (C 666643)));
    Let s4 (Add 64 s4 (Mul 64 s15 (C 470296)));
    Let s5 (Add 64 s5 (Mul 64 s15 (C 654183)));
    Let s6 (Sub 64 s6 (Mul 64 s15 (C 997805)));
    Let s7 (Add 64 s7 (Mul 64 s15 (C 136657)));
    Let s8 (Sub 64 s8 (Mul 64 s15 (C 683901)));
    Let s2 (Add 64 s2 (Mul 64 s14 (C 666643)));
    Let s3 (Add 64 s3 (Mul 64 s14 (C 470296)));
    Let s4 (Add 64 s4 (Mul 64 s14 (C 654183)));
    Let s5 (Sub 64 s5 (Mul 64 s14 (C 997805)));
    Let s6 (Add 64 s6 (Mul 64 s14 (C 136657)));
    Let s7 (Sub 64 s7 (Mul 64 s14 (C 683901)));
    Let s1 (Add 64 s1 (Mul 64 s13 (C 666643)));
    Let s2 (Add 64 s2 (Mul 64 s13 (C 470296)));
    Let s3 (Add 64 s3 (Mul 64 s13 (C 654183)));
    Let s4 (Sub 64 s4 (Mul 64 s13 (C 997805)));
    Let s5 (Add 64 s5 (Mul 64 s13 (C 136657)));
    Let s6 (Sub 64 s6 (Mul 64 s13 (C 683901)));
    Let s0 (Add 64 s0 (Mul 64 s12 (C 666643)));
    Let s1 (Add 64 s1 (Mul 64 s12 (C 470296)));
    Let s2 (Add 64 s2 (Mul 64 s12 (C 654183)));
    Let s3 (Sub 64 s3 (Mul 64 s12 (C 997805)));
    Let s4 (Add 64 s4 (Mul 64 s12 (C 136657)));
    Let s5 (Sub 64 s5 (Mul 64 s12 (C 683901)));
    Let s12 (C 0);
    Let carry0 (Shr (Add 64 s0 (C 1048576)) 21);
    Let s1 (Add 64 s1 carry0);
    Let s0 (Sub 64 s0 (Shl 64 carry0 21));
    Let carry2 (Shr (Add 64 s2 (C 1048576)) 21);
    Let s3 (Add 64 s3 carry2);
    Let s2 (Sub 64 s2 (Shl 64 carry2 21));
    Let carry4 (Shr (Add 64 s4 (C 1048576)) 21);
    Let s5 (Add 64 s5 carry4);
    Let s4 (Sub 64 s4 (Shl 64 carry4 21));
    Let carry6 (Shr (Add 64 s6 (C 1048576)) 21);
    Let s7 (Add 64 s7 carry6);
    Let s6 (Sub 64 s6 (Shl 64 carry6 21));
    Let carry8 (Shr (Add 64 s8 (C 1048576)) 21);
    Let s9 (Add 64 s9 carry8);
    Let s8 (Sub 64 s8 (Shl 64 carry8 21));
    Let carry10 (Shr (Add 64 s10 (C 1048576)) 21);
    Let s11 (Add 64 s11 carry10);
    Let s10 (Sub 64 s10 (Shl 64 carry10 21));
    Let carry1 (Shr (Add 64 s1 (C 1048576)) 21);
    Let s2 (Add 64 s2 carry1);
    Let s1 (Sub 64 s1 (Shl 64 carry1 21));
    Let carry3 (Shr (Add 64 s3 (C 1048576)) 21);
    Let s4 (Add 64 s4 carry3);
    Let s3 (Sub 64 s3 (Shl 64 carry3 21));
    Let carry5 (Shr (Add 64 s5 (C 1048576)) 21);
    Let s6 (Add 64 s6 carry5);
    Let s5 (Sub 64 s5 (Shl 64 carry5 21));
    Let carry7 (Shr (Add 64 s7 (C 1048576)) 21);
    Let s8 (Add 64 s8 carry7);
    Let s7 (Sub 64 s7 (Shl 64 carry7 21));
    Let carry9 (Shr (Add 64 s9 (C 1048576)) 21);
    Let s10 (Add 64 s10 carry9);
    Let s9 (Sub 64 s9 (Shl 64 carry9 21));
    Let carry11 (Shr (Add 64 s11 (C 1048576)) 21);
    Let s12 (Add 64 s12 carry11);
    Let s11 (Sub 64 s11 (Shl 64 carry11 21));
    Let s0 (Add 64 s0 (Mul 64 s12 (C 666643)));
    Let s1 (Add 64 s1 (Mul 64 s12 (C 470296)));
    Let s2 (Add 64 s2 (Mul 64 s12 (C 654183)));
    Let s3 (Sub 64 s3 (Mul 64 s12 (C 997805)));
    Let s4 (Add 64 s4 (Mul 64 s12 (C 136657)));
    Let s5 (Sub 64 s5 (Mul 64 s12 (C 683901)));
    Let s12 (C 0);
    Let carry0 (Shr s0 21);
    Let s1 (Add 64 s1 carry0);
    Let s0 (Sub 64 s0 (Shl 64 carry0 21));
    Let carry1 (Shr s1 21);
    Let s2 (Add 64 s2 carry1);
    Let s1 (Sub 64 s1 (Shl 64 carry1 21));
    Let carry2 (Shr s2 21);
    Let s3 (Add 64 s3 carry2);
    Let s2 (Sub 64 s2 (Shl 64 carry2 21));
    Let carry3 (Shr s3 21);
    Let s4 (Add 64 s4 carry3);
    Let s3 (Sub 64 s3 (Shl 64 carry3 21));
    Let carry4 (Shr s4 21);
    Let s5 (Add 64 s5 carry4);
    Let s4 (Sub 64 s4 (Shl 64 carry4 21));
    Let carry5 (Shr s5 21);
    Let s6 (Add 64 s6 carry5);
    Let s5 (Sub 64 s5 (Shl 64 carry5 21));
    Let carry6 (Shr s6 21);
    Let s7 (Add 64 s7 carry6);
    Let s6 (Sub 64 s6 (Shl 64 carry6 21));
    Let carry7 (Shr s7 21);
    Let s8 (Add 64 s8 carry7);
    Let s7 (Sub 64 s7 (Shl 64 carry7 21));
    Let carry8 (Shr s8 21);
    Let s9 (Add 64 s9 carry8);
    Let s8 (Sub 64 s8 (Shl 64 carry8 21));
    Let carry9 (Shr s9 21);
    Let s10 (Add 64 s10 carry9);
    Let s9 (Sub 64 s9 (Shl 64 carry9 21));
    Let carry10 (Shr s10 21);
    Let s11 (Add 64 s11 carry10);
    Let s10 (Sub 64 s10 (Shl 64 carry10 21));
    Let carry11 (Shr s11 21);
    Let s12 (Add 64 s12 carry11);
    Let s11 (Sub 64 s11 (Shl 64 carry11 21));
    Let s0 (Add 64 s0 (Mul 64 s12 (C 666643)));
    Let s1 (Add 64 s1 (Mul 64 s12 (C 470296)));
    Let s2 (Add 64 s2 (Mul 64 s12 (C 654183)));
    Let s3 (Sub 64 s3 (Mul 64 s12 (C 997805)));
    Let s4 (Add 64 s4 (Mul 64 s12 (C 136657)));
    Let s5 (Sub 64 s5 (Mul 64 s12 (C 683901)));
    Let carry0 (Shr s0 21);
    Let s1 (Add 64 s1 carry0);
    Let s0 (Sub 64 s0 (Shl 64 carry0 21));
    Let carry1 (Shr s1 21);
    Let s2 (Add 64 s2 carry1);
    Let s1 (Sub 64 s1 (Shl 64 carry1 21));
    Let carry2 (Shr s2 21);
    Let s3 (Add 64 s3 carry2);
    Let s2 (Sub 64 s2 (Shl 64 carry2 21));
    Let carry3 (Shr s3 21);
    Let s4 (Add 64 s4 carry3);
    Let s3 (Sub 64 s3 (Shl 64 carry3 21));
    Let carry4 (Shr s4 21);
    Let s5 (Add 64 s5 carry4);
    Let s4 (Sub 64 s4 (Shl 64 carry4 21));
    Let carry5 (Shr s5 21);
    Let s6 (Add 64 s6 carry5);
    Let s5 (Sub 64 s5 (Shl 64 carry5 21));
    Let carry6 (Shr s6 21);
    Let s7 (Add 64 s7 carry6);
    Let s6 (Sub 64 s6 (Shl 64 carry6 21));
    Let carry7 (Shr s7 21);
    Let s8 (Add 64 s8 carry7);
    Let s7 (Sub 64 s7 (Shl 64 carry7 21));
    Let carry8 (Shr s8 21);
    Let s9 (Add 64 s9 carry8);
    Let s8 (Sub 64 s8 (Shl 64 carry8 21));
    Let carry9 (Shr s9 21);
    Let s10 (Add 64 s10 carry9);
    Let s9 (Sub 64 s9 (Shl 64 carry9 21));
    Let carry10 (Shr s10 21);
    Let s11 (Add 64 s11 carry10);
    Let s10 (Sub 64 s10 (Shl 64 carry10 21))];
  outs := [V s0; V s1; V s2; V s3; V s4; V s5; V s6; V s7; V s8; V s9; V s10; V s11] |}.
