(* MLeanProg.v -- GENERATED by tools/lean_gen.py from
   /repo/bicycleparameters/_mooreriderlean2012.py:75-11189, one statement per statement, in order.
   A local name x stands for Nm "x", z n for z[n]. *)
From Verif Require Import Base MLean.
From Coq Require Import ZArith PArith.
Local Open Scope string_scope.
Declare Scope lean_scope.
Delimit Scope lean_scope with lean.
Bind Scope lean_scope with expr.
Local Notation "a + b" := (Add a b) : lean_scope.
Local Notation "a - b" := (Sub a b) : lean_scope.
Local Notation "a * b" := (Mul a b) : lean_scope.
Local Notation "a / b" := (Div a b) : lean_scope.
Local Notation "- a" := (Neg a) : lean_scope.
Local Notation z := Zr.
Local Notation T4 := (Nm "T4") (only parsing).
Local Notation T6 := (Nm "T6") (only parsing).
Local Notation T7 := (Nm "T7") (only parsing).
Local Notation T9 := (Nm "T9") (only parsing).
Local Notation c9 := (Nm "c9") (only parsing).
Local Notation d1 := (Nm "d1") (only parsing).
Local Notation d2 := (Nm "d2") (only parsing).
Local Notation d3 := (Nm "d3") (only parsing).
Local Notation d4 := (Nm "d4") (only parsing).
Local Notation g := (Nm "g") (only parsing).
Local Notation ic11 := (Nm "ic11") (only parsing).
Local Notation ic22 := (Nm "ic22") (only parsing).
Local Notation ic31 := (Nm "ic31") (only parsing).
Local Notation ic33 := (Nm "ic33") (only parsing).
Local Notation id11 := (Nm "id11") (only parsing).
Local Notation id22 := (Nm "id22") (only parsing).
Local Notation ie11 := (Nm "ie11") (only parsing).
Local Notation ie22 := (Nm "ie22") (only parsing).
Local Notation ie31 := (Nm "ie31") (only parsing).
Local Notation ie33 := (Nm "ie33") (only parsing).
Local Notation if11 := (Nm "if11") (only parsing).
Local Notation if22 := (Nm "if22") (only parsing).
Local Notation ig11 := (Nm "ig11") (only parsing).
Local Notation ig22 := (Nm "ig22") (only parsing).
Local Notation ig31 := (Nm "ig31") (only parsing).
Local Notation ig33 := (Nm "ig33") (only parsing).
Local Notation k9 := (Nm "k9") (only parsing).
Local Notation l1 := (Nm "l1") (only parsing).
Local Notation l2 := (Nm "l2") (only parsing).
Local Notation l3 := (Nm "l3") (only parsing).
Local Notation l4 := (Nm "l4") (only parsing).
Local Notation l5 := (Nm "l5") (only parsing).
Local Notation l6 := (Nm "l6") (only parsing).
Local Notation lam := (Nm "lam") (only parsing).
Local Notation mc := (Nm "mc") (only parsing).
Local Notation md := (Nm "md") (only parsing).
Local Notation me := (Nm "me") (only parsing).
Local Notation mf := (Nm "mf") (only parsing).
Local Notation mg := (Nm "mg") (only parsing).
Local Notation q3 := (Nm "q3") (only parsing).
Local Notation q3p := (Nm "q3p") (only parsing).
Local Notation q4 := (Nm "q4") (only parsing).
Local Notation q4p := (Nm "q4p") (only parsing).
Local Notation q5 := (Nm "q5") (only parsing).
Local Notation q5p := (Nm "q5p") (only parsing).
Local Notation q6 := (Nm "q6") (only parsing).
Local Notation q6p := (Nm "q6p") (only parsing).
Local Notation q7 := (Nm "q7") (only parsing).
Local Notation q7p := (Nm "q7p") (only parsing).
Local Notation q8 := (Nm "q8") (only parsing).
Local Notation q8p := (Nm "q8p") (only parsing).
Local Notation q9 := (Nm "q9") (only parsing).
Local Notation q9p := (Nm "q9p") (only parsing).
Local Notation rf := (Nm "rf") (only parsing).
Local Notation rr := (Nm "rr") (only parsing).
Local Notation u1 := (Nm "u1") (only parsing).
Local Notation u2 := (Nm "u2") (only parsing).
Local Notation u3 := (Nm "u3") (only parsing).
Local Notation u4 := (Nm "u4") (only parsing).
Local Notation u5 := (Nm "u5") (only parsing).
Local Notation u6 := (Nm "u6") (only parsing).
Local Notation u7 := (Nm "u7") (only parsing).
Local Notation u8 := (Nm "u8") (only parsing).
Local Notation u9 := (Nm "u9") (only parsing).
(* [_mooreriderlean2012.py:76-333] *)
Definition chunk1 : list stmt := [
  SZ 13 (Cos (lam));
  SZ 14 (Sin (lam));
  SZ 21 (d4 * z 14);
  SZ 22 (d4 * z 13);
  SZ 158 (d3 + l3);
  SZ 163 (d2 + l4);
  SZ 402 (g * mc);
  SZ 403 (g * md);
  SZ 404 (g * me);
  SZ 405 (g * mf);
  SZ 406 (g * mg);
  SZ 2054 (l6 * z 14);
  SZ 2057 (z 13 * z 22 + z 14 * z 21);
  SZ 2059 (ig11 * z 14);
  SZ 2086 (md * rr);
  SZ 2130 (ig31 * z 14);
  SZ 4119 (l6 * mg);
  SZ 4175 (k9 * z 13);
  SZ 4176 (k9 * z 14);
  SZ 3 (Cos (q4));
  SZ 4 (Sin (q4));
  SZ 44 ((PowN (z 3) 2) + (PowN (z 4) 2));
  SZ 119 (rr * z 44);
  SZ 5 (Cos (q5));
  SZ 7 (Cos (q6));
  SZ 6 (Sin (q5));
  SZ 8 (Sin (q6));
  SZ 54 (z 5 * z 7 - z 6 * z 8);
  SZ 32 (z 3 * z 5);
  SZ 31 (z 4 * z 5);
  SZ 45 (z 3 * z 32 + z 4 * z 31);
  SZ 42 (z 3 * z 6);
  SZ 41 (z 4 * z 6);
  SZ 49 (z 3 * z 42 + z 4 * z 41);
  SZ 60 (z 7 * z 45 - z 8 * z 49);
  SZ 55 (z 5 * z 8 + z 6 * z 7);
  SZ 63 (z 7 * z 49 + z 8 * z 45);
  SZ 221 (rr * (z 54 * z 60 + z 55 * z 63));
  SZ 229 (z 119 - z 221);
  SZ 460 (z 3 * z 229);
  SZ 10 (Sin (q7));
  SZ 9 (Cos (q7));
  SZ 24 (z 6 * z 9);
  SZ 27 (z 3 * z 10 + z 4 * z 24);
  SZ 26 (z 6 * z 10);
  SZ 30 (z 3 * z 26 + z 4 * z 9);
  SZ 1 (Cos (q3));
  SZ 2 (Sin (q3));
  SZ 43 ((PowN (z 1) 2) + (PowN (z 2) 2));
  SZ 82 (z 30 * z 43);
  SZ 154 (d2 * z 82);
  SZ 52 (z 32 * z 43);
  SZ 145 (d1 * z 52);
  SZ 118 (rr * z 4 * z 43);
  SZ 126 (z 5 * z 118);
  SZ 232 (z 154 + z 10 * z 145 - z 9 * z 126);
  SZ 23 (z 5 * z 9);
  SZ 29 (z 3 * z 9 - z 4 * z 26);
  SZ 25 (z 5 * z 10);
  SZ 34 (z 23 * z 29 + z 25 * z 27);
  SZ 33 (z 25 * z 31 - z 6 * z 29);
  SZ 35 ((PowN (z 33) 2) + (PowN (z 34) 2));
  SZ 36 (PowH (z 35) 0);
  SZ 38 (z 34 / z 36);
  SZ 40 (rf * z 38);
  SZ 253 (z 40 * z 82);
  SZ 257 (z 232 + z 253);
  SZ 28 (z 4 * z 10 - z 3 * z 24);
  SZ 81 (z 28 * z 43);
  SZ 148 (d3 * z 52 - d2 * z 81);
  SZ 235 (z 148 + z 9 * z 145 + z 10 * z 126);
  SZ 11 (Cos (q8));
  SZ 37 (z 33 / z 36);
  SZ 39 (rf * z 37);
  SZ 12 (Sin (q8));
  SZ 89 (z 11 * z 32 + z 12 * z 28);
  SZ 94 (z 43 * z 89);
  SZ 88 (z 11 * z 28 - z 12 * z 32);
  SZ 90 (z 43 * z 88);
  SZ 243 (z 11 * z 39 * z 94 - z 11 * z 40 * z 90 - z 12 * z 39 * z 90 - z 12 * z 40 * z 94);
  SZ 259 (z 235 + z 243);
  SZ 127 (z 6 * z 118);
  SZ 51 (z 4 * z 43);
  SZ 142 (d1 * z 51);
  SZ 146 ((- z 127) - z 142);
  SZ 157 (d3 * z 82);
  SZ 240 (z 146 - z 157);
  SZ 249 (z 39 * z 82);
  SZ 262 (z 240 - z 249);
  SZ 473 (z 27 * z 257 + z 29 * z 259 - z 31 * z 262);
  SZ 410 (z 5 * z 29);
  SZ 415 (z 33 * z 410);
  SZ 417 (z 415 / (PowH (z 35) 0));
  SZ 435 ((z 33 * z 417 - z 36 * z 410) / (PowN (z 36) 2));
  SZ 441 (rf * z 435);
  SZ 427 (z 34 * z 417 / (PowN (z 36) 2));
  SZ 429 (rf * z 427);
  SZ 450 (z 28 * z 441 + z 32 * z 429);
  SZ 412 (z 25 * z 34);
  SZ 418 (z 412 / (PowH (z 35) 0));
  SZ 424 ((z 25 * z 36 - z 34 * z 418) / (PowN (z 36) 2));
  SZ 432 (rf * z 424);
  SZ 439 (z 33 * z 418 / (PowN (z 36) 2));
  SZ 444 (rf * z 439);
  SZ 453 (z 32 * z 432 - z 28 * z 444);
  SZ 448 (d2 + z 40);
  SZ 416 (z 25 * z 33);
  SZ 420 (z 416 / (PowH (z 35) 0));
  SZ 437 ((z 25 * z 36 - z 33 * z 420) / (PowN (z 36) 2));
  SZ 443 (rf * z 437);
  SZ 428 (z 34 * z 420 / (PowN (z 36) 2));
  SZ 434 (rf * z 428);
  SZ 455 (z 28 * z 443 - z 32 * z 434);
  SZ 414 (z 29 * z 34);
  SZ 419 (z 414 / (PowH (z 35) 0));
  SZ 426 ((z 29 * z 36 - z 34 * z 419) / (PowN (z 36) 2));
  SZ 433 (rf * z 426);
  SZ 440 (z 33 * z 419 / (PowN (z 36) 2));
  SZ 445 (rf * z 440);
  SZ 454 (z 32 * z 433 - z 28 * z 445);
  SZ 413 ((Lit 2 1) * z 27 * z 34 + (Lit 2 1) * z 31 * z 33);
  SZ 422 (z 413 / (PowH (z 35) 0));
  SZ 438 (((Lit 2 1) * z 31 * z 36 - z 33 * z 422) / (PowN (z 36) 2));
  SZ 442 (rf * z 438);
  SZ 425 (((Lit 2 1) * z 27 * z 36 - z 34 * z 422) / (PowN (z 36) 2));
  SZ 431 (rf * z 425);
  SZ 452 ((Lit 1 2) * z 28 * z 442 + (Lit 1 2) * z 32 * z 431);
  SZ 449 (d3 + z 39);
  SZ 411 ((Lit 2 1) * z 23 * z 34 - (Lit 2 1) * z 6 * z 33);
  SZ 421 (z 411 / (PowH (z 35) 0));
  SZ 423 (((Lit 2 1) * z 23 * z 36 - z 34 * z 421) / (PowN (z 36) 2));
  SZ 430 (rf * z 423);
  SZ 436 ((z 33 * z 421 + (Lit 2 1) * z 6 * z 36) / (PowN (z 36) 2));
  SZ 446 (rf * z 436);
  SZ 451 ((Lit 1 2) * z 32 * z 430 - (Lit 1 2) * z 28 * z 446);
  SZ 476 (z 450 + z 4 * z 5 * z 9 * z 453 - d1 * z 3 * z 5 - z 3 * z 6 * z 448 - z 4 * z 6 * z 455 - z 6 * z 9 * z 454 - z 6 * z 10 * z 452 - z 3 * z 5 * z 9 * z 449 - z 4 * z 5 * z 10 * z 451);
  SZ 499 (z 473 * z 476);
  SZ 83 ((PowN (z 11) 2) + (PowN (z 12) 2));
  SZ 254 (z 40 * z 83);
  SZ 250 (z 39 * z 83);
  SZ 463 (z 23 * z 254 - z 6 * z 250);
  SZ 515 (z 2 * z 463);
  SZ 470 (z 27 * z 254 + z 31 * z 250);
  SZ 496 (z 470 * z 476);
  SZ 466 (z 6 * z 262 + z 23 * z 257 - z 25 * z 259);
  SZ 226 (rr * z 51);
  SZ 228 (z 226 - z 118);
  SZ 125 (z 2 * z 6 - z 1 * z 31);
  SZ 123 (z 1 * z 41 + z 2 * z 5);
  SZ 124 (z 1 * z 3);
  SZ 234 (z 9 * z 123 + z 10 * z 124);
  SZ 239 (z 9 * z 124 - z 10 * z 123);
  SZ 462 (z 6 * z 125 + z 23 * z 234 - z 25 * z 239);
  SZ 513 (z 2 * z 466 - z 228 * z 462);
  SZ 469 (z 27 * z 234 + z 29 * z 239 - z 31 * z 125);
  SZ 502 (z 469 * z 476);
  SZ 517 (z 228 * z 463);
  SZ 519 (z 499 * z 515 - z 496 * z 513 - z 502 * z 517);
  SZ 46 (z 31 * z 42 - z 32 * z 41);
  SZ 140 (d1 * z 46);
  SZ 77 ((- z 27) * z 32 - z 28 * z 31);
  SZ 156 (d3 * z 77);
  SZ 241 ((- z 140) - z 156);
  SZ 248 (z 39 * z 77);
  SZ 263 (z 241 - z 248);
  SZ 153 (d2 * z 77);
  SZ 144 (d1 * z 49);
  SZ 147 (z 119 + z 144);
  SZ 231 (z 153 + z 10 * z 147);
  SZ 252 (z 40 * z 77);
  SZ 256 (z 231 + z 252);
  SZ 66 (z 3 * z 24 - z 4 * z 10);
  SZ 80 (z 27 * z 30 + z 29 * z 66);
  SZ 69 ((- z 3) * z 26 - z 4 * z 9);
  SZ 74 (z 29 * z 32 - z 31 * z 69);
  SZ 151 (d3 * z 80 - d2 * z 74);
  SZ 237 (z 151 + z 9 * z 147);
  SZ 97 (z 11 * z 80 + z 12 * z 74);
  SZ 92 (z 11 * z 74 - z 12 * z 80);
  SZ 246 (z 11 * z 39 * z 97 - z 11 * z 40 * z 92 - z 12 * z 39 * z 92 - z 12 * z 40 * z 97);
  SZ 261 (z 237 + z 246);
  SZ 465 (z 6 * z 263 + z 23 * z 256 - z 25 * z 261);
  SZ 58 ((- z 7) * z 42 - z 8 * z 32);
  SZ 61 (z 43 * z 58);
  SZ 59 (z 7 * z 32 - z 8 * z 42);
  SZ 64 (z 43 * z 59);
  SZ 222 (rr * (z 54 * z 61 + z 55 * z 64));
  SZ 458 (z 3 * z 222);
  SZ 219 (z 1 * z 4);
  SZ 457 (z 3 * z 124 + z 4 * z 219);
  SZ 487 ((- z 2) * z 458 - z 228 * z 457);
  SZ 224 (rr * z 46);
  SZ 498 (z 457 * z 463);
  SZ 501 (z 458 * z 463);
  SZ 495 (z 457 * z 466 + z 458 * z 462);
  SZ 504 (z 498 * z 499 + z 501 * z 502 - z 495 * z 496);
  SZ 447 (rr * z 4);
  SZ 475 (z 447 + d1 * z 4 * z 6 + z 3 * z 5 * z 455 + z 449 * (z 3 * z 10 + z 4 * z 24) + z 453 * (z 3 * z 24 - z 4 * z 10) - z 4 * z 5 * z 448 - z 451 * (z 3 * z 26 + z 4 * z 9));
  SZ 47 ((PowN (z 5) 2) + (PowN (z 41) 2) + (PowN (z 42) 2));
  SZ 141 (d1 * z 47);
  SZ 76 (z 5 * z 23 + z 27 * z 41 - z 28 * z 42);
  SZ 155 (d3 * z 76);
  SZ 242 ((- z 141) - z 155);
  SZ 247 (z 39 * z 76);
  SZ 264 (z 242 - z 247);
  SZ 152 (d2 * z 76);
  SZ 48 (z 3 * z 31 - z 4 * z 32);
  SZ 143 (d1 * z 48);
  SZ 230 (z 152 + z 10 * z 143);
  SZ 251 (z 40 * z 76);
  SZ 255 (z 230 + z 251);
  SZ 67 (z 4 * z 23);
  SZ 68 (z 3 * z 23);
  SZ 78 (z 24 * z 25 + z 29 * z 67 - z 30 * z 68);
  SZ 71 (z 4 * z 25);
  SZ 72 (z 3 * z 25);
  SZ 73 (z 6 * z 26 + z 31 * z 71 + z 32 * z 72);
  SZ 149 (d3 * z 78 - d2 * z 73);
  SZ 236 (z 149 + z 9 * z 143);
  SZ 95 (z 11 * z 78 + z 12 * z 73);
  SZ 91 (z 11 * z 73 - z 12 * z 78);
  SZ 244 (z 11 * z 39 * z 95 - z 11 * z 40 * z 91 - z 12 * z 39 * z 91 - z 12 * z 40 * z 95);
  SZ 260 (z 236 + z 244);
  SZ 464 (z 6 * z 264 + z 23 * z 255 - z 25 * z 260);
  SZ 471 (z 27 * z 255 + z 29 * z 260 - z 31 * z 264);
  SZ 481 (z 464 * z 470 - z 463 * z 471);
  SZ 484 (z 462 * z 470 - z 463 * z 469);
  SZ 225 (rr * z 47);
  SZ 62 (z 8 * z 48);
  SZ 65 (z 7 * z 48);
  SZ 223 (rr * (z 54 * z 62 - z 55 * z 65));
  SZ 459 (z 3 * z 223);
  SZ 492 (z 225 * z 458 + z 228 * z 459);
  SZ 480 (z 466 * z 470 - z 463 * z 473);
  SZ 490 (z 2 * z 459 - z 225 * z 457);
  SZ 533 (z 481 * z 487 + z 484 * z 492 - z 480 * z 490);
  SZ 472 (z 27 * z 256 + z 29 * z 261 - z 31 * z 263);
  SZ 528 (z 463 * z 476);
  SZ 121 (z 2 * z 3);
  SZ 218 (z 2 * z 4);
  SZ 456 ((- z 3) * z 121 - z 4 * z 218);
  SZ 482 ((- z 1) * z 458 - z 228 * z 456);
  SZ 478 (z 1 * z 457 - z 2 * z 456);
  SZ 122 (z 1 * z 6 + z 2 * z 31);
  SZ 120 (z 1 * z 5 - z 2 * z 41);
  SZ 233 (z 9 * z 120 - z 10 * z 121);
  SZ 238 ((- z 9) * z 121 - z 10 * z 120);
  SZ 461 (z 6 * z 122 + z 23 * z 233 - z 25 * z 238);
  SZ 468 (z 27 * z 233 + z 29 * z 238 - z 31 * z 122);
  SZ 489 (z 461 * z 470 - z 463 * z 468)].
(* [_mooreriderlean2012.py:334-691] *)
Definition chunk2 : list stmt := [
  SZ 494 (z 476 * (z 482 * z 484 - z 478 * z 480 - z 487 * z 489));
  SZ 538 ((z 460 * z 519 + z 465 * z 487 * z 496 - z 224 * z 504 - z 475 * z 533 - z 472 * z 487 * z 528) / z 494);
  SZ 53 ((PowN (z 7) 2) + (PowN (z 8) 2));
  SZ 227 (rr * z 53);
  SZ 539 (z 227 * z 504 / z 494);
  SZ 477 (z 5 * z 9 * z 452 + z 449 * (z 4 * z 9 + z 3 * z 6 * z 10) + z 453 * (z 3 * z 9 - z 4 * z 6 * z 10) - z 5 * z 10 * z 454 - z 451 * (z 3 * z 10 + z 4 * z 6 * z 9));
  SZ 79 ((PowN (z 25) 2) + (PowN (z 29) 2) + (PowN (z 30) 2));
  SZ 70 ((- z 3) * z 10 - z 4 * z 24);
  SZ 75 (z 32 * z 66 - z 6 * z 23 - z 31 * z 70);
  SZ 150 (d3 * z 79 - d2 * z 75);
  SZ 96 (z 11 * z 79 + z 12 * z 75);
  SZ 93 (z 11 * z 75 - z 12 * z 79);
  SZ 245 (z 11 * z 39 * z 96 - z 11 * z 40 * z 93 - z 12 * z 39 * z 93 - z 12 * z 40 * z 96);
  SZ 258 (z 150 + z 245);
  SZ 467 (z 25 * z 258);
  SZ 474 (z 29 * z 258);
  SZ 540 ((z 477 * z 533 + z 467 * z 487 * z 496 + z 474 * z 487 * z 528) / z 494);
  SN "u1" (z 538 * u4 - z 539 * u6 - z 540 * u7);
  SN "q1p" u1;
  SZ 507 (z 456 * z 463);
  SZ 508 (z 468 * z 476);
  SZ 505 (z 456 * z 466 + z 458 * z 461);
  SZ 509 (z 499 * z 507 + z 501 * z 508 - z 496 * z 505);
  SZ 542 (z 227 * z 509 / z 494);
  SZ 485 (z 1 * z 459 - z 225 * z 456);
  SZ 534 (z 481 * z 482 + z 489 * z 492 - z 480 * z 485);
  SZ 543 ((z 477 * z 534 + z 467 * z 482 * z 496 + z 474 * z 482 * z 528) / z 494);
  SZ 522 (z 1 * z 463);
  SZ 520 (z 1 * z 466 - z 228 * z 461);
  SZ 523 (z 499 * z 522 - z 496 * z 520 - z 508 * z 517);
  SZ 541 ((z 460 * z 523 + z 465 * z 482 * z 496 - z 224 * z 509 - z 475 * z 534 - z 472 * z 482 * z 528) / z 494);
  SN "u2" (z 542 * u6 + z 543 * u7 - z 541 * u4);
  SN "q2p" u2;
  SZ 524 (z 1 * z 462 - z 2 * z 461);
  SZ 525 (z 502 * z 522 - z 496 * z 524 - z 508 * z 515);
  SZ 510 (z 456 * z 462 - z 457 * z 461);
  SZ 511 (z 502 * z 507 - z 496 * z 510 - z 498 * z 508);
  SZ 535 (z 478 * z 481 + z 489 * z 490 - z 484 * z 485);
  SZ 544 ((z 460 * z 525 + z 465 * z 478 * z 496 - z 224 * z 511 - z 475 * z 535 - z 472 * z 478 * z 528) / z 494);
  SZ 545 (z 227 * z 511 / z 494);
  SZ 546 ((z 477 * z 535 + z 467 * z 478 * z 496 + z 474 * z 478 * z 528) / z 494);
  SN "u3" (z 544 * u4 - z 545 * u6 - z 546 * u7);
  SN "q3p" u3;
  SN "q4p" u4;
  SZ 536 (z 478 * z 480 + z 487 * z 489 - z 482 * z 484);
  SZ 547 (z 475 * z 536 / z 494);
  SZ 548 (z 477 * z 536 / z 494);
  SN "u5" (z 547 * u4 + z 548 * u7);
  SN "q5p" u5;
  SN "q6p" u6;
  SN "q7p" u7;
  SZ 526 (z 499 * z 524 + z 508 * z 513 - z 502 * z 520);
  SZ 529 (z 466 * z 476);
  SZ 531 (z 461 * z 476);
  SZ 530 (z 462 * z 476);
  SZ 532 (z 478 * z 529 + z 487 * z 531 - z 482 * z 530);
  SZ 512 (z 495 * z 508 + z 499 * z 510 - z 502 * z 505);
  SZ 527 (z 478 * z 499 + z 487 * z 508 - z 482 * z 502);
  SZ 479 (z 466 * z 471 - z 464 * z 473);
  SZ 486 (z 462 * z 473 - z 466 * z 469);
  SZ 488 (z 461 * z 471 - z 464 * z 468);
  SZ 493 (z 461 * z 469 - z 462 * z 468);
  SZ 483 (z 462 * z 471 - z 464 * z 469);
  SZ 491 (z 461 * z 473 - z 466 * z 468);
  SZ 537 (z 478 * z 479 + z 485 * z 486 + z 487 * z 488 + z 492 * z 493 - z 482 * z 483 - z 490 * z 491);
  SZ 549 ((z 460 * z 526 + z 472 * z 532 - z 224 * z 512 - z 465 * z 527 - z 475 * z 537) / z 494);
  SZ 551 ((z 467 * z 527 + z 474 * z 532 - z 477 * z 537) / z 494);
  SZ 550 (z 227 * z 512 / z 494);
  SN "u8" (z 549 * u4 + z 551 * u7 - z 550 * u6);
  SN "q8p" u8;
  SN "q9p" u9;
  SZ 183 (z 13 * z 123 + z 14 * z 125);
  SZ 15 (Sin (q9));
  SZ 16 (z 14 * z 15);
  SZ 19 (z 13 * z 15);
  SZ 99 (z 13 * z 16 - z 14 * z 19);
  SZ 205 (l6 * z 99);
  SZ 17 (Cos (q9));
  SZ 188 (z 17 * z 124 + z 19 * z 125 - z 16 * z 123);
  SZ 18 (z 14 * z 17);
  SZ 20 (z 13 * z 17);
  SZ 98 ((PowN (z 15) 2) + (PowN (z 18) 2) + (PowN (z 20) 2));
  SZ 200 (l6 * z 98);
  SZ 193 (z 20 * z 125 - z 15 * z 124 - z 18 * z 123);
  SZ 201 (l5 * z 99);
  SZ 907 (mg * (z 183 * z 205 - z 188 * z 200 - z 193 * z 201));
  SZ 111 (z 14 * z 48);
  SZ 857 (ig11 * z 111);
  SZ 116 (z 20 * z 48 - z 15 * z 47);
  SZ 870 (ig31 * z 116);
  SZ 114 (z 17 * z 47 + z 19 * z 48);
  SZ 867 (ig22 * z 114);
  SZ 174 (z 21 * z 47);
  SZ 177 (z 22 * z 47);
  SZ 172 (z 21 * z 48);
  SZ 190 (z 19 * z 174 - z 16 * z 177 - z 17 * z 172);
  SZ 198 (l5 * z 116 - l6 * z 111);
  SZ 213 (z 190 + z 198);
  SZ 195 (z 15 * z 172 + z 20 * z 174 - z 18 * z 177);
  SZ 204 (l5 * z 114);
  SZ 216 (z 195 - z 204);
  SZ 185 (z 13 * z 177 + z 14 * z 174);
  SZ 208 (l6 * z 114);
  SZ 210 (z 185 + z 208);
  SZ 903 (z 98 * z 857 + z 98 * z 870 + z 99 * z 867 - mg * (z 200 * z 213 + z 201 * z 216 - z 205 * z 210));
  SZ 182 (z 13 * z 120 + z 14 * z 122);
  SZ 187 (z 19 * z 122 - z 16 * z 120 - z 17 * z 121);
  SZ 192 (z 15 * z 121 + z 20 * z 122 - z 18 * z 120);
  SZ 906 (mg * (z 182 * z 205 - z 187 * z 200 - z 192 * z 201));
  SZ 106 (z 14 * z 32 - z 13 * z 42);
  SZ 110 (z 43 * z 106);
  SZ 856 (ig11 * z 110);
  SZ 108 (z 18 * z 42 + z 20 * z 32 - z 4 * z 15);
  SZ 115 (z 43 * z 108);
  SZ 869 (ig31 * z 115);
  SZ 107 (z 4 * z 17 + z 16 * z 42 + z 19 * z 32);
  SZ 112 (z 43 * z 107);
  SZ 865 (ig22 * z 112);
  SZ 50 (z 42 * z 43);
  SZ 171 (z 22 * z 50 - z 21 * z 52);
  SZ 175 (z 21 * z 51);
  SZ 180 (z 175 - z 127);
  SZ 178 (z 22 * z 51);
  SZ 179 (z 178 - z 126);
  SZ 191 (z 17 * z 171 + z 19 * z 180 - z 16 * z 179);
  SZ 197 (l5 * z 115 - l6 * z 110);
  SZ 214 (z 191 + z 197);
  SZ 196 (z 20 * z 180 - z 15 * z 171 - z 18 * z 179);
  SZ 202 (l5 * z 112);
  SZ 217 (z 196 - z 202);
  SZ 186 (z 13 * z 179 + z 14 * z 180);
  SZ 206 (l6 * z 112);
  SZ 211 (z 186 + z 206);
  SZ 902 (z 98 * z 856 + z 98 * z 869 + z 99 * z 865 - mg * (z 200 * z 214 + z 201 * z 217 - z 205 * z 211));
  SZ 983 (z 543 * z 907 + z 548 * z 903 - z 540 * z 906 - z 546 * z 902);
  SZ 791 (id22 * z 53);
  SZ 893 (z 53 * z 791);
  SZ 921 (z 51 * z 791);
  SZ 956 (z 893 - z 545 * z 921);
  SZ 914 (md + mc * ((PowN (z 123) 2) + (PowN (z 124) 2) + (PowN (z 125) 2)) + me * ((PowN (z 123) 2) + (PowN (z 124) 2) + (PowN (z 125) 2)) + mf * ((PowN (z 123) 2) + (PowN (z 124) 2) + (PowN (z 125) 2)) + mg * ((PowN (z 183) 2) + (PowN (z 188) 2) + (PowN (z 193) 2)));
  SZ 910 (mg * (z 182 * z 183 + z 187 * z 188 + z 192 * z 193) - mc * (z 121 * z 124 - z 120 * z 123 - z 122 * z 125) - me * (z 121 * z 124 - z 120 * z 123 - z 122 * z 125) - mf * (z 121 * z 124 - z 120 * z 123 - z 122 * z 125));
  SZ 136 (l2 * z 51);
  SZ 137 (z 136 - z 126);
  SZ 130 (l1 * z 52 + l2 * z 50);
  SZ 133 (l1 * z 51);
  SZ 138 ((- z 127) - z 133);
  SZ 169 (z 158 * z 82);
  SZ 159 (z 158 * z 52 - d2 * z 81 - l4 * z 81);
  SZ 166 (z 163 * z 82);
  SZ 916 (mc * (z 123 * z 137 + z 124 * z 130 + z 125 * z 138) + mg * (z 183 * z 211 + z 188 * z 214 + z 193 * z 217) - md * z 2 * z 118 - me * (z 123 * z 126 + z 125 * z 169 + z 10 * z 123 * z 159 - z 124 * z 145 - z 125 * z 146 - z 9 * z 123 * z 166 - z 9 * z 124 * z 159 - z 10 * z 124 * z 166) - mf * (z 123 * z 126 + z 125 * z 157 + z 10 * z 123 * z 148 - z 124 * z 145 - z 125 * z 146 - z 9 * z 123 * z 154 - z 9 * z 124 * z 148 - z 10 * z 124 * z 154));
  SZ 958 (z 542 * z 914 - z 539 * z 910 - z 545 * z 916);
  SZ 909 (md + mc * ((PowN (z 120) 2) + (PowN (z 121) 2) + (PowN (z 122) 2)) + me * ((PowN (z 120) 2) + (PowN (z 121) 2) + (PowN (z 122) 2)) + mf * ((PowN (z 120) 2) + (PowN (z 121) 2) + (PowN (z 122) 2)) + mg * ((PowN (z 182) 2) + (PowN (z 187) 2) + (PowN (z 192) 2)));
  SZ 912 (mg * (z 182 * z 211 + z 187 * z 214 + z 192 * z 217) + me * (z 122 * z 146 + z 9 * z 120 * z 166 - z 120 * z 126 - z 121 * z 145 - z 122 * z 169 - z 9 * z 121 * z 159 - z 10 * z 120 * z 159 - z 10 * z 121 * z 166) + mf * (z 122 * z 146 + z 9 * z 120 * z 154 - z 120 * z 126 - z 121 * z 145 - z 122 * z 157 - z 9 * z 121 * z 148 - z 10 * z 120 * z 148 - z 10 * z 121 * z 154) - md * z 1 * z 118 - mc * (z 121 * z 130 - z 120 * z 137 - z 122 * z 138));
  SZ 957 (z 542 * z 910 - z 539 * z 909 - z 545 * z 912);
  SZ 790 (id22 * z 51);
  SZ 892 (z 53 * z 790);
  SZ 761 (ic11 * z 50);
  SZ 768 (ic22 * z 51);
  SZ 776 (ic33 * z 52);
  SZ 811 (ie31 * z 81);
  SZ 822 (ie33 * z 52);
  SZ 785 (id11 * z 61);
  SZ 794 (id11 * z 64);
  SZ 806 (ie11 * z 81);
  SZ 817 (ie31 * z 52);
  SZ 815 (ie22 * z 82);
  SZ 840 (if22 * z 82);
  SZ 833 (if11 * z 90);
  SZ 843 (if11 * z 94);
  SZ 861 (ig31 * z 110);
  SZ 873 (ig33 * z 115);
  SZ 772 (ic31 * z 52);
  SZ 764 (ic31 * z 50);
  SZ 919 (z 50 * z 761 + z 51 * z 768 + z 51 * z 790 + z 52 * z 776 + z 52 * z 811 + z 52 * z 822 + z 61 * z 785 + z 64 * z 794 + z 81 * z 806 + z 81 * z 817 + z 82 * z 815 + z 82 * z 840 + z 90 * z 833 + z 94 * z 843 + z 110 * z 856 + z 110 * z 869 + z 112 * z 865 + z 115 * z 861 + z 115 * z 873 + md * (PowN (z 118) 2) + mc * ((PowN (z 130) 2) + (PowN (z 137) 2) + (PowN (z 138) 2)) + mg * ((PowN (z 211) 2) + (PowN (z 214) 2) + (PowN (z 217) 2)) - z 50 * z 772 - z 52 * z 764 - me * ((Lit 2 1) * z 146 * z 169 + (Lit 2 1) * z 9 * z 126 * z 166 - (PowN (z 126) 2) - (PowN (z 145) 2) - (PowN (z 146) 2) - (PowN (z 159) 2) - (PowN (z 166) 2) - (PowN (z 169) 2) - (Lit 2 1) * z 9 * z 145 * z 159 - (Lit 2 1) * z 10 * z 126 * z 159 - (Lit 2 1) * z 10 * z 145 * z 166) - mf * ((Lit 2 1) * z 146 * z 157 + (Lit 2 1) * z 9 * z 126 * z 154 - (PowN (z 126) 2) - (PowN (z 145) 2) - (PowN (z 146) 2) - (PowN (z 148) 2) - (PowN (z 154) 2) - (PowN (z 157) 2) - (Lit 2 1) * z 9 * z 145 * z 148 - (Lit 2 1) * z 10 * z 126 * z 148 - (Lit 2 1) * z 10 * z 145 * z 154));
  SZ 936 (z 83 * z 840);
  SZ 955 (z 892 + z 542 * z 916 - z 539 * z 912 - z 545 * z 919 - z 550 * z 936);
  SZ 841 (if22 * z 83);
  SZ 923 (z 82 * z 841);
  SZ 937 (z 83 * z 841);
  SZ 961 ((- z 545) * z 923 - z 550 * z 937);
  SZ 964 (z 956 + z 542 * z 958 - z 539 * z 957 - z 545 * z 955 - z 550 * z 961);
  SZ 854 (ig11 * z 98);
  SZ 864 (ig22 * z 99);
  SZ 859 (ig31 * z 98);
  SZ 932 (z 111 * z 854 + z 114 * z 864 + z 116 * z 859 - mg * (z 200 * z 213 + z 201 * z 216 - z 205 * z 210));
  SZ 924 (z 110 * z 854 + z 112 * z 864 + z 115 * z 859 - mg * (z 200 * z 214 + z 201 * z 217 - z 205 * z 211));
  SZ 973 (z 543 * z 907 + z 548 * z 932 - z 540 * z 906 - z 546 * z 924);
  SZ 960 (z 542 * z 907 - z 539 * z 906 - z 545 * z 924);
  SZ 929 (z 47 * z 791);
  SZ 974 (z 548 * z 929 - z 546 * z 921);
  SZ 161 (z 158 * z 79 - d2 * z 75 - l4 * z 75);
  SZ 900 ((me * z 161 + mf * z 150) * (z 9 * z 124 - z 10 * z 123));
  SZ 135 (l2 * z 47);
  SZ 128 (l1 * z 48);
  SZ 132 (l1 * z 47);
  SZ 167 (z 158 * z 76);
  SZ 160 (z 158 * z 78 - d2 * z 73 - l4 * z 73);
  SZ 164 (z 163 * z 76);
  SZ 915 (mg * (z 183 * z 210 + z 188 * z 213 + z 193 * z 216) + mc * (z 123 * z 135 + z 124 * z 128 - z 125 * z 132) - me * (z 125 * z 141 + z 125 * z 167 + z 10 * z 123 * z 160 - z 124 * z 143 - z 9 * z 123 * z 164 - z 9 * z 124 * z 160 - z 10 * z 124 * z 164) - mf * (z 125 * z 141 + z 125 * z 155 + z 10 * z 123 * z 149 - z 124 * z 143 - z 9 * z 123 * z 152 - z 9 * z 124 * z 149 - z 10 * z 124 * z 152));
  SZ 972 (z 900 + z 543 * z 914 + z 548 * z 915 - z 540 * z 910 - z 546 * z 916);
  SZ 911 (mg * (z 182 * z 210 + z 187 * z 213 + z 192 * z 216) + mc * (z 120 * z 135 - z 121 * z 128 - z 122 * z 132) + me * (z 9 * z 120 * z 164 - z 121 * z 143 - z 122 * z 141 - z 122 * z 167 - z 9 * z 121 * z 160 - z 10 * z 120 * z 160 - z 10 * z 121 * z 164) + mf * (z 9 * z 120 * z 152 - z 121 * z 143 - z 122 * z 141 - z 122 * z 155 - z 9 * z 121 * z 149 - z 10 * z 120 * z 149 - z 10 * z 121 * z 152));
  SZ 899 ((me * z 161 + mf * z 150) * (z 9 * z 121 + z 10 * z 120));
  SZ 971 (z 543 * z 910 + z 548 * z 911 - z 899 - z 540 * z 909 - z 546 * z 912);
  SZ 898 (z 75 * z 806 + z 75 * z 817 + z 79 * z 811 + z 79 * z 822 + z 93 * z 833 + z 96 * z 843 + me * z 161 * (z 159 + z 9 * z 145 + z 10 * z 126) + mf * z 150 * (z 148 + z 9 * z 145 + z 10 * z 126));
  SZ 927 (z 47 * z 768 + z 47 * z 790 + z 48 * z 776 + z 65 * z 794 + z 73 * z 806 + z 73 * z 817 + z 76 * z 815 + z 76 * z 840 + z 78 * z 811 + z 78 * z 822 + z 91 * z 833 + z 95 * z 843 + z 111 * z 856 + z 111 * z 869 + z 114 * z 865 + z 116 * z 861 + z 116 * z 873 + mg * (z 210 * z 211 + z 213 * z 214 + z 216 * z 217) - z 48 * z 764 - z 62 * z 785 - mc * (z 132 * z 138 - z 128 * z 130 - z 135 * z 137) - me * (z 141 * z 146 + z 146 * z 167 + z 9 * z 126 * z 164 - z 141 * z 169 - z 143 * z 145 - z 159 * z 160 - z 164 * z 166 - z 167 * z 169 - z 9 * z 143 * z 159 - z 9 * z 145 * z 160 - z 10 * z 126 * z 160 - z 10 * z 143 * z 166 - z 10 * z 145 * z 164) - mf * (z 141 * z 146 + z 146 * z 155 + z 9 * z 126 * z 152 - z 141 * z 157 - z 143 * z 145 - z 148 * z 149 - z 152 * z 154 - z 155 * z 157 - z 9 * z 143 * z 148 - z 9 * z 145 * z 149 - z 10 * z 126 * z 149 - z 10 * z 143 * z 154 - z 10 * z 145 * z 152));
  SZ 970 (z 898 + z 543 * z 916 + z 548 * z 927 + z 551 * z 936 - z 540 * z 912 - z 546 * z 919);
  SZ 931 (z 76 * z 841);
  SZ 975 (z 548 * z 931 + z 551 * z 937 - z 546 * z 923);
  SZ 978 (z 974 + z 542 * z 972 - z 539 * z 971 - z 545 * z 970 - z 550 * z 975);
  SZ 1003 (z 964 * z 973 - z 960 * z 978);
  SZ 905 (z 98 * z 854 + z 99 * z 864 + mg * ((PowN (z 200) 2) + (PowN (z 201) 2) + (PowN (z 205) 2)));
  SZ 805 (ie11 * z 75);
  SZ 819 (ie31 * z 79);
  SZ 810 (ie31 * z 75);
  SZ 824 (ie33 * z 79);
  SZ 836 (if11 * z 93);
  SZ 845 (if11 * z 96);
  SZ 897 (z 75 * z 805 + z 75 * z 819 + z 79 * z 810 + z 79 * z 824 + z 93 * z 836 + z 96 * z 845 + me * (PowN (z 161) 2) + mf * (PowN (z 150) 2));
  SZ 930 (z 73 * z 805 + z 73 * z 819 + z 78 * z 810 + z 78 * z 824 + z 91 * z 836 + z 95 * z 845 + me * z 161 * (z 160 + z 9 * z 143) + mf * z 150 * (z 149 + z 9 * z 143));
  SZ 922 (z 52 * z 810 + z 52 * z 824 + z 81 * z 805 + z 81 * z 819 + z 90 * z 836 + z 94 * z 845 + me * z 161 * (z 159 + z 9 * z 145 + z 10 * z 126) + mf * z 150 * (z 148 + z 9 * z 145 + z 10 * z 126));
  SZ 969 (z 897 + z 540 * z 899 + z 543 * z 900 + z 548 * z 930 - z 546 * z 922);
  SZ 803 (ie11 * z 73);
  SZ 818 (ie31 * z 78);
  SZ 808 (ie31 * z 73);
  SZ 823 (ie33 * z 78);
  SZ 834 (if11 * z 91);
  SZ 844 (if11 * z 95);
  SZ 895 (z 75 * z 803 + z 75 * z 818 + z 79 * z 808 + z 79 * z 823 + z 93 * z 834 + z 96 * z 844 + me * z 161 * (z 160 + z 9 * z 143) + mf * z 150 * (z 149 + z 9 * z 143));
  SZ 767 (ic22 * z 47);
  SZ 789 (id22 * z 47);
  SZ 774 (ic33 * z 48);
  SZ 786 (id11 * z 62);
  SZ 795 (id11 * z 65);
  SZ 813 (ie22 * z 76);
  SZ 838 (if22 * z 76);
  SZ 862 (ig31 * z 111);
  SZ 874 (ig33 * z 116);
  SZ 928 (z 47 * z 767 + z 47 * z 789 + z 48 * z 774 + z 62 * z 786 + z 65 * z 795 + z 73 * z 803 + z 73 * z 818 + z 76 * z 813 + z 76 * z 838 + z 78 * z 808 + z 78 * z 823 + z 91 * z 834 + z 95 * z 844 + z 111 * z 857 + z 111 * z 870 + z 114 * z 867 + z 116 * z 862 + z 116 * z 874 + mc * ((PowN (z 128) 2) + (PowN (z 132) 2) + (PowN (z 135) 2)) + mg * ((PowN (z 210) 2) + (PowN (z 213) 2) + (PowN (z 216) 2)) + me * ((PowN (z 141) 2) + (PowN (z 143) 2) + (PowN (z 160) 2) + (PowN (z 164) 2) + (PowN (z 167) 2) + (Lit 2 1) * z 141 * z 167 + (Lit 2 1) * z 9 * z 143 * z 160 + (Lit 2 1) * z 10 * z 143 * z 164) + mf * ((PowN (z 141) 2) + (PowN (z 143) 2) + (PowN (z 149) 2) + (PowN (z 152) 2) + (PowN (z 155) 2) + (Lit 2 1) * z 141 * z 155 + (Lit 2 1) * z 9 * z 143 * z 149 + (Lit 2 1) * z 10 * z 143 * z 152));
  SZ 934 (z 83 * z 838);
  SZ 770 (ic31 * z 48);
  SZ 920 (z 51 * z 767 + z 51 * z 789 + z 52 * z 774 + z 52 * z 808 + z 52 * z 823 + z 64 * z 795 + z 81 * z 803 + z 81 * z 818 + z 82 * z 813 + z 82 * z 838 + z 90 * z 834 + z 94 * z 844 + z 110 * z 857 + z 110 * z 870 + z 112 * z 867 + z 115 * z 862 + z 115 * z 874 + mg * (z 210 * z 211 + z 213 * z 214 + z 216 * z 217) - z 50 * z 770 - z 61 * z 786 - mc * (z 132 * z 138 - z 128 * z 130 - z 135 * z 137) - me * (z 141 * z 146 + z 146 * z 167 + z 9 * z 126 * z 164 - z 141 * z 169 - z 143 * z 145 - z 159 * z 160 - z 164 * z 166 - z 167 * z 169 - z 9 * z 143 * z 159 - z 9 * z 145 * z 160 - z 10 * z 126 * z 160 - z 10 * z 143 * z 166 - z 10 * z 145 * z 164) - mf * (z 141 * z 146 + z 146 * z 155 + z 9 * z 126 * z 152 - z 141 * z 157 - z 143 * z 145 - z 148 * z 149 - z 152 * z 154 - z 155 * z 157 - z 9 * z 143 * z 148 - z 9 * z 145 * z 149 - z 10 * z 126 * z 149 - z 10 * z 143 * z 154 - z 10 * z 145 * z 152));
  SZ 967 (z 895 + z 543 * z 915 + z 548 * z 928 + z 551 * z 934 - z 540 * z 911 - z 546 * z 920);
  SZ 979 (z 969 + z 543 * z 972 + z 548 * z 967 + z 551 * z 975 - z 540 * z 971 - z 546 * z 970);
  SZ 959 (z 539 * z 899 + z 542 * z 900 - z 545 * z 922);
  SZ 891 (z 53 * z 789);
  SZ 954 (z 891 + z 542 * z 915 - z 539 * z 911 - z 545 * z 920 - z 550 * z 934);
  SZ 965 (z 959 + z 543 * z 958 + z 548 * z 954 + z 551 * z 961 - z 540 * z 957 - z 546 * z 955);
  SZ 1002 (z 964 * z 979 - z 965 * z 978);
  SZ 982 (z 542 * z 907 - z 539 * z 906 - z 545 * z 902);
  SZ 1004 (z 965 * z 973 - z 960 * z 979)].
(* [_mooreriderlean2012.py:692-1036] *)
Definition chunk3 : list stmt := [
  SZ 1005 (z 983 * z 1003 - z 905 * z 1002 - z 982 * z 1004);
  SZ 268 ((- z 3) * z 6 * q5p - z 4 * z 5 * q4p);
  SZ 269 (z 3 * z 5 * q4p - z 4 * z 6 * q5p);
  SZ 270 (z 3 * z 31 * q4p + z 3 * z 268 + z 4 * z 269 - z 4 * z 32 * q4p);
  SZ 271 (z 3 * z 5 * q5p - z 4 * z 6 * q4p);
  SZ 272 (q4p * z 270 - z 43 * q3p * z 271);
  SZ 762 (ic11 * z 272);
  SZ 273 (z 3 * z 6 * q4p + z 4 * z 5 * q5p);
  SZ 279 (z 3 * z 41 * q4p + z 3 * z 271 + z 4 * z 273 - z 4 * z 42 * q4p);
  SZ 278 (z 3 * z 269 - z 3 * z 32 * q4p - z 4 * z 31 * q4p - z 4 * z 268);
  SZ 280 (q4p * z 279 + q5p * z 278 + z 43 * q3p * z 268);
  SZ 773 (ic31 * z 280);
  SZ 266 (z 46 * q4p + z 47 * q5p + z 51 * q3p);
  SZ 265 (z 45 * q4p - z 50 * q3p);
  SZ 267 (z 48 * q5p + z 49 * q4p + z 52 * q3p);
  SZ 758 (ic31 * z 265 + ic33 * z 267);
  SZ 759 (ic22 * z 266);
  SZ 780 (z 266 * z 758 - z 267 * z 759);
  SZ 276 (z 3 * z 43 * q4p);
  SZ 274 (z 31 * z 271 + z 42 * z 269 - z 32 * z 273 - z 41 * z 268);
  SZ 275 ((Lit 2 1) * z 41 * z 273 + (Lit 2 1) * z 42 * z 271 - (Lit 2 1) * z 5 * z 6 * q5p);
  SZ 277 (q3p * z 276 + q4p * z 274 + q5p * z 275);
  SZ 769 (ic22 * z 277);
  SZ 757 (ic11 * z 265 + ic31 * z 267);
  SZ 778 (z 267 * z 757 - z 265 * z 758);
  SZ 792 (id22 * z 277);
  SZ 283 (z 63 * q4p + z 64 * q3p + z 65 * q5p);
  SZ 281 (z 60 * q4p + z 61 * q3p - z 62 * q5p);
  SZ 781 (id11 * z 281);
  SZ 783 (id11 * z 283);
  SZ 798 (z 283 * z 781 - z 281 * z 783);
  SZ 765 (ic31 * z 272);
  SZ 777 (ic33 * z 280);
  SZ 779 (z 265 * z 759 - z 266 * z 757);
  SZ 284 (z 7 * z 270 - z 7 * z 49 * q6p - z 8 * z 45 * q6p - z 8 * z 279);
  SZ 285 (z 8 * z 42 * q6p - z 7 * z 32 * q6p - z 7 * z 271 - z 8 * z 268);
  SZ 286 (z 7 * z 48 * q6p + z 8 * z 278);
  SZ 287 (q4p * z 284 + z 43 * q3p * z 285 - q5p * z 286);
  SZ 787 (id11 * z 287);
  SZ 282 (z 46 * q4p + z 47 * q5p + z 51 * q3p + z 53 * q6p);
  SZ 782 (id22 * z 282);
  SZ 799 (z 282 * z 783 - z 283 * z 782);
  SZ 288 (z 7 * z 45 * q6p + z 7 * z 279 + z 8 * z 270 - z 8 * z 49 * q6p);
  SZ 290 (z 7 * z 278 - z 8 * z 48 * q6p);
  SZ 289 (z 7 * z 268 - z 7 * z 42 * q6p - z 8 * z 32 * q6p - z 8 * z 271);
  SZ 291 (q4p * z 288 + q5p * z 290 + z 43 * q3p * z 289);
  SZ 796 (id11 * z 291);
  SZ 797 (z 281 * z 782 - z 282 * z 781);
  SZ 295 (z 5 * z 10 * q5p + z 6 * z 9 * q7p);
  SZ 300 ((- z 3) * z 10 * q7p - z 3 * z 26 * q4p - z 4 * z 9 * q4p - z 4 * z 295);
  SZ 301 (z 4 * z 10 * q7p + z 4 * z 26 * q4p - z 3 * z 9 * q4p - z 3 * z 295);
  SZ 302 (z 29 * z 268 + z 32 * z 300 - z 31 * z 301 - z 69 * z 269);
  SZ 296 (z 5 * z 9 * q7p - z 6 * z 10 * q5p);
  SZ 297 (z 3 * z 25 * q4p + z 4 * z 296);
  SZ 298 (z 3 * z 296 - z 4 * z 25 * q4p);
  SZ 299 (z 5 * z 26 * q5p + z 6 * z 295 + z 31 * z 297 + z 32 * z 298 + z 71 * z 269 + z 72 * z 268);
  SZ 303 (z 5 * z 9 * q5p - z 6 * z 10 * q7p);
  SZ 304 (z 3 * z 303 - z 3 * z 10 * q4p - z 4 * z 9 * q7p - z 4 * z 24 * q4p);
  SZ 305 ((- z 5) * z 10 * q7p - z 6 * z 9 * q5p);
  SZ 306 (z 4 * z 10 * q4p - z 3 * z 9 * q7p - z 3 * z 24 * q4p - z 4 * z 303);
  SZ 307 (z 32 * z 304 + z 66 * z 268 - z 5 * z 23 * q5p - z 6 * z 305 - z 31 * z 306 - z 70 * z 269);
  SZ 308 (z 3 * z 10 * q4p + z 4 * z 9 * q7p + z 4 * z 24 * q4p - z 3 * z 303);
  SZ 309 (q4p * z 302 + q5p * z 299 + q7p * z 307 + z 43 * q3p * z 308);
  SZ 807 (ie11 * z 309);
  SZ 313 (z 3 * z 9 * q4p + z 3 * z 295 - z 4 * z 10 * q7p - z 4 * z 26 * q4p);
  SZ 310 (z 3 * z 9 * q7p + z 3 * z 24 * q4p + z 4 * z 303 - z 4 * z 10 * q4p);
  SZ 319 (z 27 * z 313 + z 29 * z 304 + z 30 * z 310 + z 66 * z 300);
  SZ 315 (z 3 * z 23 * q4p + z 4 * z 305);
  SZ 316 (z 3 * z 305 - z 4 * z 23 * q4p);
  SZ 317 (z 24 * z 296 + z 25 * z 303 + z 29 * z 315 + z 67 * z 300 - z 30 * z 316 - z 68 * z 313);
  SZ 318 ((Lit 2 1) * z 25 * z 296 + (Lit 2 1) * z 29 * z 300 + (Lit 2 1) * z 30 * z 313);
  SZ 320 (q4p * z 319 + q5p * z 317 + q7p * z 318 + z 43 * q3p * z 268);
  SZ 821 (ie31 * z 320);
  SZ 293 (z 76 * q5p + z 77 * q4p + z 82 * q3p);
  SZ 292 (z 73 * q5p + z 74 * q4p + z 75 * q7p + z 81 * q3p);
  SZ 294 (z 52 * q3p + z 78 * q5p + z 79 * q7p + z 80 * q4p);
  SZ 801 (ie31 * z 292 + ie33 * z 294);
  SZ 802 (ie22 * z 293);
  SZ 829 (z 293 * z 801 - z 294 * z 802);
  SZ 312 ((- z 27) * z 268 - z 28 * z 269 - z 31 * z 308 - z 32 * z 310);
  SZ 311 (z 5 * z 305 + z 27 * z 273 + z 41 * z 310 - z 6 * z 23 * q5p - z 28 * z 271 - z 42 * z 308);
  SZ 314 (q4p * z 312 + q5p * z 311 + z 43 * q3p * z 313);
  SZ 816 (ie22 * z 314);
  SZ 800 (ie11 * z 292 + ie31 * z 294);
  SZ 827 (z 294 * z 800 - z 292 * z 801);
  SZ 842 (if22 * z 314);
  SZ 323 (z 94 * q3p + z 95 * q5p + z 96 * q7p + z 97 * q4p);
  SZ 321 (z 90 * q3p + z 91 * q5p + z 92 * q4p + z 93 * q7p);
  SZ 830 (if11 * z 321);
  SZ 832 (if11 * z 323);
  SZ 849 (z 323 * z 830 - z 321 * z 832);
  SZ 812 (ie31 * z 309);
  SZ 826 (ie33 * z 320);
  SZ 828 (z 292 * z 802 - z 293 * z 800);
  SZ 326 (z 11 * z 302 - z 11 * z 80 * q8p - z 12 * z 74 * q8p - z 12 * z 319);
  SZ 325 (z 11 * z 299 - z 11 * z 78 * q8p - z 12 * z 73 * q8p - z 12 * z 317);
  SZ 327 (z 11 * z 307 - z 11 * z 79 * q8p - z 12 * z 75 * q8p - z 12 * z 318);
  SZ 324 (z 11 * z 308 - z 11 * z 32 * q8p - z 12 * z 28 * q8p - z 12 * z 268);
  SZ 328 (q4p * z 326 + q5p * z 325 + q7p * z 327 + z 43 * q3p * z 324);
  SZ 837 (if11 * z 328);
  SZ 322 (z 76 * q5p + z 77 * q4p + z 82 * q3p + z 83 * q8p);
  SZ 831 (if22 * z 322);
  SZ 850 (z 322 * z 832 - z 323 * z 831);
  SZ 332 (z 11 * z 74 * q8p + z 11 * z 319 + z 12 * z 302 - z 12 * z 80 * q8p);
  SZ 330 (z 11 * z 73 * q8p + z 11 * z 317 + z 12 * z 299 - z 12 * z 78 * q8p);
  SZ 331 (z 11 * z 75 * q8p + z 11 * z 318 + z 12 * z 307 - z 12 * z 79 * q8p);
  SZ 329 (z 11 * z 28 * q8p + z 11 * z 268 + z 12 * z 308 - z 12 * z 32 * q8p);
  SZ 333 (q4p * z 332 + q5p * z 330 + q7p * z 331 + z 43 * q3p * z 329);
  SZ 847 (if11 * z 333);
  SZ 848 (z 321 * z 831 - z 322 * z 830);
  SZ 109 (z 13 * z 45 + z 14 * z 49);
  SZ 340 (z 13 * z 270 + z 14 * z 279);
  SZ 337 (z 14 * z 15 * q9p);
  SZ 338 (z 13 * z 15 * q9p);
  SZ 339 ((Lit 2 1) * z 15 * z 17 * q9p - (Lit 2 1) * z 18 * z 337 - (Lit 2 1) * z 20 * z 338);
  SZ 341 (z 14 * z 268 - z 13 * z 271);
  SZ 342 (q4p * z 340 + q9p * z 339 + z 14 * q5p * z 278 + z 43 * q3p * z 341);
  SZ 858 (ig11 * z 342);
  SZ 350 (z 20 * z 279 + z 45 * z 337 - z 17 * z 46 * q9p - z 15 * z 274 - z 18 * z 270 - z 49 * z 338);
  SZ 349 (z 20 * z 278 - z 17 * z 47 * q9p - z 15 * z 275 - z 48 * z 338);
  SZ 348 (z 18 * z 271 + z 20 * z 268 - z 3 * z 15 * q4p - z 4 * z 17 * q9p - z 32 * z 338 - z 42 * z 337);
  SZ 351 (q4p * z 350 + q5p * z 349 + z 43 * q3p * z 348);
  SZ 872 (ig31 * z 351);
  SZ 113 (z 17 * z 46 + z 19 * z 49 - z 16 * z 45);
  SZ 335 (z 99 * q9p + z 112 * q3p + z 113 * q4p + z 114 * q5p);
  SZ 334 (z 98 * q9p + z 109 * q4p + z 110 * q3p + z 111 * q5p);
  SZ 117 (z 20 * z 49 - z 15 * z 46 - z 18 * z 45);
  SZ 336 (z 115 * q3p + z 116 * q5p + z 117 * q4p);
  SZ 852 (ig31 * z 334 + ig33 * z 336);
  SZ 853 (ig22 * z 335);
  SZ 879 (z 335 * z 852 - z 336 * z 853);
  SZ 345 (z 20 * z 49 * q9p + z 17 * z 274 + z 19 * z 279 - z 15 * z 46 * q9p - z 18 * z 45 * q9p - z 16 * z 270);
  SZ 346 (z 20 * z 48 * q9p + z 17 * z 275 + z 19 * z 278 - z 15 * z 47 * q9p);
  SZ 343 ((z 13 * z 18 - z 14 * z 20) * q9p);
  SZ 344 (z 3 * z 17 * q4p + z 18 * z 42 * q9p + z 20 * z 32 * q9p + z 16 * z 271 + z 19 * z 268 - z 4 * z 15 * q9p);
  SZ 347 (q4p * z 345 + q5p * z 346 + q9p * z 343 + z 43 * q3p * z 344);
  SZ 868 (ig22 * z 347);
  SZ 851 (ig11 * z 334 + ig31 * z 336);
  SZ 877 (z 336 * z 851 - z 334 * z 852);
  SZ 863 (ig31 * z 342);
  SZ 876 (ig33 * z 351);
  SZ 878 (z 334 * z 853 - z 335 * z 851);
  SZ 176 (z 22 * z 46);
  SZ 173 (z 21 * z 46);
  SZ 184 (z 13 * z 176 + z 14 * z 173);
  SZ 207 (l6 * z 113);
  SZ 209 (z 184 + z 207);
  SZ 354 (rr * z 3 * z 43 * q4p);
  SZ 355 (q3p * z 354);
  SZ 353 (z 119 * q4p);
  SZ 356 (z 43 * q3p);
  SZ 359 ((- z 355) - z 3 * z 353 * z 356);
  SZ 357 (z 44 * q4p);
  SZ 360 (z 353 * z 357);
  SZ 352 (z 118 * q3p);
  SZ 358 (z 352 * z 356);
  SZ 361 (z 5 * z 359 - z 6 * z 360 - z 41 * z 358);
  SZ 389 (z 22 * z 277);
  SZ 170 ((- z 21) * z 49 - z 22 * z 45);
  SZ 390 (z 361 + z 389 + (z 173 * q4p + z 174 * q5p + z 175 * q3p) * z 266 - (z 170 * q4p + z 171 * q3p - z 172 * q5p) * z 267);
  SZ 363 (z 5 * z 360 + z 6 * z 359 + z 31 * z 358);
  SZ 388 (z 21 * z 277);
  SZ 392 (z 363 + z 388 + (z 170 * q4p + z 171 * q3p - z 172 * q5p) * z 265 - (z 176 * q4p + z 177 * q5p + z 178 * q3p) * z 266);
  SZ 393 (z 13 * z 390 + z 14 * z 392);
  SZ 398 (l6 * z 347);
  SZ 203 (l5 * z 113);
  SZ 199 (l5 * z 117 - l6 * z 109);
  SZ 399 (z 393 + z 398 - (z 201 * q9p + z 202 * q3p + z 203 * q4p + z 204 * q5p) * z 335 - (z 197 * q3p + z 198 * q5p + z 199 * q4p - z 200 * q9p) * z 336);
  SZ 181 (z 119 + z 170);
  SZ 189 (z 17 * z 181 + z 19 * z 173 - z 16 * z 176);
  SZ 212 (z 189 + z 199);
  SZ 387 ((- z 21) * z 280 - z 22 * z 272);
  SZ 362 (z 3 * z 358);
  SZ 391 (z 387 + (z 176 * q4p + z 177 * q5p + z 178 * q3p) * z 267 - z 362 - (z 173 * q4p + z 174 * q5p + z 175 * q3p) * z 265);
  SZ 394 (z 17 * z 391 + z 19 * z 392 - z 16 * z 390);
  SZ 396 (l5 * z 351 - l6 * z 342);
  SZ 400 (z 394 + z 396 + (z 201 * q9p + z 202 * q3p + z 203 * q4p + z 204 * q5p) * z 334 + (z 205 * q9p + z 206 * q3p + z 207 * q4p + z 208 * q5p) * z 336);
  SZ 194 (z 20 * z 173 - z 15 * z 181 - z 18 * z 176);
  SZ 215 (z 194 - z 203);
  SZ 395 (z 20 * z 392 - z 15 * z 391 - z 18 * z 390);
  SZ 397 (l5 * z 347);
  SZ 401 (z 395 + (z 197 * q3p + z 198 * q5p + z 199 * q4p - z 200 * q9p) * z 334 - z 397 - (z 205 * q9p + z 206 * q3p + z 207 * q4p + z 208 * q5p) * z 335);
  SZ 131 (l1 * z 46);
  SZ 129 (l1 * z 49 - l2 * z 45);
  SZ 365 (l1 * z 277);
  SZ 134 (l2 * z 46);
  SZ 369 (z 363 + (z 128 * q5p + z 129 * q4p + z 130 * q3p) * z 265 - z 365 - (z 134 * q4p + z 135 * q5p + z 136 * q3p) * z 266);
  SZ 366 (l2 * z 277);
  SZ 367 (z 361 + z 366 - (z 128 * q5p + z 129 * q4p + z 130 * q3p) * z 267 - (z 131 * q4p + z 132 * q5p + z 133 * q3p) * z 266);
  SZ 139 (z 119 + z 129);
  SZ 364 (l1 * z 280 - l2 * z 272);
  SZ 368 (z 364 + (z 131 * q4p + z 132 * q5p + z 133 * q3p) * z 265 + (z 134 * q4p + z 135 * q5p + z 136 * q3p) * z 267 - z 362);
  SZ 370 (d1 * z 277);
  SZ 374 (z 363 + (z 143 * q5p + z 144 * q4p + z 145 * q3p) * z 265 - z 370);
  SZ 162 (z 158 * z 80 - d2 * z 74 - l4 * z 74);
  SZ 383 (z 158 * z 314);
  SZ 165 (z 163 * z 77);
  SZ 386 ((z 159 * q3p + z 160 * q5p + z 161 * q7p + z 162 * q4p) * z 292 - z 383 - (z 164 * q5p + z 165 * q4p + z 166 * q3p) * z 293);
  SZ 168 (z 158 * z 77);
  SZ 372 (z 361 - (z 140 * q4p + z 141 * q5p + z 142 * q3p) * z 266 - (z 143 * q5p + z 144 * q4p + z 145 * q3p) * z 267);
  SZ 371 (d1 * z 280);
  SZ 373 (z 371 + (z 140 * q4p + z 141 * q5p + z 142 * q3p) * z 265 - z 362);
  SZ 381 (z 158 * z 320 - d2 * z 309 - l4 * z 309);
  SZ 384 (z 381 + (z 164 * q5p + z 165 * q4p + z 166 * q3p) * z 294 + (z 167 * q5p + z 168 * q4p + z 169 * q3p) * z 292);
  SZ 382 (z 163 * z 314);
  SZ 385 (z 382 - (z 167 * q5p + z 168 * q4p + z 169 * q3p) * z 293 - (z 159 * q3p + z 160 * q5p + z 161 * q7p + z 162 * q4p) * z 294);
  SZ 377 (d3 * z 314);
  SZ 380 ((z 148 * q3p + z 149 * q5p + z 150 * q7p + z 151 * q4p) * z 292 - z 377 - (z 152 * q5p + z 153 * q4p + z 154 * q3p) * z 293);
  SZ 375 (d3 * z 320 - d2 * z 309);
  SZ 378 (z 375 + (z 152 * q5p + z 153 * q4p + z 154 * q3p) * z 294 + (z 155 * q5p + z 156 * q4p + z 157 * q3p) * z 292);
  SZ 376 (d2 * z 314);
  SZ 379 (z 376 - (z 155 * q5p + z 156 * q4p + z 157 * q3p) * z 293 - (z 148 * q3p + z 149 * q5p + z 150 * q7p + z 151 * q4p) * z 294);
  SZ 889 (z 45 * z 762 + z 45 * z 773 + z 45 * z 780 + z 46 * z 769 + z 46 * z 778 + z 46 * z 792 + z 46 * z 798 + z 49 * z 765 + z 49 * z 777 + z 49 * z 779 + z 60 * z 787 + z 60 * z 799 + z 63 * z 796 + z 63 * z 797 + z 74 * z 807 + z 74 * z 821 + z 74 * z 829 + z 77 * z 816 + z 77 * z 827 + z 77 * z 842 + z 77 * z 849 + z 80 * z 812 + z 80 * z 826 + z 80 * z 828 + z 92 * z 837 + z 92 * z 850 + z 97 * z 847 + z 97 * z 848 + z 109 * z 858 + z 109 * z 872 + z 109 * z 879 + z 113 * z 868 + z 113 * z 877 + z 117 * z 863 + z 117 * z 876 + z 117 * z 878 + mg * (z 209 * z 399 + z 212 * z 400 + z 215 * z 401) - md * z 3 * z 119 * z 358 - mc * (z 131 * z 369 - z 134 * z 367 - z 139 * z 368) - me * (z 140 * z 374 + z 140 * z 386 + z 168 * z 374 + z 168 * z 386 + z 10 * z 162 * z 372 - z 147 * z 373 - z 162 * z 384 - z 165 * z 385 - z 9 * z 147 * z 384 - z 9 * z 162 * z 373 - z 9 * z 165 * z 372 - z 10 * z 147 * z 385 - z 10 * z 165 * z 373) - mf * (z 140 * z 374 + z 140 * z 380 + z 156 * z 374 + z 156 * z 380 + z 10 * z 151 * z 372 - z 147 * z 373 - z 151 * z 378 - z 153 * z 379 - z 9 * z 147 * z 378 - z 9 * z 151 * z 373 - z 9 * z 153 * z 372 - z 10 * z 147 * z 379 - z 10 * z 153 * z 373));
  SZ 913 (md * (z 1 * z 359 + z 2 * z 358 + z 218 * z 360) + mg * (z 182 * z 399 + z 187 * z 400 + z 192 * z 401) + me * (z 120 * z 372 + z 122 * z 374 + z 122 * z 386 + z 9 * z 120 * z 385 - z 121 * z 373 - z 9 * z 121 * z 384 - z 10 * z 120 * z 384 - z 10 * z 121 * z 385) + mf * (z 120 * z 372 + z 122 * z 374 + z 122 * z 380 + z 9 * z 120 * z 379 - z 121 * z 373 - z 9 * z 121 * z 378 - z 10 * z 120 * z 378 - z 10 * z 121 * z 379) - mc * (z 121 * z 368 - z 120 * z 367 - z 122 * z 369));
  SZ 925 (z 51 * z 769 + z 51 * z 778 + z 51 * z 792 + z 51 * z 798 + z 52 * z 765 + z 52 * z 777 + z 52 * z 779 + z 52 * z 812 + z 52 * z 826 + z 52 * z 828 + z 61 * z 787 + z 61 * z 799 + z 64 * z 796 + z 64 * z 797 + z 81 * z 807 + z 81 * z 821 + z 81 * z 829 + z 82 * z 816 + z 82 * z 827 + z 82 * z 842 + z 82 * z 849 + z 90 * z 837 + z 90 * z 850 + z 94 * z 847 + z 94 * z 848 + z 110 * z 858 + z 110 * z 872 + z 110 * z 879 + z 112 * z 868 + z 112 * z 877 + z 115 * z 863 + z 115 * z 876 + z 115 * z 878 + mc * (z 130 * z 368 + z 137 * z 367 + z 138 * z 369) + mg * (z 211 * z 399 + z 214 * z 400 + z 217 * z 401) - z 50 * z 762 - z 50 * z 773 - z 50 * z 780 - md * z 118 * z 359 - me * (z 126 * z 372 + z 169 * z 374 + z 169 * z 386 + z 9 * z 126 * z 385 + z 10 * z 159 * z 372 - z 145 * z 373 - z 146 * z 374 - z 146 * z 386 - z 159 * z 384 - z 166 * z 385 - z 9 * z 145 * z 384 - z 9 * z 159 * z 373 - z 9 * z 166 * z 372 - z 10 * z 126 * z 384 - z 10 * z 145 * z 385 - z 10 * z 166 * z 373) - mf * (z 126 * z 372 + z 157 * z 374 + z 157 * z 380 + z 9 * z 126 * z 379 + z 10 * z 148 * z 372 - z 145 * z 373 - z 146 * z 374 - z 146 * z 380 - z 148 * z 378 - z 154 * z 379 - z 9 * z 145 * z 378 - z 9 * z 148 * z 373 - z 9 * z 154 * z 372 - z 10 * z 126 * z 378 - z 10 * z 145 * z 379 - z 10 * z 154 * z 373));
  SZ 933 (z 47 * z 769 + z 47 * z 778 + z 47 * z 792 + z 47 * z 798 + z 48 * z 765 + z 48 * z 777 + z 48 * z 779 + z 65 * z 796 + z 65 * z 797 + z 73 * z 807 + z 73 * z 821 + z 73 * z 829 + z 76 * z 816 + z 76 * z 827 + z 76 * z 842 + z 76 * z 849 + z 78 * z 812 + z 78 * z 826 + z 78 * z 828 + z 91 * z 837 + z 91 * z 850 + z 95 * z 847 + z 95 * z 848 + z 111 * z 858 + z 111 * z 872 + z 111 * z 879 + z 114 * z 868 + z 114 * z 877 + z 116 * z 863 + z 116 * z 876 + z 116 * z 878 + mg * (z 210 * z 399 + z 213 * z 400 + z 216 * z 401) - z 62 * z 787 - z 62 * z 799 - mc * (z 132 * z 369 - z 128 * z 368 - z 135 * z 367) - me * (z 141 * z 374 + z 141 * z 386 + z 167 * z 374 + z 167 * z 386 + z 10 * z 160 * z 372 - z 143 * z 373 - z 160 * z 384 - z 164 * z 385 - z 9 * z 143 * z 384 - z 9 * z 160 * z 373 - z 9 * z 164 * z 372 - z 10 * z 143 * z 385 - z 10 * z 164 * z 373) - mf * (z 141 * z 374 + z 141 * z 380 + z 155 * z 374 + z 155 * z 380 + z 10 * z 149 * z 372 - z 143 * z 373 - z 149 * z 378 - z 152 * z 379 - z 9 * z 143 * z 378 - z 9 * z 149 * z 373 - z 9 * z 152 * z 372 - z 10 * z 143 * z 379 - z 10 * z 152 * z 373));
  SZ 938 (z 83 * (z 842 + z 849));
  SZ 917 (mc * (z 123 * z 367 + z 124 * z 368 + z 125 * z 369) + mg * (z 183 * z 399 + z 188 * z 400 + z 193 * z 401) + md * (z 2 * z 359 - z 1 * z 358 - z 219 * z 360) - me * (z 10 * z 123 * z 384 - z 123 * z 372 - z 124 * z 373 - z 125 * z 374 - z 125 * z 386 - z 9 * z 123 * z 385 - z 9 * z 124 * z 384 - z 10 * z 124 * z 385) - mf * (z 10 * z 123 * z 378 - z 123 * z 372 - z 124 * z 373 - z 125 * z 374 - z 125 * z 380 - z 9 * z 123 * z 379 - z 9 * z 124 * z 378 - z 10 * z 124 * z 379));
  SZ 948 (z 889 + z 538 * z 913 + z 544 * z 925 + z 547 * z 933 + z 549 * z 938 - z 541 * z 917);
  SZ 881 (z 45 * z 772 + z 46 * z 768 + z 46 * z 790 + z 49 * z 776 + z 60 * z 785 + z 63 * z 794 + z 74 * z 806 + z 74 * z 817 + z 77 * z 815 + z 77 * z 840 + z 80 * z 811 + z 80 * z 822 + z 92 * z 833 + z 97 * z 843 + z 109 * z 856 + z 109 * z 869 + z 113 * z 865 + z 117 * z 861 + z 117 * z 873 + mg * (z 209 * z 211 + z 212 * z 214 + z 215 * z 217) - z 45 * z 761 - z 49 * z 764 - mc * (z 131 * z 138 - z 130 * z 139 - z 134 * z 137) - me * (z 140 * z 146 + z 146 * z 168 + z 9 * z 126 * z 165 - z 140 * z 169 - z 145 * z 147 - z 159 * z 162 - z 165 * z 166 - z 168 * z 169 - z 9 * z 145 * z 162 - z 9 * z 147 * z 159 - z 10 * z 126 * z 162 - z 10 * z 145 * z 165 - z 10 * z 147 * z 166) - mf * (z 140 * z 146 + z 146 * z 156 + z 9 * z 126 * z 153 - z 140 * z 157 - z 145 * z 147 - z 148 * z 151 - z 153 * z 154 - z 156 * z 157 - z 9 * z 145 * z 151 - z 9 * z 147 * z 148 - z 10 * z 126 * z 151 - z 10 * z 145 * z 153 - z 10 * z 147 * z 154));
  SZ 940 (z 881 + z 538 * z 912 + z 544 * z 919 + z 547 * z 927 + z 549 * z 936 - z 541 * z 916);
  SZ 554 (z 1 * z 3 * q3p - z 2 * z 4 * q4p);
  SZ 555 (z 1 * z 4 * q3p + z 2 * z 3 * q4p);
  SZ 556 (z 4 * z 121 * q4p - z 3 * z 218 * q4p - z 3 * z 554 - z 4 * z 555);
  SZ 557 ((- z 1) * z 4 * q4p - z 2 * z 3 * q3p);
  SZ 558 (z 1 * z 3 * q4p - z 2 * z 4 * q3p);
  SZ 559 (z 3 * z 219 * q4p + z 3 * z 557 + z 4 * z 558 - z 4 * z 124 * q4p);
  SZ 560 ((- z 5) * z 8 * q5p - z 5 * z 8 * q6p - z 6 * z 7 * q5p - z 6 * z 7 * q6p);
  SZ 561 (z 5 * z 7 * q5p + z 5 * z 7 * q6p - z 6 * z 8 * q5p - z 6 * z 8 * q6p);
  SZ 566 (rr * (z 54 * z 284 + z 55 * z 288 + z 60 * z 560 + z 63 * z 561));
  SZ 567 ((- z 4) * z 229 * q4p - z 3 * z 566);
  SZ 564 (rr * (z 54 * z 286 + z 62 * z 560 - z 55 * z 290 - z 65 * z 561));
  SZ 565 (z 3 * z 564 - z 4 * z 223 * q4p);
  SZ 562 (rr * (z 61 * z 560 + z 64 * z 561 + z 43 * z 54 * z 285 + z 43 * z 55 * z 289));
  SZ 563 (z 3 * z 562 - z 4 * z 222 * q4p);
  SZ 568 (u1 * z 556 + u2 * z 559 + u4 * z 567 + u5 * z 565 - u3 * z 563);
  SZ 569 (z 1 * z 5 * q5p + z 1 * z 31 * q3p + z 2 * z 269 - z 2 * z 6 * q3p);
  SZ 570 ((- z 1) * z 6 * q5p - z 1 * z 41 * q3p - z 2 * z 5 * q3p - z 2 * z 273);
  SZ 571 (z 9 * z 570 - z 9 * z 121 * q7p - z 10 * z 120 * q7p - z 10 * z 554);
  SZ 572 (z 10 * z 121 * q7p - z 9 * z 120 * q7p - z 9 * z 554 - z 10 * z 570);
  SZ 573 (z 5 * z 122 * q5p + z 6 * z 569 + z 23 * z 571 + z 233 * z 305 - z 25 * z 572 - z 238 * z 296);
  SZ 574 (z 1 * z 6 * q3p + z 2 * z 5 * q5p + z 2 * z 31 * q3p - z 1 * z 269);
  SZ 575 (z 1 * z 5 * q3p + z 1 * z 273 - z 2 * z 6 * q5p - z 2 * z 41 * q3p);
  SZ 576 (z 9 * z 124 * q7p + z 9 * z 575 + z 10 * z 557 - z 10 * z 123 * q7p);
  SZ 577 (z 9 * z 557 - z 9 * z 123 * q7p - z 10 * z 124 * q7p - z 10 * z 575);
  SZ 578 (z 5 * z 125 * q5p + z 6 * z 574 + z 23 * z 576 + z 234 * z 305 - z 25 * z 577 - z 239 * z 296);
  SZ 603 (z 5 * z 118 * q5p + z 6 * z 354);
  SZ 604 ((- z 603) - d1 * z 276);
  SZ 605 (d3 * z 43 * z 313);
  SZ 580 (z 25 * z 269 + z 31 * z 296 - z 5 * z 29 * q5p - z 6 * z 300)].
(* [_mooreriderlean2012.py:1037-1452] *)
Definition chunk4 : list stmt := [
  SZ 579 (z 23 * z 300 + z 25 * z 310 + z 27 * z 296 + z 29 * z 305);
  SZ 581 ((Lit 2 1) * z 33 * z 580 + (Lit 2 1) * z 34 * z 579);
  SZ 584 (((Lit 2 1) * z 36 * z 580 - z 33 * z 581 / (PowH (z 35) 0)) / (PowN (z 36) 2));
  SZ 606 (z 39 * z 43 * z 313 + (Lit 1 2) * rf * z 82 * z 584);
  SZ 607 (z 604 - z 605 - z 606);
  SZ 608 (d2 * z 43 * z 313);
  SZ 609 (d1 * z 43 * z 268);
  SZ 610 (z 5 * z 354 - z 6 * z 118 * q5p);
  SZ 611 (z 9 * z 145 * q7p + z 10 * z 126 * q7p + z 608 + z 10 * z 609 - z 9 * z 610);
  SZ 582 (((Lit 2 1) * z 36 * z 579 - z 34 * z 581 / (PowH (z 35) 0)) / (PowN (z 36) 2));
  SZ 612 (z 40 * z 43 * z 313 + (Lit 1 2) * rf * z 82 * z 582);
  SZ 613 (z 43 * (d2 * z 308 - d3 * z 268));
  SZ 614 (z 9 * z 126 * q7p + z 9 * z 609 + z 10 * z 610 - z 10 * z 145 * q7p - z 613);
  SZ 615 (z 12 * z 40 * z 90 * q8p + z 11 * z 39 * z 43 * z 329 + (Lit 1 2) * rf * z 11 * z 94 * z 584 - z 11 * z 39 * z 90 * q8p - z 11 * z 40 * z 94 * q8p - z 12 * z 39 * z 94 * q8p - z 11 * z 40 * z 43 * z 324 - z 12 * z 39 * z 43 * z 324 - z 12 * z 40 * z 43 * z 329 - (Lit 1 2) * rf * z 11 * z 90 * z 582 - (Lit 1 2) * rf * z 12 * z 90 * z 584 - (Lit 1 2) * rf * z 12 * z 94 * z 582);
  SZ 616 (z 5 * z 262 * q5p + z 6 * z 607 + z 257 * z 305 + z 23 * (z 611 + z 612) - z 259 * z 296 - z 25 * (z 614 + z 615));
  SZ 597 (z 9 * z 147 * q7p + d2 * z 312 + d1 * z 10 * z 279);
  SZ 598 (z 40 * z 312 + (Lit 1 2) * rf * z 77 * z 582);
  SZ 595 ((- d1) * z 274 - d3 * z 312);
  SZ 596 (z 39 * z 312 + (Lit 1 2) * rf * z 77 * z 584);
  SZ 599 (d3 * z 319 - d2 * z 302);
  SZ 600 (z 599 + d1 * z 9 * z 279 - z 10 * z 147 * q7p);
  SZ 601 (z 12 * z 40 * z 92 * q8p + z 11 * z 39 * z 332 + (Lit 1 2) * rf * z 11 * z 97 * z 584 - z 11 * z 39 * z 92 * q8p - z 11 * z 40 * z 97 * q8p - z 12 * z 39 * z 97 * q8p - z 11 * z 40 * z 326 - z 12 * z 39 * z 326 - z 12 * z 40 * z 332 - (Lit 1 2) * rf * z 11 * z 92 * z 582 - (Lit 1 2) * rf * z 12 * z 92 * z 584 - (Lit 1 2) * rf * z 12 * z 97 * z 582);
  SZ 602 (z 5 * z 263 * q5p + z 256 * z 305 + z 23 * (z 597 + z 598) + z 6 * (z 595 - z 596) - z 261 * z 296 - z 25 * (z 600 + z 601));
  SZ 589 (z 9 * z 143 * q7p + d2 * z 311 + d1 * z 10 * z 278);
  SZ 590 (z 40 * z 311 + (Lit 1 2) * rf * z 76 * z 582);
  SZ 587 ((- d1) * z 275 - d3 * z 311);
  SZ 588 (z 39 * z 311 + (Lit 1 2) * rf * z 76 * z 584);
  SZ 591 (d3 * z 317 - d2 * z 299);
  SZ 592 (z 591 + d1 * z 9 * z 278 - z 10 * z 143 * q7p);
  SZ 593 (z 12 * z 40 * z 91 * q8p + z 11 * z 39 * z 330 + (Lit 1 2) * rf * z 11 * z 95 * z 584 - z 11 * z 39 * z 91 * q8p - z 11 * z 40 * z 95 * q8p - z 12 * z 39 * z 95 * q8p - z 11 * z 40 * z 325 - z 12 * z 39 * z 325 - z 12 * z 40 * z 330 - (Lit 1 2) * rf * z 11 * z 91 * z 582 - (Lit 1 2) * rf * z 12 * z 91 * z 584 - (Lit 1 2) * rf * z 12 * z 95 * z 582);
  SZ 594 (z 5 * z 264 * q5p + z 255 * z 305 + z 23 * (z 589 + z 590) + z 6 * (z 587 - z 588) - z 260 * z 296 - z 25 * (z 592 + z 593));
  SZ 583 (rf * z 83 * z 582);
  SZ 585 (rf * z 83 * z 584);
  SZ 586 (z 254 * z 305 + (Lit 1 2) * z 23 * z 583 - z 5 * z 250 * q5p - (Lit 1 2) * z 6 * z 585);
  SZ 617 (d3 * z 318 - d2 * z 307);
  SZ 618 (z 12 * z 40 * z 93 * q8p + z 11 * z 39 * z 331 + (Lit 1 2) * rf * z 11 * z 96 * z 584 - z 11 * z 39 * z 93 * q8p - z 11 * z 40 * z 96 * q8p - z 12 * z 39 * z 96 * q8p - z 11 * z 40 * z 327 - z 12 * z 39 * z 327 - z 12 * z 40 * z 331 - (Lit 1 2) * rf * z 11 * z 93 * z 582 - (Lit 1 2) * rf * z 12 * z 93 * z 584 - (Lit 1 2) * rf * z 12 * z 96 * z 582);
  SZ 619 (z 258 * z 296 + z 25 * (z 617 + z 618));
  SZ 620 (u1 * z 573 + u2 * z 578 + u3 * z 616 + u4 * z 602 + u5 * z 594 + u8 * z 586 - u7 * z 619);
  SZ 552 (rr * z 276 - z 354);
  SZ 553 (z 1 * u2 * q3p + u3 * z 552 + rr * u4 * z 274 + rr * u5 * z 275 - z 2 * u1 * q3p);
  SZ 629 (rr * z 3 * q4p);
  SZ 630 (z 25 * z 580 + z 33 * z 296);
  SZ 631 (((Lit 2 1) * z 35 * z 630 - z 416 * z 581) / (PowH (z 35) 1));
  SZ 632 (((z 25 * z 36 - (Lit 2 1) * z 33 * z 420) * z 581 / (PowH (z 35) 0) - z 36 * ((Lit 2 1) * z 36 * z 296 - (Lit 2 1) * z 420 * z 580 - z 33 * z 631)) / (PowN (z 36) 3));
  SZ 633 ((z 34 * z 36 * z 631 + (Lit 2 1) * z 36 * z 420 * z 579 - (Lit 2 1) * z 34 * z 420 * z 581 / (PowH (z 35) 0)) / (PowN (z 36) 3));
  SZ 634 (z 443 * z 308 - z 434 * z 268 - (Lit 1 2) * rf * z 28 * z 632 - (Lit 1 2) * rf * z 32 * z 633);
  SZ 635 (z 25 * z 579 + z 34 * z 296);
  SZ 636 (((Lit 2 1) * z 35 * z 635 - z 412 * z 581) / (PowH (z 35) 1));
  SZ 638 ((z 33 * z 36 * z 636 + (Lit 2 1) * z 36 * z 418 * z 580 - (Lit 2 1) * z 33 * z 418 * z 581 / (PowH (z 35) 0)) / (PowN (z 36) 3));
  SZ 637 (((z 25 * z 36 - (Lit 2 1) * z 34 * z 418) * z 581 / (PowH (z 35) 0) - z 36 * ((Lit 2 1) * z 36 * z 296 - (Lit 2 1) * z 418 * z 579 - z 34 * z 636)) / (PowN (z 36) 3));
  SZ 639 (z 432 * z 268 - z 444 * z 308 - (Lit 1 2) * rf * z 28 * z 638 - (Lit 1 2) * rf * z 32 * z 637);
  SZ 640 ((Lit 2 1) * z 23 * z 579 + (Lit 2 1) * z 34 * z 305 - (Lit 2 1) * z 5 * z 33 * q5p - (Lit 2 1) * z 6 * z 580);
  SZ 641 (((Lit 2 1) * z 35 * z 640 - z 411 * z 581) / (PowH (z 35) 1));
  SZ 643 (((Lit 2 1) * z 33 * z 421 * z 581 / (PowH (z 35) 0) - z 36 * ((Lit 4 1) * z 5 * z 36 * q5p + z 33 * z 641 + (Lit 2 1) * z 421 * z 580 - (Lit 2 1) * z 6 * z 581 / (PowH (z 35) 0))) / (PowN (z 36) 3));
  SZ 642 (((Lit 2 1) * (z 23 * z 36 - z 34 * z 421) * z 581 / (PowH (z 35) 0) - z 36 * ((Lit 4 1) * z 36 * z 305 - (Lit 2 1) * z 421 * z 579 - z 34 * z 641)) / (PowN (z 36) 3));
  SZ 644 ((Lit 1 2) * z 430 * z 268 + (Lit 1 4) * rf * z 28 * z 643 - (Lit 1 2) * z 446 * z 308 - (Lit 1 4) * rf * z 32 * z 642);
  SZ 645 (d1 * z 3 * z 6 * q4p + d1 * z 4 * z 5 * q5p + z 4 * z 6 * z 448 * q5p + z 629 + z 3 * z 5 * z 634 + (z 3 * z 24 - z 4 * z 10) * z 639 + (Lit 1 2) * rf * (z 3 * z 10 + z 4 * z 24) * z 584 + z 451 * (z 4 * z 10 * q7p + z 4 * z 26 * q4p - z 3 * z 9 * q4p - z 3 * z 295) - z 3 * z 5 * z 448 * q4p - z 3 * z 6 * z 455 * q5p - z 4 * z 5 * z 455 * q4p - (Lit 1 2) * rf * z 4 * z 5 * z 582 - (z 3 * z 26 + z 4 * z 9) * z 644 - z 453 * (z 3 * z 10 * q4p + z 4 * z 9 * q7p + z 4 * z 24 * q4p - z 3 * z 303) - z 449 * (z 4 * z 10 * q4p - z 3 * z 9 * q7p - z 3 * z 24 * q4p - z 4 * z 303));
  SZ 646 (z 5 * z 300 - z 6 * z 29 * q5p);
  SZ 647 (z 33 * z 646 + z 410 * z 580);
  SZ 648 (((Lit 2 1) * z 35 * z 647 - z 415 * z 581) / (PowH (z 35) 1));
  SZ 650 ((z 34 * z 36 * z 648 + (Lit 2 1) * z 36 * z 417 * z 579 - (Lit 2 1) * z 34 * z 417 * z 581 / (PowH (z 35) 0)) / (PowN (z 36) 3));
  SZ 649 (((Lit 2 1) * z 33 * z 417 * z 581 / (PowH (z 35) 0) + z 36 * ((Lit 2 1) * z 36 * z 646 - (Lit 2 1) * z 417 * z 580 - z 33 * z 648 - z 410 * z 581 / (PowH (z 35) 0))) / (PowN (z 36) 3));
  SZ 651 (z 429 * z 268 + z 441 * z 308 + (Lit 1 2) * rf * z 32 * z 650 - (Lit 1 2) * rf * z 28 * z 649);
  SZ 652 (z 29 * z 579 + z 34 * z 300);
  SZ 653 (((Lit 2 1) * z 35 * z 652 - z 414 * z 581) / (PowH (z 35) 1));
  SZ 655 ((z 33 * z 36 * z 653 + (Lit 2 1) * z 36 * z 419 * z 580 - (Lit 2 1) * z 33 * z 419 * z 581 / (PowH (z 35) 0)) / (PowN (z 36) 3));
  SZ 654 (((z 29 * z 36 - (Lit 2 1) * z 34 * z 419) * z 581 / (PowH (z 35) 0) - z 36 * ((Lit 2 1) * z 36 * z 300 - (Lit 2 1) * z 419 * z 579 - z 34 * z 653)) / (PowN (z 36) 3));
  SZ 656 (z 433 * z 268 - z 445 * z 308 - (Lit 1 2) * rf * z 28 * z 655 - (Lit 1 2) * rf * z 32 * z 654);
  SZ 657 ((Lit 2 1) * z 27 * z 579 + (Lit 2 1) * z 31 * z 580 + (Lit 2 1) * z 33 * z 269 + (Lit 2 1) * z 34 * z 310);
  SZ 658 (((Lit 2 1) * z 35 * z 657 - z 413 * z 581) / (PowH (z 35) 1));
  SZ 659 (((Lit 2 1) * (z 31 * z 36 - z 33 * z 422) * z 581 / (PowH (z 35) 0) - z 36 * ((Lit 4 1) * z 36 * z 269 - (Lit 2 1) * z 422 * z 580 - z 33 * z 658)) / (PowN (z 36) 3));
  SZ 660 (((Lit 2 1) * (z 27 * z 36 - z 34 * z 422) * z 581 / (PowH (z 35) 0) - z 36 * ((Lit 4 1) * z 36 * z 310 - (Lit 2 1) * z 422 * z 579 - z 34 * z 658)) / (PowN (z 36) 3));
  SZ 661 ((Lit 1 2) * z 431 * z 268 + (Lit 1 2) * z 442 * z 308 - (Lit 1 4) * rf * z 28 * z 659 - (Lit 1 4) * rf * z 32 * z 660);
  SZ 662 (d1 * z 3 * z 6 * q5p + d1 * z 4 * z 5 * q4p + z 4 * z 6 * z 448 * q4p + z 6 * z 10 * z 454 * q7p + z 3 * z 5 * z 9 * z 453 * q4p + z 3 * z 5 * z 10 * z 449 * q7p + z 3 * z 6 * z 9 * z 449 * q5p + z 4 * z 5 * z 9 * z 449 * q4p + z 4 * z 6 * z 10 * z 451 * q5p + z 651 + z 4 * z 5 * z 9 * z 639 - z 3 * z 5 * z 448 * q5p - z 3 * z 6 * z 455 * q4p - z 4 * z 5 * z 455 * q5p - z 5 * z 9 * z 454 * q5p - z 5 * z 10 * z 452 * q5p - z 6 * z 9 * z 452 * q7p - z 3 * z 5 * z 10 * z 451 * q4p - z 4 * z 5 * z 9 * z 451 * q7p - z 4 * z 5 * z 10 * z 453 * q7p - z 4 * z 6 * z 9 * z 453 * q5p - z 4 * z 6 * z 634 - z 6 * z 9 * z 656 - z 6 * z 10 * z 661 - z 4 * z 5 * z 10 * z 644 - (Lit 1 2) * rf * z 3 * z 6 * z 582 - (Lit 1 2) * rf * z 3 * z 5 * z 9 * z 584);
  SZ 663 (z 6 * z 10 * z 454 * q5p + z 449 * (z 3 * z 9 * q4p + z 3 * z 5 * z 10 * q5p + z 3 * z 6 * z 9 * q7p - z 4 * z 10 * q7p - z 4 * z 6 * z 10 * q4p) + z 5 * z 9 * z 661 + (z 3 * z 9 - z 4 * z 6 * z 10) * z 639 + (Lit 1 2) * rf * (z 4 * z 9 + z 3 * z 6 * z 10) * z 584 - z 5 * z 9 * z 454 * q7p - z 5 * z 10 * z 452 * q7p - z 6 * z 9 * z 452 * q5p - z 453 * (z 3 * z 10 * q7p + z 4 * z 9 * q4p + z 3 * z 6 * z 10 * q4p + z 4 * z 5 * z 10 * q5p + z 4 * z 6 * z 9 * q7p) - z 451 * (z 3 * z 9 * q7p + z 3 * z 6 * z 9 * q4p + z 4 * z 5 * z 9 * q5p - z 4 * z 10 * q4p - z 4 * z 6 * z 10 * q7p) - z 5 * z 10 * z 656 - (z 3 * z 10 + z 4 * z 6 * z 9) * z 644);
  SZ 664 (u4 * z 645 + u5 * z 662 + u7 * z 663);
  SZ 621 (z 27 * z 571 + z 29 * z 572 + z 233 * z 310 + z 238 * z 300 - z 31 * z 569 - z 122 * z 269);
  SZ 622 (z 27 * z 576 + z 29 * z 577 + z 234 * z 310 + z 239 * z 300 - z 31 * z 574 - z 125 * z 269);
  SZ 626 (z 257 * z 310 + z 259 * z 300 + z 27 * (z 611 + z 612) + z 29 * (z 614 + z 615) - z 31 * z 607 - z 262 * z 269);
  SZ 625 (z 256 * z 310 + z 261 * z 300 + z 27 * (z 597 + z 598) + z 29 * (z 600 + z 601) - z 263 * z 269 - z 31 * (z 595 - z 596));
  SZ 624 (z 255 * z 310 + z 260 * z 300 + z 27 * (z 589 + z 590) + z 29 * (z 592 + z 593) - z 264 * z 269 - z 31 * (z 587 - z 588));
  SZ 627 (z 258 * z 300 + z 29 * (z 617 + z 618));
  SZ 623 (z 250 * z 269 + z 254 * z 310 + (Lit 1 2) * z 27 * z 583 + (Lit 1 2) * z 31 * z 585);
  SZ 628 (u1 * z 621 + u2 * z 622 + u3 * z 626 + u4 * z 625 + u5 * z 624 + u7 * z 627 + u8 * z 623);
  SZ 667 ((z 525 * z 568 + z 478 * z 496 * z 620 - z 511 * z 553 - z 535 * z 664 - z 478 * z 528 * z 628) / z 494);
  SZ 882 (z 45 * z 770 + z 46 * z 767 + z 46 * z 789 + z 49 * z 774 + z 63 * z 795 + z 74 * z 803 + z 74 * z 818 + z 77 * z 813 + z 77 * z 838 + z 80 * z 808 + z 80 * z 823 + z 92 * z 834 + z 97 * z 844 + z 109 * z 857 + z 109 * z 870 + z 113 * z 867 + z 117 * z 862 + z 117 * z 874 + mc * (z 128 * z 139 + z 131 * z 132 + z 134 * z 135) + mg * (z 209 * z 210 + z 212 * z 213 + z 215 * z 216) + me * (z 140 * z 141 + z 140 * z 167 + z 141 * z 168 + z 143 * z 147 + z 160 * z 162 + z 164 * z 165 + z 167 * z 168 + z 9 * z 143 * z 162 + z 9 * z 147 * z 160 + z 10 * z 143 * z 165 + z 10 * z 147 * z 164) + mf * (z 140 * z 141 + z 140 * z 155 + z 141 * z 156 + z 143 * z 147 + z 149 * z 151 + z 152 * z 153 + z 155 * z 156 + z 9 * z 143 * z 151 + z 9 * z 147 * z 149 + z 10 * z 143 * z 153 + z 10 * z 147 * z 152) - z 60 * z 786);
  SZ 941 (z 882 + z 538 * z 911 + z 544 * z 920 + z 547 * z 928 + z 549 * z 934 - z 541 * z 915);
  SZ 668 (z 536 * z 664 / z 494);
  SZ 885 (z 77 * z 841);
  SZ 944 (z 885 + z 544 * z 923 + z 547 * z 931 + z 549 * z 937);
  SZ 669 ((z 526 * z 568 + z 532 * z 628 - z 512 * z 553 - z 527 * z 620 - z 537 * z 664) / z 494);
  SZ 887 (mg * (z 182 * z 209 + z 187 * z 212 + z 192 * z 215) + mc * (z 120 * z 134 - z 121 * z 139 - z 122 * z 131) + me * (z 9 * z 120 * z 165 - z 121 * z 147 - z 122 * z 140 - z 122 * z 168 - z 9 * z 121 * z 162 - z 10 * z 120 * z 162 - z 10 * z 121 * z 165) + mf * (z 9 * z 120 * z 153 - z 121 * z 147 - z 122 * z 140 - z 122 * z 156 - z 9 * z 121 * z 151 - z 10 * z 120 * z 151 - z 10 * z 121 * z 153) - md * z 119 * z 121);
  SZ 946 (z 887 + z 538 * z 909 + z 544 * z 912 + z 547 * z 911 - z 541 * z 910);
  SZ 665 ((z 519 * z 568 + z 487 * z 496 * z 620 - z 504 * z 553 - z 533 * z 664 - z 487 * z 528 * z 628) / z 494);
  SZ 888 (md * z 119 * z 124 + mg * (z 183 * z 209 + z 188 * z 212 + z 193 * z 215) + mc * (z 123 * z 134 + z 124 * z 139 - z 125 * z 131) - me * (z 125 * z 140 + z 125 * z 168 + z 10 * z 123 * z 162 - z 124 * z 147 - z 9 * z 123 * z 165 - z 9 * z 124 * z 162 - z 10 * z 124 * z 165) - mf * (z 125 * z 140 + z 125 * z 156 + z 10 * z 123 * z 151 - z 124 * z 147 - z 9 * z 123 * z 153 - z 9 * z 124 * z 151 - z 10 * z 124 * z 153));
  SZ 947 (z 888 + z 538 * z 910 + z 544 * z 916 + z 547 * z 915 - z 541 * z 914);
  SZ 666 ((z 523 * z 568 + z 482 * z 496 * z 620 - z 509 * z 553 - z 534 * z 664 - z 482 * z 528 * z 628) / z 494);
  SZ 952 (z 948 + z 940 * z 667 + z 941 * z 668 + z 944 * z 669 + z 946 * z 665 - z 947 * z 666);
  SZ 788 (id22 * z 46);
  SZ 890 (z 53 * z 788);
  SZ 766 (ic22 * z 46);
  SZ 763 (ic31 * z 45);
  SZ 775 (ic33 * z 49);
  SZ 809 (ie31 * z 74);
  SZ 825 (ie33 * z 80);
  SZ 784 (id11 * z 60);
  SZ 793 (id11 * z 63);
  SZ 804 (ie11 * z 74);
  SZ 820 (ie31 * z 80);
  SZ 814 (ie22 * z 77);
  SZ 839 (if22 * z 77);
  SZ 835 (if11 * z 92);
  SZ 846 (if11 * z 97);
  SZ 855 (ig11 * z 109);
  SZ 871 (ig31 * z 117);
  SZ 866 (ig22 * z 113);
  SZ 860 (ig31 * z 109);
  SZ 875 (ig33 * z 117);
  SZ 760 (ic11 * z 45);
  SZ 771 (ic31 * z 49);
  SZ 918 (z 51 * z 766 + z 51 * z 788 + z 52 * z 763 + z 52 * z 775 + z 52 * z 809 + z 52 * z 825 + z 61 * z 784 + z 64 * z 793 + z 81 * z 804 + z 81 * z 820 + z 82 * z 814 + z 82 * z 839 + z 90 * z 835 + z 94 * z 846 + z 110 * z 855 + z 110 * z 871 + z 112 * z 866 + z 115 * z 860 + z 115 * z 875 + mg * (z 209 * z 211 + z 212 * z 214 + z 215 * z 217) - z 50 * z 760 - z 50 * z 771 - mc * (z 131 * z 138 - z 130 * z 139 - z 134 * z 137) - me * (z 140 * z 146 + z 146 * z 168 + z 9 * z 126 * z 165 - z 140 * z 169 - z 145 * z 147 - z 159 * z 162 - z 165 * z 166 - z 168 * z 169 - z 9 * z 145 * z 162 - z 9 * z 147 * z 159 - z 10 * z 126 * z 162 - z 10 * z 145 * z 165 - z 10 * z 147 * z 166) - mf * (z 140 * z 146 + z 146 * z 156 + z 9 * z 126 * z 153 - z 140 * z 157 - z 145 * z 147 - z 148 * z 151 - z 153 * z 154 - z 156 * z 157 - z 9 * z 145 * z 151 - z 9 * z 147 * z 148 - z 10 * z 126 * z 151 - z 10 * z 145 * z 153 - z 10 * z 147 * z 154));
  SZ 935 (z 83 * z 839);
  SZ 953 (z 890 + z 542 * z 888 - z 539 * z 887 - z 545 * z 918 - z 550 * z 935);
  SZ 963 (z 953 + z 538 * z 957 + z 544 * z 955 + z 547 * z 954 + z 549 * z 961 - z 541 * z 958);
  SZ 896 (z 75 * z 804 + z 75 * z 820 + z 79 * z 809 + z 79 * z 825 + z 93 * z 835 + z 96 * z 846 + me * z 161 * (z 162 + z 9 * z 147) + mf * z 150 * (z 151 + z 9 * z 147));
  SZ 926 (z 47 * z 766 + z 47 * z 788 + z 48 * z 763 + z 48 * z 775 + z 65 * z 793 + z 73 * z 804 + z 73 * z 820 + z 76 * z 814 + z 76 * z 839 + z 78 * z 809 + z 78 * z 825 + z 91 * z 835 + z 95 * z 846 + z 111 * z 855 + z 111 * z 871 + z 114 * z 866 + z 116 * z 860 + z 116 * z 875 + mc * (z 128 * z 139 + z 131 * z 132 + z 134 * z 135) + mg * (z 209 * z 210 + z 212 * z 213 + z 215 * z 216) + me * (z 140 * z 141 + z 140 * z 167 + z 141 * z 168 + z 143 * z 147 + z 160 * z 162 + z 164 * z 165 + z 167 * z 168 + z 9 * z 143 * z 162 + z 9 * z 147 * z 160 + z 10 * z 143 * z 165 + z 10 * z 147 * z 164) + mf * (z 140 * z 141 + z 140 * z 155 + z 141 * z 156 + z 143 * z 147 + z 149 * z 151 + z 152 * z 153 + z 155 * z 156 + z 9 * z 143 * z 151 + z 9 * z 147 * z 149 + z 10 * z 143 * z 153 + z 10 * z 147 * z 152) - z 62 * z 784);
  SZ 968 (z 896 + z 543 * z 888 + z 548 * z 926 + z 551 * z 935 - z 540 * z 887 - z 546 * z 918);
  SZ 977 (z 968 + z 538 * z 971 + z 544 * z 970 + z 547 * z 967 + z 549 * z 975 - z 541 * z 972);
  SZ 1007 (z 963 * z 973 - z 960 * z 977);
  SZ 1006 (z 963 * z 979 - z 965 * z 977);
  SZ 904 (z 98 * z 855 + z 98 * z 871 + z 99 * z 866 - mg * (z 200 * z 212 + z 201 * z 215 - z 205 * z 209));
  SZ 981 (z 904 + z 538 * z 906 + z 544 * z 902 + z 547 * z 903 - z 541 * z 907);
  SZ 1008 (z 983 * z 1007 - z 905 * z 1006 - z 981 * z 1004);
  SZ 1009 (z 963 * z 978 - z 964 * z 977);
  SZ 1010 (z 982 * z 1007 - z 905 * z 1009 - z 981 * z 1003);
  SZ 1011 (z 982 * z 1006 - z 981 * z 1002 - z 983 * z 1009);
  SZ 407 ((- k9) * q9 - c9 * u9);
  SZ 670 (z 45 - z 50 * z 544);
  SZ 672 (z 49 + z 48 * z 547 + z 52 * z 544);
  SZ 673 (z 50 * z 545);
  SZ 674 (z 51 * z 545);
  SZ 675 (z 52 * z 545);
  SZ 676 (z 50 * z 546);
  SZ 678 (z 48 * z 548 - z 52 * z 546);
  SZ 681 (z 53 - z 51 * z 545);
  SZ 688 (z 80 + z 52 * z 544 + z 78 * z 547);
  SZ 692 (z 79 + z 78 * z 548 - z 52 * z 546);
  SZ 694 (z 109 + z 110 * z 544 + z 111 * z 547);
  SZ 697 (z 110 * z 545);
  SZ 700 (z 111 * z 548 - z 110 * z 546);
  SZ 703 (z 134 + z 120 * z 538 + z 135 * z 547 + z 137 * z 544 - z 123 * z 541);
  SZ 704 (z 139 + z 128 * z 547 + z 130 * z 544 - z 121 * z 538 - z 124 * z 541);
  SZ 705 (z 122 * z 538 + z 138 * z 544 - z 131 - z 125 * z 541 - z 132 * z 547);
  SZ 706 (z 123 * z 542 - z 120 * z 539 - z 137 * z 545);
  SZ 707 (z 121 * z 539 + z 124 * z 542 - z 130 * z 545);
  SZ 708 (z 125 * z 542 - z 122 * z 539 - z 138 * z 545);
  SZ 709 (z 123 * z 543 + z 135 * z 548 - z 120 * z 540 - z 137 * z 546);
  SZ 710 (z 121 * z 540 + z 124 * z 543 + z 128 * z 548 - z 130 * z 546);
  SZ 711 (z 125 * z 543 - z 122 * z 540 - z 132 * z 548 - z 138 * z 546);
  SZ 715 (z 147 + z 143 * z 547 + z 145 * z 544 - z 121 * z 538 - z 124 * z 541);
  SZ 716 (z 122 * z 538 + z 146 * z 544 - z 140 - z 125 * z 541 - z 141 * z 547);
  SZ 717 (z 165 + z 164 * z 547 + z 166 * z 544);
  SZ 718 (z 162 + z 159 * z 544 + z 160 * z 547);
  SZ 719 ((- z 168) - z 167 * z 547 - z 169 * z 544);
  SZ 720 (z 120 * z 538 - z 123 * z 541 - z 126 * z 544);
  SZ 721 (z 123 * z 542 + z 126 * z 545 - z 120 * z 539);
  SZ 722 (z 121 * z 539 + z 124 * z 542 - z 145 * z 545);
  SZ 723 (z 125 * z 542 - z 122 * z 539 - z 146 * z 545);
  SZ 724 (z 166 * z 545);
  SZ 725 (z 159 * z 545);
  SZ 726 (z 169 * z 545);
  SZ 727 (z 161 + z 160 * z 548 - z 159 * z 546);
  SZ 728 (z 123 * z 543 + z 126 * z 546 - z 120 * z 540);
  SZ 729 (z 121 * z 540 + z 124 * z 543 + z 143 * z 548 - z 145 * z 546);
  SZ 730 (z 125 * z 543 - z 122 * z 540 - z 141 * z 548 - z 146 * z 546);
  SZ 731 (z 164 * z 548 - z 166 * z 546);
  SZ 732 (z 169 * z 546 - z 167 * z 548);
  SZ 733 (z 4 * z 10 - z 9 * z 42);
  SZ 734 (z 4 * z 9 + z 10 * z 42);
  SZ 735 (z 153 + z 152 * z 547 + z 154 * z 544);
  SZ 736 (z 151 + z 148 * z 544 + z 149 * z 547);
  SZ 737 ((- z 156) - z 155 * z 547 - z 157 * z 544);
  SZ 738 (z 154 * z 545);
  SZ 739 (z 148 * z 545);
  SZ 740 (z 157 * z 545);
  SZ 741 (z 150 + z 149 * z 548 - z 148 * z 546);
  SZ 742 (z 152 * z 548 - z 154 * z 546);
  SZ 743 (z 157 * z 546 - z 155 * z 548);
  SZ 744 (z 209 + z 182 * z 538 + z 210 * z 547 + z 211 * z 544 - z 183 * z 541);
  SZ 745 (z 212 + z 187 * z 538 + z 213 * z 547 + z 214 * z 544 - z 188 * z 541);
  SZ 746 (z 215 + z 192 * z 538 + z 216 * z 547 + z 217 * z 544 - z 193 * z 541);
  SZ 747 (z 183 * z 542 - z 182 * z 539 - z 211 * z 545);
  SZ 748 (z 188 * z 542 - z 187 * z 539 - z 214 * z 545);
  SZ 749 (z 193 * z 542 - z 192 * z 539 - z 217 * z 545);
  SZ 750 (z 183 * z 543 + z 210 * z 548 - z 182 * z 540 - z 211 * z 546);
  SZ 751 (z 188 * z 543 + z 213 * z 548 - z 187 * z 540 - z 214 * z 546);
  SZ 752 (z 193 * z 543 + z 216 * z 548 - z 192 * z 540 - z 217 * z 546);
  SZ 880 (z 45 * z 760 + z 45 * z 771 + z 46 * z 766 + z 46 * z 788 + z 49 * z 763 + z 49 * z 775 + z 60 * z 784 + z 63 * z 793 + z 74 * z 804 + z 74 * z 820 + z 77 * z 814 + z 77 * z 839 + z 80 * z 809 + z 80 * z 825 + z 92 * z 835 + z 97 * z 846 + z 109 * z 855 + z 109 * z 871 + z 113 * z 866 + z 117 * z 860 + z 117 * z 875 + md * (PowN (z 119) 2) + mc * ((PowN (z 131) 2) + (PowN (z 134) 2) + (PowN (z 139) 2)) + mg * ((PowN (z 209) 2) + (PowN (z 212) 2) + (PowN (z 215) 2)) + me * ((PowN (z 140) 2) + (PowN (z 147) 2) + (PowN (z 162) 2) + (PowN (z 165) 2) + (PowN (z 168) 2) + (Lit 2 1) * z 140 * z 168 + (Lit 2 1) * z 9 * z 147 * z 162 + (Lit 2 1) * z 10 * z 147 * z 165) + mf * ((PowN (z 140) 2) + (PowN (z 147) 2) + (PowN (z 151) 2) + (PowN (z 153) 2) + (PowN (z 156) 2) + (Lit 2 1) * z 140 * z 156 + (Lit 2 1) * z 9 * z 147 * z 151 + (Lit 2 1) * z 10 * z 147 * z 153));
  SZ 883 (z 46 * z 791);
  SZ 884 (z 74 * z 805 + z 74 * z 819 + z 80 * z 810 + z 80 * z 824 + z 92 * z 836 + z 97 * z 845 + me * z 161 * (z 162 + z 9 * z 147) + mf * z 150 * (z 151 + z 9 * z 147));
  SZ 886 (z 109 * z 854 + z 113 * z 864 + z 117 * z 859 - mg * (z 200 * z 212 + z 201 * z 215 - z 205 * z 209));
  SZ 894 (z 53 * (z 792 + z 798));
  SZ 901 (z 75 * z 807 + z 75 * z 821 + z 75 * z 829 + z 79 * z 812 + z 79 * z 826 + z 79 * z 828 + z 93 * z 837 + z 93 * z 850 + z 96 * z 847 + z 96 * z 848 + me * z 161 * (z 384 + z 9 * z 373 - z 10 * z 372) + mf * z 150 * (z 378 + z 9 * z 373 - z 10 * z 372));
  SZ 908 (z 98 * z 858 + z 98 * z 872 + z 98 * z 879 + z 99 * z 868 + z 99 * z 877 - mg * (z 200 * z 400 + z 201 * z 401 - z 205 * z 399));
  SZ 939 (z 880 + z 538 * z 887 + z 544 * z 918 + z 547 * z 926 + z 549 * z 935 - z 541 * z 888);
  SZ 942 (z 883 + z 544 * z 921 + z 547 * z 929);
  SZ 943 (z 884 + z 544 * z 922 + z 547 * z 930 - z 538 * z 899 - z 541 * z 900);
  SZ 945 (z 886 + z 538 * z 906 + z 544 * z 924 + z 547 * z 932 - z 541 * z 907);
  SZ 949 (z 939 + z 538 * z 946 + z 544 * z 940 + z 547 * z 941 + z 549 * z 944 - z 541 * z 947);
  SZ 950 (z 942 + z 542 * z 947 - z 539 * z 946 - z 545 * z 940 - z 550 * z 944);
  SZ 951 (z 943 + z 543 * z 947 + z 548 * z 941 + z 551 * z 944 - z 540 * z 946 - z 546 * z 940);
  SZ 962 (z 894 + z 542 * z 917 - z 539 * z 913 - z 545 * z 925 - z 550 * z 938);
  SZ 966 (z 962 + z 954 * z 668 + z 955 * z 667 + z 957 * z 665 + z 961 * z 669 - z 958 * z 666);
  SZ 976 (z 901 + z 543 * z 917 + z 548 * z 933 + z 551 * z 938 - z 540 * z 913 - z 546 * z 925);
  SZ 980 (z 976 + z 967 * z 668 + z 970 * z 667 + z 971 * z 665 + z 975 * z 669 - z 972 * z 666);
  SZ 984 (z 908 + z 902 * z 667 + z 903 * z 668 + z 906 * z 665 - z 907 * z 666);
  SZ 989 (z 949 * z 964 - z 950 * z 963);
  SZ 990 (z 905 * z 979 - z 973 * z 983);
  SZ 991 (z 949 * z 965 - z 951 * z 963);
  SZ 992 (z 905 * z 978 - z 973 * z 982);
  SZ 993 (z 949 * z 960 - z 945 * z 963);
  SZ 994 (z 978 * z 983 - z 979 * z 982);
  SZ 995 (z 950 * z 965 - z 951 * z 964);
  SZ 996 (z 905 * z 977 - z 973 * z 981);
  SZ 997 (z 950 * z 960 - z 945 * z 964);
  SZ 998 (z 977 * z 983 - z 979 * z 981);
  SZ 999 (z 951 * z 960 - z 945 * z 965);
  SZ 1000 (z 977 * z 982 - z 978 * z 981);
  SZ 1001 (z 989 * z 990 + z 993 * z 994 + z 995 * z 996 + z 999 * z 1000 - z 991 * z 992 - z 997 * z 998);
  SZ 1012 (z 950 * z 979 - z 951 * z 978);
  SZ 1013 (z 950 * z 973 - z 945 * z 978);
  SZ 1014 (z 951 * z 973 - z 945 * z 979);
  SZ 1015 (z 983 * z 1013 - z 905 * z 1012 - z 982 * z 1014);
  SZ 1016 (z 949 * z 979 - z 951 * z 977);
  SZ 1017 (z 949 * z 973 - z 945 * z 977);
  SZ 1018 (z 983 * z 1017 - z 905 * z 1016 - z 981 * z 1014);
  SZ 1019 (z 949 * z 978 - z 950 * z 977);
  SZ 1020 (z 982 * z 1017 - z 905 * z 1019 - z 981 * z 1013);
  SZ 1021 (z 982 * z 1016 - z 981 * z 1012 - z 983 * z 1019);
  SZ 1022 (z 983 * z 997 - z 905 * z 995 - z 982 * z 999);
  SZ 1023 (z 983 * z 993 - z 905 * z 991 - z 981 * z 999);
  SZ 1024 (z 982 * z 993 - z 905 * z 989 - z 981 * z 997);
  SZ 1025 (z 982 * z 991 - z 981 * z 995 - z 983 * z 989);
  SZ 1026 (z 979 * z 997 - z 973 * z 995 - z 978 * z 999);
  SZ 1027 (z 979 * z 993 - z 973 * z 991 - z 977 * z 999);
  SZ 1028 (z 978 * z 993 - z 973 * z 989 - z 977 * z 997);
  SZ 1029 (z 978 * z 991 - z 977 * z 995 - z 979 * z 989);
  SZ 408 (T9 + z 407);
  SZ 409 ((- T9) - z 407);
  SZ 753 (T7 * z 688 + z 403 * z 4 * z 119 + T4 * z 5 * z 670 + T4 * z 6 * z 672 + z 406 * (z 106 * z 744 + z 107 * z 745 + z 108 * z 746) + z 402 * (z 4 * z 704 + z 32 * z 705 - z 42 * z 703) + z 694 * z 408 + z 13 * z 670 * z 409 + z 14 * z 672 * z 409 - T7 * z 672 - z 404 * (z 42 * z 720 - z 4 * z 715 - z 32 * z 716 - z 32 * z 719 - z 717 * z 733 - z 718 * z 734) - z 405 * (z 42 * z 720 - z 4 * z 715 - z 32 * z 716 - z 32 * z 737 - z 733 * z 735 - z 734 * z 736))].
(* [_mooreriderlean2012.py:1453-1832] *)
Definition chunk5 : list stmt := [
  SZ 985 (z 952 - z 753);
  SZ 755 (T7 * z 692 + T4 * z 5 * z 676 + T4 * z 6 * z 678 + z 406 * (z 106 * z 750 + z 107 * z 751 + z 108 * z 752) + z 402 * (z 4 * z 710 + z 32 * z 711 - z 42 * z 709) + z 700 * z 408 + z 13 * z 676 * z 409 + z 14 * z 678 * z 409 - T7 * z 678 - z 404 * (z 42 * z 728 - z 4 * z 729 - z 32 * z 730 - z 32 * z 732 - z 727 * z 734 - z 731 * z 733) - z 405 * (z 42 * z 728 - z 4 * z 729 - z 32 * z 730 - z 32 * z 743 - z 733 * z 742 - z 734 * z 741));
  SZ 987 (z 980 - z 755);
  SZ 754 (T6 * z 674 + T6 * z 681 + T4 * z 5 * z 673 + z 406 * (z 106 * z 747 + z 107 * z 748 + z 108 * z 749) + z 402 * (z 4 * z 707 + z 32 * z 708 - z 42 * z 706) + z 404 * (z 4 * z 722 + z 32 * z 723 + z 32 * z 726 - z 42 * z 721 - z 724 * z 733 - z 725 * z 734) + z 405 * (z 4 * z 722 + z 32 * z 723 + z 32 * z 740 - z 42 * z 721 - z 733 * z 738 - z 734 * z 739) + z 13 * z 673 * z 409 - T4 * z 6 * z 675 - z 697 * z 408 - z 14 * z 675 * z 409);
  SZ 986 (z 966 - z 754);
  SZ 756 (z 406 * (z 106 * z 205 - z 107 * z 200 - z 108 * z 201) + z 98 * z 408);
  SZ 988 (z 984 - z 756);
  SZ 1030 ((z 1005 * z 985 + z 1022 * z 987 - z 1015 * z 986 - z 1026 * z 988) / z 1001);
  SN "u4p" (z 1030);
  SZ 1031 ((z 1008 * z 985 + z 1023 * z 987 - z 1018 * z 986 - z 1027 * z 988) / z 1001);
  SN "u6p" (- z 1031);
  SZ 1032 ((z 1010 * z 985 + z 1024 * z 987 - z 1020 * z 986 - z 1028 * z 988) / z 1001);
  SN "u7p" (z 1032);
  SZ 1033 ((z 1011 * z 985 + z 1025 * z 987 - z 1021 * z 986 - z 1029 * z 988) / z 1001);
  SN "u9p" (- z 1033);
  SZ 220 ((- z 5) * z 8 - z 6 * z 7);
  SZ 671 (z 46 + z 47 * z 547 + z 51 * z 544);
  SZ 677 (z 47 * z 548 - z 51 * z 546);
  SZ 679 (z 60 + z 61 * z 544 - z 62 * z 547);
  SZ 680 (z 63 + z 64 * z 544 + z 65 * z 547);
  SZ 684 ((- z 61) * z 546 - z 62 * z 548);
  SZ 685 (z 65 * z 548 - z 64 * z 546);
  SZ 686 (z 74 + z 73 * z 547 + z 81 * z 544);
  SZ 687 (z 77 + z 76 * z 547 + z 82 * z 544);
  SZ 691 (z 75 + z 73 * z 548 - z 81 * z 546);
  SZ 693 (z 76 * z 548 - z 82 * z 546);
  SZ 695 (z 113 + z 112 * z 544 + z 114 * z 547);
  SZ 696 (z 117 + z 115 * z 544 + z 116 * z 547);
  SZ 701 (z 114 * z 548 - z 112 * z 546);
  SZ 702 (z 116 * z 548 - z 115 * z 546);
  SZ 1034 (z 9 * z 120 - z 2 * z 3 * z 10);
  SZ 1035 ((- z 10) * z 120 - z 2 * z 3 * z 9);
  SZ 1036 (z 6 * z 122 + z 23 * z 1034 - z 25 * z 1035);
  SZ 1037 (z 1 * z 466 - z 228 * z 1036);
  SZ 1038 (z 27 * z 1034 + z 29 * z 1035 - z 31 * z 122);
  SZ 1039 (z 1 * z 463 * z 499 - z 496 * z 1037 - z 476 * z 517 * z 1038);
  SZ 1040 (z 2 * z 228 * ((PowN (z 3) 2) + (PowN (z 4) 2)) - z 1 * z 458);
  SZ 1041 (z 2 * z 463 * ((PowN (z 3) 2) + (PowN (z 4) 2)));
  SZ 1042 (z 458 * z 1036 - z 2 * z 466 * ((PowN (z 3) 2) + (PowN (z 4) 2)));
  SZ 1043 (z 476 * z 501 * z 1038 - z 496 * z 1042 - z 499 * z 1041);
  SZ 1044 (z 470 * z 1036 - z 463 * z 1038);
  SZ 1045 (z 1 * z 459 + z 2 * z 225 * ((PowN (z 3) 2) + (PowN (z 4) 2)));
  SZ 1046 (z 481 * z 1040 + z 492 * z 1044 - z 480 * z 1045);
  SZ 1047 (z 2 * z 458 + z 1 * z 228 * ((PowN (z 3) 2) + (PowN (z 4) 2)));
  SZ 1048 ((- z 1) * z 456 - z 2 * z 457);
  SZ 1049 (z 1 * z 31 - z 2 * z 6);
  SZ 1050 ((- z 1) * z 41 - z 2 * z 5);
  SZ 1051 (z 9 * z 1050 - z 1 * z 3 * z 10);
  SZ 1052 ((- z 10) * z 1050 - z 1 * z 3 * z 9);
  SZ 1053 (z 6 * z 1049 + z 23 * z 1051 - z 25 * z 1052);
  SZ 1054 (z 27 * z 1051 + z 29 * z 1052 - z 31 * z 1049);
  SZ 1055 (z 470 * z 1053 - z 463 * z 1054);
  SZ 1056 (z 476 * (z 482 * z 1044 + z 484 * z 1047 - z 480 * z 1048 - z 487 * z 1055 - z 489 * z 1040));
  SZ 1057 ((z 494 * (z 460 * z 1039 + z 465 * z 496 * z 1040 - z 224 * z 1043 - z 475 * z 1046 - z 472 * z 528 * z 1040) - z 1056 * (z 460 * z 519 + z 465 * z 487 * z 496 - z 224 * z 504 - z 475 * z 533 - z 472 * z 487 * z 528)) / (PowN (z 494) 2));
  SZ 1058 (z 227 * (z 494 * z 1043 - z 504 * z 1056) / (PowN (z 494) 2));
  SZ 1059 ((z 494 * (z 477 * z 1046 + z 467 * z 496 * z 1040 + z 474 * z 528 * z 1040) - z 1056 * (z 477 * z 533 + z 467 * z 487 * z 496 + z 474 * z 487 * z 528)) / (PowN (z 494) 2));
  SZ 1060 (z 1057 * u4 - z 1058 * u6 - z 1059 * u7);
  SZ 1061 (z 3 * z 41 - z 4 * z 42);
  SZ 1062 (z 7 * z 48 - z 8 * z 1061);
  SZ 1063 (z 7 * z 1061 + z 8 * z 48);
  SZ 1064 (rr * (z 54 * z 1062 + z 55 * z 1063));
  SZ 1065 ((- z 3) * z 1064 - z 4 * z 229);
  SZ 1066 (d1 * z 4 * z 5 * z 43);
  SZ 1067 (rr * z 3 * z 5 * z 43);
  SZ 1068 (d2 * z 29 * z 43 - z 9 * z 1067 - z 10 * z 1066);
  SZ 1069 (z 23 * z 69 + z 25 * z 66);
  SZ 1070 (z 3 * z 5 * z 25 - z 6 * z 69);
  SZ 1071 ((Lit 2 1) * z 33 * z 1070 + (Lit 2 1) * z 34 * z 1069);
  SZ 1072 (((Lit 2 1) * z 36 * z 1069 - z 34 * z 1071 / (PowH (z 35) 0)) / (PowN (z 36) 2));
  SZ 1073 (z 29 * z 40 * z 43 + (Lit 1 2) * rf * z 82 * z 1072);
  SZ 1074 (z 43 * (d2 * z 27 + d3 * z 4 * z 5));
  SZ 1075 (z 10 * z 1067 - z 1074 - z 9 * z 1066);
  SZ 1076 (((Lit 2 1) * z 36 * z 1070 - z 33 * z 1071 / (PowH (z 35) 0)) / (PowN (z 36) 2));
  SZ 1077 (z 12 * z 27 - z 4 * z 5 * z 11);
  SZ 1078 (z 11 * z 27 + z 4 * z 5 * z 12);
  SZ 1079 (z 11 * z 39 * z 43 * z 1077 + (Lit 1 2) * rf * z 11 * z 94 * z 1076 - z 11 * z 40 * z 43 * z 1078 - z 12 * z 39 * z 43 * z 1078 - z 12 * z 40 * z 43 * z 1077 - (Lit 1 2) * rf * z 11 * z 90 * z 1072 - (Lit 1 2) * rf * z 12 * z 90 * z 1076 - (Lit 1 2) * rf * z 12 * z 94 * z 1072);
  SZ 1080 (rr * z 3 * z 6 * z 43);
  SZ 1081 ((- z 1080) - d1 * z 3 * z 43);
  SZ 1082 (z 1081 - d3 * z 29 * z 43);
  SZ 1083 (z 29 * z 39 * z 43 + (Lit 1 2) * rf * z 82 * z 1076);
  SZ 1084 (z 66 * z 257 + z 69 * z 259 + z 27 * (z 1068 + z 1073) + z 29 * (z 1075 + z 1079) - z 3 * z 5 * z 262 - z 31 * (z 1082 - z 1083));
  SZ 1085 (z 410 * z 1070 + z 5 * z 33 * z 69);
  SZ 1086 (((Lit 2 1) * z 35 * z 1085 - z 415 * z 1071) / (PowH (z 35) 1));
  SZ 1087 (((Lit 2 1) * z 33 * z 417 * z 1071 / (PowH (z 35) 0) + z 36 * ((Lit 2 1) * z 5 * z 36 * z 69 - (Lit 2 1) * z 417 * z 1070 - z 33 * z 1086 - z 410 * z 1071 / (PowH (z 35) 0))) / (PowN (z 36) 3));
  SZ 1088 ((z 34 * z 36 * z 1086 + (Lit 2 1) * z 36 * z 417 * z 1069 - (Lit 2 1) * z 34 * z 417 * z 1071 / (PowH (z 35) 0)) / (PowN (z 36) 3));
  SZ 1089 (z 27 * z 441 + (Lit 1 2) * rf * z 32 * z 1088 - z 4 * z 5 * z 429 - (Lit 1 2) * rf * z 28 * z 1087);
  SZ 1090 ((z 412 * z 1071 - (Lit 2 1) * z 25 * z 35 * z 1069) / (PowH (z 35) 1));
  SZ 1091 ((z 36 * (z 34 * z 1090 - (Lit 2 1) * z 418 * z 1069) - z 1071 * (z 25 * z 36 - (Lit 2 1) * z 34 * z 418) / (PowH (z 35) 0)) / (PowN (z 36) 3));
  SZ 1092 (((Lit 2 1) * z 36 * z 418 * z 1070 - z 33 * z 36 * z 1090 - (Lit 2 1) * z 33 * z 418 * z 1071 / (PowH (z 35) 0)) / (PowN (z 36) 3));
  SZ 1093 ((Lit 1 2) * rf * z 32 * z 1091 - z 27 * z 444 - z 4 * z 5 * z 432 - (Lit 1 2) * rf * z 28 * z 1092);
  SZ 1094 ((z 416 * z 1071 - (Lit 2 1) * z 25 * z 35 * z 1070) / (PowH (z 35) 1));
  SZ 1095 ((z 36 * (z 33 * z 1094 - (Lit 2 1) * z 420 * z 1070) - z 1071 * (z 25 * z 36 - (Lit 2 1) * z 33 * z 420) / (PowH (z 35) 0)) / (PowN (z 36) 3));
  SZ 1096 (((Lit 2 1) * z 36 * z 420 * z 1069 - z 34 * z 36 * z 1094 - (Lit 2 1) * z 34 * z 420 * z 1071 / (PowH (z 35) 0)) / (PowN (z 36) 3));
  SZ 1097 (z 27 * z 443 + z 4 * z 5 * z 434 + (Lit 1 2) * rf * z 28 * z 1095 - (Lit 1 2) * rf * z 32 * z 1096);
  SZ 1098 (z 29 * z 1069 + z 34 * z 69);
  SZ 1099 (((Lit 2 1) * z 35 * z 1098 - z 414 * z 1071) / (PowH (z 35) 1));
  SZ 1100 ((z 1071 * (z 29 * z 36 - (Lit 2 1) * z 34 * z 419) / (PowH (z 35) 0) - z 36 * ((Lit 2 1) * z 36 * z 69 - (Lit 2 1) * z 419 * z 1069 - z 34 * z 1099)) / (PowN (z 36) 3));
  SZ 1101 ((z 33 * z 36 * z 1099 + (Lit 2 1) * z 36 * z 419 * z 1070 - (Lit 2 1) * z 33 * z 419 * z 1071 / (PowH (z 35) 0)) / (PowN (z 36) 3));
  SZ 1102 ((- z 27) * z 445 - z 4 * z 5 * z 433 - (Lit 1 2) * rf * z 28 * z 1101 - (Lit 1 2) * rf * z 32 * z 1100);
  SZ 1103 ((Lit 2 1) * z 27 * z 1069 + (Lit 2 1) * z 31 * z 1070 + (Lit 2 1) * z 34 * z 66 + (Lit 2 1) * z 3 * z 5 * z 33);
  SZ 1104 (((Lit 2 1) * z 35 * z 1103 - z 413 * z 1071) / (PowH (z 35) 1));
  SZ 1105 (((Lit 2 1) * z 1071 * (z 31 * z 36 - z 33 * z 422) / (PowH (z 35) 0) + z 36 * (z 33 * z 1104 + (Lit 2 1) * z 422 * z 1070 - (Lit 4 1) * z 3 * z 5 * z 36)) / (PowN (z 36) 3));
  SZ 1106 (((Lit 2 1) * z 1071 * (z 27 * z 36 - z 34 * z 422) / (PowH (z 35) 0) - z 36 * ((Lit 4 1) * z 36 * z 66 - (Lit 2 1) * z 422 * z 1069 - z 34 * z 1104)) / (PowN (z 36) 3));
  SZ 1107 ((Lit 1 2) * z 27 * z 442 - (Lit 1 2) * z 4 * z 5 * z 431 - (Lit 1 4) * rf * z 28 * z 1105 - (Lit 1 4) * rf * z 32 * z 1106);
  SZ 1108 ((Lit 2 1) * z 23 * z 1069 - (Lit 2 1) * z 6 * z 1070);
  SZ 1109 (((Lit 2 1) * z 35 * z 1108 - z 411 * z 1071) / (PowH (z 35) 1));
  SZ 1110 ((z 36 * (z 34 * z 1109 + (Lit 2 1) * z 421 * z 1069) + (Lit 2 1) * z 1071 * (z 23 * z 36 - z 34 * z 421) / (PowH (z 35) 0)) / (PowN (z 36) 3));
  SZ 1111 (((Lit 2 1) * z 33 * z 421 * z 1071 / (PowH (z 35) 0) - z 36 * (z 33 * z 1109 + (Lit 2 1) * z 421 * z 1070 - (Lit 2 1) * z 6 * z 1071 / (PowH (z 35) 0))) / (PowN (z 36) 3));
  SZ 1112 ((Lit 1 4) * rf * z 28 * z 1111 - (Lit 1 2) * z 27 * z 446 - (Lit 1 2) * z 4 * z 5 * z 430 - (Lit 1 4) * rf * z 32 * z 1110);
  SZ 1113 (z 1089 + d1 * z 4 * z 5 + z 4 * z 6 * z 448 + z 3 * z 5 * z 9 * z 453 + z 4 * z 5 * z 9 * z 449 + z 4 * z 5 * z 9 * z 1093 - z 3 * z 6 * z 455 - z 4 * z 6 * z 1097 - z 6 * z 9 * z 1102 - z 6 * z 10 * z 1107 - z 3 * z 5 * z 10 * z 451 - z 4 * z 5 * z 10 * z 1112 - (Lit 1 2) * rf * z 3 * z 6 * z 1072 - (Lit 1 2) * rf * z 3 * z 5 * z 9 * z 1076);
  SZ 1114 (z 473 * z 1113 + z 476 * z 1084);
  SZ 1115 (rf * z 83 * (z 6 * z 1076 - z 23 * z 1072));
  SZ 1116 (z 66 * z 254 + z 3 * z 5 * z 250 + (Lit 1 2) * rf * z 27 * z 83 * z 1072 + (Lit 1 2) * rf * z 31 * z 83 * z 1076);
  SZ 1117 (z 470 * z 1113 + z 476 * z 1116);
  SZ 1118 (z 23 * (z 1068 + z 1073) + z 6 * (z 1082 - z 1083) - z 25 * (z 1075 + z 1079));
  SZ 1119 (z 1 * (z 4 * z 10 - z 3 * z 6 * z 9));
  SZ 1120 (z 1 * (z 4 * z 9 + z 3 * z 6 * z 10));
  SZ 1121 (z 25 * z 1120 - z 23 * z 1119 - z 1 * z 3 * z 5 * z 6);
  SZ 1122 (z 2 * z 1118 - z 228 * z 1121);
  SZ 1123 (z 66 * z 234 + z 69 * z 239 + z 1 * z 3 * z 5 * z 31 - z 27 * z 1119 - z 29 * z 1120 - z 3 * z 5 * z 125);
  SZ 1124 (z 469 * z 1113 + z 476 * z 1123);
  SZ 1125 (z 515 * z 1114 + (Lit 1 2) * z 228 * z 502 * z 1115 - z 496 * z 1122 - z 513 * z 1117 - z 517 * z 1124 - (Lit 1 2) * z 2 * z 499 * z 1115);
  SZ 1126 (z 3 * z 5 * z 42 + z 4 * z 5 * z 41 - z 3 * z 6 * z 32 - z 4 * z 6 * z 31);
  SZ 1127 (z 4 * z 5 * z 27 - z 27 * z 31 - z 32 * z 66 - z 3 * z 5 * z 28);
  SZ 1128 ((- d1) * z 1126 - d3 * z 1127);
  SZ 1129 (z 39 * z 1127 + (Lit 1 2) * rf * z 77 * z 1076);
  SZ 1130 (d2 * z 1127 + d1 * z 10 * z 1061);
  SZ 1131 (z 40 * z 1127 + (Lit 1 2) * rf * z 77 * z 1072);
  SZ 1132 (z 27 * z 29 + z 29 * z 70 + z 30 * z 66 + z 66 * z 69);
  SZ 1133 (z 4 * z 26 - z 3 * z 9);
  SZ 1134 (z 32 * z 69 - z 31 * z 1133 - z 3 * z 5 * z 69 - z 4 * z 5 * z 29);
  SZ 1135 (d3 * z 1132 - d2 * z 1134);
  SZ 1136 (z 1135 + d1 * z 9 * z 1061);
  SZ 1137 (z 11 * z 1132 + z 12 * z 1134);
  SZ 1138 (z 11 * z 1134 - z 12 * z 1132);
  SZ 1139 (z 11 * z 39 * z 1137 + (Lit 1 2) * rf * z 11 * z 97 * z 1076 - z 11 * z 40 * z 1138 - z 12 * z 39 * z 1138 - z 12 * z 40 * z 1137 - (Lit 1 2) * rf * z 11 * z 92 * z 1072 - (Lit 1 2) * rf * z 12 * z 92 * z 1076 - (Lit 1 2) * rf * z 12 * z 97 * z 1072);
  SZ 1140 (z 23 * (z 1130 + z 1131) + z 6 * (z 1128 - z 1129) - z 25 * (z 1136 + z 1139));
  SZ 1141 (z 4 * (z 5 * z 8 + z 6 * z 7));
  SZ 1142 (z 4 * (z 5 * z 7 - z 6 * z 8));
  SZ 1143 (rr * z 43 * (z 54 * z 1141 - z 55 * z 1142));
  SZ 1144 (z 3 * z 1143 - z 4 * z 222);
  SZ 1145 (z 3 * z 219 - z 4 * z 124);
  SZ 1146 ((- z 2) * z 1144 - z 228 * z 1145);
  SZ 1147 (z 463 * z 1145 - (Lit 1 2) * z 457 * z 1115);
  SZ 1148 (z 463 * z 1144 - (Lit 1 2) * z 458 * z 1115);
  SZ 1149 (z 457 * z 1118 + z 458 * z 1121 + z 462 * z 1144 + z 466 * z 1145);
  SZ 1150 (z 498 * z 1114 + z 499 * z 1147 + z 501 * z 1124 + z 502 * z 1148 - z 495 * z 1117 - z 496 * z 1149);
  SZ 1151 (rr * z 3 + d1 * z 3 * z 6 + z 3 * z 5 * z 1097 + z 449 * (z 3 * z 24 - z 4 * z 10) + z 1093 * (z 3 * z 24 - z 4 * z 10) + (Lit 1 2) * rf * z 1076 * (z 3 * z 10 + z 4 * z 24) - z 3 * z 5 * z 448 - z 4 * z 5 * z 455 - (Lit 1 2) * rf * z 4 * z 5 * z 1072 - z 453 * (z 3 * z 10 + z 4 * z 24) - z 1112 * (z 3 * z 26 + z 4 * z 9) - z 451 * (z 3 * z 9 - z 4 * z 26));
  SZ 1152 (z 6 * (z 3 * z 41 - z 4 * z 42));
  SZ 1153 (z 41 * z 66 + z 3 * z 6 * z 27 + z 4 * z 6 * z 28 - z 27 * z 42);
  SZ 1154 ((- (Lit 2 1)) * d1 * z 1152 - d3 * z 1153);
  SZ 1155 (z 39 * z 1153 + (Lit 1 2) * rf * z 76 * z 1076);
  SZ 1156 (z 5 * (PowN (z 3) 2) + z 5 * (PowN (z 4) 2) - z 3 * z 32 - z 4 * z 31);
  SZ 1157 (d2 * z 1153 + d1 * z 10 * z 1156);
  SZ 1158 (z 40 * z 1153 + (Lit 1 2) * rf * z 76 * z 1072);
  SZ 1159 (z 67 * z 69 + z 3 * z 23 * z 29 + z 4 * z 23 * z 30 - z 29 * z 68);
  SZ 1160 (z 3 * z 5 * z 71 + z 3 * z 25 * z 31 - z 4 * z 5 * z 72 - z 4 * z 25 * z 32);
  SZ 1161 (d3 * z 1159 - d2 * z 1160);
  SZ 1162 (z 1161 + d1 * z 9 * z 1156);
  SZ 1163 (z 11 * z 1159 + z 12 * z 1160);
  SZ 1164 (z 11 * z 1160 - z 12 * z 1159);
  SZ 1165 (z 11 * z 39 * z 1163 + (Lit 1 2) * rf * z 11 * z 95 * z 1076 - z 11 * z 40 * z 1164 - z 12 * z 39 * z 1164 - z 12 * z 40 * z 1163 - (Lit 1 2) * rf * z 11 * z 91 * z 1072 - (Lit 1 2) * rf * z 12 * z 91 * z 1076 - (Lit 1 2) * rf * z 12 * z 95 * z 1072);
  SZ 1166 (z 23 * (z 1157 + z 1158) + z 6 * (z 1154 - z 1155) - z 25 * (z 1162 + z 1165));
  SZ 1167 (z 66 * z 255 + z 69 * z 260 + z 27 * (z 1157 + z 1158) + z 29 * (z 1162 + z 1165) - z 3 * z 5 * z 264 - z 31 * (z 1154 - z 1155));
  SZ 1168 (z 464 * z 1116 + z 470 * z 1166 + (Lit 1 2) * z 471 * z 1115 - z 463 * z 1167);
  SZ 1169 (z 462 * z 1116 + z 470 * z 1121 + (Lit 1 2) * z 469 * z 1115 - z 463 * z 1123);
  SZ 1170 (rr * z 1156 * (z 7 * z 55 - z 8 * z 54));
  SZ 1171 ((- z 3) * z 1170 - z 4 * z 223);
  SZ 1172 (z 225 * z 1144 + z 228 * z 1171 + (Lit 2 1) * rr * z 458 * z 1152);
  SZ 1173 (z 466 * z 1116 + z 470 * z 1118 + (Lit 1 2) * z 473 * z 1115 - z 463 * z 1084);
  SZ 1174 (z 2 * z 1171 - z 225 * z 1145 - (Lit 2 1) * rr * z 457 * z 1152);
  SZ 1175 (z 481 * z 1146 + z 484 * z 1172 + z 487 * z 1168 + z 492 * z 1169 - z 480 * z 1174 - z 490 * z 1173);
  SZ 1176 (z 66 * z 256 + z 69 * z 261 + z 27 * (z 1130 + z 1131) + z 29 * (z 1136 + z 1139) - z 3 * z 5 * z 263 - z 31 * (z 1128 - z 1129));
  SZ 1177 (z 463 * z 1113 - (Lit 1 2) * z 476 * z 1115);
  SZ 1178 (z 4 * z 121 - z 3 * z 218);
  SZ 1179 ((- z 1) * z 1144 - z 228 * z 1178);
  SZ 1180 (z 1 * z 1145 - z 2 * z 1178);
  SZ 1181 (z 2 * (z 4 * z 10 - z 3 * z 6 * z 9));
  SZ 1182 (z 2 * (z 4 * z 9 + z 3 * z 6 * z 10));
  SZ 1183 (z 23 * z 1181 + z 2 * z 3 * z 5 * z 6 - z 25 * z 1182);
  SZ 1184 (z 27 * z 1181 + z 29 * z 1182 + z 66 * z 233 + z 69 * z 238 - z 3 * z 5 * z 122 - z 2 * z 3 * z 5 * z 31);
  SZ 1185 (z 461 * z 1116 + z 470 * z 1183 + (Lit 1 2) * z 468 * z 1115 - z 463 * z 1184);
  SZ 1186 (z 1113 * (z 482 * z 484 - z 478 * z 480 - z 487 * z 489) + z 476 * (z 482 * z 1169 + z 484 * z 1179 - z 478 * z 1173 - z 480 * z 1180 - z 487 * z 1185 - z 489 * z 1146));
  SZ 1187 ((z 1186 * (z 460 * z 519 + z 465 * z 487 * z 496 - z 224 * z 504 - z 475 * z 533 - z 472 * z 487 * z 528) - z 494 * (z 460 * z 1125 + z 519 * z 1065 + z 465 * z 487 * z 1117 + z 465 * z 496 * z 1146 + z 487 * z 496 * z 1140 - z 224 * z 1150 - z 475 * z 1175 - z 533 * z 1151 - rr * z 504 * z 1126 - z 472 * z 487 * z 1177 - z 472 * z 528 * z 1146 - z 487 * z 528 * z 1176)) / (PowN (z 494) 2));
  SZ 1188 (z 227 * (z 494 * z 1150 - z 504 * z 1186) / (PowN (z 494) 2));
  SZ 1189 (z 5 * z 9 * z 1107 + z 449 * (z 3 * z 9 - z 4 * z 6 * z 10) + z 451 * (z 4 * z 10 - z 3 * z 6 * z 9) + z 1093 * (z 3 * z 9 - z 4 * z 6 * z 10) + (Lit 1 2) * rf * z 1076 * (z 4 * z 9 + z 3 * z 6 * z 10) - z 5 * z 10 * z 1102 - z 453 * (z 4 * z 9 + z 3 * z 6 * z 10) - z 1112 * (z 3 * z 10 + z 4 * z 6 * z 9));
  SZ 1190 (z 32 * z 70 - z 28 * z 31 - z 3 * z 5 * z 70 - z 4 * z 5 * z 66);
  SZ 1191 ((Lit 2 1) * d3 * z 29 * (z 30 + z 69) - d2 * z 1190);
  SZ 1192 (z 12 * z 1190 + (Lit 2 1) * z 11 * z 29 * (z 30 + z 69));
  SZ 1193 (z 11 * z 1190 - (Lit 2 1) * z 12 * z 29 * (z 30 + z 69));
  SZ 1194 (z 11 * z 39 * z 1192 + (Lit 1 2) * rf * z 11 * z 96 * z 1076 - z 11 * z 40 * z 1193 - z 12 * z 39 * z 1193 - z 12 * z 40 * z 1192 - (Lit 1 2) * rf * z 11 * z 93 * z 1072 - (Lit 1 2) * rf * z 12 * z 93 * z 1076 - (Lit 1 2) * rf * z 12 * z 96 * z 1072);
  SZ 1195 (z 69 * z 258 + z 29 * (z 1191 + z 1194));
  SZ 1196 ((z 1186 * (z 477 * z 533 + z 467 * z 487 * z 496 + z 474 * z 487 * z 528) - z 494 * (z 477 * z 1175 + z 533 * z 1189 + z 467 * z 487 * z 1117 + z 467 * z 496 * z 1146 + z 474 * z 487 * z 1177 + z 474 * z 528 * z 1146 + z 487 * z 528 * z 1195 + z 25 * z 487 * z 496 * (z 1191 + z 1194))) / (PowN (z 494) 2));
  SZ 1197 (z 1196 * u7 - z 1187 * u4 - z 1188 * u6);
  SZ 1198 (((PowN (z 3) 2) + (PowN (z 4) 2)) * (z 5 * z 8 + z 6 * z 7));
  SZ 1199 (((PowN (z 3) 2) + (PowN (z 4) 2)) * (z 5 * z 7 - z 6 * z 8));
  SZ 1200 (rr * (z 54 * z 1198 - z 54 * z 63 - z 55 * z 1199 - z 60 * z 220));
  SZ 1201 (z 3 * z 5 * z 10 * z 43);
  SZ 1202 (d1 * z 3 * z 6 * z 43);
  SZ 1203 (d2 * z 1201 + z 6 * z 9 * z 118 - z 10 * z 1202);
  SZ 1204 (z 4 * z 5 * z 9 * z 25 - z 6 * z 9 * z 29 - z 6 * z 10 * z 27 - z 4 * z 5 * z 10 * z 23);
  SZ 1205 (z 4 * z 5 * z 6 * z 10 - z 5 * z 29 - z 4 * z 6 * z 25 - z 6 * z 10 * z 31);
  SZ 1206 ((Lit 2 1) * z 33 * z 1205 + (Lit 2 1) * z 34 * z 1204);
  SZ 1207 (((Lit 2 1) * z 36 * z 1204 - z 34 * z 1206 / (PowH (z 35) 0)) / (PowN (z 36) 2));
  SZ 1208 (z 40 * z 1201 + (Lit 1 2) * rf * z 82 * z 1207);
  SZ 1209 (z 3 * z 5 * z 9 * z 43);
  SZ 1210 (d2 * z 1209 - d3 * z 3 * z 6 * z 43);
  SZ 1211 (z 1210 - z 9 * z 1202 - z 6 * z 10 * z 118);
  SZ 1212 (((Lit 2 1) * z 36 * z 1205 - z 33 * z 1206 / (PowH (z 35) 0)) / (PowN (z 36) 2));
  SZ 1213 (z 3 * (z 6 * z 11 + z 5 * z 9 * z 12));
  SZ 1214 (z 3 * (z 6 * z 12 - z 5 * z 9 * z 11));
  SZ 1215 (z 12 * z 40 * z 43 * z 1213 + (Lit 1 2) * rf * z 11 * z 94 * z 1212 - z 11 * z 39 * z 43 * z 1213 - z 11 * z 40 * z 43 * z 1214 - z 12 * z 39 * z 43 * z 1214 - (Lit 1 2) * rf * z 11 * z 90 * z 1207 - (Lit 1 2) * rf * z 12 * z 90 * z 1212 - (Lit 1 2) * rf * z 12 * z 94 * z 1207);
  SZ 1216 ((- d3) * z 1201 - z 5 * z 118);
  SZ 1217 (z 39 * z 1201 + (Lit 1 2) * rf * z 82 * z 1212);
  SZ 1218 (z 4 * z 6 * z 262 + z 4 * z 5 * z 9 * z 257 + z 27 * (z 1203 + z 1208) + z 29 * (z 1211 + z 1215) - z 4 * z 5 * z 10 * z 259 - z 31 * (z 1216 - z 1217));
  SZ 1219 ((- z 6) * z 29 - z 4 * z 10 * (PowN (z 5) 2));
  SZ 1220 (z 33 * z 1219 + z 410 * z 1205);
  SZ 1221 (((Lit 2 1) * z 35 * z 1220 - z 415 * z 1206) / (PowH (z 35) 1));
  SZ 1222 (((Lit 2 1) * z 33 * z 417 * z 1206 / (PowH (z 35) 0) + z 36 * ((Lit 2 1) * z 36 * z 1219 - (Lit 2 1) * z 417 * z 1205 - z 33 * z 1221 - z 410 * z 1206 / (PowH (z 35) 0))) / (PowN (z 36) 3));
  SZ 1223 ((z 34 * z 36 * z 1221 + (Lit 2 1) * z 36 * z 417 * z 1204 - (Lit 2 1) * z 34 * z 417 * z 1206 / (PowH (z 35) 0)) / (PowN (z 36) 3));
  SZ 1224 ((Lit 1 2) * rf * z 32 * z 1223 - z 3 * z 6 * z 429 - (Lit 1 2) * rf * z 28 * z 1222 - z 3 * z 5 * z 9 * z 441);
  SZ 1225 (z 25 * z 1204 - z 6 * z 10 * z 34);
  SZ 1226 (((Lit 2 1) * z 35 * z 1225 - z 412 * z 1206) / (PowH (z 35) 1));
  SZ 1227 (((Lit 2 1) * z 34 * z 418 * z 1206 / (PowH (z 35) 0) - z 36 * (z 34 * z 1226 + (Lit 2 1) * z 418 * z 1204 + (Lit 2 1) * z 6 * z 10 * z 36 + z 25 * z 1206 / (PowH (z 35) 0))) / (PowN (z 36) 3));
  SZ 1228 ((z 33 * z 36 * z 1226 + (Lit 2 1) * z 36 * z 418 * z 1205 - (Lit 2 1) * z 33 * z 418 * z 1206 / (PowH (z 35) 0)) / (PowN (z 36) 3));
  SZ 1229 ((Lit 1 2) * rf * z 32 * z 1227 + z 3 * z 5 * z 9 * z 444 - z 3 * z 6 * z 432 - (Lit 1 2) * rf * z 28 * z 1228);
  SZ 1230 (z 25 * z 1205 - z 6 * z 10 * z 33);
  SZ 1231 (((Lit 2 1) * z 35 * z 1230 - z 416 * z 1206) / (PowH (z 35) 1));
  SZ 1232 (((Lit 2 1) * z 33 * z 420 * z 1206 / (PowH (z 35) 0) - z 36 * (z 33 * z 1231 + (Lit 2 1) * z 420 * z 1205 + (Lit 2 1) * z 6 * z 10 * z 36 + z 25 * z 1206 / (PowH (z 35) 0))) / (PowN (z 36) 3));
  SZ 1233 ((z 34 * z 36 * z 1231 + (Lit 2 1) * z 36 * z 420 * z 1204 - (Lit 2 1) * z 34 * z 420 * z 1206 / (PowH (z 35) 0)) / (PowN (z 36) 3));
  SZ 1234 (z 3 * z 6 * z 434 + (Lit 1 2) * rf * z 28 * z 1232 - (Lit 1 2) * rf * z 32 * z 1233 - z 3 * z 5 * z 9 * z 443);
  SZ 1235 (z 29 * z 1204 - z 4 * z 5 * z 10 * z 34);
  SZ 1236 (((Lit 2 1) * z 35 * z 1235 - z 414 * z 1206) / (PowH (z 35) 1));
  SZ 1237 (((Lit 2 1) * z 34 * z 419 * z 1206 / (PowH (z 35) 0) - z 36 * (z 34 * z 1236 + (Lit 2 1) * z 419 * z 1204 + z 29 * z 1206 / (PowH (z 35) 0) + (Lit 2 1) * z 4 * z 5 * z 10 * z 36)) / (PowN (z 36) 3));
  SZ 1238 ((z 33 * z 36 * z 1236 + (Lit 2 1) * z 36 * z 419 * z 1205 - (Lit 2 1) * z 33 * z 419 * z 1206 / (PowH (z 35) 0)) / (PowN (z 36) 3));
  SZ 1239 ((Lit 1 2) * rf * z 32 * z 1237 + z 3 * z 5 * z 9 * z 445 - z 3 * z 6 * z 433 - (Lit 1 2) * rf * z 28 * z 1238);
  SZ 1240 ((Lit 2 1) * z 27 * z 1204 + (Lit 2 1) * z 31 * z 1205 + (Lit 2 1) * z 4 * z 5 * z 9 * z 34 - (Lit 2 1) * z 4 * z 6 * z 33);
  SZ 1241 (((Lit 2 1) * z 35 * z 1240 - z 413 * z 1206) / (PowH (z 35) 1));
  SZ 1242 (((Lit 2 1) * z 33 * z 422 * z 1206 / (PowH (z 35) 0) - z 36 * (z 33 * z 1241 + (Lit 2 1) * z 422 * z 1205 + (Lit 4 1) * z 4 * z 6 * z 36 + (Lit 2 1) * z 31 * z 1206 / (PowH (z 35) 0))) / (PowN (z 36) 3));
  SZ 1243 (((Lit 2 1) * z 1206 * (z 27 * z 36 - z 34 * z 422) / (PowH (z 35) 0) + z 36 * (z 34 * z 1241 + (Lit 2 1) * z 422 * z 1204 - (Lit 4 1) * z 4 * z 5 * z 9 * z 36)) / (PowN (z 36) 3));
  SZ 1244 ((Lit 1 4) * rf * z 28 * z 1242 - (Lit 1 2) * z 3 * z 6 * z 431 - (Lit 1 4) * rf * z 32 * z 1243 - (Lit 1 2) * z 3 * z 5 * z 9 * z 442);
  SZ 1245 ((Lit 2 1) * z 23 * z 1204 - (Lit 2 1) * z 5 * z 33 - (Lit 2 1) * z 6 * z 1205 - (Lit 2 1) * z 6 * z 9 * z 34);
  SZ 1246 (((Lit 2 1) * z 35 * z 1245 - z 411 * z 1206) / (PowH (z 35) 1));
  SZ 1247 (((Lit 2 1) * z 34 * z 421 * z 1206 / (PowH (z 35) 0) - z 36 * (z 34 * z 1246 + (Lit 2 1) * z 421 * z 1204 + (Lit 4 1) * z 6 * z 9 * z 36 + (Lit 2 1) * z 23 * z 1206 / (PowH (z 35) 0))) / (PowN (z 36) 3));
  SZ 1248 (((Lit 2 1) * z 33 * z 421 * z 1206 / (PowH (z 35) 0) - z 36 * (z 33 * z 1246 + (Lit 2 1) * z 421 * z 1205 + (Lit 4 1) * z 5 * z 36 - (Lit 2 1) * z 6 * z 1206 / (PowH (z 35) 0))) / (PowN (z 36) 3));
  SZ 1249 ((Lit 1 4) * rf * z 28 * z 1248 + (Lit 1 4) * rf * z 32 * z 1247 + (Lit 1 2) * z 3 * z 5 * z 9 * z 446 - (Lit 1 2) * z 3 * z 6 * z 430);
  SZ 1250 (z 1224 + d1 * z 3 * z 6 + z 3 * z 6 * z 9 * z 449 + z 4 * z 5 * z 9 * z 1229 + z 4 * z 6 * z 10 * z 451 - z 3 * z 5 * z 448 - z 4 * z 5 * z 455 - z 4 * z 6 * z 1234 - z 5 * z 9 * z 454 - z 5 * z 10 * z 452 - z 6 * z 9 * z 1239 - z 6 * z 10 * z 1244 - z 4 * z 5 * z 10 * z 1249 - z 4 * z 6 * z 9 * z 453 - (Lit 1 2) * rf * z 3 * z 6 * z 1207 - (Lit 1 2) * rf * z 3 * z 5 * z 9 * z 1212);
  SZ 1251 (z 473 * z 1250 + z 476 * z 1218);
  SZ 1252 ((Lit 1 2) * rf * z 23 * z 83 * z 1207 - z 5 * z 250 - z 6 * z 9 * z 254 - (Lit 1 2) * rf * z 6 * z 83 * z 1212);
  SZ 1253 (z 4 * z 5 * z 9 * z 254 + (Lit 1 2) * rf * z 27 * z 83 * z 1207 + (Lit 1 2) * rf * z 31 * z 83 * z 1212 - z 4 * z 6 * z 250)].
(* [_mooreriderlean2012.py:1833-2219] *)
Definition chunk6 : list stmt := [
  SZ 1254 (z 470 * z 1250 + z 476 * z 1253);
  SZ 1255 (z 5 * z 262 + z 6 * z 10 * z 259 + z 23 * (z 1203 + z 1208) + z 6 * (z 1216 - z 1217) - z 6 * z 9 * z 257 - z 25 * (z 1211 + z 1215));
  SZ 1256 (z 2 * z 5 + z 1 * z 4 * z 6);
  SZ 1257 (z 1 * z 4 * z 5 - z 2 * z 6);
  SZ 1258 (z 5 * z 125 + z 6 * z 1256 + z 6 * z 10 * z 239 + z 9 * z 23 * z 1257 + z 10 * z 25 * z 1257 - z 6 * z 9 * z 234);
  SZ 1259 (z 2 * z 1255 - z 228 * z 1258);
  SZ 1260 (z 4 * z 6 * z 125 + z 9 * z 27 * z 1257 + z 4 * z 5 * z 9 * z 234 - z 31 * z 1256 - z 10 * z 29 * z 1257 - z 4 * z 5 * z 10 * z 239);
  SZ 1261 (z 469 * z 1250 + z 476 * z 1260);
  SZ 1262 (z 515 * z 1251 + z 2 * z 499 * z 1252 - z 496 * z 1259 - z 513 * z 1254 - z 517 * z 1261 - z 228 * z 502 * z 1252);
  SZ 1263 (z 3 * z 5 * z 31 + z 3 * z 6 * z 41 - z 4 * z 5 * z 32 - z 4 * z 6 * z 42);
  SZ 1264 (z 3 * z 6 * z 27 + z 4 * z 6 * z 28 + z 3 * z 5 * z 9 * z 31 - z 4 * z 5 * z 9 * z 32);
  SZ 1265 ((- d1) * z 1263 - d3 * z 1264);
  SZ 1266 (z 39 * z 1264 + (Lit 1 2) * rf * z 77 * z 1212);
  SZ 1267 (d1 * z 5 * ((PowN (z 3) 2) + (PowN (z 4) 2)));
  SZ 1268 (d2 * z 1264 + z 10 * z 1267);
  SZ 1269 (z 40 * z 1264 + (Lit 1 2) * rf * z 77 * z 1207);
  SZ 1270 (z 5 * (z 3 * z 9 * z 29 + z 3 * z 10 * z 27 + z 4 * z 9 * z 30 - z 4 * z 10 * z 66));
  SZ 1271 (z 4 * z 6 * z 69 + z 3 * z 5 * z 10 * z 31 - z 3 * z 6 * z 29 - z 4 * z 5 * z 10 * z 32);
  SZ 1272 (d3 * z 1270 - d2 * z 1271);
  SZ 1273 (z 11 * z 1270 + z 12 * z 1271);
  SZ 1274 (z 11 * z 1271 - z 12 * z 1270);
  SZ 1275 (z 11 * z 39 * z 1273 + (Lit 1 2) * rf * z 11 * z 97 * z 1212 - z 11 * z 40 * z 1274 - z 12 * z 39 * z 1274 - z 12 * z 40 * z 1273 - (Lit 1 2) * rf * z 11 * z 92 * z 1207 - (Lit 1 2) * rf * z 12 * z 92 * z 1212 - (Lit 1 2) * rf * z 12 * z 97 * z 1207);
  SZ 1276 (z 1272 + z 1275 + z 9 * z 1267);
  SZ 1277 (z 5 * z 263 + z 6 * z 10 * z 261 + z 23 * (z 1268 + z 1269) + z 6 * (z 1265 - z 1266) - z 25 * z 1276 - z 6 * z 9 * z 256);
  SZ 1278 (z 3 * (z 5 * z 7 - z 6 * z 8));
  SZ 1279 (z 3 * (z 5 * z 8 + z 6 * z 7));
  SZ 1280 (rr * (z 54 * z 64 + z 61 * z 220 - z 43 * z 54 * z 1278 - z 43 * z 55 * z 1279));
  SZ 1281 (z 458 * z 1252 + z 3 * z 463 * z 1280);
  SZ 1282 (z 457 * z 1255 + z 458 * z 1258 + z 3 * z 462 * z 1280);
  SZ 1283 (z 498 * z 1251 + z 501 * z 1261 + z 502 * z 1281 + z 457 * z 499 * z 1252 - z 495 * z 1254 - z 496 * z 1282);
  SZ 1284 (d1 * z 4 * z 5 + z 3 * z 5 * z 1234 + z 4 * z 6 * z 448 + z 3 * z 5 * z 9 * z 453 + z 4 * z 5 * z 9 * z 449 + z 1229 * (z 3 * z 24 - z 4 * z 10) + (Lit 1 2) * rf * z 1212 * (z 3 * z 10 + z 4 * z 24) - z 3 * z 6 * z 455 - z 3 * z 5 * z 10 * z 451 - (Lit 1 2) * rf * z 4 * z 5 * z 1207 - z 1249 * (z 3 * z 26 + z 4 * z 9));
  SZ 1285 (z 5 * (z 6 - z 3 * z 42 - z 4 * z 41));
  SZ 1286 (z 4 * z 5 * z 27 + z 3 * z 5 * z 9 * z 42 + z 4 * z 5 * z 9 * z 41 - z 6 * z 23 - z 3 * z 5 * z 28 - z 5 * z 6 * z 9);
  SZ 1287 ((Lit 2 1) * d1 * z 1285 - d3 * z 1286);
  SZ 1288 (z 39 * z 1286 + (Lit 1 2) * rf * z 76 * z 1212);
  SZ 1289 (z 40 * z 1286 + (Lit 1 2) * rf * z 76 * z 1207);
  SZ 1290 (z 5 * z 9 * z 25 + z 3 * z 6 * z 9 * z 30 - z 6 * z 10 * z 24 - z 3 * z 5 * z 10 * z 68 - z 4 * z 5 * z 10 * z 67 - z 4 * z 6 * z 9 * z 29);
  SZ 1291 (z 5 * z 26 + z 5 * z 6 * z 10 - z 3 * z 6 * z 72 - z 4 * z 6 * z 71 - z 3 * z 6 * z 10 * z 32 - z 4 * z 6 * z 10 * z 31);
  SZ 1292 (d3 * z 1290 - d2 * z 1291);
  SZ 1293 (z 11 * z 1290 + z 12 * z 1291);
  SZ 1294 (z 11 * z 1291 - z 12 * z 1290);
  SZ 1295 (z 11 * z 39 * z 1293 + (Lit 1 2) * rf * z 11 * z 95 * z 1212 - z 11 * z 40 * z 1294 - z 12 * z 39 * z 1294 - z 12 * z 40 * z 1293 - (Lit 1 2) * rf * z 11 * z 91 * z 1207 - (Lit 1 2) * rf * z 12 * z 91 * z 1212 - (Lit 1 2) * rf * z 12 * z 95 * z 1207);
  SZ 1296 (z 5 * z 264 + z 6 * z 10 * z 260 + z 6 * (z 1287 - z 1288) + z 23 * (z 1289 + d2 * z 1286) - z 6 * z 9 * z 255 - z 25 * (z 1292 + z 1295));
  SZ 1297 (z 4 * z 6 * z 264 + z 4 * z 5 * z 9 * z 255 + z 29 * (z 1292 + z 1295) + z 27 * (z 1289 + d2 * z 1286) - z 4 * z 5 * z 10 * z 260 - z 31 * (z 1287 - z 1288));
  SZ 1298 (z 464 * z 1253 + z 470 * z 1296 - z 463 * z 1297 - z 471 * z 1252);
  SZ 1299 (z 462 * z 1253 + z 470 * z 1258 - z 463 * z 1260 - z 469 * z 1252);
  SZ 1300 (rr * (z 54 * z 65 - z 62 * z 220));
  SZ 1301 (z 3 * z 225 * z 1280 - (Lit 2 1) * rr * z 458 * z 1285 - z 3 * z 228 * z 1300);
  SZ 1302 (z 466 * z 1253 + z 470 * z 1255 - z 463 * z 1218 - z 473 * z 1252);
  SZ 1303 ((Lit 2 1) * rr * z 457 * z 1285 - z 2 * z 3 * z 1300);
  SZ 1304 (z 484 * z 1301 + z 487 * z 1298 + z 492 * z 1299 - z 480 * z 1303 - z 490 * z 1302 - z 2 * z 3 * z 481 * z 1280);
  SZ 1305 (z 29 * z 1276 + z 4 * z 6 * z 263 + z 4 * z 5 * z 9 * z 256 + z 27 * (z 1268 + z 1269) - z 4 * z 5 * z 10 * z 261 - z 31 * (z 1265 - z 1266));
  SZ 1306 (z 463 * z 1250 + z 476 * z 1252);
  SZ 1307 (z 1 * z 5 - z 2 * z 4 * z 6);
  SZ 1308 ((- z 1) * z 6 - z 2 * z 4 * z 5);
  SZ 1309 (z 5 * z 122 + z 6 * z 1307 + z 6 * z 10 * z 238 + z 9 * z 23 * z 1308 + z 10 * z 25 * z 1308 - z 6 * z 9 * z 233);
  SZ 1310 (z 4 * z 6 * z 122 + z 9 * z 27 * z 1308 + z 4 * z 5 * z 9 * z 233 - z 31 * z 1307 - z 10 * z 29 * z 1308 - z 4 * z 5 * z 10 * z 238);
  SZ 1311 (z 461 * z 1253 + z 470 * z 1309 - z 463 * z 1310 - z 468 * z 1252);
  SZ 1312 (z 1250 * (z 482 * z 484 - z 478 * z 480 - z 487 * z 489) - z 476 * (z 478 * z 1302 + z 487 * z 1311 + z 1 * z 3 * z 484 * z 1280 - z 482 * z 1299 - z 2 * z 3 * z 489 * z 1280));
  SZ 1313 ((z 1312 * (z 460 * z 519 + z 465 * z 487 * z 496 - z 224 * z 504 - z 475 * z 533 - z 472 * z 487 * z 528) + z 494 * (z 224 * z 1283 + z 475 * z 1304 + z 533 * z 1284 + rr * z 504 * z 1263 + z 472 * z 487 * z 1306 + z 487 * z 528 * z 1305 + z 2 * z 3 * z 465 * z 496 * z 1280 - z 460 * z 1262 - z 3 * z 519 * z 1200 - z 465 * z 487 * z 1254 - z 487 * z 496 * z 1277 - z 2 * z 3 * z 472 * z 528 * z 1280)) / (PowN (z 494) 2));
  SZ 1314 (z 227 * (z 494 * z 1283 - z 504 * z 1312) / (PowN (z 494) 2));
  SZ 1315 (z 5 * z 9 * z 1244 + z 6 * z 10 * z 454 + z 3 * z 5 * z 10 * z 449 + z 1229 * (z 3 * z 9 - z 4 * z 6 * z 10) + (Lit 1 2) * rf * z 1212 * (z 4 * z 9 + z 3 * z 6 * z 10) - z 5 * z 10 * z 1239 - z 6 * z 9 * z 452 - z 4 * z 5 * z 9 * z 451 - z 4 * z 5 * z 10 * z 453 - z 1249 * (z 3 * z 10 + z 4 * z 6 * z 9));
  SZ 1316 (z 10 * (z 3 * z 5 * z 30 - z 6 * z 25 - z 4 * z 5 * z 29));
  SZ 1317 (z 4 * z 6 * z 70 + z 9 * (PowN (z 6) 2) + z 3 * z 5 * z 9 * z 32 + z 4 * z 5 * z 9 * z 31 - z 5 * z 23 - z 3 * z 6 * z 66);
  SZ 1318 ((Lit 2 1) * d3 * z 1316 - d2 * z 1317);
  SZ 1319 (z 12 * z 1317 + (Lit 2 1) * z 11 * z 1316);
  SZ 1320 (z 11 * z 1317 - (Lit 2 1) * z 12 * z 1316);
  SZ 1321 (z 11 * z 39 * z 1319 + (Lit 1 2) * rf * z 11 * z 96 * z 1212 - z 11 * z 40 * z 1320 - z 12 * z 39 * z 1320 - z 12 * z 40 * z 1319 - (Lit 1 2) * rf * z 11 * z 93 * z 1207 - (Lit 1 2) * rf * z 12 * z 93 * z 1212 - (Lit 1 2) * rf * z 12 * z 96 * z 1207);
  SZ 1322 (z 25 * (z 1318 + z 1321) - z 6 * z 10 * z 258);
  SZ 1323 (z 29 * (z 1318 + z 1321) - z 4 * z 5 * z 10 * z 258);
  SZ 1324 ((z 1312 * (z 477 * z 533 + z 467 * z 487 * z 496 + z 474 * z 487 * z 528) - z 494 * (z 477 * z 1304 + z 533 * z 1315 + z 467 * z 487 * z 1254 + z 474 * z 487 * z 1306 + z 487 * z 496 * z 1322 + z 487 * z 528 * z 1323 - z 2 * z 3 * z 467 * z 496 * z 1280 - z 2 * z 3 * z 474 * z 528 * z 1280)) / (PowN (z 494) 2));
  SZ 1325 (z 1324 * u7 - z 1313 * u4 - z 1314 * u6);
  SZ 1326 ((- z 7) * z 49 - z 8 * z 45);
  SZ 1327 (rr * (z 54 * z 63 + z 54 * z 1326 + z 55 * z 60 + z 60 * z 220));
  SZ 1328 (z 8 * z 42 - z 7 * z 32);
  SZ 1329 (rr * (z 54 * z 64 + z 61 * z 220 + z 43 * z 54 * z 1328 + z 43 * z 55 * z 58));
  SZ 1330 (z 3 * z 1329 * (z 462 * z 496 - z 463 * z 502));
  SZ 1331 (rr * (z 54 * z 65 - z 62 * z 220 - z 7 * z 48 * z 54 - z 8 * z 48 * z 55));
  SZ 1332 (z 3 * (z 225 * z 1329 - z 228 * z 1331));
  SZ 1333 (z 484 * z 1332 + z 2 * z 3 * z 480 * z 1331 - z 2 * z 3 * z 481 * z 1329);
  SZ 1334 (z 3 * z 476 * z 1329 * (z 1 * z 484 - z 2 * z 489));
  SZ 1335 ((z 1334 * (z 460 * z 519 + z 465 * z 487 * z 496 - z 224 * z 504 - z 475 * z 533 - z 472 * z 487 * z 528) - z 494 * (z 475 * z 1333 + z 3 * z 519 * z 1327 + z 2 * z 3 * z 465 * z 496 * z 1329 - z 224 * z 1330 - z 2 * z 3 * z 472 * z 528 * z 1329)) / (PowN (z 494) 2));
  SZ 1336 (z 227 * (z 494 * z 1330 - z 504 * z 1334) / (PowN (z 494) 2));
  SZ 1337 ((z 1334 * (z 477 * z 533 + z 467 * z 487 * z 496 + z 474 * z 487 * z 528) + z 494 * (z 477 * z 1333 - z 2 * z 3 * z 467 * z 496 * z 1329 - z 2 * z 3 * z 474 * z 528 * z 1329)) / (PowN (z 494) 2));
  SZ 1338 (z 1335 * u4 + z 1336 * u6 - z 1337 * u7);
  SZ 1339 (z 3 * z 9 - z 4 * z 6 * z 10);
  SZ 1340 (z 3 * z 6 * z 9 - z 4 * z 10);
  SZ 1341 (z 9 * z 145 + z 10 * z 126 + d2 * z 43 * z 1340);
  SZ 1342 ((- z 3) * z 10 - z 4 * z 6 * z 9);
  SZ 1343 (z 23 * z 1342 + z 25 * z 1339 + z 5 * z 9 * z 27 - z 5 * z 10 * z 29);
  SZ 1344 (z 5 * z 9 * z 31 - z 6 * z 1342);
  SZ 1345 ((Lit 2 1) * z 33 * z 1344 + (Lit 2 1) * z 34 * z 1343);
  SZ 1346 (((Lit 2 1) * z 36 * z 1343 - z 34 * z 1345 / (PowH (z 35) 0)) / (PowN (z 36) 2));
  SZ 1347 (z 40 * z 43 * z 1340 + (Lit 1 2) * rf * z 82 * z 1346);
  SZ 1348 (z 4 * z 9 + z 3 * z 6 * z 10);
  SZ 1349 (z 9 * z 126 - z 10 * z 145 - d2 * z 43 * z 1348);
  SZ 1350 (((Lit 2 1) * z 36 * z 1344 - z 33 * z 1345 / (PowH (z 35) 0)) / (PowN (z 36) 2));
  SZ 1351 ((Lit 1 2) * rf * z 11 * z 94 * z 1350 - (Lit 1 2) * rf * z 11 * z 90 * z 1346 - (Lit 1 2) * rf * z 12 * z 90 * z 1350 - (Lit 1 2) * rf * z 12 * z 94 * z 1346 - z 40 * z 43 * z 1348 * (PowN (z 11) 2) - z 40 * z 43 * z 1348 * (PowN (z 12) 2));
  SZ 1352 (z 39 * z 43 * z 1340 + (Lit 1 2) * rf * z 82 * z 1350);
  SZ 1353 ((- z 1352) - d3 * z 43 * z 1340);
  SZ 1354 (z 257 * z 1339 + z 259 * z 1342 + z 27 * (z 1341 + z 1347) + z 29 * (z 1349 + z 1351) - z 31 * z 1353);
  SZ 1355 (z 410 * z 1344 + z 5 * z 33 * z 1342);
  SZ 1356 (((Lit 2 1) * z 35 * z 1355 - z 415 * z 1345) / (PowH (z 35) 1));
  SZ 1357 (((Lit 2 1) * z 33 * z 417 * z 1345 / (PowH (z 35) 0) + z 36 * ((Lit 2 1) * z 5 * z 36 * z 1342 - (Lit 2 1) * z 417 * z 1344 - z 33 * z 1356 - z 410 * z 1345 / (PowH (z 35) 0))) / (PowN (z 36) 3));
  SZ 1358 ((z 34 * z 36 * z 1356 + (Lit 2 1) * z 36 * z 417 * z 1343 - (Lit 2 1) * z 34 * z 417 * z 1345 / (PowH (z 35) 0)) / (PowN (z 36) 3));
  SZ 1359 (z 441 * z 1348 + (Lit 1 2) * rf * z 32 * z 1358 - (Lit 1 2) * rf * z 28 * z 1357);
  SZ 1360 (z 25 * z 1343 + z 5 * z 9 * z 34);
  SZ 1361 (((Lit 2 1) * z 35 * z 1360 - z 412 * z 1345) / (PowH (z 35) 1));
  SZ 1362 ((z 1345 * (z 25 * z 36 - (Lit 2 1) * z 34 * z 418) / (PowH (z 35) 0) + z 36 * (z 34 * z 1361 + (Lit 2 1) * z 418 * z 1343 - (Lit 2 1) * z 5 * z 9 * z 36)) / (PowN (z 36) 3));
  SZ 1363 ((z 33 * z 36 * z 1361 + (Lit 2 1) * z 36 * z 418 * z 1344 - (Lit 2 1) * z 33 * z 418 * z 1345 / (PowH (z 35) 0)) / (PowN (z 36) 3));
  SZ 1364 ((- z 444) * z 1348 - (Lit 1 2) * rf * z 28 * z 1363 - (Lit 1 2) * rf * z 32 * z 1362);
  SZ 1365 (z 25 * z 1344 + z 5 * z 9 * z 33);
  SZ 1366 (((Lit 2 1) * z 35 * z 1365 - z 416 * z 1345) / (PowH (z 35) 1));
  SZ 1367 ((z 1345 * (z 25 * z 36 - (Lit 2 1) * z 33 * z 420) / (PowH (z 35) 0) + z 36 * (z 33 * z 1366 + (Lit 2 1) * z 420 * z 1344 - (Lit 2 1) * z 5 * z 9 * z 36)) / (PowN (z 36) 3));
  SZ 1368 ((z 34 * z 36 * z 1366 + (Lit 2 1) * z 36 * z 420 * z 1343 - (Lit 2 1) * z 34 * z 420 * z 1345 / (PowH (z 35) 0)) / (PowN (z 36) 3));
  SZ 1369 (z 443 * z 1348 - (Lit 1 2) * rf * z 28 * z 1367 - (Lit 1 2) * rf * z 32 * z 1368);
  SZ 1370 (z 29 * z 1343 + z 34 * z 1342);
  SZ 1371 (((Lit 2 1) * z 35 * z 1370 - z 414 * z 1345) / (PowH (z 35) 1));
  SZ 1372 ((z 1345 * (z 29 * z 36 - (Lit 2 1) * z 34 * z 419) / (PowH (z 35) 0) - z 36 * ((Lit 2 1) * z 36 * z 1342 - (Lit 2 1) * z 419 * z 1343 - z 34 * z 1371)) / (PowN (z 36) 3));
  SZ 1373 ((z 33 * z 36 * z 1371 + (Lit 2 1) * z 36 * z 419 * z 1344 - (Lit 2 1) * z 33 * z 419 * z 1345 / (PowH (z 35) 0)) / (PowN (z 36) 3));
  SZ 1374 ((- z 445) * z 1348 - (Lit 1 2) * rf * z 28 * z 1373 - (Lit 1 2) * rf * z 32 * z 1372);
  SZ 1375 ((Lit 2 1) * z 27 * z 1343 + (Lit 2 1) * z 31 * z 1344 + (Lit 2 1) * z 34 * z 1339);
  SZ 1376 (((Lit 2 1) * z 35 * z 1375 - z 413 * z 1345) / (PowH (z 35) 1));
  SZ 1377 ((z 36 * (z 33 * z 1376 + (Lit 2 1) * z 422 * z 1344) + (Lit 2 1) * z 1345 * (z 31 * z 36 - z 33 * z 422) / (PowH (z 35) 0)) / (PowN (z 36) 3));
  SZ 1378 (((Lit 2 1) * z 1345 * (z 27 * z 36 - z 34 * z 422) / (PowH (z 35) 0) - z 36 * ((Lit 4 1) * z 36 * z 1339 - (Lit 2 1) * z 422 * z 1343 - z 34 * z 1376)) / (PowN (z 36) 3));
  SZ 1379 ((Lit 1 2) * z 442 * z 1348 - (Lit 1 4) * rf * z 28 * z 1377 - (Lit 1 4) * rf * z 32 * z 1378);
  SZ 1380 ((Lit 2 1) * z 23 * z 1343 - (Lit 2 1) * z 6 * z 1344 - (Lit 2 1) * z 5 * z 10 * z 34);
  SZ 1381 (((Lit 2 1) * z 35 * z 1380 - z 411 * z 1345) / (PowH (z 35) 1));
  SZ 1382 (((Lit 2 1) * z 34 * z 421 * z 1345 / (PowH (z 35) 0) - z 36 * (z 34 * z 1381 + (Lit 2 1) * z 421 * z 1343 + (Lit 4 1) * z 5 * z 10 * z 36 + (Lit 2 1) * z 23 * z 1345 / (PowH (z 35) 0))) / (PowN (z 36) 3));
  SZ 1383 (((Lit 2 1) * z 33 * z 421 * z 1345 / (PowH (z 35) 0) - z 36 * (z 33 * z 1381 + (Lit 2 1) * z 421 * z 1344 - (Lit 2 1) * z 6 * z 1345 / (PowH (z 35) 0))) / (PowN (z 36) 3));
  SZ 1384 ((Lit 1 4) * rf * z 28 * z 1383 + (Lit 1 4) * rf * z 32 * z 1382 - (Lit 1 2) * z 446 * z 1348);
  SZ 1385 (z 1359 + z 6 * z 10 * z 454 + z 3 * z 5 * z 10 * z 449 + z 4 * z 5 * z 9 * z 1364 - z 4 * z 6 * z 1369 - z 6 * z 9 * z 452 - z 6 * z 9 * z 1374 - z 6 * z 10 * z 1379 - z 4 * z 5 * z 9 * z 451 - z 4 * z 5 * z 10 * z 453 - z 4 * z 5 * z 10 * z 1384 - (Lit 1 2) * rf * z 3 * z 6 * z 1346 - (Lit 1 2) * rf * z 3 * z 5 * z 9 * z 1350);
  SZ 1386 (z 473 * z 1385 + z 476 * z 1354);
  SZ 1387 ((Lit 1 2) * rf * z 23 * z 83 * z 1346 - z 5 * z 10 * z 254 - (Lit 1 2) * rf * z 6 * z 83 * z 1350);
  SZ 1388 (z 254 * z 1339 + (Lit 1 2) * rf * z 27 * z 83 * z 1346 + (Lit 1 2) * rf * z 31 * z 83 * z 1350);
  SZ 1389 (z 470 * z 1385 + z 476 * z 1388);
  SZ 1390 (z 6 * z 1353 + z 23 * (z 1341 + z 1347) - z 5 * z 9 * z 259 - z 5 * z 10 * z 257 - z 25 * (z 1349 + z 1351));
  SZ 1391 ((- z 9) * z 123 - z 10 * z 124);
  SZ 1392 (z 23 * z 239 - z 25 * z 1391 - z 5 * z 9 * z 239 - z 5 * z 10 * z 234);
  SZ 1393 (z 2 * z 1390 - z 228 * z 1392);
  SZ 1394 (z 27 * z 239 + z 29 * z 1391 + z 234 * z 1339 + z 239 * z 1342);
  SZ 1395 (z 469 * z 1385 + z 476 * z 1394);
  SZ 1396 (z 515 * z 1386 + z 2 * z 499 * z 1387 - z 496 * z 1393 - z 513 * z 1389 - z 517 * z 1395 - z 228 * z 502 * z 1387);
  SZ 1397 ((- z 31) * z 1348 - z 32 * z 1339);
  SZ 1398 (z 39 * z 1397 + (Lit 1 2) * rf * z 77 * z 1350);
  SZ 1399 (d2 * z 1397 + z 9 * z 147);
  SZ 1400 (z 40 * z 1397 + (Lit 1 2) * rf * z 77 * z 1346);
  SZ 1401 ((- z 4) * z 9 - z 3 * z 6 * z 10);
  SZ 1402 (z 27 * z 1340 + z 29 * z 1401 + z 30 * z 1339 + z 66 * z 1342);
  SZ 1403 (z 4 * z 10 - z 3 * z 6 * z 9);
  SZ 1404 (z 32 * z 1342 - z 31 * z 1403);
  SZ 1405 (d3 * z 1402 - d2 * z 1404);
  SZ 1406 (z 11 * z 1402 + z 12 * z 1404);
  SZ 1407 (z 11 * z 1404 - z 12 * z 1402);
  SZ 1408 (z 11 * z 39 * z 1406 + (Lit 1 2) * rf * z 11 * z 97 * z 1350 - z 11 * z 40 * z 1407 - z 12 * z 39 * z 1407 - z 12 * z 40 * z 1406 - (Lit 1 2) * rf * z 11 * z 92 * z 1346 - (Lit 1 2) * rf * z 12 * z 92 * z 1350 - (Lit 1 2) * rf * z 12 * z 97 * z 1346);
  SZ 1409 (z 1405 + z 1408 - z 10 * z 147);
  SZ 1410 (z 23 * (z 1399 + z 1400) - z 25 * z 1409 - z 5 * z 9 * z 261 - z 5 * z 10 * z 256 - z 6 * (z 1398 + d3 * z 1397));
  SZ 1411 (z 457 * z 1390 + z 458 * z 1392);
  SZ 1412 (z 498 * z 1386 + z 501 * z 1395 + z 457 * z 499 * z 1387 + z 458 * z 502 * z 1387 - z 495 * z 1389 - z 496 * z 1411);
  SZ 1413 (z 3 * z 5 * z 1369 + z 1364 * (z 3 * z 24 - z 4 * z 10) + (Lit 1 2) * rf * z 1350 * (z 3 * z 10 + z 4 * z 24) + z 449 * (z 3 * z 9 - z 4 * z 6 * z 10) + z 451 * (z 4 * z 10 - z 3 * z 6 * z 9) - (Lit 1 2) * rf * z 4 * z 5 * z 1346 - z 1384 * (z 3 * z 26 + z 4 * z 9) - z 453 * (z 4 * z 9 + z 3 * z 6 * z 10));
  SZ 1414 (z 41 * z 1339 - z 42 * z 1348 - z 10 * (PowN (z 5) 2));
  SZ 1415 (z 39 * z 1414 + (Lit 1 2) * rf * z 76 * z 1350);
  SZ 1416 (d2 * z 1414 + z 9 * z 143);
  SZ 1417 (z 40 * z 1414 + (Lit 1 2) * rf * z 76 * z 1346);
  SZ 1418 (z 67 * z 1342 + z 5 * z 9 * z 24 + z 3 * z 5 * z 10 * z 30 - z 68 * z 1340 - z 6 * z 10 * z 25 - z 4 * z 5 * z 10 * z 29);
  SZ 1419 (z 9 * ((PowN (z 6) 2) + z 3 * z 5 * z 32 + z 4 * z 5 * z 31));
  SZ 1420 (d3 * z 1418 - d2 * z 1419);
  SZ 1421 (z 11 * z 1418 + z 12 * z 1419);
  SZ 1422 (z 11 * z 1419 - z 12 * z 1418);
  SZ 1423 (z 11 * z 39 * z 1421 + (Lit 1 2) * rf * z 11 * z 95 * z 1350 - z 11 * z 40 * z 1422 - z 12 * z 39 * z 1422 - z 12 * z 40 * z 1421 - (Lit 1 2) * rf * z 11 * z 91 * z 1346 - (Lit 1 2) * rf * z 12 * z 91 * z 1350 - (Lit 1 2) * rf * z 12 * z 95 * z 1346);
  SZ 1424 (z 1420 + z 1423 - z 10 * z 143);
  SZ 1425 (z 23 * (z 1416 + z 1417) - z 25 * z 1424 - z 5 * z 9 * z 260 - z 5 * z 10 * z 255 - z 6 * (z 1415 + d3 * z 1414));
  SZ 1426 (z 29 * z 1424 + z 255 * z 1339 + z 260 * z 1342 + z 27 * (z 1416 + z 1417) + z 31 * (z 1415 + d3 * z 1414));
  SZ 1427 (z 464 * z 1388 + z 470 * z 1425 - z 463 * z 1426 - z 471 * z 1387);
  SZ 1428 (z 462 * z 1388 + z 470 * z 1392 - z 463 * z 1394 - z 469 * z 1387);
  SZ 1429 (z 466 * z 1388 + z 470 * z 1390 - z 463 * z 1354 - z 473 * z 1387);
  SZ 1430 (z 487 * z 1427 + z 492 * z 1428 - z 490 * z 1429);
  SZ 1431 (z 29 * z 1409 + z 256 * z 1339 + z 261 * z 1342 + z 27 * (z 1399 + z 1400) + z 31 * (z 1398 + d3 * z 1397));
  SZ 1432 (z 463 * z 1385 + z 476 * z 1387);
  SZ 1433 (z 10 * z 121 - z 9 * z 120);
  SZ 1434 (z 23 * z 238 - z 25 * z 1433 - z 5 * z 9 * z 238 - z 5 * z 10 * z 233);
  SZ 1435 (z 27 * z 238 + z 29 * z 1433 + z 233 * z 1339 + z 238 * z 1342);
  SZ 1436 (z 461 * z 1388 + z 470 * z 1434 - z 463 * z 1435 - z 468 * z 1387);
  SZ 1437 (z 476 * (z 482 * z 1428 - z 478 * z 1429 - z 487 * z 1436) + z 1385 * (z 482 * z 484 - z 478 * z 480 - z 487 * z 489));
  SZ 1438 ((z 1437 * (z 460 * z 519 + z 465 * z 487 * z 496 - z 224 * z 504 - z 475 * z 533 - z 472 * z 487 * z 528) - z 494 * (z 460 * z 1396 + z 465 * z 487 * z 1389 + z 487 * z 496 * z 1410 - z 224 * z 1412 - z 475 * z 1430 - z 533 * z 1413 - z 472 * z 487 * z 1432 - z 487 * z 528 * z 1431)) / (PowN (z 494) 2));
  SZ 1439 (z 227 * (z 494 * z 1412 - z 504 * z 1437) / (PowN (z 494) 2));
  SZ 1440 (z 5 * z 9 * z 1379 + z 1364 * (z 3 * z 9 - z 4 * z 6 * z 10) + (Lit 1 2) * rf * z 1350 * (z 4 * z 9 + z 3 * z 6 * z 10) - z 5 * z 9 * z 454 - z 5 * z 10 * z 452 - z 5 * z 10 * z 1374 - z 453 * (z 3 * z 10 + z 4 * z 6 * z 9) - z 1384 * (z 3 * z 10 + z 4 * z 6 * z 9) - z 449 * (z 4 * z 10 - z 3 * z 6 * z 9) - z 451 * (z 3 * z 9 - z 4 * z 6 * z 10));
  SZ 1441 ((Lit 2 1) * z 29 * z 1342 + (Lit 2 1) * z 30 * z 1340 + (Lit 2 1) * z 5 * z 9 * z 25);
  SZ 1442 (z 4 * z 6 * z 10 - z 3 * z 9);
  SZ 1443 (z 32 * z 1401 + z 5 * z 6 * z 10 - z 31 * z 1442);
  SZ 1444 (d3 * z 1441 - d2 * z 1443);
  SZ 1445 (z 11 * z 1441 + z 12 * z 1443);
  SZ 1446 (z 11 * z 1443 - z 12 * z 1441);
  SZ 1447 (z 11 * z 39 * z 1445 + (Lit 1 2) * rf * z 11 * z 96 * z 1350 - z 11 * z 40 * z 1446 - z 12 * z 39 * z 1446 - z 12 * z 40 * z 1445 - (Lit 1 2) * rf * z 11 * z 93 * z 1346 - (Lit 1 2) * rf * z 12 * z 93 * z 1350 - (Lit 1 2) * rf * z 12 * z 96 * z 1346);
  SZ 1448 (z 5 * z 9 * z 258 + z 25 * (z 1444 + z 1447));
  SZ 1449 (z 258 * z 1342 + z 29 * (z 1444 + z 1447));
  SZ 1450 ((z 1437 * (z 477 * z 533 + z 467 * z 487 * z 496 + z 474 * z 487 * z 528) - z 494 * (z 477 * z 1430 + z 533 * z 1440 + z 467 * z 487 * z 1389 + z 474 * z 487 * z 1432 + z 487 * z 496 * z 1448 + z 487 * z 528 * z 1449)) / (PowN (z 494) 2));
  SZ 1451 (z 1450 * u7 - z 1438 * u4 - z 1439 * u6);
  SZ 1452 ((- z 11) * z 32 - z 12 * z 28);
  SZ 1453 (z 12 * z 40 * z 90 + z 11 * z 39 * z 43 * z 88 - z 11 * z 39 * z 90 - z 11 * z 40 * z 94 - z 12 * z 39 * z 94 - z 11 * z 40 * z 43 * z 1452 - z 12 * z 39 * z 43 * z 1452 - z 12 * z 40 * z 43 * z 88);
  SZ 1454 (z 1453 * (z 2 * z 25 * z 496 + z 29 * z 476 * z 515));
  SZ 1455 ((- z 11) * z 80 - z 12 * z 74);
  SZ 1456 ((- z 11) * z 40 * z 97 - z 11 * z 40 * z 1455 - z 12 * z 39 * z 97 - z 12 * z 39 * z 1455);
  SZ 1457 (z 1453 * (z 25 * z 457 * z 496 + z 29 * z 476 * z 498));
  SZ 1458 ((- z 11) * z 78 - z 12 * z 73);
  SZ 1459 ((- z 11) * z 40 * z 95 - z 11 * z 40 * z 1458 - z 12 * z 39 * z 95 - z 12 * z 39 * z 1458);
  SZ 1460 (z 1459 * (z 25 * z 470 + z 29 * z 463));
  SZ 1461 (z 1453 * (z 25 * z 470 + z 29 * z 463));
  SZ 1462 (z 490 * z 1461 - z 487 * z 1460);
  SZ 1463 ((z 476 * z 478 * z 1461 * (z 460 * z 519 + z 465 * z 487 * z 496 - z 224 * z 504 - z 475 * z 533 - z 472 * z 487 * z 528) - z 494 * (z 460 * z 1454 - z 224 * z 1457 - z 475 * z 1462 - z 25 * z 487 * z 496 * z 1456 - z 29 * z 487 * z 528 * z 1456)) / (PowN (z 494) 2));
  SZ 1464 (z 227 * (z 494 * z 1457 - z 476 * z 478 * z 504 * z 1461) / (PowN (z 494) 2));
  SZ 1465 ((- z 11) * z 79 - z 12 * z 75);
  SZ 1466 ((- z 11) * z 40 * z 96 - z 11 * z 40 * z 1465 - z 12 * z 39 * z 96 - z 12 * z 39 * z 1465);
  SZ 1467 ((z 476 * z 478 * z 1461 * (z 477 * z 533 + z 467 * z 487 * z 496 + z 474 * z 487 * z 528) - z 494 * (z 477 * z 1462 + z 25 * z 487 * z 496 * z 1466 + z 29 * z 487 * z 528 * z 1466)) / (PowN (z 494) 2));
  SZ 1468 (z 1467 * u7 - z 1463 * u4 - z 1464 * u6);
  SZ 1469 (z 1 * z 463 * ((PowN (z 3) 2) + (PowN (z 4) 2)));
  SZ 1470 (z 458 * z 1053 - z 1 * z 466 * ((PowN (z 3) 2) + (PowN (z 4) 2)));
  SZ 1471 (z 476 * z 501 * z 1054 - z 496 * z 1470 - z 499 * z 1469);
  SZ 1472 (z 227 * (z 494 * z 1471 - z 509 * z 1056) / (PowN (z 494) 2));
  SZ 1473 (z 1 * z 225 * ((PowN (z 3) 2) + (PowN (z 4) 2)) - z 2 * z 459);
  SZ 1474 (z 481 * z 1047 + z 492 * z 1055 - z 480 * z 1473);
  SZ 1475 ((z 494 * (z 477 * z 1474 + z 467 * z 496 * z 1047 + z 474 * z 528 * z 1047) - z 1056 * (z 477 * z 534 + z 467 * z 482 * z 496 + z 474 * z 482 * z 528)) / (PowN (z 494) 2));
  SZ 1476 ((- z 2) * z 466 - z 228 * z 1053);
  SZ 1477 ((- z 496) * z 1476 - z 2 * z 463 * z 499 - z 476 * z 517 * z 1054);
  SZ 1478 ((z 494 * (z 460 * z 1477 + z 465 * z 496 * z 1047 - z 224 * z 1471 - z 475 * z 1474 - z 472 * z 528 * z 1047) - z 1056 * (z 460 * z 523 + z 465 * z 482 * z 496 - z 224 * z 509 - z 475 * z 534 - z 472 * z 482 * z 528)) / (PowN (z 494) 2));
  SZ 1479 (z 1472 * u6 + z 1475 * u7 - z 1478 * u4);
  SZ 1480 (z 463 * z 1178 - (Lit 1 2) * z 456 * z 1115);
  SZ 1481 (z 468 * z 1113 + z 476 * z 1184);
  SZ 1482 (z 456 * z 1118 + z 458 * z 1183 + z 461 * z 1144 + z 466 * z 1178);
  SZ 1483 (z 499 * z 1480 + z 501 * z 1481 + z 507 * z 1114 + z 508 * z 1148 - z 496 * z 1482 - z 505 * z 1117);
  SZ 1484 (z 227 * (z 494 * z 1483 - z 509 * z 1186) / (PowN (z 494) 2));
  SZ 1485 (z 1 * z 1171 - z 225 * z 1178 - (Lit 2 1) * rr * z 456 * z 1152);
  SZ 1486 (z 481 * z 1179 + z 482 * z 1168 + z 489 * z 1172 + z 492 * z 1185 - z 480 * z 1485 - z 485 * z 1173);
  SZ 1487 ((z 1186 * (z 477 * z 534 + z 467 * z 482 * z 496 + z 474 * z 482 * z 528) - z 494 * (z 477 * z 1486 + z 534 * z 1189 + z 467 * z 482 * z 1117 + z 467 * z 496 * z 1179 + z 474 * z 482 * z 1177 + z 474 * z 528 * z 1179 + z 482 * z 528 * z 1195 + z 25 * z 482 * z 496 * (z 1191 + z 1194))) / (PowN (z 494) 2));
  SZ 1488 (z 1 * z 1118 - z 228 * z 1183);
  SZ 1489 (z 522 * z 1114 + (Lit 1 2) * z 228 * z 508 * z 1115 - z 496 * z 1488 - z 517 * z 1481 - z 520 * z 1117 - (Lit 1 2) * z 1 * z 499 * z 1115);
  SZ 1490 ((z 1186 * (z 460 * z 523 + z 465 * z 482 * z 496 - z 224 * z 509 - z 475 * z 534 - z 472 * z 482 * z 528) - z 494 * (z 460 * z 1489 + z 523 * z 1065 + z 465 * z 482 * z 1117 + z 465 * z 496 * z 1179 + z 482 * z 496 * z 1140 - z 224 * z 1483 - z 475 * z 1486 - z 534 * z 1151 - rr * z 509 * z 1126 - z 472 * z 482 * z 1177 - z 472 * z 528 * z 1179 - z 482 * z 528 * z 1176)) / (PowN (z 494) 2));
  SZ 1491 (z 1484 * u6 + z 1490 * u4 - z 1487 * u7);
  SZ 1492 (z 468 * z 1250 + z 476 * z 1310);
  SZ 1493 (z 456 * z 1255 + z 458 * z 1309 + z 3 * z 461 * z 1280);
  SZ 1494 (z 501 * z 1492 + z 507 * z 1251 + z 508 * z 1281 + z 456 * z 499 * z 1252 - z 496 * z 1493 - z 505 * z 1254);
  SZ 1495 (z 227 * (z 494 * z 1494 - z 509 * z 1312) / (PowN (z 494) 2));
  SZ 1496 ((Lit 2 1) * rr * z 456 * z 1285 - z 1 * z 3 * z 1300);
  SZ 1497 (z 482 * z 1298 + z 489 * z 1301 + z 492 * z 1311 - z 480 * z 1496 - z 485 * z 1302 - z 1 * z 3 * z 481 * z 1280);
  SZ 1498 ((z 1312 * (z 477 * z 534 + z 467 * z 482 * z 496 + z 474 * z 482 * z 528) - z 494 * (z 477 * z 1497 + z 534 * z 1315 + z 467 * z 482 * z 1254 + z 474 * z 482 * z 1306 + z 482 * z 496 * z 1322 + z 482 * z 528 * z 1323 - z 1 * z 3 * z 467 * z 496 * z 1280 - z 1 * z 3 * z 474 * z 528 * z 1280)) / (PowN (z 494) 2));
  SZ 1499 (z 1 * z 1255 - z 228 * z 1309);
  SZ 1500 (z 522 * z 1251 + z 1 * z 499 * z 1252 - z 496 * z 1499 - z 517 * z 1492 - z 520 * z 1254 - z 228 * z 508 * z 1252);
  SZ 1501 ((z 1312 * (z 460 * z 523 + z 465 * z 482 * z 496 - z 224 * z 509 - z 475 * z 534 - z 472 * z 482 * z 528) + z 494 * (z 224 * z 1494 + z 475 * z 1497 + z 534 * z 1284 + rr * z 509 * z 1263 + z 472 * z 482 * z 1306 + z 482 * z 528 * z 1305 + z 1 * z 3 * z 465 * z 496 * z 1280 - z 460 * z 1500 - z 3 * z 523 * z 1200 - z 465 * z 482 * z 1254 - z 482 * z 496 * z 1277 - z 1 * z 3 * z 472 * z 528 * z 1280)) / (PowN (z 494) 2));
  SZ 1502 (z 1495 * u6 + z 1501 * u4 - z 1498 * u7);
  SZ 1503 (z 3 * z 1329 * (z 461 * z 496 - z 463 * z 508))].
(* [_mooreriderlean2012.py:2220-2652] *)
Definition chunk7 : list stmt := [
  SZ 1504 (z 227 * (z 494 * z 1503 - z 509 * z 1334) / (PowN (z 494) 2));
  SZ 1505 (z 489 * z 1332 + z 1 * z 3 * z 480 * z 1331 - z 1 * z 3 * z 481 * z 1329);
  SZ 1506 ((z 1334 * (z 477 * z 534 + z 467 * z 482 * z 496 + z 474 * z 482 * z 528) + z 494 * (z 477 * z 1505 - z 1 * z 3 * z 467 * z 496 * z 1329 - z 1 * z 3 * z 474 * z 528 * z 1329)) / (PowN (z 494) 2));
  SZ 1507 ((z 1334 * (z 460 * z 523 + z 465 * z 482 * z 496 - z 224 * z 509 - z 475 * z 534 - z 472 * z 482 * z 528) - z 494 * (z 475 * z 1505 + z 3 * z 523 * z 1327 + z 1 * z 3 * z 465 * z 496 * z 1329 - z 224 * z 1503 - z 1 * z 3 * z 472 * z 528 * z 1329)) / (PowN (z 494) 2));
  SZ 1508 (z 1506 * u7 - z 1504 * u6 - z 1507 * u4);
  SZ 1509 (z 468 * z 1385 + z 476 * z 1435);
  SZ 1510 (z 456 * z 1390 + z 458 * z 1434);
  SZ 1511 (z 501 * z 1509 + z 507 * z 1386 + z 456 * z 499 * z 1387 + z 458 * z 508 * z 1387 - z 496 * z 1510 - z 505 * z 1389);
  SZ 1512 (z 227 * (z 494 * z 1511 - z 509 * z 1437) / (PowN (z 494) 2));
  SZ 1513 (z 482 * z 1427 + z 492 * z 1436 - z 485 * z 1429);
  SZ 1514 ((z 1437 * (z 477 * z 534 + z 467 * z 482 * z 496 + z 474 * z 482 * z 528) - z 494 * (z 477 * z 1513 + z 534 * z 1440 + z 467 * z 482 * z 1389 + z 474 * z 482 * z 1432 + z 482 * z 496 * z 1448 + z 482 * z 528 * z 1449)) / (PowN (z 494) 2));
  SZ 1515 (z 1 * z 1390 - z 228 * z 1434);
  SZ 1516 (z 522 * z 1386 + z 1 * z 499 * z 1387 - z 496 * z 1515 - z 517 * z 1509 - z 520 * z 1389 - z 228 * z 508 * z 1387);
  SZ 1517 ((z 1437 * (z 460 * z 523 + z 465 * z 482 * z 496 - z 224 * z 509 - z 475 * z 534 - z 472 * z 482 * z 528) - z 494 * (z 460 * z 1516 + z 465 * z 482 * z 1389 + z 482 * z 496 * z 1410 - z 224 * z 1511 - z 475 * z 1513 - z 534 * z 1413 - z 472 * z 482 * z 1432 - z 482 * z 528 * z 1431)) / (PowN (z 494) 2));
  SZ 1518 (z 1512 * u6 + z 1517 * u4 - z 1514 * u7);
  SZ 1519 (z 1453 * (z 25 * z 456 * z 496 + z 29 * z 476 * z 507));
  SZ 1520 (z 227 * (z 494 * z 1519 - z 476 * z 478 * z 509 * z 1461) / (PowN (z 494) 2));
  SZ 1521 (z 485 * z 1461 - z 482 * z 1460);
  SZ 1522 ((z 476 * z 478 * z 1461 * (z 477 * z 534 + z 467 * z 482 * z 496 + z 474 * z 482 * z 528) - z 494 * (z 477 * z 1521 + z 25 * z 482 * z 496 * z 1466 + z 29 * z 482 * z 528 * z 1466)) / (PowN (z 494) 2));
  SZ 1523 (z 1453 * (z 1 * z 25 * z 496 + z 29 * z 476 * z 522));
  SZ 1524 ((z 476 * z 478 * z 1461 * (z 460 * z 523 + z 465 * z 482 * z 496 - z 224 * z 509 - z 475 * z 534 - z 472 * z 482 * z 528) - z 494 * (z 460 * z 1523 - z 224 * z 1519 - z 475 * z 1521 - z 25 * z 482 * z 496 * z 1456 - z 29 * z 482 * z 528 * z 1456)) / (PowN (z 494) 2));
  SZ 1525 (z 1520 * u6 + z 1524 * u4 - z 1522 * u7);
  SZ 1526 (z 1 * z 1036 - z 1 * z 461 - z 2 * z 462 - z 2 * z 1053);
  SZ 1527 (z 476 * z 522 * z 1038 - z 496 * z 1526 - z 1 * z 463 * z 508 - z 2 * z 463 * z 502 - z 476 * z 515 * z 1054);
  SZ 1528 (z 456 * z 1036 + z 2 * z 461 * ((PowN (z 3) 2) + (PowN (z 4) 2)) - z 457 * z 1053 - z 1 * z 462 * ((PowN (z 3) 2) + (PowN (z 4) 2)));
  SZ 1529 (z 508 * z 1041 + z 476 * z 507 * z 1038 - z 496 * z 1528 - z 502 * z 1469 - z 476 * z 498 * z 1054);
  SZ 1530 (z 481 * z 1048 + z 489 * z 1045 + z 490 * z 1055 - z 484 * z 1473 - z 485 * z 1044);
  SZ 1531 ((z 494 * (z 460 * z 1527 + z 465 * z 496 * z 1048 - z 224 * z 1529 - z 475 * z 1530 - z 472 * z 528 * z 1048) - z 1056 * (z 460 * z 525 + z 465 * z 478 * z 496 - z 224 * z 511 - z 475 * z 535 - z 472 * z 478 * z 528)) / (PowN (z 494) 2));
  SZ 1532 (z 227 * (z 494 * z 1529 - z 511 * z 1056) / (PowN (z 494) 2));
  SZ 1533 ((z 494 * (z 477 * z 1530 + z 467 * z 496 * z 1048 + z 474 * z 528 * z 1048) - z 1056 * (z 477 * z 535 + z 467 * z 478 * z 496 + z 474 * z 478 * z 528)) / (PowN (z 494) 2));
  SZ 1534 (z 1531 * u4 - z 1532 * u6 - z 1533 * u7);
  SZ 1535 (z 1 * z 1121 - z 2 * z 1183);
  SZ 1536 (z 522 * z 1124 + (Lit 1 2) * z 2 * z 508 * z 1115 - z 496 * z 1535 - z 515 * z 1481 - z 524 * z 1117 - (Lit 1 2) * z 1 * z 502 * z 1115);
  SZ 1537 (z 456 * z 1121 + z 462 * z 1178 - z 457 * z 1183 - z 461 * z 1145);
  SZ 1538 (z 502 * z 1480 + z 507 * z 1124 - z 496 * z 1537 - z 498 * z 1481 - z 508 * z 1147 - z 510 * z 1117);
  SZ 1539 (z 478 * z 1168 + z 481 * z 1180 + z 489 * z 1174 + z 490 * z 1185 - z 484 * z 1485 - z 485 * z 1169);
  SZ 1540 ((z 1186 * (z 460 * z 525 + z 465 * z 478 * z 496 - z 224 * z 511 - z 475 * z 535 - z 472 * z 478 * z 528) - z 494 * (z 460 * z 1536 + z 525 * z 1065 + z 465 * z 478 * z 1117 + z 465 * z 496 * z 1180 + z 478 * z 496 * z 1140 - z 224 * z 1538 - z 475 * z 1539 - z 535 * z 1151 - rr * z 511 * z 1126 - z 472 * z 478 * z 1177 - z 472 * z 528 * z 1180 - z 478 * z 528 * z 1176)) / (PowN (z 494) 2));
  SZ 1541 (z 227 * (z 494 * z 1538 - z 511 * z 1186) / (PowN (z 494) 2));
  SZ 1542 ((z 1186 * (z 477 * z 535 + z 467 * z 478 * z 496 + z 474 * z 478 * z 528) - z 494 * (z 477 * z 1539 + z 535 * z 1189 + z 467 * z 478 * z 1117 + z 467 * z 496 * z 1180 + z 474 * z 478 * z 1177 + z 474 * z 528 * z 1180 + z 478 * z 528 * z 1195 + z 25 * z 478 * z 496 * (z 1191 + z 1194))) / (PowN (z 494) 2));
  SZ 1543 (z 1542 * u7 - z 1540 * u4 - z 1541 * u6);
  SZ 1544 (z 1 * z 1258 - z 2 * z 1309);
  SZ 1545 (z 522 * z 1261 + z 1 * z 502 * z 1252 - z 496 * z 1544 - z 515 * z 1492 - z 524 * z 1254 - z 2 * z 508 * z 1252);
  SZ 1546 (z 456 * z 1258 - z 457 * z 1309);
  SZ 1547 (z 507 * z 1261 + z 456 * z 502 * z 1252 - z 496 * z 1546 - z 498 * z 1492 - z 510 * z 1254 - z 457 * z 508 * z 1252);
  SZ 1548 (z 478 * z 1298 + z 489 * z 1303 + z 490 * z 1311 - z 484 * z 1496 - z 485 * z 1299);
  SZ 1549 ((z 1312 * (z 460 * z 525 + z 465 * z 478 * z 496 - z 224 * z 511 - z 475 * z 535 - z 472 * z 478 * z 528) - z 494 * (z 460 * z 1545 + z 3 * z 525 * z 1200 + z 465 * z 478 * z 1254 + z 478 * z 496 * z 1277 - z 224 * z 1547 - z 475 * z 1548 - z 535 * z 1284 - rr * z 511 * z 1263 - z 472 * z 478 * z 1306 - z 478 * z 528 * z 1305)) / (PowN (z 494) 2));
  SZ 1550 (z 227 * (z 494 * z 1547 - z 511 * z 1312) / (PowN (z 494) 2));
  SZ 1551 ((z 1312 * (z 477 * z 535 + z 467 * z 478 * z 496 + z 474 * z 478 * z 528) - z 494 * (z 477 * z 1548 + z 535 * z 1315 + z 467 * z 478 * z 1254 + z 474 * z 478 * z 1306 + z 478 * z 496 * z 1322 + z 478 * z 528 * z 1323)) / (PowN (z 494) 2));
  SZ 1552 (z 1551 * u7 - z 1549 * u4 - z 1550 * u6);
  SZ 1553 (z 3 * z 1331 * (z 1 * z 484 - z 2 * z 489));
  SZ 1554 ((z 494 * (z 475 * z 1553 + z 3 * z 525 * z 1327) - z 1334 * (z 460 * z 525 + z 465 * z 478 * z 496 - z 224 * z 511 - z 475 * z 535 - z 472 * z 478 * z 528)) / (PowN (z 494) 2));
  SZ 1555 (z 227 * z 511 * z 1334 / (PowN (z 494) 2));
  SZ 1556 ((z 477 * z 494 * z 1553 + z 1334 * (z 477 * z 535 + z 467 * z 478 * z 496 + z 474 * z 478 * z 528)) / (PowN (z 494) 2));
  SZ 1557 ((- z 1554) * u4 - z 1555 * u6 - z 1556 * u7);
  SZ 1558 (z 1 * z 1392 - z 2 * z 1434);
  SZ 1559 (z 522 * z 1395 + z 1 * z 502 * z 1387 - z 496 * z 1558 - z 515 * z 1509 - z 524 * z 1389 - z 2 * z 508 * z 1387);
  SZ 1560 (z 456 * z 1392 - z 457 * z 1434);
  SZ 1561 (z 507 * z 1395 + z 456 * z 502 * z 1387 - z 496 * z 1560 - z 498 * z 1509 - z 510 * z 1389 - z 457 * z 508 * z 1387);
  SZ 1562 (z 478 * z 1427 + z 490 * z 1436 - z 485 * z 1428);
  SZ 1563 ((z 1437 * (z 460 * z 525 + z 465 * z 478 * z 496 - z 224 * z 511 - z 475 * z 535 - z 472 * z 478 * z 528) - z 494 * (z 460 * z 1559 + z 465 * z 478 * z 1389 + z 478 * z 496 * z 1410 - z 224 * z 1561 - z 475 * z 1562 - z 535 * z 1413 - z 472 * z 478 * z 1432 - z 478 * z 528 * z 1431)) / (PowN (z 494) 2));
  SZ 1564 (z 227 * (z 494 * z 1561 - z 511 * z 1437) / (PowN (z 494) 2));
  SZ 1565 ((z 1437 * (z 477 * z 535 + z 467 * z 478 * z 496 + z 474 * z 478 * z 528) - z 494 * (z 477 * z 1562 + z 535 * z 1440 + z 467 * z 478 * z 1389 + z 474 * z 478 * z 1432 + z 478 * z 496 * z 1448 + z 478 * z 528 * z 1449)) / (PowN (z 494) 2));
  SZ 1566 (z 1565 * u7 - z 1563 * u4 - z 1564 * u6);
  SZ 1567 (z 478 * (z 494 * (z 475 * z 1460 - z 25 * z 496 * z 1456 - z 29 * z 528 * z 1456) - z 476 * z 1461 * (z 460 * z 525 + z 465 * z 478 * z 496 - z 224 * z 511 - z 475 * z 535 - z 472 * z 478 * z 528)) / (PowN (z 494) 2));
  SZ 1568 (z 227 * z 476 * z 478 * z 511 * z 1461 / (PowN (z 494) 2));
  SZ 1569 (z 478 * (z 476 * z 1461 * (z 477 * z 535 + z 467 * z 478 * z 496 + z 474 * z 478 * z 528) + z 494 * (z 477 * z 1460 - z 25 * z 496 * z 1466 - z 29 * z 528 * z 1466)) / (PowN (z 494) 2));
  SZ 1570 (z 1567 * u4 + z 1568 * u6 + z 1569 * u7);
  SZ 1571 (z 480 * z 1048 + z 487 * z 1055 + z 489 * z 1040 - z 482 * z 1044 - z 484 * z 1047);
  SZ 1572 (z 475 * (z 494 * z 1571 - z 536 * z 1056) / (PowN (z 494) 2));
  SZ 1573 (z 477 * (z 494 * z 1571 - z 536 * z 1056) / (PowN (z 494) 2));
  SZ 1574 (z 1572 * u4 + z 1573 * u7);
  SZ 1575 (z 478 * z 1173 + z 480 * z 1180 + z 487 * z 1185 + z 489 * z 1146 - z 482 * z 1169 - z 484 * z 1179);
  SZ 1576 ((z 475 * z 536 * z 1186 - z 475 * z 494 * z 1575 - z 494 * z 536 * z 1151) / (PowN (z 494) 2));
  SZ 1577 ((z 477 * z 536 * z 1186 - z 477 * z 494 * z 1575 - z 494 * z 536 * z 1189) / (PowN (z 494) 2));
  SZ 1578 ((- z 1576) * u4 - z 1577 * u7);
  SZ 1579 (z 478 * z 1302 + z 487 * z 1311 + z 1 * z 3 * z 484 * z 1280 - z 482 * z 1299 - z 2 * z 3 * z 489 * z 1280);
  SZ 1580 ((z 475 * z 536 * z 1312 - z 475 * z 494 * z 1579 - z 494 * z 536 * z 1284) / (PowN (z 494) 2));
  SZ 1581 ((z 477 * z 536 * z 1312 - z 477 * z 494 * z 1579 - z 494 * z 536 * z 1315) / (PowN (z 494) 2));
  SZ 1582 ((- z 1580) * u4 - z 1581 * u7);
  SZ 1583 (z 3 * z 1329 * (z 1 * z 484 - z 2 * z 489));
  SZ 1584 (z 475 * (z 494 * z 1583 + z 536 * z 1334) / (PowN (z 494) 2));
  SZ 1585 (z 477 * (z 494 * z 1583 + z 536 * z 1334) / (PowN (z 494) 2));
  SZ 1586 (z 1584 * u4 + z 1585 * u7);
  SZ 1587 (z 478 * z 1429 + z 487 * z 1436 - z 482 * z 1428);
  SZ 1588 ((z 475 * z 536 * z 1437 - z 475 * z 494 * z 1587 - z 494 * z 536 * z 1413) / (PowN (z 494) 2));
  SZ 1589 ((z 477 * z 536 * z 1437 - z 477 * z 494 * z 1587 - z 494 * z 536 * z 1440) / (PowN (z 494) 2));
  SZ 1590 ((- z 1588) * u4 - z 1589 * u7);
  SZ 1591 (z 475 * z 478 * z 1461 * (z 494 + z 476 * z 536) / (PowN (z 494) 2));
  SZ 1592 (z 477 * z 478 * z 1461 * (z 494 + z 476 * z 536) / (PowN (z 494) 2));
  SZ 1593 ((- z 1591) * u4 - z 1592 * u7);
  SZ 1594 (z 499 * z 1526 + z 508 * z 1037 + z 476 * z 513 * z 1054 - z 502 * z 1476 - z 476 * z 520 * z 1038);
  SZ 1595 (z 529 * z 1048 + z 531 * z 1040 + z 476 * z 487 * z 1053 - z 530 * z 1047 - z 476 * z 482 * z 1036);
  SZ 1596 (z 499 * z 1528 + z 508 * z 1042 + z 476 * z 495 * z 1054 - z 502 * z 1470 - z 476 * z 505 * z 1038);
  SZ 1597 (z 499 * z 1048 + z 508 * z 1040 + z 476 * z 487 * z 1054 - z 502 * z 1047 - z 476 * z 482 * z 1038);
  SZ 1598 (z 473 * z 1036 - z 466 * z 1038);
  SZ 1599 (z 471 * z 1053 - z 464 * z 1054);
  SZ 1600 (z 461 * z 1038 + z 469 * z 1053 - z 462 * z 1054 - z 468 * z 1036);
  SZ 1601 (z 471 * z 1036 - z 464 * z 1038);
  SZ 1602 (z 473 * z 1053 - z 466 * z 1054);
  SZ 1603 (z 479 * z 1048 + z 485 * z 1598 + z 486 * z 1473 + z 487 * z 1599 + z 488 * z 1040 + z 492 * z 1600 - z 482 * z 1601 - z 483 * z 1047 - z 490 * z 1602 - z 491 * z 1045);
  SZ 1604 ((z 494 * (z 460 * z 1594 + z 472 * z 1595 - z 224 * z 1596 - z 465 * z 1597 - z 475 * z 1603) - z 1056 * (z 460 * z 526 + z 472 * z 532 - z 224 * z 512 - z 465 * z 527 - z 475 * z 537)) / (PowN (z 494) 2));
  SZ 1605 ((z 494 * (z 467 * z 1597 + z 474 * z 1595 - z 477 * z 1603) - z 1056 * (z 467 * z 527 + z 474 * z 532 - z 477 * z 537)) / (PowN (z 494) 2));
  SZ 1606 (z 227 * (z 494 * z 1596 - z 512 * z 1056) / (PowN (z 494) 2));
  SZ 1607 (z 1604 * u4 + z 1605 * u7 - z 1606 * u6);
  SZ 1608 (z 499 * z 1535 + z 508 * z 1122 + z 513 * z 1481 + z 524 * z 1114 - z 502 * z 1488 - z 520 * z 1124);
  SZ 1609 (z 466 * z 1113 + z 476 * z 1118);
  SZ 1610 (z 461 * z 1113 + z 476 * z 1183);
  SZ 1611 (z 462 * z 1113 + z 476 * z 1121);
  SZ 1612 (z 478 * z 1609 + z 487 * z 1610 + z 529 * z 1180 + z 531 * z 1146 - z 482 * z 1611 - z 530 * z 1179);
  SZ 1613 (z 495 * z 1481 + z 499 * z 1537 + z 508 * z 1149 + z 510 * z 1114 - z 502 * z 1482 - z 505 * z 1124);
  SZ 1614 (z 478 * z 1114 + z 487 * z 1481 + z 499 * z 1180 + z 508 * z 1146 - z 482 * z 1124 - z 502 * z 1179);
  SZ 1615 (z 466 * z 1167 + z 471 * z 1118 - z 464 * z 1084 - z 473 * z 1166);
  SZ 1616 (z 462 * z 1084 + z 473 * z 1121 - z 466 * z 1123 - z 469 * z 1118);
  SZ 1617 (z 461 * z 1167 + z 471 * z 1183 - z 464 * z 1184 - z 468 * z 1166);
  SZ 1618 (z 461 * z 1123 + z 469 * z 1183 - z 462 * z 1184 - z 468 * z 1121);
  SZ 1619 (z 462 * z 1167 + z 471 * z 1121 - z 464 * z 1123 - z 469 * z 1166);
  SZ 1620 (z 461 * z 1084 + z 473 * z 1183 - z 466 * z 1184 - z 468 * z 1118);
  SZ 1621 (z 478 * z 1615 + z 479 * z 1180 + z 485 * z 1616 + z 486 * z 1485 + z 487 * z 1617 + z 488 * z 1146 + z 492 * z 1618 + z 493 * z 1172 - z 482 * z 1619 - z 483 * z 1179 - z 490 * z 1620 - z 491 * z 1174);
  SZ 1622 ((z 1186 * (z 460 * z 526 + z 472 * z 532 - z 224 * z 512 - z 465 * z 527 - z 475 * z 537) - z 494 * (z 460 * z 1608 + z 472 * z 1612 + z 526 * z 1065 + z 532 * z 1176 - z 224 * z 1613 - z 465 * z 1614 - z 475 * z 1621 - z 527 * z 1140 - z 537 * z 1151 - rr * z 512 * z 1126)) / (PowN (z 494) 2));
  SZ 1623 ((z 1186 * (z 467 * z 527 + z 474 * z 532 - z 477 * z 537) + z 494 * (z 477 * z 1621 + z 537 * z 1189 - z 467 * z 1614 - z 474 * z 1612 - z 532 * z 1195 - z 25 * z 527 * (z 1191 + z 1194))) / (PowN (z 494) 2));
  SZ 1624 (z 227 * (z 494 * z 1613 - z 512 * z 1186) / (PowN (z 494) 2));
  SZ 1625 ((- z 1622) * u4 - z 1623 * u7 - z 1624 * u6);
  SZ 1626 (z 499 * z 1544 + z 508 * z 1259 + z 513 * z 1492 + z 524 * z 1251 - z 502 * z 1499 - z 520 * z 1261);
  SZ 1627 (z 466 * z 1250 + z 476 * z 1255);
  SZ 1628 (z 461 * z 1250 + z 476 * z 1309);
  SZ 1629 (z 462 * z 1250 + z 476 * z 1258);
  SZ 1630 (z 478 * z 1627 + z 487 * z 1628 + z 1 * z 3 * z 530 * z 1280 - z 482 * z 1629 - z 2 * z 3 * z 531 * z 1280);
  SZ 1631 (z 495 * z 1492 + z 499 * z 1546 + z 508 * z 1282 + z 510 * z 1251 - z 502 * z 1493 - z 505 * z 1261);
  SZ 1632 (z 478 * z 1251 + z 487 * z 1492 + z 1 * z 3 * z 502 * z 1280 - z 482 * z 1261 - z 2 * z 3 * z 508 * z 1280);
  SZ 1633 (z 466 * z 1297 + z 471 * z 1255 - z 464 * z 1218 - z 473 * z 1296);
  SZ 1634 (z 462 * z 1218 + z 473 * z 1258 - z 466 * z 1260 - z 469 * z 1255);
  SZ 1635 (z 461 * z 1297 + z 471 * z 1309 - z 464 * z 1310 - z 468 * z 1296);
  SZ 1636 (z 461 * z 1260 + z 469 * z 1309 - z 462 * z 1310 - z 468 * z 1258);
  SZ 1637 (z 462 * z 1297 + z 471 * z 1258 - z 464 * z 1260 - z 469 * z 1296);
  SZ 1638 (z 461 * z 1218 + z 473 * z 1309 - z 466 * z 1310 - z 468 * z 1255);
  SZ 1639 (z 478 * z 1633 + z 485 * z 1634 + z 486 * z 1496 + z 487 * z 1635 + z 492 * z 1636 + z 493 * z 1301 + z 1 * z 3 * z 483 * z 1280 - z 482 * z 1637 - z 490 * z 1638 - z 491 * z 1303 - z 2 * z 3 * z 488 * z 1280);
  SZ 1640 ((z 1312 * (z 460 * z 526 + z 472 * z 532 - z 224 * z 512 - z 465 * z 527 - z 475 * z 537) + z 494 * (z 224 * z 1631 + z 465 * z 1632 + z 475 * z 1639 + z 527 * z 1277 + z 537 * z 1284 + rr * z 512 * z 1263 - z 460 * z 1626 - z 472 * z 1630 - z 532 * z 1305 - z 3 * z 526 * z 1200)) / (PowN (z 494) 2));
  SZ 1641 ((z 1312 * (z 467 * z 527 + z 474 * z 532 - z 477 * z 537) - z 494 * (z 467 * z 1632 + z 474 * z 1630 + z 527 * z 1322 + z 532 * z 1323 - z 477 * z 1639 - z 537 * z 1315)) / (PowN (z 494) 2));
  SZ 1642 (z 227 * (z 494 * z 1631 - z 512 * z 1312) / (PowN (z 494) 2));
  SZ 1643 ((- z 1640) * u4 - z 1641 * u7 - z 1642 * u6);
  SZ 1644 (z 3 * z 1329 * (z 1 * z 530 - z 2 * z 531));
  SZ 1645 (z 3 * z 1329 * (z 461 * z 502 - z 462 * z 508));
  SZ 1646 (z 3 * z 1329 * (z 1 * z 502 - z 2 * z 508));
  SZ 1647 (z 493 * z 1332 + z 1 * z 3 * z 483 * z 1329 + z 2 * z 3 * z 491 * z 1331 - z 1 * z 3 * z 486 * z 1331 - z 2 * z 3 * z 488 * z 1329);
  SZ 1648 ((z 1334 * (z 460 * z 526 + z 472 * z 532 - z 224 * z 512 - z 465 * z 527 - z 475 * z 537) + z 494 * (z 224 * z 1645 + z 472 * z 1644 - z 465 * z 1646 - z 475 * z 1647 - z 3 * z 526 * z 1327)) / (PowN (z 494) 2));
  SZ 1649 ((z 494 * (z 467 * z 1646 + z 474 * z 1644 - z 477 * z 1647) + z 1334 * (z 467 * z 527 + z 474 * z 532 - z 477 * z 537)) / (PowN (z 494) 2));
  SZ 1650 (z 227 * (z 494 * z 1645 - z 512 * z 1334) / (PowN (z 494) 2));
  SZ 1651 (z 1648 * u4 + z 1649 * u7 + z 1650 * u6);
  SZ 1652 (z 499 * z 1558 + z 508 * z 1393 + z 513 * z 1509 + z 524 * z 1386 - z 502 * z 1515 - z 520 * z 1395);
  SZ 1653 (z 466 * z 1385 + z 476 * z 1390);
  SZ 1654 (z 461 * z 1385 + z 476 * z 1434);
  SZ 1655 (z 462 * z 1385 + z 476 * z 1392);
  SZ 1656 (z 478 * z 1653 + z 487 * z 1654 - z 482 * z 1655);
  SZ 1657 (z 495 * z 1509 + z 499 * z 1560 + z 508 * z 1411 + z 510 * z 1386 - z 502 * z 1510 - z 505 * z 1395);
  SZ 1658 (z 478 * z 1386 + z 487 * z 1509 - z 482 * z 1395);
  SZ 1659 (z 466 * z 1426 + z 471 * z 1390 - z 464 * z 1354 - z 473 * z 1425);
  SZ 1660 (z 462 * z 1354 + z 473 * z 1392 - z 466 * z 1394 - z 469 * z 1390);
  SZ 1661 (z 461 * z 1426 + z 471 * z 1434 - z 464 * z 1435 - z 468 * z 1425);
  SZ 1662 (z 461 * z 1394 + z 469 * z 1434 - z 462 * z 1435 - z 468 * z 1392);
  SZ 1663 (z 462 * z 1426 + z 471 * z 1392 - z 464 * z 1394 - z 469 * z 1425);
  SZ 1664 (z 461 * z 1354 + z 473 * z 1434 - z 466 * z 1435 - z 468 * z 1390);
  SZ 1665 (z 478 * z 1659 + z 485 * z 1660 + z 487 * z 1661 + z 492 * z 1662 - z 482 * z 1663 - z 490 * z 1664);
  SZ 1666 ((z 1437 * (z 460 * z 526 + z 472 * z 532 - z 224 * z 512 - z 465 * z 527 - z 475 * z 537) - z 494 * (z 460 * z 1652 + z 472 * z 1656 + z 532 * z 1431 - z 224 * z 1657 - z 465 * z 1658 - z 475 * z 1665 - z 527 * z 1410 - z 537 * z 1413)) / (PowN (z 494) 2));
  SZ 1667 ((z 1437 * (z 467 * z 527 + z 474 * z 532 - z 477 * z 537) - z 494 * (z 467 * z 1658 + z 474 * z 1656 + z 527 * z 1448 + z 532 * z 1449 - z 477 * z 1665 - z 537 * z 1440)) / (PowN (z 494) 2));
  SZ 1668 (z 227 * (z 494 * z 1657 - z 512 * z 1437) / (PowN (z 494) 2));
  SZ 1669 ((- z 1666) * u4 - z 1667 * u7 - z 1668 * u6);
  SZ 1670 (z 1453 * (z 2 * z 25 * z 508 - z 1 * z 25 * z 502 - z 29 * z 476 * z 524));
  SZ 1671 (z 25 * z 476 * z 478 * z 1453);
  SZ 1672 (z 1453 * (z 25 * z 457 * z 508 - z 25 * z 456 * z 502 - z 29 * z 476 * z 510));
  SZ 1673 (z 29 * z 476 * z 478 * z 1453);
  SZ 1674 (z 25 * z 473 * z 1459 + z 29 * z 466 * z 1459 - z 25 * z 471 * z 1453 - z 29 * z 464 * z 1453);
  SZ 1675 (z 1453 * (z 25 * z 469 + z 29 * z 462));
  SZ 1676 (z 1459 * (z 25 * z 468 + z 29 * z 461));
  SZ 1677 (z 1459 * (z 25 * z 469 + z 29 * z 462));
  SZ 1678 (z 1453 * (z 25 * z 468 + z 29 * z 461));
  SZ 1679 (z 478 * z 1674 + z 485 * z 1675 + z 487 * z 1676 - z 482 * z 1677 - z 490 * z 1678);
  SZ 1680 ((z 476 * z 478 * z 1461 * (z 460 * z 526 + z 472 * z 532 - z 224 * z 512 - z 465 * z 527 - z 475 * z 537) + z 494 * (z 460 * z 1670 + z 465 * z 1673 + z 472 * z 1671 + z 475 * z 1679 - z 224 * z 1672 - z 25 * z 527 * z 1456 - z 29 * z 532 * z 1456)) / (PowN (z 494) 2));
  SZ 1681 ((z 476 * z 478 * z 1461 * (z 467 * z 527 + z 474 * z 532 - z 477 * z 537) + z 494 * (z 474 * z 1671 + z 477 * z 1679 - z 467 * z 1673 - z 25 * z 527 * z 1466 - z 29 * z 532 * z 1466)) / (PowN (z 494) 2));
  SZ 1682 (z 227 * (z 494 * z 1672 + z 476 * z 478 * z 512 * z 1461) / (PowN (z 494) 2));
  SZ 1683 (z 1682 * u6 - z 1680 * u4 - z 1681 * u7);
  SZ 1684 (z 19 * z 122 - z 16 * z 120 - z 2 * z 3 * z 17);
  SZ 1685 (z 20 * z 122 + z 2 * z 3 * z 15 - z 18 * z 120);
  SZ 1686 (mg * (z 182 * z 205 - z 200 * z 1684 - z 201 * z 1685));
  SZ 1687 (z 13 * z 1050 + z 14 * z 1049);
  SZ 1688 (z 19 * z 1049 - z 16 * z 1050 - z 1 * z 3 * z 17);
  SZ 1689 (z 20 * z 1049 + z 1 * z 3 * z 15 - z 18 * z 1050);
  SZ 1690 (mg * (z 200 * z 1688 + z 201 * z 1689 - z 205 * z 1687));
  SZ 1691 (z 540 * z 1690 + z 543 * z 1686 + z 903 * z 1573 + z 907 * z 1475 - z 902 * z 1533 - z 906 * z 1059);
  SZ 1692 ((Lit 2 1) * mg * (z 182 * z 183 + z 188 * z 1684 + z 193 * z 1685) + (Lit 2 1) * mc * (z 120 * z 123 + z 122 * z 125 - z 2 * z 3 * z 124) + (Lit 2 1) * me * (z 120 * z 123 + z 122 * z 125 - z 2 * z 3 * z 124) + (Lit 2 1) * mf * (z 120 * z 123 + z 122 * z 125 - z 2 * z 3 * z 124));
  SZ 1693 (mg * ((PowN (z 182) 2) + z 183 * z 1687 + z 187 * z 1684 + z 188 * z 1688 + z 192 * z 1685 + z 193 * z 1689) - mc * (z 1 * z 3 * z 124 - (PowN (z 120) 2) - (PowN (z 122) 2) - z 123 * z 1050 - z 125 * z 1049 - z 2 * z 3 * z 121) - me * (z 1 * z 3 * z 124 - (PowN (z 120) 2) - (PowN (z 122) 2) - z 123 * z 1050 - z 125 * z 1049 - z 2 * z 3 * z 121) - mf * (z 1 * z 3 * z 124 - (PowN (z 120) 2) - (PowN (z 122) 2) - z 123 * z 1050 - z 125 * z 1049 - z 2 * z 3 * z 121));
  SZ 1694 (mg * (z 182 * z 211 + z 214 * z 1684 + z 217 * z 1685) + mc * (z 120 * z 137 + z 122 * z 138 - z 2 * z 3 * z 130) + me * (z 122 * z 146 + z 9 * z 120 * z 166 - z 120 * z 126 - z 122 * z 169 - z 2 * z 3 * z 145 - z 10 * z 120 * z 159 - z 2 * z 3 * z 9 * z 159 - z 2 * z 3 * z 10 * z 166) + mf * (z 122 * z 146 + z 9 * z 120 * z 154 - z 120 * z 126 - z 122 * z 157 - z 2 * z 3 * z 145 - z 10 * z 120 * z 148 - z 2 * z 3 * z 9 * z 148 - z 2 * z 3 * z 10 * z 154) - md * z 1 * z 118);
  SZ 1695 (z 542 * z 1692 + z 914 * z 1472 - z 539 * z 1693 - z 545 * z 1694 - z 910 * z 1058 - z 916 * z 1532);
  SZ 1696 ((Lit 2 1) * mg * (z 182 * z 1687 + z 187 * z 1688 + z 192 * z 1689) + (Lit 2 1) * mc * (z 120 * z 1050 + z 122 * z 1049 + z 1 * z 3 * z 121) + (Lit 2 1) * me * (z 120 * z 1050 + z 122 * z 1049 + z 1 * z 3 * z 121) + (Lit 2 1) * mf * (z 120 * z 1050 + z 122 * z 1049 + z 1 * z 3 * z 121));
  SZ 1697 (md * z 2 * z 118 + mg * (z 211 * z 1687 + z 214 * z 1688 + z 217 * z 1689) + mc * (z 137 * z 1050 + z 138 * z 1049 - z 1 * z 3 * z 130) + me * (z 146 * z 1049 + z 9 * z 166 * z 1050 - z 126 * z 1050 - z 169 * z 1049 - z 1 * z 3 * z 145 - z 10 * z 159 * z 1050 - z 1 * z 3 * z 9 * z 159 - z 1 * z 3 * z 10 * z 166) + mf * (z 146 * z 1049 + z 9 * z 154 * z 1050 - z 126 * z 1050 - z 157 * z 1049 - z 1 * z 3 * z 145 - z 10 * z 148 * z 1050 - z 1 * z 3 * z 9 * z 148 - z 1 * z 3 * z 10 * z 154));
  SZ 1698 (z 542 * z 1693 + z 910 * z 1472 - z 539 * z 1696 - z 545 * z 1697 - z 909 * z 1058 - z 912 * z 1532);
  SZ 1699 (z 542 * z 1694 + z 916 * z 1472 - z 539 * z 1697 - z 912 * z 1058 - z 919 * z 1532 - z 936 * z 1606);
  SZ 1700 ((- z 923) * z 1532 - z 937 * z 1606);
  SZ 1701 (z 542 * z 1695 + z 958 * z 1472 - z 539 * z 1698 - z 545 * z 1699 - z 550 * z 1700 - z 921 * z 1532 - z 955 * z 1532 - z 957 * z 1058 - z 961 * z 1606);
  SZ 1702 (z 540 * z 1690 + z 543 * z 1686 + z 907 * z 1475 + z 932 * z 1573 - z 906 * z 1059 - z 924 * z 1533);
  SZ 1703 (z 539 * z 1690 + z 542 * z 1686 + z 907 * z 1472 - z 906 * z 1058 - z 924 * z 1532);
  SZ 1704 (z 929 * z 1573 - z 921 * z 1533);
  SZ 1705 ((me * z 161 + mf * z 150) * (z 10 * z 120 + z 2 * z 3 * z 9));
  SZ 1706 (mg * (z 182 * z 210 + z 213 * z 1684 + z 216 * z 1685) + mc * (z 120 * z 135 - z 122 * z 132 - z 2 * z 3 * z 128) + me * (z 9 * z 120 * z 164 - z 122 * z 141 - z 122 * z 167 - z 2 * z 3 * z 143 - z 10 * z 120 * z 160 - z 2 * z 3 * z 9 * z 160 - z 2 * z 3 * z 10 * z 164) + mf * (z 9 * z 120 * z 152 - z 122 * z 141 - z 122 * z 155 - z 2 * z 3 * z 143 - z 10 * z 120 * z 149 - z 2 * z 3 * z 9 * z 149 - z 2 * z 3 * z 10 * z 152));
  SZ 1707 (z 543 * z 1692 + z 548 * z 1706 + z 914 * z 1475 + z 915 * z 1573 - z 1705 - z 540 * z 1693 - z 546 * z 1694 - z 910 * z 1059 - z 916 * z 1533);
  SZ 1708 (mg * (z 210 * z 1687 + z 213 * z 1688 + z 216 * z 1689) + mc * (z 135 * z 1050 - z 132 * z 1049 - z 1 * z 3 * z 128) + me * (z 9 * z 164 * z 1050 - z 141 * z 1049 - z 167 * z 1049 - z 1 * z 3 * z 143 - z 10 * z 160 * z 1050 - z 1 * z 3 * z 9 * z 160 - z 1 * z 3 * z 10 * z 164) + mf * (z 9 * z 152 * z 1050 - z 141 * z 1049 - z 155 * z 1049 - z 1 * z 3 * z 143 - z 10 * z 149 * z 1050 - z 1 * z 3 * z 9 * z 149 - z 1 * z 3 * z 10 * z 152));
  SZ 1709 ((me * z 161 + mf * z 150) * (z 10 * z 1050 + z 1 * z 3 * z 9));
  SZ 1710 (z 543 * z 1693 + z 548 * z 1708 + z 910 * z 1475 + z 911 * z 1573 - z 1709 - z 540 * z 1696 - z 546 * z 1697 - z 909 * z 1059 - z 912 * z 1533);
  SZ 1711 (z 543 * z 1694 + z 916 * z 1475 + z 927 * z 1573 + z 936 * z 1605 - z 540 * z 1697 - z 912 * z 1059 - z 919 * z 1533);
  SZ 1712 (z 931 * z 1573 + z 937 * z 1605 - z 923 * z 1533);
  SZ 1713 (z 1704 + z 542 * z 1707 + z 972 * z 1472 - z 539 * z 1710 - z 545 * z 1711 - z 550 * z 1712 - z 970 * z 1532 - z 971 * z 1058 - z 975 * z 1606);
  SZ 1714 (z 964 * z 1702 + z 973 * z 1701 - z 960 * z 1713 - z 978 * z 1703);
  SZ 1715 (z 540 * z 1709 + z 899 * z 1059 + z 900 * z 1475 + z 930 * z 1573 - z 543 * z 1705 - z 922 * z 1533);
  SZ 1716 (z 543 * z 1706 + z 915 * z 1475 + z 928 * z 1573 + z 934 * z 1605 - z 540 * z 1708 - z 911 * z 1059 - z 920 * z 1533);
  SZ 1717 (z 1715 + z 543 * z 1707 + z 548 * z 1716 + z 551 * z 1712 + z 967 * z 1573 + z 972 * z 1475 + z 975 * z 1605 - z 540 * z 1710 - z 546 * z 1711 - z 970 * z 1533 - z 971 * z 1059);
  SZ 1718 (z 539 * z 1709 + z 899 * z 1058 + z 900 * z 1472 - z 542 * z 1705 - z 922 * z 1532);
  SZ 1719 (z 542 * z 1706 + z 915 * z 1472 - z 539 * z 1708 - z 911 * z 1058 - z 920 * z 1532 - z 934 * z 1606);
  SZ 1720 (z 1718 + z 543 * z 1695 + z 548 * z 1719 + z 551 * z 1700 + z 954 * z 1573 + z 958 * z 1475 + z 961 * z 1605 - z 540 * z 1698 - z 546 * z 1699 - z 955 * z 1533 - z 957 * z 1059);
  SZ 1721 (z 964 * z 1717 + z 979 * z 1701 - z 965 * z 1713 - z 978 * z 1720);
  SZ 1722 (z 539 * z 1690 + z 542 * z 1686 + z 907 * z 1472 - z 902 * z 1532 - z 906 * z 1058);
  SZ 1723 (z 965 * z 1702 + z 973 * z 1720 - z 960 * z 1717 - z 979 * z 1703);
  SZ 1724 (z 983 * z 1714 + z 1003 * z 1691 - z 905 * z 1721 - z 982 * z 1723 - z 1004 * z 1722);
  SZ 1725 (z 6 * ((PowN (z 3) 2) + (PowN (z 4) 2)) * z 1574);
  SZ 1726 ((- z 1725) * q4p - z 3 * z 5 * z 43 * z 1574 * q3p - z 43 * z 1534 * z 271);
  SZ 1727 (z 5 * ((PowN (z 3) 2) + (PowN (z 4) 2)) * z 1574);
  SZ 1728 (z 1727 * q4p + z 1574 * z 278 + z 43 * z 1534 * z 268 - z 3 * z 6 * z 43 * z 1574 * q3p);
  SZ 1729 (z 47 * z 1574 + z 51 * z 1534);
  SZ 1730 (z 48 * z 1574 + z 52 * z 1534);
  SZ 1731 (ic33 * z 1730 - ic31 * z 50 * z 1534);
  SZ 1732 (z 1729 * z 758 + z 1731 * z 266 - z 1730 * z 759 - ic22 * z 1729 * z 267);
  SZ 1733 ((z 3 * z 5 * z 31 + z 3 * z 6 * z 41 - z 4 * z 5 * z 32 - z 4 * z 6 * z 42) * z 1574);
  SZ 1734 (z 5 * (z 6 - z 3 * z 42 - z 4 * z 41) * z 1574);
  SZ 1735 (z 1733 * q4p + z 1534 * z 276 + z 1574 * z 275 - (Lit 2 1) * z 1734 * q5p);
  SZ 1736 (ic31 * z 1730 - ic11 * z 50 * z 1534);
  SZ 1737 (z 1730 * z 757 + z 1736 * z 267 + z 50 * z 1534 * z 758 - z 1731 * z 265);
  SZ 1738 (z 64 * z 1534 + z 65 * z 1574);
  SZ 1739 (z 61 * z 1534 - z 62 * z 1574);
  SZ 1740 (z 1738 * z 781 + id11 * z 1739 * z 283 - z 1739 * z 783 - id11 * z 1738 * z 281);
  SZ 1741 (ic22 * z 1729 * z 265 - z 1729 * z 757 - z 1736 * z 266 - z 50 * z 1534 * z 759);
  SZ 1742 ((- z 7) * z 1725 - z 8 * z 1727);
  SZ 1743 (z 3 * (z 5 * z 7 - z 6 * z 8) * z 1574);
  SZ 1744 (z 1742 * q4p + z 43 * z 1534 * z 285 - z 43 * z 1743 * q3p - z 1574 * z 286);
  SZ 1745 (z 1729 * z 783 + id11 * z 1738 * z 282 - z 1738 * z 782 - id22 * z 1729 * z 283);
  SZ 1746 (z 7 * z 1727 - z 8 * z 1725);
  SZ 1747 (z 3 * (z 5 * z 8 + z 6 * z 7) * z 1574);
  SZ 1748 (z 1746 * q4p + z 1574 * z 290 + z 43 * z 1534 * z 289 - z 43 * z 1747 * q3p);
  SZ 1749 (z 1739 * z 782 + id22 * z 1729 * z 281 - z 1729 * z 781 - id11 * z 1739 * z 282);
  SZ 1750 (z 4 * z 5 * z 10 * z 1574);
  SZ 1751 (z 3 * z 5 * z 10 * z 1574);
  SZ 1752 (z 31 * z 1751 + z 4 * z 6 * z 69 * z 1574 - z 32 * z 1750 - z 3 * z 6 * z 29 * z 1574);
  SZ 1753 (z 4 * z 6 * z 10 * z 1574)].
(* [_mooreriderlean2012.py:2653-3204] *)
Definition chunk8 : list stmt := [
  SZ 1754 (z 3 * z 6 * z 10 * z 1574);
  SZ 1755 (z 5 * z 26 * z 1574 + z 5 * z 6 * z 10 * z 1574 - z 31 * z 1753 - z 32 * z 1754 - z 3 * z 6 * z 72 * z 1574 - z 4 * z 6 * z 71 * z 1574);
  SZ 1756 (z 3 * z 5 * z 9 * z 1574);
  SZ 1757 (z 4 * z 5 * z 9 * z 1574);
  SZ 1758 (z 31 * z 1757 + z 32 * z 1756 + z 4 * z 6 * z 70 * z 1574 + z 9 * (PowN (z 6) 2) * z 1574 - z 5 * z 23 * z 1574 - z 3 * z 6 * z 66 * z 1574);
  SZ 1759 (z 1752 * q4p + z 1755 * q5p + z 1758 * q7p + z 1574 * z 299 + z 43 * z 1534 * z 308 - z 43 * z 1756 * q3p);
  SZ 1760 (z 27 * z 1751 + z 29 * z 1756 + z 30 * z 1757 - z 66 * z 1750);
  SZ 1761 (z 4 * z 6 * z 9 * z 1574);
  SZ 1762 (z 3 * z 6 * z 9 * z 1574);
  SZ 1763 (z 30 * z 1762 + z 5 * z 9 * z 25 * z 1574 - z 29 * z 1761 - z 67 * z 1750 - z 68 * z 1751 - z 6 * z 10 * z 24 * z 1574);
  SZ 1764 ((Lit 2 1) * z 30 * z 1751 - (Lit 2 1) * z 29 * z 1750 - (Lit 2 1) * z 6 * z 10 * z 25 * z 1574);
  SZ 1765 (z 1760 * q4p + z 1763 * q5p + z 1764 * q7p + z 1574 * z 317 + z 43 * z 1534 * z 268 - z 3 * z 6 * z 43 * z 1574 * q3p);
  SZ 1766 (z 76 * z 1574 + z 82 * z 1534);
  SZ 1767 (z 73 * z 1574 + z 81 * z 1534);
  SZ 1768 (z 52 * z 1534 + z 78 * z 1574);
  SZ 1769 (ie31 * z 1767 + ie33 * z 1768);
  SZ 1770 (z 1766 * z 801 + z 1769 * z 293 - z 1768 * z 802 - ie22 * z 1766 * z 294);
  SZ 1771 (z 31 * z 1756 + z 3 * z 6 * z 27 * z 1574 + z 4 * z 6 * z 28 * z 1574 - z 32 * z 1757);
  SZ 1772 (z 41 * z 1757 + z 42 * z 1756 + z 4 * z 5 * z 27 * z 1574 - z 6 * z 23 * z 1574 - z 3 * z 5 * z 28 * z 1574 - z 5 * z 6 * z 9 * z 1574);
  SZ 1773 (z 1771 * q4p + z 1772 * q5p + z 43 * z 1751 * q3p + z 1574 * z 311 + z 43 * z 1534 * z 313);
  SZ 1774 (ie11 * z 1767 + ie31 * z 1768);
  SZ 1775 (z 1768 * z 800 + z 1774 * z 294 - z 1767 * z 801 - z 1769 * z 292);
  SZ 1776 (z 94 * z 1534 + z 95 * z 1574);
  SZ 1777 (z 90 * z 1534 + z 91 * z 1574);
  SZ 1778 (z 1776 * z 830 + if11 * z 1777 * z 323 - z 1777 * z 832 - if11 * z 1776 * z 321);
  SZ 1779 (z 1767 * z 802 + ie22 * z 1766 * z 292 - z 1766 * z 800 - z 1774 * z 293);
  SZ 1780 (z 11 * z 1752 - z 12 * z 1760 - z 11 * z 80 * z 1607 - z 12 * z 74 * z 1607);
  SZ 1781 (z 11 * z 1755 - z 12 * z 1763 - z 11 * z 78 * z 1607 - z 12 * z 73 * z 1607);
  SZ 1782 (z 11 * z 1758 - z 12 * z 1764 - z 11 * z 79 * z 1607 - z 12 * z 75 * z 1607);
  SZ 1783 (z 3 * z 6 * z 12 * z 1574 - z 11 * z 1756 - z 11 * z 32 * z 1607 - z 12 * z 28 * z 1607);
  SZ 1784 (z 1780 * q4p + z 1781 * q5p + z 1782 * q7p + z 43 * z 1783 * q3p + z 1574 * z 325 + z 43 * z 1534 * z 324);
  SZ 1785 (z 76 * z 1574 + z 82 * z 1534 + z 83 * z 1607);
  SZ 1786 (z 1785 * z 832 + if11 * z 1776 * z 322 - z 1776 * z 831 - if22 * z 1785 * z 323);
  SZ 1787 (z 11 * z 1760 + z 12 * z 1752 + z 11 * z 74 * z 1607 - z 12 * z 80 * z 1607);
  SZ 1788 (z 11 * z 1763 + z 12 * z 1755 + z 11 * z 73 * z 1607 - z 12 * z 78 * z 1607);
  SZ 1789 (z 11 * z 1764 + z 12 * z 1758 + z 11 * z 75 * z 1607 - z 12 * z 79 * z 1607);
  SZ 1790 (z 11 * z 28 * z 1607 - z 12 * z 1756 - z 12 * z 32 * z 1607 - z 3 * z 6 * z 11 * z 1574);
  SZ 1791 (z 1787 * q4p + z 1788 * q5p + z 1789 * q7p + z 43 * z 1790 * q3p + z 1574 * z 330 + z 43 * z 1534 * z 329);
  SZ 1792 (z 1777 * z 831 + if22 * z 1785 * z 321 - z 1785 * z 830 - if11 * z 1777 * z 322);
  SZ 1793 (z 14 * z 1727 - z 13 * z 1725);
  SZ 1794 (z 3 * (z 13 * z 5 + z 14 * z 6) * z 1574);
  SZ 1795 (z 1793 * q4p + z 14 * z 1574 * z 278 + z 43 * z 1534 * z 341 - z 43 * z 1794 * q3p);
  SZ 1796 (z 18 * z 1725 + z 20 * z 1727 - z 15 * z 1733);
  SZ 1797 (z 3 * (z 5 * z 18 - z 6 * z 20) * z 1574);
  SZ 1798 (z 1796 * q4p + z 43 * z 1797 * q3p + (Lit 2 1) * z 15 * z 1734 * q5p + z 1574 * z 349 + z 43 * z 1534 * z 348);
  SZ 1799 (z 112 * z 1534 + z 114 * z 1574);
  SZ 1800 (z 110 * z 1534 + z 111 * z 1574);
  SZ 1801 (z 115 * z 1534 + z 116 * z 1574);
  SZ 1802 (ig31 * z 1800 + ig33 * z 1801);
  SZ 1803 (z 1799 * z 852 + z 1802 * z 335 - z 1801 * z 853 - ig22 * z 1799 * z 336);
  SZ 1804 (z 16 * z 1725 + z 17 * z 1733 + z 19 * z 1727);
  SZ 1805 (z 3 * (z 5 * z 16 - z 6 * z 19) * z 1574);
  SZ 1806 (z 1804 * q4p + z 43 * z 1805 * q3p + z 1574 * z 346 + z 43 * z 1534 * z 344 - (Lit 2 1) * z 17 * z 1734 * q5p);
  SZ 1807 (ig11 * z 1800 + ig31 * z 1801);
  SZ 1808 (z 1801 * z 851 + z 1807 * z 336 - z 1800 * z 852 - z 1802 * z 334);
  SZ 1809 (z 1800 * z 853 + ig22 * z 1799 * z 334 - z 1799 * z 851 - z 1807 * z 335);
  SZ 1810 (z 1534 * (z 354 + z 3 * z 43 * z 353));
  SZ 1811 (z 1534 * (z 43 * z 352 + z 118 * z 356));
  SZ 1812 ((- z 5) * z 1810 - z 41 * z 1811);
  SZ 1813 (z 1729 * (z 173 * q4p + z 174 * q5p + z 175 * q3p) + z 1812 + z 22 * z 1735 + (z 174 * z 1574 + z 175 * z 1534) * z 266 - z 1730 * (z 170 * q4p + z 171 * q3p - z 172 * q5p) - (z 171 * z 1534 - z 172 * z 1574) * z 267);
  SZ 1814 (z 31 * z 1811 - z 6 * z 1810);
  SZ 1815 (z 1814 + z 21 * z 1735 + (z 171 * z 1534 - z 172 * z 1574) * z 265 - z 1729 * (z 176 * q4p + z 177 * q5p + z 178 * q3p) - z 50 * z 1534 * (z 170 * q4p + z 171 * q3p - z 172 * q5p) - (z 177 * z 1574 + z 178 * z 1534) * z 266);
  SZ 1816 (z 13 * z 1813 + z 14 * z 1815);
  SZ 1817 (z 1816 + l6 * z 1806 - z 1799 * (z 201 * q9p + z 202 * q3p + z 203 * q4p + z 204 * q5p) - z 1801 * (z 197 * q3p + z 198 * q5p + z 199 * q4p - z 200 * q9p) - (z 197 * z 1534 + z 198 * z 1574) * z 336 - (z 202 * z 1534 + z 204 * z 1574) * z 335);
  SZ 1818 ((- z 21) * z 1728 - z 22 * z 1726);
  SZ 1819 (z 1730 * (z 176 * q4p + z 177 * q5p + z 178 * q3p) + z 50 * z 1534 * (z 173 * q4p + z 174 * q5p + z 175 * q3p) + z 1818 + (z 177 * z 1574 + z 178 * z 1534) * z 267 - z 3 * z 1811 - (z 174 * z 1574 + z 175 * z 1534) * z 265);
  SZ 1820 (z 17 * z 1819 + z 19 * z 1815 - z 16 * z 1813);
  SZ 1821 (l5 * z 1798 - l6 * z 1795);
  SZ 1822 (z 1800 * (z 201 * q9p + z 202 * q3p + z 203 * q4p + z 204 * q5p) + z 1801 * (z 205 * q9p + z 206 * q3p + z 207 * q4p + z 208 * q5p) + z 1820 + z 1821 + (z 202 * z 1534 + z 204 * z 1574) * z 334 + (z 206 * z 1534 + z 208 * z 1574) * z 336);
  SZ 1823 (z 20 * z 1815 - z 15 * z 1819 - z 18 * z 1813);
  SZ 1824 (z 1800 * (z 197 * q3p + z 198 * q5p + z 199 * q4p - z 200 * q9p) + z 1823 + (z 197 * z 1534 + z 198 * z 1574) * z 334 - z 1799 * (z 205 * q9p + z 206 * q3p + z 207 * q4p + z 208 * q5p) - l5 * z 1806 - (z 206 * z 1534 + z 208 * z 1574) * z 335);
  SZ 1825 (z 1814 + (z 128 * z 1574 + z 130 * z 1534) * z 265 - z 1729 * (z 134 * q4p + z 135 * q5p + z 136 * q3p) - z 50 * z 1534 * (z 128 * q5p + z 129 * q4p + z 130 * q3p) - l1 * z 1735 - (z 135 * z 1574 + z 136 * z 1534) * z 266);
  SZ 1826 (z 1812 + l2 * z 1735 - z 1729 * (z 131 * q4p + z 132 * q5p + z 133 * q3p) - z 1730 * (z 128 * q5p + z 129 * q4p + z 130 * q3p) - (z 128 * z 1574 + z 130 * z 1534) * z 267 - (z 132 * z 1574 + z 133 * z 1534) * z 266);
  SZ 1827 (l1 * z 1728 - l2 * z 1726);
  SZ 1828 (z 1730 * (z 134 * q4p + z 135 * q5p + z 136 * q3p) + z 1827 + (z 132 * z 1574 + z 133 * z 1534) * z 265 + (z 135 * z 1574 + z 136 * z 1534) * z 267 - z 50 * z 1534 * (z 131 * q4p + z 132 * q5p + z 133 * q3p) - z 3 * z 1811);
  SZ 1829 (z 1814 + (z 143 * z 1574 + z 145 * z 1534) * z 265 - z 50 * z 1534 * (z 143 * q5p + z 144 * q4p + z 145 * q3p) - d1 * z 1735);
  SZ 1830 (z 1767 * (z 159 * q3p + z 160 * q5p + z 161 * q7p + z 162 * q4p) + (z 159 * z 1534 + z 160 * z 1574) * z 292 - z 1766 * (z 164 * q5p + z 165 * q4p + z 166 * q3p) - z 158 * z 1773 - (z 164 * z 1574 + z 166 * z 1534) * z 293);
  SZ 1831 (z 1812 - z 1729 * (z 140 * q4p + z 141 * q5p + z 142 * q3p) - z 1730 * (z 143 * q5p + z 144 * q4p + z 145 * q3p) - (z 141 * z 1574 + z 142 * z 1534) * z 266 - (z 143 * z 1574 + z 145 * z 1534) * z 267);
  SZ 1832 (d1 * z 1728 + (z 141 * z 1574 + z 142 * z 1534) * z 265 - z 50 * z 1534 * (z 140 * q4p + z 141 * q5p + z 142 * q3p) - z 3 * z 1811);
  SZ 1833 (z 158 * z 1765 - d2 * z 1759 - l4 * z 1759);
  SZ 1834 (z 1767 * (z 167 * q5p + z 168 * q4p + z 169 * q3p) + z 1768 * (z 164 * q5p + z 165 * q4p + z 166 * q3p) + z 1833 + (z 164 * z 1574 + z 166 * z 1534) * z 294 + (z 167 * z 1574 + z 169 * z 1534) * z 292);
  SZ 1835 (z 163 * z 1773 - z 1766 * (z 167 * q5p + z 168 * q4p + z 169 * q3p) - z 1768 * (z 159 * q3p + z 160 * q5p + z 161 * q7p + z 162 * q4p) - (z 159 * z 1534 + z 160 * z 1574) * z 294 - (z 167 * z 1574 + z 169 * z 1534) * z 293);
  SZ 1836 (z 1767 * (z 148 * q3p + z 149 * q5p + z 150 * q7p + z 151 * q4p) + (z 148 * z 1534 + z 149 * z 1574) * z 292 - z 1766 * (z 152 * q5p + z 153 * q4p + z 154 * q3p) - d3 * z 1773 - (z 152 * z 1574 + z 154 * z 1534) * z 293);
  SZ 1837 (d3 * z 1765 - d2 * z 1759);
  SZ 1838 (z 1767 * (z 155 * q5p + z 156 * q4p + z 157 * q3p) + z 1768 * (z 152 * q5p + z 153 * q4p + z 154 * q3p) + z 1837 + (z 152 * z 1574 + z 154 * z 1534) * z 294 + (z 155 * z 1574 + z 157 * z 1534) * z 292);
  SZ 1839 (d2 * z 1773 - z 1766 * (z 155 * q5p + z 156 * q4p + z 157 * q3p) - z 1768 * (z 148 * q3p + z 149 * q5p + z 150 * q7p + z 151 * q4p) - (z 148 * z 1534 + z 149 * z 1574) * z 294 - (z 155 * z 1574 + z 157 * z 1534) * z 293);
  SZ 1840 (z 45 * z 1732 + z 46 * z 1737 + z 46 * z 1740 + z 49 * z 1741 + z 60 * z 1745 + z 63 * z 1749 + z 74 * z 1770 + z 77 * z 1775 + z 77 * z 1778 + z 80 * z 1779 + z 92 * z 1786 + z 97 * z 1792 + z 109 * z 1803 + z 113 * z 1808 + z 117 * z 1809 + ic11 * z 45 * z 1726 + ic22 * z 46 * z 1735 + ic31 * z 45 * z 1728 + ic31 * z 49 * z 1726 + ic33 * z 49 * z 1728 + id11 * z 60 * z 1744 + id11 * z 63 * z 1748 + id22 * z 46 * z 1735 + ie11 * z 74 * z 1759 + ie22 * z 77 * z 1773 + ie31 * z 74 * z 1765 + ie31 * z 80 * z 1759 + ie33 * z 80 * z 1765 + if11 * z 92 * z 1784 + if11 * z 97 * z 1791 + if22 * z 77 * z 1773 + ig11 * z 109 * z 1795 + ig22 * z 113 * z 1806 + ig31 * z 109 * z 1798 + ig31 * z 117 * z 1795 + ig33 * z 117 * z 1798 + mg * (z 209 * z 1817 + z 212 * z 1822 + z 215 * z 1824) - md * z 3 * z 119 * z 1811 - mc * (z 131 * z 1825 - z 134 * z 1826 - z 139 * z 1828) - me * (z 140 * z 1829 + z 140 * z 1830 + z 168 * z 1829 + z 168 * z 1830 + z 10 * z 162 * z 1831 - z 147 * z 1832 - z 162 * z 1834 - z 165 * z 1835 - z 9 * z 147 * z 1834 - z 9 * z 162 * z 1832 - z 9 * z 165 * z 1831 - z 10 * z 147 * z 1835 - z 10 * z 165 * z 1832) - mf * (z 140 * z 1829 + z 140 * z 1836 + z 156 * z 1829 + z 156 * z 1836 + z 10 * z 151 * z 1831 - z 147 * z 1832 - z 151 * z 1838 - z 153 * z 1839 - z 9 * z 147 * z 1838 - z 9 * z 151 * z 1832 - z 9 * z 153 * z 1831 - z 10 * z 147 * z 1839 - z 10 * z 153 * z 1832));
  SZ 1841 (mg * (z 182 * z 1817 + z 187 * z 1822 + z 192 * z 1824 + z 1687 * z 399 + z 1688 * z 400 + z 1689 * z 401) + mc * (z 120 * z 1826 + z 122 * z 1825 + z 1049 * z 369 + z 1050 * z 367 - z 121 * z 1828 - z 1 * z 3 * z 368) + me * (z 120 * z 1831 + z 122 * z 1829 + z 122 * z 1830 + z 1049 * z 374 + z 1049 * z 386 + z 1050 * z 372 + z 9 * z 120 * z 1835 + z 9 * z 1050 * z 385 - z 121 * z 1832 - z 1 * z 3 * z 373 - z 9 * z 121 * z 1834 - z 10 * z 120 * z 1834 - z 10 * z 121 * z 1835 - z 10 * z 1050 * z 384 - z 1 * z 3 * z 9 * z 384 - z 1 * z 3 * z 10 * z 385) + mf * (z 120 * z 1831 + z 122 * z 1829 + z 122 * z 1836 + z 1049 * z 374 + z 1049 * z 380 + z 1050 * z 372 + z 9 * z 120 * z 1839 + z 9 * z 1050 * z 379 - z 121 * z 1832 - z 1 * z 3 * z 373 - z 9 * z 121 * z 1838 - z 10 * z 120 * z 1838 - z 10 * z 121 * z 1839 - z 10 * z 1050 * z 378 - z 1 * z 3 * z 9 * z 378 - z 1 * z 3 * z 10 * z 379) - md * (z 1 * z 1810 + z 2 * z 359 - z 1 * z 358 - z 2 * z 1811 - z 1 * z 4 * z 360));
  SZ 1842 (z 51 * z 1737 + z 51 * z 1740 + z 52 * z 1741 + z 52 * z 1779 + z 61 * z 1745 + z 64 * z 1749 + z 81 * z 1770 + z 82 * z 1775 + z 82 * z 1778 + z 90 * z 1786 + z 94 * z 1792 + z 110 * z 1803 + z 112 * z 1808 + z 115 * z 1809 + ic22 * z 51 * z 1735 + ic31 * z 52 * z 1726 + ic33 * z 52 * z 1728 + id11 * z 61 * z 1744 + id11 * z 64 * z 1748 + id22 * z 51 * z 1735 + ie11 * z 81 * z 1759 + ie22 * z 82 * z 1773 + ie31 * z 52 * z 1759 + ie31 * z 81 * z 1765 + ie33 * z 52 * z 1765 + if11 * z 90 * z 1784 + if11 * z 94 * z 1791 + if22 * z 82 * z 1773 + ig11 * z 110 * z 1795 + ig22 * z 112 * z 1806 + ig31 * z 110 * z 1798 + ig31 * z 115 * z 1795 + ig33 * z 115 * z 1798 + md * z 118 * z 1810 + mc * (z 130 * z 1828 + z 137 * z 1826 + z 138 * z 1825) + mg * (z 211 * z 1817 + z 214 * z 1822 + z 217 * z 1824) - z 50 * z 1732 - ic11 * z 50 * z 1726 - ic31 * z 50 * z 1728 - me * (z 126 * z 1831 + z 169 * z 1829 + z 169 * z 1830 + z 9 * z 126 * z 1835 + z 10 * z 159 * z 1831 - z 145 * z 1832 - z 146 * z 1829 - z 146 * z 1830 - z 159 * z 1834 - z 166 * z 1835 - z 9 * z 145 * z 1834 - z 9 * z 159 * z 1832 - z 9 * z 166 * z 1831 - z 10 * z 126 * z 1834 - z 10 * z 145 * z 1835 - z 10 * z 166 * z 1832) - mf * (z 126 * z 1831 + z 157 * z 1829 + z 157 * z 1836 + z 9 * z 126 * z 1839 + z 10 * z 148 * z 1831 - z 145 * z 1832 - z 146 * z 1829 - z 146 * z 1836 - z 148 * z 1838 - z 154 * z 1839 - z 9 * z 145 * z 1838 - z 9 * z 148 * z 1832 - z 9 * z 154 * z 1831 - z 10 * z 126 * z 1838 - z 10 * z 145 * z 1839 - z 10 * z 154 * z 1832));
  SZ 1843 (z 47 * z 1737 + z 47 * z 1740 + z 48 * z 1741 + z 65 * z 1749 + z 73 * z 1770 + z 76 * z 1775 + z 76 * z 1778 + z 78 * z 1779 + z 91 * z 1786 + z 95 * z 1792 + z 111 * z 1803 + z 114 * z 1808 + z 116 * z 1809 + ic22 * z 47 * z 1735 + ic31 * z 48 * z 1726 + ic33 * z 48 * z 1728 + id11 * z 65 * z 1748 + id22 * z 47 * z 1735 + ie11 * z 73 * z 1759 + ie22 * z 76 * z 1773 + ie31 * z 73 * z 1765 + ie31 * z 78 * z 1759 + ie33 * z 78 * z 1765 + if11 * z 91 * z 1784 + if11 * z 95 * z 1791 + if22 * z 76 * z 1773 + ig11 * z 111 * z 1795 + ig22 * z 114 * z 1806 + ig31 * z 111 * z 1798 + ig31 * z 116 * z 1795 + ig33 * z 116 * z 1798 + mg * (z 210 * z 1817 + z 213 * z 1822 + z 216 * z 1824) - z 62 * z 1745 - id11 * z 62 * z 1744 - mc * (z 132 * z 1825 - z 128 * z 1828 - z 135 * z 1826) - me * (z 141 * z 1829 + z 141 * z 1830 + z 167 * z 1829 + z 167 * z 1830 + z 10 * z 160 * z 1831 - z 143 * z 1832 - z 160 * z 1834 - z 164 * z 1835 - z 9 * z 143 * z 1834 - z 9 * z 160 * z 1832 - z 9 * z 164 * z 1831 - z 10 * z 143 * z 1835 - z 10 * z 164 * z 1832) - mf * (z 141 * z 1829 + z 141 * z 1836 + z 155 * z 1829 + z 155 * z 1836 + z 10 * z 149 * z 1831 - z 143 * z 1832 - z 149 * z 1838 - z 152 * z 1839 - z 9 * z 143 * z 1838 - z 9 * z 149 * z 1832 - z 9 * z 152 * z 1831 - z 10 * z 143 * z 1839 - z 10 * z 152 * z 1832));
  SZ 1844 (z 83 * (z 1778 + if22 * z 1773));
  SZ 1845 (mg * (z 182 * z 399 + z 183 * z 1817 + z 188 * z 1822 + z 193 * z 1824 + z 1684 * z 400 + z 1685 * z 401) + mc * (z 120 * z 367 + z 122 * z 369 + z 123 * z 1826 + z 124 * z 1828 + z 125 * z 1825 - z 2 * z 3 * z 368) + me * (z 120 * z 372 + z 122 * z 374 + z 122 * z 386 + z 123 * z 1831 + z 124 * z 1832 + z 125 * z 1829 + z 125 * z 1830 + z 9 * z 120 * z 385 + z 9 * z 123 * z 1835 + z 9 * z 124 * z 1834 + z 10 * z 124 * z 1835 - z 2 * z 3 * z 373 - z 10 * z 120 * z 384 - z 10 * z 123 * z 1834 - z 2 * z 3 * z 9 * z 384 - z 2 * z 3 * z 10 * z 385) + mf * (z 120 * z 372 + z 122 * z 374 + z 122 * z 380 + z 123 * z 1831 + z 124 * z 1832 + z 125 * z 1829 + z 125 * z 1836 + z 9 * z 120 * z 379 + z 9 * z 123 * z 1839 + z 9 * z 124 * z 1838 + z 10 * z 124 * z 1839 - z 2 * z 3 * z 373 - z 10 * z 120 * z 378 - z 10 * z 123 * z 1838 - z 2 * z 3 * z 9 * z 378 - z 2 * z 3 * z 10 * z 379) - md * (z 1 * z 1811 + z 2 * z 1810 - z 1 * z 359 - z 2 * z 358 - z 2 * z 4 * z 360));
  SZ 1846 (z 1840 + z 538 * z 1841 + z 544 * z 1842 + z 547 * z 1843 + z 549 * z 1844 + z 1057 * z 913 + z 1531 * z 925 + z 1572 * z 933 + z 1604 * z 938 - z 541 * z 1845 - z 1478 * z 917);
  SZ 1847 (z 538 * z 1697 + z 912 * z 1057 + z 919 * z 1531 + z 927 * z 1572 + z 936 * z 1604 - z 541 * z 1694 - z 916 * z 1478);
  SZ 1848 (z 1 * z 3 * z 1534 - z 1 * z 4 * q4p - z 2 * z 3 * q3p);
  SZ 1849 (z 1 * z 4 * z 1534 + z 1 * z 3 * q4p - z 2 * z 4 * q3p);
  SZ 1850 ((- z 3) * z 1848 - z 4 * z 1849);
  SZ 1851 (z 2 * z 4 * q4p - z 2 * z 3 * z 1534 - z 1 * z 3 * q3p);
  SZ 1852 ((- z 2) * z 4 * z 1534 - z 1 * z 4 * q3p - z 2 * z 3 * q4p);
  SZ 1853 (z 3 * z 1851 + z 4 * z 1852);
  SZ 1854 ((z 5 * z 8 + z 6 * z 7) * z 1574);
  SZ 1855 ((z 5 * z 7 - z 6 * z 8) * z 1574);
  SZ 1856 (rr * (z 60 * z 1854 - z 54 * z 1742 - z 55 * z 1746 - z 63 * z 1855));
  SZ 1857 (rr * (z 62 * z 1854 + z 65 * z 1855));
  SZ 1858 (rr * (z 64 * z 1855 - z 61 * z 1854 - z 43 * z 54 * z 1743 - z 43 * z 55 * z 1747));
  SZ 1859 (z 3 * u4 * z 1856 + u1 * z 1850 + u2 * z 1853 + z 1060 * z 556 + z 1479 * z 559 + z 1574 * z 565 - z 3 * u3 * z 1858 - z 3 * u5 * z 1857 - z 1534 * z 563);
  SZ 1860 (z 1 * z 5 * z 1574 + z 1 * z 31 * z 1534 + z 1 * z 269 - z 2 * z 6 * z 1534 - z 2 * z 4 * z 6 * z 1574 - z 1 * z 6 * q3p - z 2 * z 5 * q5p - z 2 * z 31 * q3p);
  SZ 1861 (z 2 * z 6 * q5p + z 2 * z 41 * q3p - z 1 * z 6 * z 1574 - z 1 * z 41 * z 1534 - z 2 * z 5 * z 1534 - z 2 * z 4 * z 5 * z 1574 - z 1 * z 5 * q3p - z 1 * z 273);
  SZ 1862 (z 9 * z 1861 - z 10 * z 1050 * q7p - z 1 * z 3 * z 9 * q7p - z 10 * z 1848);
  SZ 1863 (z 1 * z 3 * z 10 * q7p - z 9 * z 1050 * q7p - z 9 * z 1848 - z 10 * z 1861);
  SZ 1864 (z 5 * z 122 * z 1574 + z 6 * z 10 * z 238 * z 1574 + z 5 * z 1049 * q5p + z 6 * z 1860 + z 23 * z 1862 + z 1051 * z 305 - z 6 * z 9 * z 233 * z 1574 - z 25 * z 1863 - z 1052 * z 296);
  SZ 1865 (z 1 * z 6 * z 1534 + z 2 * z 5 * z 1574 + z 2 * z 31 * z 1534 + z 1 * z 4 * z 6 * z 1574 + z 1 * z 5 * q5p + z 1 * z 31 * q3p + z 2 * z 269 - z 2 * z 6 * q3p);
  SZ 1866 (z 1 * z 5 * z 1534 + z 1 * z 4 * z 5 * z 1574 - z 2 * z 6 * z 1574 - z 2 * z 41 * z 1534 - z 1 * z 6 * q5p - z 1 * z 41 * q3p - z 2 * z 5 * q3p - z 2 * z 273);
  SZ 1867 (z 9 * z 1866 + z 10 * z 1851 - z 10 * z 120 * q7p - z 2 * z 3 * z 9 * q7p);
  SZ 1868 (z 2 * z 3 * z 10 * q7p + z 9 * z 1851 - z 9 * z 120 * q7p - z 10 * z 1866);
  SZ 1869 (z 5 * z 125 * z 1574 + z 6 * z 10 * z 239 * z 1574 + z 5 * z 122 * q5p + z 6 * z 1865 + z 23 * z 1867 + z 1034 * z 305 - z 6 * z 9 * z 234 * z 1574 - z 25 * z 1868 - z 1035 * z 296);
  SZ 1870 (z 6 * z 1750 - z 5 * z 29 * z 1574 - z 4 * z 6 * z 25 * z 1574 - z 6 * z 10 * z 31 * z 1574);
  SZ 1871 (z 25 * z 1757 - z 23 * z 1750 - z 6 * z 9 * z 29 * z 1574 - z 6 * z 10 * z 27 * z 1574);
  SZ 1872 ((Lit 2 1) * z 33 * z 1870 + (Lit 2 1) * z 34 * z 1871);
  SZ 1873 (((Lit 2 1) * z 36 * z 1870 - z 33 * z 1872 / (PowH (z 35) 0)) / (PowN (z 36) 2));
  SZ 1874 (z 39 * z 43 * z 1751 + (Lit 1 2) * rf * z 82 * z 1873);
  SZ 1875 ((- z 1874) - d3 * z 43 * z 1751 - z 5 * z 118 * z 1574);
  SZ 1876 (d1 * z 3 * z 6 * z 43 * z 1574);
  SZ 1877 (d2 * z 43 * z 1751 + z 6 * z 9 * z 118 * z 1574 - z 10 * z 1876);
  SZ 1878 (((Lit 2 1) * z 36 * z 1871 - z 34 * z 1872 / (PowH (z 35) 0)) / (PowN (z 36) 2));
  SZ 1879 (z 40 * z 43 * z 1751 + (Lit 1 2) * rf * z 82 * z 1878);
  SZ 1880 (z 43 * (d2 * z 1756 - d3 * z 3 * z 6 * z 1574));
  SZ 1881 (z 1880 - z 9 * z 1876 - z 6 * z 10 * z 118 * z 1574);
  SZ 1882 (z 11 * z 39 * z 43 * z 1790 + z 12 * z 40 * z 90 * z 1607 + (Lit 1 2) * rf * z 11 * z 94 * z 1873 - z 11 * z 39 * z 90 * z 1607 - z 11 * z 40 * z 43 * z 1783 - z 11 * z 40 * z 94 * z 1607 - z 12 * z 39 * z 43 * z 1783 - z 12 * z 39 * z 94 * z 1607 - z 12 * z 40 * z 43 * z 1790 - (Lit 1 2) * rf * z 11 * z 90 * z 1878 - (Lit 1 2) * rf * z 12 * z 90 * z 1873 - (Lit 1 2) * rf * z 12 * z 94 * z 1878);
  SZ 1883 (z 6 * z 1875 + z 5 * z 262 * z 1574 + z 6 * z 10 * z 259 * z 1574 + z 23 * (z 1877 + z 1879) - z 6 * z 9 * z 257 * z 1574 - z 25 * (z 1881 + z 1882));
  SZ 1884 (d2 * z 1771 + d1 * z 10 * z 1727);
  SZ 1885 (z 40 * z 1771 + (Lit 1 2) * rf * z 77 * z 1878);
  SZ 1886 ((- d1) * z 1733 - d3 * z 1771);
  SZ 1887 (z 39 * z 1771 + (Lit 1 2) * rf * z 77 * z 1873);
  SZ 1888 (d3 * z 1760 - d2 * z 1752);
  SZ 1889 (z 1888 + d1 * z 9 * z 1727);
  SZ 1890 (z 11 * z 39 * z 1787 + z 12 * z 40 * z 92 * z 1607 + (Lit 1 2) * rf * z 11 * z 97 * z 1873 - z 11 * z 40 * z 1780 - z 12 * z 39 * z 1780 - z 12 * z 40 * z 1787 - z 11 * z 39 * z 92 * z 1607 - z 11 * z 40 * z 97 * z 1607 - z 12 * z 39 * z 97 * z 1607 - (Lit 1 2) * rf * z 11 * z 92 * z 1878 - (Lit 1 2) * rf * z 12 * z 92 * z 1873 - (Lit 1 2) * rf * z 12 * z 97 * z 1878);
  SZ 1891 (z 5 * z 263 * z 1574 + z 6 * z 10 * z 261 * z 1574 + z 23 * (z 1884 + z 1885) + z 6 * (z 1886 - z 1887) - z 6 * z 9 * z 256 * z 1574 - z 25 * (z 1889 + z 1890));
  SZ 1892 (z 40 * z 1772 + (Lit 1 2) * rf * z 76 * z 1878);
  SZ 1893 ((Lit 2 1) * d1 * z 1734 - d3 * z 1772);
  SZ 1894 (z 39 * z 1772 + (Lit 1 2) * rf * z 76 * z 1873);
  SZ 1895 (d3 * z 1763 - d2 * z 1755);
  SZ 1896 (z 11 * z 39 * z 1788 + z 12 * z 40 * z 91 * z 1607 + (Lit 1 2) * rf * z 11 * z 95 * z 1873 - z 11 * z 40 * z 1781 - z 12 * z 39 * z 1781 - z 12 * z 40 * z 1788 - z 11 * z 39 * z 91 * z 1607 - z 11 * z 40 * z 95 * z 1607 - z 12 * z 39 * z 95 * z 1607 - (Lit 1 2) * rf * z 11 * z 91 * z 1878 - (Lit 1 2) * rf * z 12 * z 91 * z 1873 - (Lit 1 2) * rf * z 12 * z 95 * z 1878);
  SZ 1897 (z 5 * z 264 * z 1574 + z 6 * z 10 * z 260 * z 1574 + z 6 * (z 1893 - z 1894) + z 23 * (z 1892 + d2 * z 1772) - z 6 * z 9 * z 255 * z 1574 - z 25 * (z 1895 + z 1896));
  SZ 1898 ((Lit 1 2) * rf * z 23 * z 83 * z 1878 - z 5 * z 250 * z 1574 - z 6 * z 9 * z 254 * z 1574 - (Lit 1 2) * rf * z 6 * z 83 * z 1873);
  SZ 1899 (d3 * z 1764 - d2 * z 1758);
  SZ 1900 (z 11 * z 39 * z 1789 + z 12 * z 40 * z 93 * z 1607 + (Lit 1 2) * rf * z 11 * z 96 * z 1873 - z 11 * z 40 * z 1782 - z 12 * z 39 * z 1782 - z 12 * z 40 * z 1789 - z 11 * z 39 * z 93 * z 1607 - z 11 * z 40 * z 96 * z 1607 - z 12 * z 39 * z 96 * z 1607 - (Lit 1 2) * rf * z 11 * z 93 * z 1878 - (Lit 1 2) * rf * z 12 * z 93 * z 1873 - (Lit 1 2) * rf * z 12 * z 96 * z 1878);
  SZ 1901 (z 25 * (z 1899 + z 1900) - z 6 * z 10 * z 258 * z 1574);
  SZ 1902 (u3 * z 1883 + u4 * z 1891 + u5 * z 1897 + u8 * z 1898 + u1 * z 1864 + u2 * z 1869 + z 1060 * z 573 + z 1479 * z 578 + z 1534 * z 616 + z 1574 * z 594 + z 1607 * z 586 - u7 * z 1901);
  SZ 1903 (rr * u4 * z 1733 + z 1 * u2 * z 1534 + z 1 * z 1479 * q3p + z 1534 * z 552 + rr * z 1574 * z 275 - (Lit 2 1) * rr * u5 * z 1734 - z 2 * u1 * z 1534 - z 1 * u1 * q3p - z 2 * u2 * q3p - z 2 * z 1060 * q3p);
  SZ 1904 (z 25 * z 1870 - z 6 * z 10 * z 33 * z 1574);
  SZ 1905 (((Lit 2 1) * z 35 * z 1904 - z 416 * z 1872) / (PowH (z 35) 1));
  SZ 1906 (((z 25 * z 36 - (Lit 2 1) * z 33 * z 420) * z 1872 / (PowH (z 35) 0) + z 36 * (z 33 * z 1905 + (Lit 2 1) * z 420 * z 1870 + (Lit 2 1) * z 6 * z 10 * z 36 * z 1574)) / (PowN (z 36) 3));
  SZ 1907 ((z 34 * z 36 * z 1905 + (Lit 2 1) * z 36 * z 420 * z 1871 - (Lit 2 1) * z 34 * z 420 * z 1872 / (PowH (z 35) 0)) / (PowN (z 36) 3));
  SZ 1908 (z 3 * z 6 * z 434 * z 1574 - z 443 * z 1756 - (Lit 1 2) * rf * z 28 * z 1906 - (Lit 1 2) * rf * z 32 * z 1907);
  SZ 1909 (z 25 * z 1871 - z 6 * z 10 * z 34 * z 1574);
  SZ 1910 (((Lit 2 1) * z 35 * z 1909 - z 412 * z 1872) / (PowH (z 35) 1));
  SZ 1911 ((z 33 * z 36 * z 1910 + (Lit 2 1) * z 36 * z 418 * z 1870 - (Lit 2 1) * z 33 * z 418 * z 1872 / (PowH (z 35) 0)) / (PowN (z 36) 3));
  SZ 1912 (((z 25 * z 36 - (Lit 2 1) * z 34 * z 418) * z 1872 / (PowH (z 35) 0) + z 36 * (z 34 * z 1910 + (Lit 2 1) * z 418 * z 1871 + (Lit 2 1) * z 6 * z 10 * z 36 * z 1574)) / (PowN (z 36) 3));
  SZ 1913 (z 444 * z 1756 - (Lit 1 2) * rf * z 28 * z 1911 - (Lit 1 2) * rf * z 32 * z 1912 - z 3 * z 6 * z 432 * z 1574);
  SZ 1914 ((Lit 2 1) * z 23 * z 1871 - (Lit 2 1) * z 6 * z 1870 - (Lit 2 1) * z 5 * z 33 * z 1574 - (Lit 2 1) * z 6 * z 9 * z 34 * z 1574);
  SZ 1915 (((Lit 2 1) * z 35 * z 1914 - z 411 * z 1872) / (PowH (z 35) 1));
  SZ 1916 (((Lit 2 1) * z 33 * z 421 * z 1872 / (PowH (z 35) 0) - z 36 * (z 33 * z 1915 + (Lit 2 1) * z 421 * z 1870 + (Lit 4 1) * z 5 * z 36 * z 1574 - (Lit 2 1) * z 6 * z 1872 / (PowH (z 35) 0))) / (PowN (z 36) 3));
  SZ 1917 (((Lit 2 1) * (z 23 * z 36 - z 34 * z 421) * z 1872 / (PowH (z 35) 0) + z 36 * (z 34 * z 1915 + (Lit 2 1) * z 421 * z 1871 + (Lit 4 1) * z 6 * z 9 * z 36 * z 1574)) / (PowN (z 36) 3));
  SZ 1918 ((Lit 1 2) * z 446 * z 1756 + (Lit 1 4) * rf * z 28 * z 1916 - (Lit 1 4) * rf * z 32 * z 1917 - (Lit 1 2) * z 3 * z 6 * z 430 * z 1574);
  SZ 1919 (z 3 * z 5 * z 1908 + d1 * z 4 * z 5 * z 1574 + z 4 * z 6 * z 448 * z 1574 + z 3 * z 5 * z 9 * z 453 * z 1574 + z 4 * z 5 * z 9 * z 449 * z 1574 + (z 3 * z 24 - z 4 * z 10) * z 1913 + (Lit 1 2) * rf * (z 3 * z 10 + z 4 * z 24) * z 1873 - z 3 * z 6 * z 455 * z 1574 - (Lit 1 2) * rf * z 4 * z 5 * z 1878 - z 3 * z 5 * z 10 * z 451 * z 1574 - (z 3 * z 26 + z 4 * z 9) * z 1918);
  SZ 1920 ((- z 5) * z 1750 - z 6 * z 29 * z 1574);
  SZ 1921 (z 33 * z 1920 + z 410 * z 1870);
  SZ 1922 (((Lit 2 1) * z 35 * z 1921 - z 415 * z 1872) / (PowH (z 35) 1));
  SZ 1923 ((z 34 * z 36 * z 1922 + (Lit 2 1) * z 36 * z 417 * z 1871 - (Lit 2 1) * z 34 * z 417 * z 1872 / (PowH (z 35) 0)) / (PowN (z 36) 3));
  SZ 1924 (((Lit 2 1) * z 33 * z 417 * z 1872 / (PowH (z 35) 0) + z 36 * ((Lit 2 1) * z 36 * z 1920 - (Lit 2 1) * z 417 * z 1870 - z 33 * z 1922 - z 410 * z 1872 / (PowH (z 35) 0))) / (PowN (z 36) 3));
  SZ 1925 ((Lit 1 2) * rf * z 32 * z 1923 - z 441 * z 1756 - (Lit 1 2) * rf * z 28 * z 1924 - z 3 * z 6 * z 429 * z 1574);
  SZ 1926 (z 29 * z 1871 - z 34 * z 1750);
  SZ 1927 (((Lit 2 1) * z 35 * z 1926 - z 414 * z 1872) / (PowH (z 35) 1));
  SZ 1928 ((z 33 * z 36 * z 1927 + (Lit 2 1) * z 36 * z 419 * z 1870 - (Lit 2 1) * z 33 * z 419 * z 1872 / (PowH (z 35) 0)) / (PowN (z 36) 3));
  SZ 1929 (((z 29 * z 36 - (Lit 2 1) * z 34 * z 419) * z 1872 / (PowH (z 35) 0) + z 36 * (z 34 * z 1927 + (Lit 2 1) * z 36 * z 1750 + (Lit 2 1) * z 419 * z 1871)) / (PowN (z 36) 3));
  SZ 1930 (z 445 * z 1756 - (Lit 1 2) * rf * z 28 * z 1928 - (Lit 1 2) * rf * z 32 * z 1929 - z 3 * z 6 * z 433 * z 1574);
  SZ 1931 ((Lit 2 1) * z 27 * z 1871 + (Lit 2 1) * z 31 * z 1870 + (Lit 2 1) * z 34 * z 1757 - (Lit 2 1) * z 4 * z 6 * z 33 * z 1574);
  SZ 1932 (((Lit 2 1) * z 35 * z 1931 - z 413 * z 1872) / (PowH (z 35) 1));
  SZ 1933 (((Lit 2 1) * (z 31 * z 36 - z 33 * z 422) * z 1872 / (PowH (z 35) 0) + z 36 * (z 33 * z 1932 + (Lit 2 1) * z 422 * z 1870 + (Lit 4 1) * z 4 * z 6 * z 36 * z 1574)) / (PowN (z 36) 3));
  SZ 1934 (((Lit 2 1) * (z 27 * z 36 - z 34 * z 422) * z 1872 / (PowH (z 35) 0) - z 36 * ((Lit 4 1) * z 36 * z 1757 - (Lit 2 1) * z 422 * z 1871 - z 34 * z 1932)) / (PowN (z 36) 3));
  SZ 1935 ((- (Lit 1 2)) * z 442 * z 1756 - (Lit 1 4) * rf * z 28 * z 1933 - (Lit 1 4) * rf * z 32 * z 1934 - (Lit 1 2) * z 3 * z 6 * z 431 * z 1574);
  SZ 1936 (z 1925 + d1 * z 3 * z 6 * z 1574 + z 4 * z 5 * z 9 * z 1913 + z 3 * z 6 * z 9 * z 449 * z 1574 + z 4 * z 6 * z 10 * z 451 * z 1574 - z 4 * z 6 * z 1908 - z 6 * z 9 * z 1930 - z 6 * z 10 * z 1935 - z 3 * z 5 * z 448 * z 1574 - z 4 * z 5 * z 10 * z 1918 - z 4 * z 5 * z 455 * z 1574 - z 5 * z 9 * z 454 * z 1574 - z 5 * z 10 * z 452 * z 1574 - (Lit 1 2) * rf * z 3 * z 6 * z 1878 - z 4 * z 6 * z 9 * z 453 * z 1574 - (Lit 1 2) * rf * z 3 * z 5 * z 9 * z 1873);
  SZ 1937 (z 5 * z 9 * z 1935 + z 6 * z 10 * z 454 * z 1574 + z 3 * z 5 * z 10 * z 449 * z 1574 + (z 3 * z 9 - z 4 * z 6 * z 10) * z 1913 + (Lit 1 2) * rf * (z 4 * z 9 + z 3 * z 6 * z 10) * z 1873 - z 5 * z 10 * z 1930 - z 6 * z 9 * z 452 * z 1574 - z 4 * z 5 * z 9 * z 451 * z 1574 - z 4 * z 5 * z 10 * z 453 * z 1574 - (z 3 * z 10 + z 4 * z 6 * z 9) * z 1918);
  SZ 1938 (u4 * z 1919 + u5 * z 1936 + u7 * z 1937 + z 1574 * z 662);
  SZ 1939 (z 233 * z 1757 + z 4 * z 6 * z 122 * z 1574 + z 27 * z 1862 + z 29 * z 1863 + z 1051 * z 310 + z 1052 * z 300 - z 238 * z 1750 - z 31 * z 1860 - z 1049 * z 269);
  SZ 1940 (z 234 * z 1757 + z 4 * z 6 * z 125 * z 1574 + z 27 * z 1867 + z 29 * z 1868 + z 1034 * z 310 + z 1035 * z 300 - z 239 * z 1750 - z 31 * z 1865 - z 122 * z 269);
  SZ 1941 (z 257 * z 1757 + z 4 * z 6 * z 262 * z 1574 + z 27 * (z 1877 + z 1879) + z 29 * (z 1881 + z 1882) - z 31 * z 1875 - z 259 * z 1750);
  SZ 1942 (z 256 * z 1757 + z 4 * z 6 * z 263 * z 1574 + z 27 * (z 1884 + z 1885) + z 29 * (z 1889 + z 1890) - z 261 * z 1750 - z 31 * (z 1886 - z 1887));
  SZ 1943 (z 255 * z 1757 + z 4 * z 6 * z 264 * z 1574 + z 29 * (z 1895 + z 1896) + z 27 * (z 1892 + d2 * z 1772) - z 260 * z 1750 - z 31 * (z 1893 - z 1894));
  SZ 1944 (z 29 * (z 1899 + z 1900) - z 258 * z 1750);
  SZ 1945 (z 254 * z 1757 + (Lit 1 2) * rf * z 27 * z 83 * z 1878 + (Lit 1 2) * rf * z 31 * z 83 * z 1873 - z 4 * z 6 * z 250 * z 1574);
  SZ 1946 (u3 * z 1941 + u4 * z 1942 + u5 * z 1943 + u7 * z 1944 + u8 * z 1945 + u1 * z 1939 + u2 * z 1940 + z 1060 * z 621 + z 1479 * z 622 + z 1534 * z 626 + z 1574 * z 624 + z 1607 * z 623);
  SZ 1947 ((z 1056 * (z 525 * z 568 + z 478 * z 496 * z 620 - z 511 * z 553 - z 535 * z 664 - z 478 * z 528 * z 628) - z 494 * (z 525 * z 1859 + z 1527 * z 568 + z 478 * z 496 * z 1902 + z 496 * z 1048 * z 620 - z 511 * z 1903 - z 535 * z 1938 - z 1529 * z 553 - z 1530 * z 664 - z 478 * z 528 * z 1946 - z 528 * z 1048 * z 628)) / (PowN (z 494) 2));
  SZ 1948 (z 538 * z 1708 + z 911 * z 1057 + z 920 * z 1531 + z 928 * z 1572 + z 934 * z 1604 - z 541 * z 1706 - z 915 * z 1478);
  SZ 1949 ((z 494 * z 536 * z 1938 + z 494 * z 1571 * z 664 - z 536 * z 1056 * z 664) / (PowN (z 494) 2));
  SZ 1950 (z 923 * z 1531 + z 931 * z 1572 + z 937 * z 1604);
  SZ 1951 ((z 1056 * (z 526 * z 568 + z 532 * z 628 - z 512 * z 553 - z 527 * z 620 - z 537 * z 664) - z 494 * (z 526 * z 1859 + z 532 * z 1946 + z 1594 * z 568 + z 1595 * z 628 - z 512 * z 1903 - z 527 * z 1902 - z 537 * z 1938 - z 1596 * z 553 - z 1597 * z 620 - z 1603 * z 664)) / (PowN (z 494) 2));
  SZ 1952 (mg * (z 209 * z 1687 + z 212 * z 1688 + z 215 * z 1689) + mc * (z 134 * z 1050 - z 131 * z 1049 - z 1 * z 3 * z 139) + me * (z 9 * z 165 * z 1050 - z 140 * z 1049 - z 168 * z 1049 - z 1 * z 3 * z 147 - z 10 * z 162 * z 1050 - z 1 * z 3 * z 9 * z 162 - z 1 * z 3 * z 10 * z 165) + mf * (z 9 * z 153 * z 1050 - z 140 * z 1049 - z 156 * z 1049 - z 1 * z 3 * z 147 - z 10 * z 151 * z 1050 - z 1 * z 3 * z 9 * z 151 - z 1 * z 3 * z 10 * z 153) - md * z 1 * z 3 * z 119);
  SZ 1953 (z 1952 + z 538 * z 1696 + z 544 * z 1697 + z 547 * z 1708 + z 909 * z 1057 + z 911 * z 1572 + z 912 * z 1531 - z 541 * z 1693 - z 910 * z 1478);
  SZ 1954 ((z 1056 * (z 519 * z 568 + z 487 * z 496 * z 620 - z 504 * z 553 - z 533 * z 664 - z 487 * z 528 * z 628) - z 494 * (z 519 * z 1859 + z 1039 * z 568 + z 487 * z 496 * z 1902 + z 496 * z 1040 * z 620 - z 504 * z 1903 - z 533 * z 1938 - z 1043 * z 553 - z 1046 * z 664 - z 487 * z 528 * z 1946 - z 528 * z 1040 * z 628)) / (PowN (z 494) 2));
  SZ 1955 (mg * (z 182 * z 209 + z 212 * z 1684 + z 215 * z 1685) + mc * (z 120 * z 134 - z 122 * z 131 - z 2 * z 3 * z 139) + me * (z 9 * z 120 * z 165 - z 122 * z 140 - z 122 * z 168 - z 2 * z 3 * z 147 - z 10 * z 120 * z 162 - z 2 * z 3 * z 9 * z 162 - z 2 * z 3 * z 10 * z 165) + mf * (z 9 * z 120 * z 153 - z 122 * z 140 - z 122 * z 156 - z 2 * z 3 * z 147 - z 10 * z 120 * z 151 - z 2 * z 3 * z 9 * z 151 - z 2 * z 3 * z 10 * z 153) - md * z 2 * z 3 * z 119);
  SZ 1956 (z 1955 + z 538 * z 1693 + z 544 * z 1694 + z 547 * z 1706 + z 910 * z 1057 + z 915 * z 1572 + z 916 * z 1531 - z 541 * z 1692 - z 914 * z 1478);
  SZ 1957 ((z 1056 * (z 523 * z 568 + z 482 * z 496 * z 620 - z 509 * z 553 - z 534 * z 664 - z 482 * z 528 * z 628) - z 494 * (z 523 * z 1859 + z 1477 * z 568 + z 482 * z 496 * z 1902 + z 496 * z 1047 * z 620 - z 509 * z 1903 - z 534 * z 1938 - z 1471 * z 553 - z 1474 * z 664 - z 482 * z 528 * z 1946 - z 528 * z 1047 * z 628)) / (PowN (z 494) 2));
  SZ 1958 (z 1846 + z 941 * z 1949 + z 947 * z 1957 + z 1847 * z 667 + z 1948 * z 668 + z 1950 * z 669 + z 1953 * z 665 - z 940 * z 1947 - z 944 * z 1951 - z 946 * z 1954 - z 1956 * z 666);
  SZ 1959 (z 52 * z 1531 + z 78 * z 1572);
  SZ 1960 (z 48 * z 1572 + z 52 * z 1531);
  SZ 1961 (z 182 * z 1057 + z 210 * z 1572 + z 211 * z 1531 + z 538 * z 1687 - z 182 * z 541 - z 183 * z 1478);
  SZ 1962 (z 187 * z 1057 + z 213 * z 1572 + z 214 * z 1531 + z 538 * z 1688 - z 188 * z 1478 - z 541 * z 1684);
  SZ 1963 (z 192 * z 1057 + z 216 * z 1572 + z 217 * z 1531 + z 538 * z 1689 - z 193 * z 1478 - z 541 * z 1685);
  SZ 1964 (z 128 * z 1572 + z 130 * z 1531 + z 2 * z 3 * z 541 - z 121 * z 1057 - z 124 * z 1478 - z 1 * z 3 * z 538);
  SZ 1965 (z 122 * z 1057 + z 138 * z 1531 + z 538 * z 1049 - z 122 * z 541 - z 125 * z 1478 - z 132 * z 1572);
  SZ 1966 (z 120 * z 1057 + z 135 * z 1572 + z 137 * z 1531 + z 538 * z 1050 - z 120 * z 541 - z 123 * z 1478);
  SZ 1967 (z 110 * z 1531 + z 111 * z 1572);
  SZ 1968 (z 120 * z 1057 + z 538 * z 1050 - z 120 * z 541 - z 123 * z 1478 - z 126 * z 1531);
  SZ 1969 (z 143 * z 1572 + z 145 * z 1531 + z 2 * z 3 * z 541 - z 121 * z 1057 - z 124 * z 1478 - z 1 * z 3 * z 538);
  SZ 1970 (z 122 * z 1057 + z 146 * z 1531 + z 538 * z 1049 - z 122 * z 541 - z 125 * z 1478 - z 141 * z 1572);
  SZ 1971 ((- z 167) * z 1572 - z 169 * z 1531);
  SZ 1972 (z 164 * z 1572 + z 166 * z 1531);
  SZ 1973 (z 159 * z 1531 + z 160 * z 1572);
  SZ 1974 ((- z 155) * z 1572 - z 157 * z 1531);
  SZ 1975 (z 152 * z 1572 + z 154 * z 1531);
  SZ 1976 (z 148 * z 1531 + z 149 * z 1572);
  SZ 1977 (T7 * z 1959 + T4 * z 6 * z 1960 + z 406 * (z 106 * z 1961 + z 107 * z 1962 + z 108 * z 1963) + z 402 * (z 4 * z 1964 + z 32 * z 1965 - z 42 * z 1966) + z 1967 * z 408 + z 14 * z 1960 * z 409 - T7 * z 1960 - T4 * z 5 * z 50 * z 1531 - z 404 * (z 42 * z 1968 - z 4 * z 1969 - z 32 * z 1970 - z 32 * z 1971 - z 733 * z 1972 - z 734 * z 1973) - z 405 * (z 42 * z 1968 - z 4 * z 1969 - z 32 * z 1970 - z 32 * z 1974 - z 733 * z 1975 - z 734 * z 1976) - z 13 * z 50 * z 1531 * z 409);
  SZ 1978 (z 921 * z 1531 + z 929 * z 1572);
  SZ 1979 (z 1978 + z 542 * z 1956 + z 947 * z 1472 - z 539 * z 1953 - z 545 * z 1847 - z 550 * z 1950 - z 940 * z 1532 - z 944 * z 1606 - z 946 * z 1058);
  SZ 1980 (z 906 * z 1057 + z 924 * z 1531 + z 932 * z 1572 - z 538 * z 1690 - z 541 * z 1686 - z 907 * z 1478);
  SZ 1981 (z 950 * z 1703 + z 960 * z 1979 - z 945 * z 1701 - z 964 * z 1980);
  SZ 1982 (z 541 * z 1705 + z 922 * z 1531 + z 930 * z 1572 - z 538 * z 1709 - z 899 * z 1057 - z 900 * z 1478);
  SZ 1983 (z 1982 + z 543 * z 1956 + z 548 * z 1948 + z 551 * z 1950 + z 941 * z 1573 + z 944 * z 1605 + z 947 * z 1475 - z 540 * z 1953 - z 546 * z 1847 - z 940 * z 1533 - z 946 * z 1059);
  SZ 1984 (z 950 * z 1720 + z 965 * z 1979 - z 951 * z 1701 - z 964 * z 1983);
  SZ 1985 (z 951 * z 1703 + z 960 * z 1983 - z 945 * z 1720 - z 965 * z 1980);
  SZ 1986 (z 983 * z 1981 + z 997 * z 1691 - z 905 * z 1984 - z 982 * z 1985 - z 999 * z 1722);
  SZ 1987 (z 75 * z 1770 + z 79 * z 1779 + z 93 * z 1786 + z 96 * z 1792 + ie11 * z 75 * z 1759 + ie31 * z 75 * z 1765 + ie31 * z 79 * z 1759 + ie33 * z 79 * z 1765 + if11 * z 93 * z 1784 + if11 * z 96 * z 1791 + me * z 161 * (z 1834 + z 9 * z 1832 - z 10 * z 1831) + mf * z 150 * (z 1838 + z 9 * z 1832 - z 10 * z 1831));
  SZ 1988 (z 1987 + z 543 * z 1845 + z 548 * z 1843 + z 551 * z 1844 + z 1475 * z 917 + z 1573 * z 933 + z 1605 * z 938 - z 540 * z 1841 - z 546 * z 1842 - z 1059 * z 913 - z 1533 * z 925);
  SZ 1989 (z 1988 + z 967 * z 1949 + z 972 * z 1957 + z 1710 * z 665 + z 1711 * z 667 + z 1712 * z 669 + z 1716 * z 668 - z 970 * z 1947 - z 971 * z 1954 - z 975 * z 1951 - z 1707 * z 666);
  SZ 1990 (z 78 * z 1573 - z 52 * z 1533);
  SZ 1991 (z 48 * z 1573 - z 52 * z 1533);
  SZ 1992 (z 182 * z 543 + z 183 * z 1475 + z 210 * z 1573 - z 182 * z 1059 - z 211 * z 1533 - z 540 * z 1687);
  SZ 1993 (z 188 * z 1475 + z 213 * z 1573 + z 543 * z 1684 - z 187 * z 1059 - z 214 * z 1533 - z 540 * z 1688);
  SZ 1994 (z 193 * z 1475 + z 216 * z 1573 + z 543 * z 1685 - z 192 * z 1059 - z 217 * z 1533 - z 540 * z 1689);
  SZ 1995 (z 121 * z 1059 + z 124 * z 1475 + z 128 * z 1573 + z 1 * z 3 * z 540 - z 130 * z 1533 - z 2 * z 3 * z 543);
  SZ 1996 (z 122 * z 543 + z 125 * z 1475 - z 122 * z 1059 - z 132 * z 1573 - z 138 * z 1533 - z 540 * z 1049);
  SZ 1997 (z 120 * z 543 + z 123 * z 1475 + z 135 * z 1573 - z 120 * z 1059 - z 137 * z 1533 - z 540 * z 1050);
  SZ 1998 (z 111 * z 1573 - z 110 * z 1533);
  SZ 1999 (z 120 * z 543 + z 123 * z 1475 + z 126 * z 1533 - z 120 * z 1059 - z 540 * z 1050);
  SZ 2000 (z 121 * z 1059 + z 124 * z 1475 + z 143 * z 1573 + z 1 * z 3 * z 540 - z 145 * z 1533 - z 2 * z 3 * z 543);
  SZ 2001 (z 122 * z 543 + z 125 * z 1475 - z 122 * z 1059 - z 141 * z 1573 - z 146 * z 1533 - z 540 * z 1049);
  SZ 2002 (z 169 * z 1533 - z 167 * z 1573);
  SZ 2003 (z 160 * z 1573 - z 159 * z 1533)].
(* [_mooreriderlean2012.py:3205-3816] *)
Definition chunk9 : list stmt := [
  SZ 2004 (z 164 * z 1573 - z 166 * z 1533);
  SZ 2005 (z 157 * z 1533 - z 155 * z 1573);
  SZ 2006 (z 152 * z 1573 - z 154 * z 1533);
  SZ 2007 (z 149 * z 1573 - z 148 * z 1533);
  SZ 2008 (T7 * z 1990 + T4 * z 6 * z 1991 + T4 * z 5 * z 50 * z 1533 + z 406 * (z 106 * z 1992 + z 107 * z 1993 + z 108 * z 1994) + z 402 * (z 4 * z 1995 + z 32 * z 1996 - z 42 * z 1997) + z 1998 * z 408 + z 14 * z 1991 * z 409 + z 13 * z 50 * z 1533 * z 409 - T7 * z 1991 - z 404 * (z 42 * z 1999 - z 4 * z 2000 - z 32 * z 2001 - z 32 * z 2002 - z 733 * z 2004 - z 734 * z 2003) - z 405 * (z 42 * z 1999 - z 4 * z 2000 - z 32 * z 2001 - z 32 * z 2005 - z 733 * z 2006 - z 734 * z 2007));
  SZ 2009 (z 950 * z 1702 + z 973 * z 1979 - z 945 * z 1713 - z 978 * z 1980);
  SZ 2010 (z 950 * z 1717 + z 979 * z 1979 - z 951 * z 1713 - z 978 * z 1983);
  SZ 2011 (z 951 * z 1702 + z 973 * z 1983 - z 945 * z 1717 - z 979 * z 1980);
  SZ 2012 (z 983 * z 2009 + z 1013 * z 1691 - z 905 * z 2010 - z 982 * z 2011 - z 1014 * z 1722);
  SZ 2013 (z 53 * (z 1740 + id22 * z 1735));
  SZ 2014 (z 2013 + z 542 * z 1845 + z 1472 * z 917 - z 539 * z 1841 - z 545 * z 1842 - z 550 * z 1844 - z 1058 * z 913 - z 1532 * z 925 - z 1606 * z 938);
  SZ 2015 (z 2014 + z 954 * z 1949 + z 958 * z 1957 + z 1698 * z 665 + z 1699 * z 667 + z 1700 * z 669 + z 1719 * z 668 - z 955 * z 1947 - z 957 * z 1954 - z 961 * z 1951 - z 1695 * z 666);
  SZ 2016 (z 182 * z 542 + z 183 * z 1472 - z 182 * z 1058 - z 211 * z 1532 - z 539 * z 1687);
  SZ 2017 (z 188 * z 1472 + z 542 * z 1684 - z 187 * z 1058 - z 214 * z 1532 - z 539 * z 1688);
  SZ 2018 (z 193 * z 1472 + z 542 * z 1685 - z 192 * z 1058 - z 217 * z 1532 - z 539 * z 1689);
  SZ 2019 (z 121 * z 1058 + z 124 * z 1472 + z 1 * z 3 * z 539 - z 130 * z 1532 - z 2 * z 3 * z 542);
  SZ 2020 (z 122 * z 542 + z 125 * z 1472 - z 122 * z 1058 - z 138 * z 1532 - z 539 * z 1049);
  SZ 2021 (z 120 * z 542 + z 123 * z 1472 - z 120 * z 1058 - z 137 * z 1532 - z 539 * z 1050);
  SZ 2022 (z 121 * z 1058 + z 124 * z 1472 + z 1 * z 3 * z 539 - z 145 * z 1532 - z 2 * z 3 * z 542);
  SZ 2023 (z 122 * z 542 + z 125 * z 1472 - z 122 * z 1058 - z 146 * z 1532 - z 539 * z 1049);
  SZ 2024 (z 120 * z 542 + z 123 * z 1472 + z 126 * z 1532 - z 120 * z 1058 - z 539 * z 1050);
  SZ 2025 (T4 * z 5 * z 50 * z 1532 + z 406 * (z 106 * z 2016 + z 107 * z 2017 + z 108 * z 2018) + z 402 * (z 4 * z 2019 + z 32 * z 2020 - z 42 * z 2021) + z 404 * (z 4 * z 2022 + z 32 * z 2023 + z 32 * z 169 * z 1532 - z 42 * z 2024 - z 159 * z 734 * z 1532 - z 166 * z 733 * z 1532) + z 405 * (z 4 * z 2022 + z 32 * z 2023 + z 32 * z 157 * z 1532 - z 42 * z 2024 - z 148 * z 734 * z 1532 - z 154 * z 733 * z 1532) + z 13 * z 50 * z 1532 * z 409 - T4 * z 6 * z 52 * z 1532 - z 110 * z 1532 * z 408 - z 14 * z 52 * z 1532 * z 409);
  SZ 2026 (z 979 * z 1981 + z 997 * z 1717 - z 973 * z 1984 - z 978 * z 1985 - z 995 * z 1702 - z 999 * z 1713);
  SZ 2027 (z 98 * z 1803 + z 99 * z 1808 + ig11 * z 98 * z 1795 + ig22 * z 99 * z 1806 + ig31 * z 98 * z 1798 - mg * (z 200 * z 1822 + z 201 * z 1824 - z 205 * z 1817));
  SZ 2028 (z 2027 + z 903 * z 1949 + z 907 * z 1957 - z 902 * z 1947 - z 906 * z 1954 - z 1686 * z 666 - z 1690 * z 665);
  SZ 2029 (z 538 * z 1952 + z 887 * z 1057 + z 918 * z 1531 + z 926 * z 1572 + z 935 * z 1604 - z 541 * z 1955 - z 888 * z 1478);
  SZ 2030 (z 2029 + z 538 * z 1953 + z 544 * z 1847 + z 547 * z 1948 + z 549 * z 1950 + z 940 * z 1531 + z 941 * z 1572 + z 944 * z 1604 + z 946 * z 1057 - z 541 * z 1956 - z 947 * z 1478);
  SZ 2031 (z 542 * z 1955 + z 888 * z 1472 - z 539 * z 1952 - z 887 * z 1058 - z 918 * z 1532 - z 935 * z 1606);
  SZ 2032 (z 2031 + z 538 * z 1698 + z 544 * z 1699 + z 547 * z 1719 + z 549 * z 1700 + z 954 * z 1572 + z 955 * z 1531 + z 957 * z 1057 + z 961 * z 1604 - z 541 * z 1695 - z 958 * z 1478);
  SZ 2033 (z 949 * z 1701 + z 964 * z 2030 - z 950 * z 2032 - z 963 * z 1979);
  SZ 2034 (z 905 * z 1717 - z 973 * z 1691 - z 983 * z 1702);
  SZ 2035 (z 949 * z 1703 + z 960 * z 2030 - z 945 * z 2032 - z 963 * z 1980);
  SZ 2036 (z 978 * z 1691 + z 983 * z 1713 - z 979 * z 1722 - z 982 * z 1717);
  SZ 2037 (z 543 * z 1955 + z 888 * z 1475 + z 926 * z 1573 + z 935 * z 1605 - z 540 * z 1952 - z 887 * z 1059 - z 918 * z 1533);
  SZ 2038 (z 2037 + z 538 * z 1710 + z 544 * z 1711 + z 547 * z 1716 + z 549 * z 1712 + z 967 * z 1572 + z 970 * z 1531 + z 971 * z 1057 + z 975 * z 1604 - z 541 * z 1707 - z 972 * z 1478);
  SZ 2039 (z 902 * z 1531 + z 903 * z 1572 + z 906 * z 1057 - z 538 * z 1690 - z 541 * z 1686 - z 907 * z 1478);
  SZ 2040 (z 905 * z 2038 - z 973 * z 2039 - z 981 * z 1702);
  SZ 2041 (z 977 * z 1722 + z 982 * z 2038 - z 978 * z 2039 - z 981 * z 1713);
  SZ 2042 (z 949 * z 1720 + z 965 * z 2030 - z 951 * z 2032 - z 963 * z 1983);
  SZ 2043 (z 905 * z 1713 - z 973 * z 1722 - z 982 * z 1702);
  SZ 2044 (z 977 * z 1691 + z 983 * z 2038 - z 979 * z 2039 - z 981 * z 1717);
  SZ 2045 (z 989 * z 2034 + z 990 * z 2033 + z 993 * z 2036 + z 994 * z 2035 + z 995 * z 2040 + z 996 * z 1984 + z 999 * z 2041 + z 1000 * z 1985 - z 991 * z 2043 - z 992 * z 2042 - z 997 * z 2044 - z 998 * z 1981);
  SZ 2046 ((z 2045 * (z 1005 * z 985 + z 1022 * z 987 - z 1015 * z 986 - z 1026 * z 988) - z 1001 * (z 1724 * z 985 + z 1986 * z 987 + z 1015 * (z 2025 - z 2015) - z 1026 * z 2028 - z 2012 * z 986 - z 2026 * z 988 - z 1005 * (z 1977 - z 1958) - z 1022 * (z 2008 - z 1989))) / (PowN (z 1001) 2));
  SZ 2047 (z 1 * z 3 * (z 13 * z 6 - z 14 * z 5));
  SZ 2048 (z 1 * (z 4 * z 17 + z 3 * z 5 * z 19 + z 3 * z 6 * z 16));
  SZ 2049 (z 1 * (z 4 * z 15 - z 3 * z 5 * z 20 - z 3 * z 6 * z 18));
  SZ 2050 (mg * (z 201 * z 2049 - z 200 * z 2048 - z 205 * z 2047));
  SZ 2051 (z 20 * z 1156 - (Lit 2 1) * z 15 * z 1152);
  SZ 2052 (z 19 * z 1156 + (Lit 2 1) * z 17 * z 1152);
  SZ 2053 ((Lit 2 1) * z 21 * z 19 * z 1152 - (Lit 2 1) * z 22 * z 16 * z 1152 - z 21 * z 17 * z 1156);
  SZ 2055 (l5 * z 2051 - z 2054 * z 1156);
  SZ 2056 (z 21 * z 15 * z 1156 + (Lit 2 1) * z 21 * z 20 * z 1152 - (Lit 2 1) * z 22 * z 18 * z 1152);
  SZ 2058 (z 2057 * z 1152);
  SZ 2060 (ig22 * z 99 * z 2052 + ig31 * z 98 * z 2051 + z 2059 * z 98 * z 1156 - mg * (z 200 * (z 2053 + z 2055) + z 201 * (z 2056 - l5 * z 2052) - z 205 * ((Lit 2 1) * z 2058 + l6 * z 2052)));
  SZ 2061 (z 2 * z 3 * (z 13 * z 6 - z 14 * z 5));
  SZ 2062 (z 2 * (z 4 * z 17 + z 3 * z 5 * z 19 + z 3 * z 6 * z 16));
  SZ 2063 (z 2 * (z 4 * z 15 - z 3 * z 5 * z 20 - z 3 * z 6 * z 18));
  SZ 2064 (mg * (z 201 * z 2063 - z 200 * z 2062 - z 205 * z 2061));
  SZ 2065 (z 4 * (z 13 * z 6 - z 14 * z 5));
  SZ 2066 ((- z 3) * z 15 - z 4 * z 5 * z 20 - z 4 * z 6 * z 18);
  SZ 2067 (z 3 * z 17 - z 4 * z 5 * z 19 - z 4 * z 6 * z 16);
  SZ 2068 (z 4 * z 43 * (z 21 * z 5 - z 22 * z 6));
  SZ 2069 (z 21 * z 3 * z 43 - z 1080);
  SZ 2070 (z 22 * z 3 * z 43 - z 1067);
  SZ 2071 (z 17 * z 2068 + z 19 * z 2069 - z 16 * z 2070);
  SZ 2072 (z 43 * (l5 * z 2066 - l6 * z 2065));
  SZ 2073 (z 20 * z 2069 - z 15 * z 2068 - z 18 * z 2070);
  SZ 2074 (z 2073 - l5 * z 43 * z 2067);
  SZ 2075 (z 13 * z 2070 + z 14 * z 2069);
  SZ 2076 (z 2075 + l6 * z 43 * z 2067);
  SZ 2077 (ig11 * z 43 * z 98 * z 2065 + ig22 * z 43 * z 99 * z 2067 + ig31 * z 43 * z 98 * z 2066 + mg * (z 205 * z 2076 - z 201 * z 2074 - z 200 * (z 2071 + z 2072)));
  SZ 2078 (z 548 * z 2060 + z 902 * z 1542 + z 906 * z 1196 - z 540 * z 2064 - z 543 * z 2050 - z 546 * z 2077 - z 903 * z 1577 - z 907 * z 1487);
  SZ 2079 ((- z 921) * z 1541 - z 3 * z 43 * z 545 * z 791);
  SZ 2080 ((- (Lit 2 1)) * mg * (z 188 * z 2048 - z 183 * z 2047 - z 193 * z 2049) - (Lit 2 1) * mc * z 1 * (z 4 * z 124 + z 3 * z 5 * z 125 - z 3 * z 6 * z 123) - (Lit 2 1) * me * z 1 * (z 4 * z 124 + z 3 * z 5 * z 125 - z 3 * z 6 * z 123) - (Lit 2 1) * mf * z 1 * (z 4 * z 124 + z 3 * z 5 * z 125 - z 3 * z 6 * z 123));
  SZ 2081 (mg * (z 182 * z 2047 + z 188 * z 2062 + z 192 * z 2049 - z 183 * z 2061 - z 187 * z 2048 - z 193 * z 2063) + mc * (z 1 * z 4 * z 121 + z 2 * z 4 * z 124 + z 1 * z 3 * z 6 * z 120 + z 2 * z 3 * z 5 * z 125 - z 1 * z 3 * z 5 * z 122 - z 2 * z 3 * z 6 * z 123) + me * (z 1 * z 4 * z 121 + z 2 * z 4 * z 124 + z 1 * z 3 * z 6 * z 120 + z 2 * z 3 * z 5 * z 125 - z 1 * z 3 * z 5 * z 122 - z 2 * z 3 * z 6 * z 123) + mf * (z 1 * z 4 * z 121 + z 2 * z 4 * z 124 + z 1 * z 3 * z 6 * z 120 + z 2 * z 3 * z 5 * z 125 - z 1 * z 3 * z 5 * z 122 - z 2 * z 3 * z 6 * z 123));
  SZ 2082 (l2 * z 3 * z 43 - z 1067);
  SZ 2083 (z 4 * z 43 * (l1 * z 5 + l2 * z 6));
  SZ 2084 ((- z 1080) - l1 * z 3 * z 43);
  SZ 2085 (z 43 * (d2 * z 27 + l4 * z 27 + z 158 * z 4 * z 5));
  SZ 2087 (me * (z 125 * z 1081 + z 10 * z 123 * z 2085 + z 1 * z 3 * z 5 * z 169 + z 163 * z 9 * z 29 * z 43 * z 123 + z 163 * z 10 * z 29 * z 43 * z 124 + z 1 * z 3 * z 6 * z 9 * z 166 - z 123 * z 1067 - z 124 * z 1066 - z 1 * z 4 * z 145 - z 9 * z 124 * z 2085 - z 158 * z 29 * z 43 * z 125 - z 1 * z 3 * z 5 * z 146 - z 1 * z 3 * z 6 * z 126 - z 1 * z 4 * z 9 * z 159 - z 1 * z 4 * z 10 * z 166 - z 1 * z 3 * z 6 * z 10 * z 159) + mf * (z 125 * z 1081 + z 10 * z 123 * z 1074 + z 1 * z 3 * z 5 * z 157 + d2 * z 9 * z 29 * z 43 * z 123 + d2 * z 10 * z 29 * z 43 * z 124 + z 1 * z 3 * z 6 * z 9 * z 154 - z 123 * z 1067 - z 124 * z 1066 - z 1 * z 4 * z 145 - z 9 * z 124 * z 1074 - d3 * z 29 * z 43 * z 125 - z 1 * z 3 * z 5 * z 146 - z 1 * z 3 * z 6 * z 126 - z 1 * z 4 * z 9 * z 148 - z 1 * z 4 * z 10 * z 154 - z 1 * z 3 * z 6 * z 10 * z 148) - z 2086 * z 2 * z 3 * z 43 - mg * (z 214 * z 2048 - z 183 * z 2076 - z 193 * z 2074 - z 211 * z 2047 - z 217 * z 2049 - z 188 * (z 2071 + z 2072)) - mc * (z 124 * z 2083 + z 1 * z 4 * z 130 + z 1 * z 3 * z 5 * z 138 - z 123 * z 2082 - z 125 * z 2084 - z 1 * z 3 * z 6 * z 137));
  SZ 2088 (z 542 * z 2080 + z 914 * z 1484 - z 539 * z 2081 - z 545 * z 2087 - z 910 * z 1188 - z 916 * z 1541);
  SZ 2089 ((Lit 2 1) * mg * (z 187 * z 2062 - z 182 * z 2061 - z 192 * z 2063) + (Lit 2 1) * mc * z 2 * (z 3 * z 5 * z 122 - z 4 * z 121 - z 3 * z 6 * z 120) + (Lit 2 1) * me * z 2 * (z 3 * z 5 * z 122 - z 4 * z 121 - z 3 * z 6 * z 120) + (Lit 2 1) * mf * z 2 * (z 3 * z 5 * z 122 - z 4 * z 121 - z 3 * z 6 * z 120));
  SZ 2090 (mc * (z 120 * z 2082 + z 121 * z 2083 + z 122 * z 2084 + z 2 * z 4 * z 130 + z 2 * z 3 * z 5 * z 138 - z 2 * z 3 * z 6 * z 137) - z 2086 * z 1 * z 3 * z 43 - mg * (z 211 * z 2061 + z 217 * z 2063 - z 182 * z 2076 - z 192 * z 2074 - z 214 * z 2062 - z 187 * (z 2071 + z 2072)) - me * (z 120 * z 1067 + z 158 * z 29 * z 43 * z 122 + z 2 * z 3 * z 5 * z 169 + z 163 * z 10 * z 29 * z 43 * z 121 + z 2 * z 3 * z 6 * z 9 * z 166 - z 121 * z 1066 - z 122 * z 1081 - z 2 * z 4 * z 145 - z 9 * z 121 * z 2085 - z 10 * z 120 * z 2085 - z 2 * z 3 * z 5 * z 146 - z 2 * z 3 * z 6 * z 126 - z 2 * z 4 * z 9 * z 159 - z 2 * z 4 * z 10 * z 166 - z 163 * z 9 * z 29 * z 43 * z 120 - z 2 * z 3 * z 6 * z 10 * z 159) - mf * (z 120 * z 1067 + d3 * z 29 * z 43 * z 122 + z 2 * z 3 * z 5 * z 157 + d2 * z 10 * z 29 * z 43 * z 121 + z 2 * z 3 * z 6 * z 9 * z 154 - z 121 * z 1066 - z 122 * z 1081 - z 2 * z 4 * z 145 - z 9 * z 121 * z 1074 - z 10 * z 120 * z 1074 - z 2 * z 3 * z 5 * z 146 - z 2 * z 3 * z 6 * z 126 - z 2 * z 4 * z 9 * z 148 - z 2 * z 4 * z 10 * z 154 - d2 * z 9 * z 29 * z 43 * z 120 - z 2 * z 3 * z 6 * z 10 * z 148));
  SZ 2091 (z 542 * z 2081 + z 910 * z 1484 - z 539 * z 2089 - z 545 * z 2090 - z 909 * z 1188 - z 912 * z 1541);
  SZ 2092 (id22 * z 3 * z 43 * z 53);
  SZ 2093 (ic11 * z 4 * z 6 * z 43);
  SZ 2094 (ic33 * z 4 * z 5 * z 43);
  SZ 2095 (ie33 * z 4 * z 5 * z 43);
  SZ 2096 (ie31 * z 4 * z 5 * z 43);
  SZ 2097 (ic31 * z 4 * z 5 * z 43);
  SZ 2098 (ic31 * z 4 * z 6 * z 43);
  SZ 2099 (z 50 * z 2097 + z 52 * z 2098 + z 3 * z 43 * z 768 + z 3 * z 43 * z 790 + z 27 * z 43 * z 806 + z 27 * z 43 * z 817 + z 29 * z 43 * z 815 + z 29 * z 43 * z 840 + z 43 * z 785 * z 1141 + z 43 * z 833 * z 1078 + z 43 * z 843 * z 1077 + z 43 * z 856 * z 2065 + z 43 * z 861 * z 2066 + z 43 * z 865 * z 2067 + z 43 * z 869 * z 2065 + z 43 * z 873 * z 2066 + ic22 * z 3 * z 43 * z 51 + id11 * z 43 * z 61 * z 1141 + id22 * z 3 * z 43 * z 51 + ie11 * z 27 * z 43 * z 81 + ie22 * z 29 * z 43 * z 82 + ie31 * z 27 * z 43 * z 52 + if11 * z 43 * z 90 * z 1078 + if11 * z 43 * z 94 * z 1077 + if22 * z 29 * z 43 * z 82 + ig11 * z 43 * z 110 * z 2065 + ig22 * z 43 * z 112 * z 2067 + ig31 * z 43 * z 110 * z 2066 + ig31 * z 43 * z 115 * z 2065 + ig33 * z 43 * z 115 * z 2066 + z 4 * z 5 * z 43 * z 764 + z 4 * z 6 * z 43 * z 772 + (Lit 2 1) * z 2086 * z 3 * z 43 * z 118 + (Lit 2 1) * mg * (z 211 * z 2076 + z 217 * z 2074 + z 214 * (z 2071 + z 2072)) - z 50 * z 2093 - z 52 * z 2094 - z 52 * z 2095 - z 81 * z 2096 - z 43 * z 794 * z 1142 - id11 * z 43 * z 64 * z 1142 - z 4 * z 5 * z 43 * z 776 - z 4 * z 5 * z 43 * z 811 - z 4 * z 5 * z 43 * z 822 - z 4 * z 6 * z 43 * z 761 - (Lit 2 1) * mc * (z 130 * z 2083 - z 137 * z 2082 - z 138 * z 2084) - (Lit 2 1) * me * (z 145 * z 1066 + z 159 * z 2085 + z 169 * z 1081 + z 9 * z 145 * z 2085 + z 9 * z 159 * z 1066 + z 9 * z 166 * z 1067 + z 10 * z 126 * z 2085 + z 10 * z 166 * z 1066 + z 158 * z 29 * z 43 * z 146 + z 163 * z 9 * z 29 * z 43 * z 126 - z 126 * z 1067 - z 146 * z 1081 - z 10 * z 159 * z 1067 - z 158 * z 29 * z 43 * z 169 - z 163 * z 29 * z 43 * z 166 - z 163 * z 10 * z 29 * z 43 * z 145) - (Lit 2 1) * mf * (z 145 * z 1066 + z 148 * z 1074 + z 157 * z 1081 + z 9 * z 145 * z 1074 + z 9 * z 148 * z 1066 + z 9 * z 154 * z 1067 + z 10 * z 126 * z 1074 + z 10 * z 154 * z 1066 + d3 * z 29 * z 43 * z 146 + d2 * z 9 * z 29 * z 43 * z 126 - z 126 * z 1067 - z 146 * z 1081 - z 10 * z 148 * z 1067 - d2 * z 29 * z 43 * z 154 - d3 * z 29 * z 43 * z 157 - d2 * z 10 * z 29 * z 43 * z 145));
  SZ 2100 (if22 * z 29 * z 43 * z 83);
  SZ 2101 (z 2092 + z 542 * z 2087 + z 916 * z 1484 - z 539 * z 2090 - z 545 * z 2099 - z 550 * z 2100 - z 912 * z 1188 - z 919 * z 1541 - z 936 * z 1624);
  SZ 2102 ((- z 923) * z 1541 - z 937 * z 1624 - z 29 * z 43 * z 545 * z 841);
  SZ 2103 (z 2079 + z 542 * z 2088 + z 958 * z 1484 - z 539 * z 2091 - z 545 * z 2101 - z 550 * z 2102 - z 955 * z 1541 - z 957 * z 1188 - z 961 * z 1624);
  SZ 2104 (z 859 * z 2051 + z 864 * z 2052 + z 14 * z 854 * z 1156 - mg * (z 200 * (z 2053 + z 2055) + z 201 * (z 2056 - l5 * z 2052) - z 205 * ((Lit 2 1) * z 2058 + l6 * z 2052)));
  SZ 2105 (z 43 * z 854 * z 2065 + z 43 * z 859 * z 2066 + z 43 * z 864 * z 2067 + mg * (z 205 * z 2076 - z 201 * z 2074 - z 200 * (z 2071 + z 2072)));
  SZ 2106 (z 548 * z 2104 + z 906 * z 1196 + z 924 * z 1542 - z 540 * z 2064 - z 543 * z 2050 - z 546 * z 2105 - z 907 * z 1487 - z 932 * z 1577);
  SZ 2107 (z 907 * z 1484 - z 539 * z 2064 - z 542 * z 2050 - z 545 * z 2105 - z 906 * z 1188 - z 924 * z 1541);
  SZ 2108 (z 921 * z 1542 + (Lit 2 1) * z 548 * z 791 * z 1152 - z 929 * z 1577 - z 3 * z 43 * z 546 * z 791);
  SZ 2109 ((Lit 2 1) * z 158 * z 29 * (z 30 + z 69) - d2 * z 1190 - l4 * z 1190);
  SZ 2110 ((me * z 2109 + mf * z 1191) * (z 9 * z 124 - z 10 * z 123) - z 1 * (me * z 161 + mf * z 150) * (z 4 * z 9 + z 3 * z 6 * z 10));
  SZ 2111 (z 158 * z 1159 - d2 * z 1160 - l4 * z 1160);
  SZ 2112 (me * (d1 * z 124 * z 1156 + z 9 * z 124 * z 2111 + z 163 * z 9 * z 123 * z 1153 + z 163 * z 10 * z 124 * z 1153 + z 1 * z 3 * z 5 * z 141 + z 1 * z 3 * z 5 * z 167 + z 1 * z 3 * z 6 * z 9 * z 164 - (Lit 2 1) * d1 * z 125 * z 1152 - z 158 * z 125 * z 1153 - z 1 * z 4 * z 143 - z 10 * z 123 * z 2111 - z 1 * z 4 * z 9 * z 160 - z 1 * z 4 * z 10 * z 164 - z 1 * z 3 * z 6 * z 10 * z 160) + mf * (d1 * z 124 * z 1156 + z 9 * z 124 * z 1161 + d2 * z 9 * z 123 * z 1153 + d2 * z 10 * z 124 * z 1153 + z 1 * z 3 * z 5 * z 141 + z 1 * z 3 * z 5 * z 155 + z 1 * z 3 * z 6 * z 9 * z 152 - (Lit 2 1) * d1 * z 125 * z 1152 - d3 * z 125 * z 1153 - z 1 * z 4 * z 143 - z 10 * z 123 * z 1161 - z 1 * z 4 * z 9 * z 149 - z 1 * z 4 * z 10 * z 152 - z 1 * z 3 * z 6 * z 10 * z 149) - mc * (z 1 * z 4 * z 128 + (Lit 2 1) * l1 * z 125 * z 1152 - (Lit 2 1) * l2 * z 123 * z 1152 - l1 * z 124 * z 1156 - z 1 * z 3 * z 5 * z 132 - z 1 * z 3 * z 6 * z 135) - mg * (z 213 * z 2048 - z 210 * z 2047 - z 216 * z 2049 - z 188 * (z 2053 + z 2055) - z 183 * ((Lit 2 1) * z 2058 + l6 * z 2052) - z 193 * (z 2056 - l5 * z 2052)));
  SZ 2113 (z 2110 + z 543 * z 2080 + z 548 * z 2112 + z 910 * z 1196 + z 916 * z 1542 - z 540 * z 2081 - z 546 * z 2087 - z 914 * z 1487 - z 915 * z 1577);
  SZ 2114 (mc * (z 2 * z 4 * z 128 + (Lit 2 1) * l2 * z 120 * z 1152 - (Lit 2 1) * l1 * z 122 * z 1152 - l1 * z 121 * z 1156 - z 2 * z 3 * z 5 * z 132 - z 2 * z 3 * z 6 * z 135) - mg * (z 210 * z 2061 + z 216 * z 2063 - z 213 * z 2062 - z 187 * (z 2053 + z 2055) - z 182 * ((Lit 2 1) * z 2058 + l6 * z 2052) - z 192 * (z 2056 - l5 * z 2052)) - me * (d1 * z 121 * z 1156 + z 158 * z 122 * z 1153 + z 9 * z 121 * z 2111 + z 10 * z 120 * z 2111 + (Lit 2 1) * d1 * z 122 * z 1152 + z 163 * z 10 * z 121 * z 1153 + z 2 * z 3 * z 5 * z 141 + z 2 * z 3 * z 5 * z 167 + z 2 * z 3 * z 6 * z 9 * z 164 - z 2 * z 4 * z 143 - z 163 * z 9 * z 120 * z 1153 - z 2 * z 4 * z 9 * z 160 - z 2 * z 4 * z 10 * z 164 - z 2 * z 3 * z 6 * z 10 * z 160) - mf * (d1 * z 121 * z 1156 + d3 * z 122 * z 1153 + z 9 * z 121 * z 1161 + z 10 * z 120 * z 1161 + (Lit 2 1) * d1 * z 122 * z 1152 + d2 * z 10 * z 121 * z 1153 + z 2 * z 3 * z 5 * z 141 + z 2 * z 3 * z 5 * z 155 + z 2 * z 3 * z 6 * z 9 * z 152 - z 2 * z 4 * z 143 - d2 * z 9 * z 120 * z 1153 - z 2 * z 4 * z 9 * z 149 - z 2 * z 4 * z 10 * z 152 - z 2 * z 3 * z 6 * z 10 * z 149));
  SZ 2115 ((me * z 2109 + mf * z 1191) * (z 9 * z 121 + z 10 * z 120) - z 2 * (me * z 161 + mf * z 150) * (z 4 * z 9 + z 3 * z 6 * z 10));
  SZ 2116 (z 543 * z 2081 + z 548 * z 2114 + z 909 * z 1196 + z 912 * z 1542 - z 2115 - z 540 * z 2089 - z 546 * z 2090 - z 910 * z 1487 - z 911 * z 1577);
  SZ 2117 (z 806 * z 1190 + z 817 * z 1190 + z 833 * z 1193 + z 843 * z 1192 + ie11 * z 27 * z 43 * z 75 + ie31 * z 27 * z 43 * z 79 + if11 * z 43 * z 93 * z 1078 + if11 * z 43 * z 96 * z 1077 + (Lit 2 1) * z 29 * z 811 * (z 30 + z 69) + (Lit 2 1) * z 29 * z 822 * (z 30 + z 69) + me * z 2109 * (z 159 + z 9 * z 145 + z 10 * z 126) + mf * z 1191 * (z 148 + z 9 * z 145 + z 10 * z 126) - z 75 * z 2096 - z 79 * z 2095 - me * z 161 * (z 2085 + z 9 * z 1066 - z 10 * z 1067) - mf * z 150 * (z 1074 + z 9 * z 1066 - z 10 * z 1067));
  SZ 2118 (z 48 * z 2098 + z 776 * z 1156 + z 806 * z 1160 + z 811 * z 1159 + z 815 * z 1153 + z 817 * z 1160 + z 822 * z 1159 + z 833 * z 1164 + z 840 * z 1153 + z 843 * z 1163 + z 861 * z 2051 + z 865 * z 2052 + z 873 * z 2051 + (Lit 2 1) * z 768 * z 1152 + (Lit 2 1) * z 790 * z 1152 + z 14 * z 856 * z 1156 + z 14 * z 869 * z 1156 + z 7 * z 794 * z 1156 + ic22 * z 3 * z 43 * z 47 + id22 * z 3 * z 43 * z 47 + ie11 * z 27 * z 43 * z 73 + ie22 * z 29 * z 43 * z 76 + ie31 * z 27 * z 43 * z 78 + if11 * z 43 * z 91 * z 1078 + if11 * z 43 * z 95 * z 1077 + if22 * z 29 * z 43 * z 76 + ig11 * z 43 * z 111 * z 2065 + ig22 * z 43 * z 114 * z 2067 + ig31 * z 43 * z 111 * z 2066 + ig31 * z 43 * z 116 * z 2065 + ig33 * z 43 * z 116 * z 2066 + mg * (z 210 * z 2076 + z 216 * z 2074 + z 213 * (z 2071 + z 2072) + z 214 * (z 2053 + z 2055) + z 211 * ((Lit 2 1) * z 2058 + l6 * z 2052) + z 217 * (z 2056 - l5 * z 2052)) - z 48 * z 2094 - z 73 * z 2096 - z 78 * z 2095 - z 764 * z 1156 - z 8 * z 785 * z 1156 - id11 * z 43 * z 62 * z 1141 - id11 * z 43 * z 65 * z 1142 - mc * (z 128 * z 2083 + z 132 * z 2084 + (Lit 2 1) * l1 * z 138 * z 1152 - z 135 * z 2082 - (Lit 2 1) * l2 * z 137 * z 1152 - l1 * z 130 * z 1156) - me * (z 141 * z 1081 + z 143 * z 1066 + z 160 * z 2085 + z 167 * z 1081 + z 158 * z 146 * z 1153 + z 9 * z 143 * z 2085 + z 9 * z 160 * z 1066 + z 9 * z 164 * z 1067 + z 10 * z 164 * z 1066 + (Lit 2 1) * d1 * z 146 * z 1152 + z 163 * z 9 * z 126 * z 1153 - z 159 * z 2111 - (Lit 2 1) * d1 * z 169 * z 1152 - d1 * z 145 * z 1156 - z 158 * z 169 * z 1153 - z 163 * z 166 * z 1153 - z 9 * z 145 * z 2111 - z 10 * z 126 * z 2111 - z 10 * z 160 * z 1067 - d1 * z 9 * z 159 * z 1156 - d1 * z 10 * z 166 * z 1156 - z 158 * z 29 * z 43 * z 141 - z 158 * z 29 * z 43 * z 167 - z 163 * z 10 * z 145 * z 1153 - z 163 * z 29 * z 43 * z 164 - z 163 * z 10 * z 29 * z 43 * z 143) - mf * (z 141 * z 1081 + z 143 * z 1066 + z 149 * z 1074 + z 155 * z 1081 + d3 * z 146 * z 1153 + z 9 * z 143 * z 1074 + z 9 * z 149 * z 1066 + z 9 * z 152 * z 1067 + z 10 * z 152 * z 1066 + (Lit 2 1) * d1 * z 146 * z 1152 + d2 * z 9 * z 126 * z 1153 - z 148 * z 1161 - (Lit 2 1) * d1 * z 157 * z 1152 - d1 * z 145 * z 1156 - d2 * z 154 * z 1153 - d3 * z 157 * z 1153 - z 9 * z 145 * z 1161 - z 10 * z 126 * z 1161 - z 10 * z 149 * z 1067 - d1 * z 9 * z 148 * z 1156 - d1 * z 10 * z 154 * z 1156 - d2 * z 10 * z 145 * z 1153 - d2 * z 29 * z 43 * z 152 - d3 * z 29 * z 43 * z 141 - d3 * z 29 * z 43 * z 155 - d2 * z 10 * z 29 * z 43 * z 143));
  SZ 2119 (z 2117 + z 543 * z 2087 + z 548 * z 2118 + z 551 * z 2100 + z 912 * z 1196 + z 919 * z 1542 - z 540 * z 2090 - z 546 * z 2099 - z 916 * z 1487 - z 927 * z 1577 - z 936 * z 1623);
  SZ 2120 (z 923 * z 1542 + z 548 * z 841 * z 1153 - z 931 * z 1577 - z 937 * z 1623 - z 29 * z 43 * z 546 * z 841);
  SZ 2121 (z 2108 + z 542 * z 2113 + z 972 * z 1484 - z 539 * z 2116 - z 545 * z 2119 - z 550 * z 2120 - z 970 * z 1541 - z 971 * z 1188 - z 975 * z 1624);
  SZ 2122 (z 964 * z 2106 + z 973 * z 2103 - z 960 * z 2121 - z 978 * z 2107);
  SZ 2123 (ie31 * z 29 * (z 30 + z 69));
  SZ 2124 (ie33 * z 29 * (z 30 + z 69));
  SZ 2125 (z 805 * z 1190 + z 819 * z 1190 + z 836 * z 1193 + z 845 * z 1192 + (Lit 2 1) * z 75 * z 2123 + (Lit 2 1) * z 79 * z 2124 + ie11 * z 75 * z 1190 + ie31 * z 79 * z 1190 + if11 * z 93 * z 1193 + if11 * z 96 * z 1192 + (Lit 2 1) * me * z 161 * z 2109 + (Lit 2 1) * mf * z 150 * z 1191 + (Lit 2 1) * z 29 * z 810 * (z 30 + z 69) + (Lit 2 1) * z 29 * z 824 * (z 30 + z 69));
  SZ 2126 (z 805 * z 1160 + z 810 * z 1159 + z 819 * z 1160 + z 824 * z 1159 + z 836 * z 1164 + z 845 * z 1163 + (Lit 2 1) * z 73 * z 2123 + (Lit 2 1) * z 78 * z 2124 + ie11 * z 73 * z 1190 + ie31 * z 78 * z 1190 + if11 * z 91 * z 1193 + if11 * z 95 * z 1192 + me * z 2109 * (z 160 + z 9 * z 143) + mf * z 1191 * (z 149 + z 9 * z 143) + me * z 161 * (z 2111 + d1 * z 9 * z 1156) + mf * z 150 * (z 1161 + d1 * z 9 * z 1156));
  SZ 2127 ((Lit 2 1) * z 52 * z 2124 + (Lit 2 1) * z 81 * z 2123 + ie11 * z 81 * z 1190 + ie31 * z 52 * z 1190 + if11 * z 90 * z 1193 + if11 * z 94 * z 1192 + z 27 * z 43 * z 805 + z 27 * z 43 * z 819 + z 43 * z 836 * z 1078 + z 43 * z 845 * z 1077 + me * z 2109 * (z 159 + z 9 * z 145 + z 10 * z 126) + mf * z 1191 * (z 148 + z 9 * z 145 + z 10 * z 126) - z 4 * z 5 * z 43 * z 810 - z 4 * z 5 * z 43 * z 824 - me * z 161 * (z 2085 + z 9 * z 1066 - z 10 * z 1067) - mf * z 150 * (z 1074 + z 9 * z 1066 - z 10 * z 1067));
  SZ 2128 (z 2125 + z 540 * z 2115 + z 543 * z 2110 + z 548 * z 2126 + z 922 * z 1542 - z 546 * z 2127 - z 899 * z 1196 - z 900 * z 1487 - z 930 * z 1577);
  SZ 2129 (z 803 * z 1190 + z 818 * z 1190 + z 834 * z 1193 + z 844 * z 1192 + ie11 * z 75 * z 1160 + ie31 * z 75 * z 1159 + ie31 * z 79 * z 1160 + ie33 * z 79 * z 1159 + if11 * z 93 * z 1164 + if11 * z 96 * z 1163 + (Lit 2 1) * z 29 * z 808 * (z 30 + z 69) + (Lit 2 1) * z 29 * z 823 * (z 30 + z 69) + me * z 2109 * (z 160 + z 9 * z 143) + mf * z 1191 * (z 149 + z 9 * z 143) + me * z 161 * (z 2111 + d1 * z 9 * z 1156) + mf * z 150 * (z 1161 + d1 * z 9 * z 1156));
  SZ 2131 (z 774 * z 1156 + z 803 * z 1160 + z 808 * z 1159 + z 813 * z 1153 + z 818 * z 1160 + z 823 * z 1159 + z 834 * z 1164 + z 838 * z 1153 + z 844 * z 1163 + z 862 * z 2051 + z 867 * z 2052 + z 874 * z 2051 + (Lit 2 1) * z 767 * z 1152 + (Lit 2 1) * z 789 * z 1152 + ic33 * z 48 * z 1156 + ie11 * z 73 * z 1160 + ie22 * z 76 * z 1153 + ie31 * z 73 * z 1159 + ie31 * z 78 * z 1160 + ie33 * z 78 * z 1159 + if11 * z 91 * z 1164 + if11 * z 95 * z 1163 + if22 * z 76 * z 1153 + ig22 * z 114 * z 2052 + ig31 * z 111 * z 2051 + ig33 * z 116 * z 2051 + z 14 * z 857 * z 1156 + z 14 * z 870 * z 1156 + z 2059 * z 111 * z 1156 + z 2130 * z 116 * z 1156 + z 7 * z 795 * z 1156 + z 8 * z 786 * z 1156 + (Lit 2 1) * ic22 * z 47 * z 1152 + (Lit 2 1) * id22 * z 47 * z 1152 + id11 * z 7 * z 65 * z 1156 + id11 * z 8 * z 62 * z 1156 + (Lit 2 1) * mc * (l1 * z 128 * z 1156 + (Lit 2 1) * l1 * z 132 * z 1152 + (Lit 2 1) * l2 * z 135 * z 1152) + (Lit 2 1) * mg * (z 213 * (z 2053 + z 2055) + z 210 * ((Lit 2 1) * z 2058 + l6 * z 2052) + z 216 * (z 2056 - l5 * z 2052)) + (Lit 2 1) * me * (z 160 * z 2111 + d1 * z 143 * z 1156 + z 158 * z 141 * z 1153 + z 158 * z 167 * z 1153 + z 163 * z 164 * z 1153 + z 9 * z 143 * z 2111 + (Lit 2 1) * d1 * z 141 * z 1152 + (Lit 2 1) * d1 * z 167 * z 1152 + d1 * z 9 * z 160 * z 1156 + d1 * z 10 * z 164 * z 1156 + z 163 * z 10 * z 143 * z 1153) + (Lit 2 1) * mf * (z 149 * z 1161 + d1 * z 143 * z 1156 + d2 * z 152 * z 1153 + d3 * z 141 * z 1153 + d3 * z 155 * z 1153 + z 9 * z 143 * z 1161 + (Lit 2 1) * d1 * z 141 * z 1152 + (Lit 2 1) * d1 * z 155 * z 1152 + d1 * z 9 * z 149 * z 1156 + d1 * z 10 * z 152 * z 1156 + d2 * z 10 * z 143 * z 1153));
  SZ 2132 (ic33 * z 52 * z 1156 + ie11 * z 81 * z 1160 + ie22 * z 82 * z 1153 + ie31 * z 52 * z 1160 + ie31 * z 81 * z 1159 + ie33 * z 52 * z 1159 + if11 * z 90 * z 1164 + if11 * z 94 * z 1163 + if22 * z 82 * z 1153 + ig22 * z 112 * z 2052 + ig31 * z 110 * z 2051 + ig33 * z 115 * z 2051 + z 2059 * z 110 * z 1156 + z 2130 * z 115 * z 1156 + z 3 * z 43 * z 767 + z 3 * z 43 * z 789 + z 27 * z 43 * z 803 + z 27 * z 43 * z 818 + z 29 * z 43 * z 813 + z 29 * z 43 * z 838 + z 43 * z 834 * z 1078 + z 43 * z 844 * z 1077 + z 43 * z 857 * z 2065 + z 43 * z 862 * z 2066 + z 43 * z 867 * z 2067 + z 43 * z 870 * z 2065 + z 43 * z 874 * z 2066 + (Lit 2 1) * ic22 * z 51 * z 1152 + (Lit 2 1) * id22 * z 51 * z 1152 + id11 * z 7 * z 64 * z 1156 + z 4 * z 6 * z 43 * z 770 + mg * (z 210 * z 2076 + z 216 * z 2074 + z 213 * (z 2071 + z 2072) + z 214 * (z 2053 + z 2055) + z 211 * ((Lit 2 1) * z 2058 + l6 * z 2052) + z 217 * (z 2056 - l5 * z 2052)) - ic31 * z 50 * z 1156 - z 43 * z 786 * z 1141 - z 43 * z 795 * z 1142 - id11 * z 8 * z 61 * z 1156 - z 4 * z 5 * z 43 * z 774 - z 4 * z 5 * z 43 * z 808 - z 4 * z 5 * z 43 * z 823 - mc * (z 128 * z 2083 + z 132 * z 2084 + (Lit 2 1) * l1 * z 138 * z 1152 - z 135 * z 2082 - (Lit 2 1) * l2 * z 137 * z 1152 - l1 * z 130 * z 1156) - me * (z 141 * z 1081 + z 143 * z 1066 + z 160 * z 2085 + z 167 * z 1081 + z 158 * z 146 * z 1153 + z 9 * z 143 * z 2085 + z 9 * z 160 * z 1066 + z 9 * z 164 * z 1067 + z 10 * z 164 * z 1066 + (Lit 2 1) * d1 * z 146 * z 1152 + z 163 * z 9 * z 126 * z 1153 - z 159 * z 2111 - (Lit 2 1) * d1 * z 169 * z 1152 - d1 * z 145 * z 1156 - z 158 * z 169 * z 1153 - z 163 * z 166 * z 1153 - z 9 * z 145 * z 2111 - z 10 * z 126 * z 2111 - z 10 * z 160 * z 1067 - d1 * z 9 * z 159 * z 1156 - d1 * z 10 * z 166 * z 1156 - z 158 * z 29 * z 43 * z 141 - z 158 * z 29 * z 43 * z 167 - z 163 * z 10 * z 145 * z 1153 - z 163 * z 29 * z 43 * z 164 - z 163 * z 10 * z 29 * z 43 * z 143) - mf * (z 141 * z 1081 + z 143 * z 1066 + z 149 * z 1074 + z 155 * z 1081 + d3 * z 146 * z 1153 + z 9 * z 143 * z 1074 + z 9 * z 149 * z 1066 + z 9 * z 152 * z 1067 + z 10 * z 152 * z 1066 + (Lit 2 1) * d1 * z 146 * z 1152 + d2 * z 9 * z 126 * z 1153 - z 148 * z 1161 - (Lit 2 1) * d1 * z 157 * z 1152 - d1 * z 145 * z 1156 - d2 * z 154 * z 1153 - d3 * z 157 * z 1153 - z 9 * z 145 * z 1161 - z 10 * z 126 * z 1161 - z 10 * z 149 * z 1067 - d1 * z 9 * z 148 * z 1156 - d1 * z 10 * z 154 * z 1156 - d2 * z 10 * z 145 * z 1153 - d2 * z 29 * z 43 * z 152 - d3 * z 29 * z 43 * z 141 - d3 * z 29 * z 43 * z 155 - d2 * z 10 * z 29 * z 43 * z 143));
  SZ 2133 (z 2129 + z 543 * z 2112 + z 548 * z 2131 + z 911 * z 1196 + z 920 * z 1542 + if22 * z 83 * z 551 * z 1153 - z 540 * z 2114 - z 546 * z 2132 - z 915 * z 1487 - z 928 * z 1577 - z 934 * z 1623);
  SZ 2134 (z 2128 + z 543 * z 2113 + z 548 * z 2133 + z 551 * z 2120 + z 970 * z 1542 + z 971 * z 1196 - z 540 * z 2116 - z 546 * z 2119 - z 967 * z 1577 - z 972 * z 1487 - z 975 * z 1623);
  SZ 2135 (z 539 * z 2115 + z 542 * z 2110 + z 899 * z 1188 + z 900 * z 1484 - z 545 * z 2127 - z 922 * z 1541);
  SZ 2136 (z 542 * z 2112 + z 915 * z 1484 + (Lit 2 1) * id22 * z 53 * z 1152 - z 539 * z 2114 - z 545 * z 2132 - z 911 * z 1188 - z 920 * z 1541 - z 934 * z 1624 - if22 * z 83 * z 550 * z 1153);
  SZ 2137 (z 2135 + z 543 * z 2088 + z 548 * z 2136 + z 551 * z 2102 + z 955 * z 1542 + z 957 * z 1196 - z 540 * z 2091 - z 546 * z 2101 - z 954 * z 1577 - z 958 * z 1487 - z 961 * z 1623);
  SZ 2138 (z 964 * z 2134 + z 979 * z 2103 - z 965 * z 2121 - z 978 * z 2137);
  SZ 2139 (z 907 * z 1484 - z 539 * z 2064 - z 542 * z 2050 - z 545 * z 2077 - z 902 * z 1541 - z 906 * z 1188);
  SZ 2140 (z 965 * z 2106 + z 973 * z 2137 - z 960 * z 2134 - z 979 * z 2107);
  SZ 2141 (z 983 * z 2122 + z 1003 * z 2078 - z 905 * z 2138 - z 982 * z 2140 - z 1004 * z 2139);
  SZ 2142 (z 4 * z 6 * q5p - z 3 * z 6 * z 1578 - z 3 * z 5 * q4p);
  SZ 2143 ((- z 4) * z 6 * z 1578 - z 3 * z 6 * q5p - z 4 * z 5 * q4p);
  SZ 2144 (z 5 * (PowN (z 3) 2) * q4p + z 5 * (PowN (z 4) 2) * q4p + z 3 * z 269 + z 3 * z 2142 + z 4 * z 2143 - z 3 * z 32 * q4p - z 4 * z 31 * q4p - z 4 * z 268);
  SZ 2145 (z 3 * z 5 * z 1578 - z 3 * z 6 * q4p - z 4 * z 5 * q5p);
  SZ 2146 (q4p * z 2144 - z 43 * z 1543 * z 271 - z 43 * q3p * z 2145);
  SZ 2147 (z 4 * z 5 * z 1578 + z 3 * z 5 * q5p - z 4 * z 6 * q4p);
  SZ 2148 (z 6 * (PowN (z 3) 2) * q4p + z 6 * (PowN (z 4) 2) * q4p + z 3 * z 273 + z 3 * z 2145 + z 4 * z 2147 - z 3 * z 42 * q4p - z 4 * z 41 * q4p - z 4 * z 271);
  SZ 2149 (z 4 * z 32 * q4p + z 3 * z 2143 - z 3 * z 31 * q4p - z 3 * z 268 - z 4 * z 269 - z 4 * z 2142);
  SZ 2150 (z 1578 * z 278 + q4p * z 2148 + q5p * z 2149 + z 43 * z 1543 * z 268 + z 43 * q3p * z 2142);
  SZ 2151 (z 47 * z 1578 + z 51 * z 1543 + z 1126 * q4p + (Lit 2 1) * z 1152 * q5p + z 3 * z 43 * q3p);
  SZ 2152 (z 48 * q4p + z 4 * z 6 * z 43 * q3p - z 50 * z 1543);
  SZ 2153 (z 48 * z 1578 + z 52 * z 1543 + z 1061 * q4p + z 1156 * q5p - z 4 * z 5 * z 43 * q3p);
  SZ 2154 (ic31 * z 2152 + ic33 * z 2153);
  SZ 2155 (z 266 * z 2154 + z 758 * z 2151 - z 759 * z 2153 - ic22 * z 267 * z 2151);
  SZ 2156 (z 31 * z 2145 + z 42 * z 2143 + z 3 * z 5 * z 271 + z 4 * z 5 * z 273 - z 32 * z 2147 - z 41 * z 2142 - z 3 * z 6 * z 268 - z 4 * z 6 * z 269);
  SZ 2157 ((Lit 2 1) * z 41 * z 2147 + (Lit 2 1) * z 42 * z 2145 + (Lit 2 1) * z 3 * z 6 * z 273 - (Lit 2 1) * z 5 * z 6 * z 1578 - (Lit 2 1) * z 4 * z 6 * z 271);
  SZ 2158 (z 1543 * z 276 + z 1578 * z 275 + q4p * z 2156 + q5p * z 2157 - z 4 * z 43 * q3p * q4p);
  SZ 2159 (ic11 * z 2152 + ic31 * z 2153);
  SZ 2160 (z 267 * z 2159 + z 757 * z 2153 - z 265 * z 2154 - z 758 * z 2152);
  SZ 2161 (z 64 * z 1543 + z 65 * z 1578 + z 1063 * q4p + z 7 * z 1156 * q5p - z 43 * z 1142 * q3p);
  SZ 2162 (z 61 * z 1543 + z 1062 * q4p + z 43 * z 1141 * q3p - z 62 * z 1578 - z 8 * z 1156 * q5p);
  SZ 2163 (z 781 * z 2161 + id11 * z 283 * z 2162 - z 783 * z 2162 - id11 * z 281 * z 2161);
  SZ 2164 (z 759 * z 2152 + ic22 * z 265 * z 2151 - z 266 * z 2159 - z 757 * z 2151);
  SZ 2165 (z 7 * z 2144 - z 7 * z 1061 * q6p - z 8 * z 48 * q6p - z 8 * z 2148);
  SZ 2166 (z 4 * z 5 * z 7 * q6p - z 4 * z 6 * z 8 * q6p - z 7 * z 2145 - z 8 * z 2142);
  SZ 2167 (z 7 * z 1156 * q6p + z 8 * z 2149);
  SZ 2168 (q4p * z 2165 + z 43 * z 1543 * z 285 + z 43 * q3p * z 2166 - z 1578 * z 286 - q5p * z 2167);
  SZ 2169 (z 783 * z 2151 + id11 * z 282 * z 2161 - z 782 * z 2161 - id22 * z 283 * z 2151);
  SZ 2170 (z 7 * z 48 * q6p + z 7 * z 2148 + z 8 * z 2144 - z 8 * z 1061 * q6p);
  SZ 2171 (z 7 * z 2149 - z 8 * z 1156 * q6p);
  SZ 2172 (z 4 * z 5 * z 8 * q6p + z 4 * z 6 * z 7 * q6p + z 7 * z 2142 - z 8 * z 2145);
  SZ 2173 (z 1578 * z 290 + q4p * z 2170 + q5p * z 2171 + z 43 * z 1543 * z 289 + z 43 * q3p * z 2172);
  SZ 2174 (z 782 * z 2162 + id22 * z 281 * z 2151 - z 781 * z 2151 - id11 * z 282 * z 2162);
  SZ 2175 (z 4 * z 10 * q7p + z 4 * z 26 * q4p - z 4 * z 5 * z 10 * z 1578 - z 3 * z 9 * q4p - z 3 * z 295);
  SZ 2176 (z 3 * z 10 * q7p + z 3 * z 26 * q4p + z 4 * z 9 * q4p + z 4 * z 295 - z 3 * z 5 * z 10 * z 1578);
  SZ 2177 (z 29 * z 2142 + z 32 * z 2175 + z 69 * z 268 - z 31 * z 2176 - z 69 * z 2143 - z 1133 * z 269 - z 3 * z 5 * z 301 - z 4 * z 5 * z 300);
  SZ 2178 (z 3 * z 296 - z 4 * z 6 * z 10 * z 1578 - z 4 * z 25 * q4p);
  SZ 2179 ((- z 3) * z 6 * z 10 * z 1578 - z 3 * z 25 * q4p - z 4 * z 296);
  SZ 2180 (z 5 * z 26 * z 1578 + z 5 * z 6 * z 10 * z 1578 + z 31 * z 2178 + z 32 * z 2179 + z 71 * z 2143 + z 72 * z 2142 + z 3 * z 5 * z 297 + z 3 * z 25 * z 269 - z 4 * z 5 * z 298 - z 4 * z 25 * z 268);
  SZ 2181 (z 3 * z 5 * z 9 * z 1578 + z 4 * z 10 * q4p - z 3 * z 9 * q7p - z 3 * z 24 * q4p - z 4 * z 303);
  SZ 2182 (z 3 * z 10 * q4p + z 4 * z 9 * q7p + z 4 * z 24 * q4p - z 4 * z 5 * z 9 * z 1578 - z 3 * z 303);
  SZ 2183 (z 9 * (PowN (z 6) 2) * z 1578 + z 32 * z 2181 + z 66 * z 2142 + z 70 * z 268 - z 5 * z 23 * z 1578 - z 28 * z 269 - z 31 * z 2182 - z 70 * z 2143 - z 3 * z 5 * z 306 - z 4 * z 5 * z 304);
  SZ 2184 (z 3 * z 9 * q7p + z 3 * z 24 * q4p + z 4 * z 303 - z 3 * z 5 * z 9 * z 1578 - z 4 * z 10 * q4p);
  SZ 2185 (z 1578 * z 299 + q4p * z 2177 + q5p * z 2180 + q7p * z 2183 + z 43 * z 1543 * z 308 + z 43 * q3p * z 2184);
  SZ 2186 (z 3 * z 5 * z 10 * z 1578 - z 3 * z 10 * q7p - z 3 * z 26 * q4p - z 4 * z 9 * q4p - z 4 * z 295);
  SZ 2187 (z 4 * z 5 * z 9 * z 1578 + z 3 * z 303 - z 3 * z 10 * q4p - z 4 * z 9 * q7p - z 4 * z 24 * q4p);
  SZ 2188 (z 27 * z 2186 + z 29 * z 310 + z 29 * z 2181 + z 30 * z 2187 + z 66 * z 313 + z 66 * z 2175 + z 69 * z 304 + z 70 * z 300);
  SZ 2189 (z 3 * z 305 - z 4 * z 6 * z 9 * z 1578 - z 4 * z 23 * q4p);
  SZ 2190 ((- z 3) * z 6 * z 9 * z 1578 - z 3 * z 23 * q4p - z 4 * z 305);
  SZ 2191 (z 5 * z 9 * z 25 * z 1578 + z 29 * z 2189 + z 67 * z 2175 + z 69 * z 315 + z 3 * z 23 * z 300 + z 4 * z 23 * z 313 - z 6 * z 10 * z 24 * z 1578 - z 29 * z 316 - z 30 * z 2190 - z 68 * z 2186);
  SZ 2192 ((Lit 2 1) * z 29 * z 313 + (Lit 2 1) * z 29 * z 2175 + (Lit 2 1) * z 30 * z 2186 + (Lit 2 1) * z 69 * z 300 - (Lit 2 1) * z 6 * z 10 * z 25 * z 1578);
  SZ 2193 (z 1578 * z 317 + q4p * z 2188 + q5p * z 2191 + q7p * z 2192 + z 43 * z 1543 * z 268 + z 43 * q3p * z 2142);
  SZ 2194 (z 76 * z 1578 + z 82 * z 1543 + z 1127 * q4p + z 1153 * q5p + z 29 * z 43 * q3p);
  SZ 2195 (z 73 * z 1578 + z 81 * z 1543 + z 1134 * q4p + z 1160 * q5p + z 1190 * q7p + z 27 * z 43 * q3p);
  SZ 2196 (z 52 * z 1543 + z 78 * z 1578 + z 1132 * q4p + z 1159 * q5p + (Lit 2 1) * z 29 * (z 30 + z 69) * q7p - z 4 * z 5 * z 43 * q3p);
  SZ 2197 (ie31 * z 2195 + ie33 * z 2196);
  SZ 2198 (z 293 * z 2197 + z 801 * z 2194 - z 802 * z 2196 - ie22 * z 294 * z 2194);
  SZ 2199 (z 4 * z 5 * z 310 - z 27 * z 269 - z 27 * z 2142 - z 28 * z 2143 - z 31 * z 2184 - z 32 * z 2187 - z 66 * z 268 - z 3 * z 5 * z 308);
  SZ 2200 (z 27 * z 2147 + z 41 * z 2187 + z 66 * z 273 + z 3 * z 6 * z 310 + z 4 * z 6 * z 308 - z 6 * z 23 * z 1578 - z 5 * z 6 * z 9 * z 1578 - z 27 * z 271 - z 28 * z 2145 - z 42 * z 2184);
  SZ 2201 (z 1578 * z 311 + q4p * z 2199 + q5p * z 2200 + z 43 * z 1543 * z 313 + z 43 * q3p * z 2186);
  SZ 2202 (ie11 * z 2195 + ie31 * z 2196);
  SZ 2203 (z 294 * z 2202 + z 800 * z 2196 - z 292 * z 2197 - z 801 * z 2195);
  SZ 2204 (z 94 * z 1543 + z 95 * z 1578 + z 1137 * q4p + z 1163 * q5p + z 1192 * q7p + z 43 * z 1077 * q3p);
  SZ 2205 (z 90 * z 1543 + z 91 * z 1578 + z 1138 * q4p + z 1164 * q5p + z 1193 * q7p + z 43 * z 1078 * q3p);
  SZ 2206 (z 830 * z 2204 + if11 * z 323 * z 2205 - z 832 * z 2205 - if11 * z 321 * z 2204);
  SZ 2207 (z 802 * z 2195 + ie22 * z 292 * z 2194 - z 293 * z 2202 - z 800 * z 2194);
  SZ 2208 (z 11 * z 2177 - z 11 * z 80 * z 1625 - z 12 * z 74 * z 1625 - z 11 * z 1132 * q8p - z 12 * z 1134 * q8p - z 12 * z 2188);
  SZ 2209 (z 11 * z 2180 - z 11 * z 78 * z 1625 - z 12 * z 73 * z 1625 - z 11 * z 1159 * q8p - z 12 * z 1160 * q8p - z 12 * z 2191);
  SZ 2210 (z 11 * z 2183 - z 11 * z 79 * z 1625 - z 12 * z 75 * z 1625 - z 12 * z 1190 * q8p - (Lit 2 1) * z 11 * z 29 * (z 30 + z 69) * q8p - z 12 * z 2192);
  SZ 2211 (z 4 * z 5 * z 11 * q8p + z 11 * z 2184 - z 11 * z 32 * z 1625 - z 12 * z 28 * z 1625 - z 12 * z 27 * q8p - z 12 * z 2142);
  SZ 2212 (z 1578 * z 325 + q4p * z 2208 + q5p * z 2209 + q7p * z 2210 + z 43 * z 1543 * z 324 + z 43 * q3p * z 2211);
  SZ 2213 (z 76 * z 1578 + z 82 * z 1543 + z 83 * z 1625 + z 1127 * q4p + z 1153 * q5p + z 29 * z 43 * q3p);
  SZ 2214 (z 832 * z 2213 + if11 * z 322 * z 2204 - z 831 * z 2204 - if22 * z 323 * z 2213);
  SZ 2215 (z 11 * z 74 * z 1625 + z 11 * z 1134 * q8p + z 11 * z 2188 + z 12 * z 2177 - z 12 * z 80 * z 1625 - z 12 * z 1132 * q8p);
  SZ 2216 (z 11 * z 73 * z 1625 + z 11 * z 1160 * q8p + z 11 * z 2191 + z 12 * z 2180 - z 12 * z 78 * z 1625 - z 12 * z 1159 * q8p);
  SZ 2217 (z 11 * z 75 * z 1625 + z 11 * z 1190 * q8p + z 11 * z 2192 + z 12 * z 2183 - z 12 * z 79 * z 1625 - (Lit 2 1) * z 12 * z 29 * (z 30 + z 69) * q8p);
  SZ 2218 (z 11 * z 28 * z 1625 + z 11 * z 27 * q8p + z 4 * z 5 * z 12 * q8p + z 11 * z 2142 + z 12 * z 2184 - z 12 * z 32 * z 1625);
  SZ 2219 (z 1578 * z 330 + q4p * z 2215 + q5p * z 2216 + q7p * z 2217 + z 43 * z 1543 * z 329 + z 43 * q3p * z 2218);
  SZ 2220 (z 831 * z 2205 + if22 * z 321 * z 2213 - z 830 * z 2213 - if11 * z 322 * z 2205);
  SZ 2221 (z 13 * z 48 + z 14 * z 1061);
  SZ 2222 (z 13 * z 2144 + z 14 * z 2148);
  SZ 2223 (z 14 * z 2142 - z 13 * z 2145);
  SZ 2224 (q4p * z 2222 + z 14 * z 1578 * z 278 + z 14 * q5p * z 2149 + z 43 * z 1543 * z 341 + z 43 * q3p * z 2223);
  SZ 2225 (z 20 * z 2148 + z 48 * z 337 - z 17 * z 1126 * q9p - z 15 * z 2156 - z 18 * z 2144 - z 1061 * z 338);
  SZ 2226 (z 20 * z 2149 - (Lit 2 1) * z 17 * z 1152 * q9p - z 15 * z 2157 - z 1156 * z 338);
  SZ 2227 (z 4 * z 15 * q4p + z 18 * z 2145 + z 20 * z 2142 + z 4 * z 5 * z 338 + z 4 * z 6 * z 337 - z 3 * z 17 * q9p);
  SZ 2228 (z 1578 * z 349 + q4p * z 2225 + q5p * z 2226 + z 43 * z 1543 * z 348 + z 43 * q3p * z 2227);
  SZ 2229 (z 17 * z 1126 + z 19 * z 1061 - z 16 * z 48);
  SZ 2230 (z 112 * z 1543 + z 114 * z 1578 + z 2052 * q5p + z 2229 * q4p + z 43 * z 2067 * q3p);
  SZ 2231 (z 110 * z 1543 + z 111 * z 1578 + z 2221 * q4p + z 14 * z 1156 * q5p + z 43 * z 2065 * q3p);
  SZ 2232 (z 20 * z 1061 - z 15 * z 1126 - z 18 * z 48);
  SZ 2233 (z 115 * z 1543 + z 116 * z 1578 + z 2051 * q5p + z 2232 * q4p + z 43 * z 2066 * q3p);
  SZ 2234 (ig31 * z 2231 + ig33 * z 2233);
  SZ 2235 (z 335 * z 2234 + z 852 * z 2230 - z 853 * z 2233 - ig22 * z 336 * z 2230);
  SZ 2236 (z 20 * z 1061 * q9p + z 17 * z 2156 + z 19 * z 2148 - z 15 * z 1126 * q9p - z 18 * z 48 * q9p - z 16 * z 2144);
  SZ 2237 (z 20 * z 1156 * q9p + z 17 * z 2157 + z 19 * z 2149 - (Lit 2 1) * z 15 * z 1152 * q9p);
  SZ 2238 (z 16 * z 2145 + z 19 * z 2142 - z 3 * z 15 * q9p - z 4 * z 17 * q4p - z 4 * z 5 * z 20 * q9p - z 4 * z 6 * z 18 * q9p);
  SZ 2239 (z 1578 * z 346 + q4p * z 2236 + q5p * z 2237 + z 43 * z 1543 * z 344 + z 43 * q3p * z 2238);
  SZ 2240 (ig11 * z 2231 + ig31 * z 2233);
  SZ 2241 (z 336 * z 2240 + z 851 * z 2233 - z 334 * z 2234 - z 852 * z 2231);
  SZ 2242 (z 853 * z 2231 + ig22 * z 334 * z 2230 - z 335 * z 2240 - z 851 * z 2230);
  SZ 2243 (z 2057 * z 1126);
  SZ 2244 (rr * z 4 * z 43 * q4p);
  SZ 2245 (z 1543 * z 354 - q3p * z 2244);
  SZ 2246 (z 4 * z 353 * z 356 - z 2245 - z 3 * z 43 * z 1543 * z 353);
  SZ 2247 (z 118 * z 1543 + rr * z 3 * z 43 * q3p);
  SZ 2248 (z 356 * z 2247 + z 43 * z 1543 * z 352);
  SZ 2249 (z 5 * z 2246 - z 41 * z 2248 - z 3 * z 6 * z 358);
  SZ 2250 ((- z 21) * z 1061 - z 22 * z 48);
  SZ 2251 (z 2249 + z 22 * z 2158 + (z 173 * q4p + z 174 * q5p + z 175 * q3p) * z 2151 + (z 174 * z 1578 + z 175 * z 1543 + z 21 * z 1126 * q4p + (Lit 2 1) * z 21 * z 1152 * q5p + z 21 * z 3 * z 43 * q3p) * z 266 - (z 170 * q4p + z 171 * q3p - z 172 * q5p) * z 2153 - (z 171 * z 1543 + z 2068 * q3p + z 2250 * q4p - z 172 * z 1578 - z 21 * z 1156 * q5p) * z 267);
  SZ 2252 (z 6 * z 2246 + z 31 * z 2248 + z 3 * z 5 * z 358);
  SZ 2253 (z 2252 + z 21 * z 2158 + (z 170 * q4p + z 171 * q3p - z 172 * q5p) * z 2152 + (z 171 * z 1543 + z 2068 * q3p + z 2250 * q4p - z 172 * z 1578 - z 21 * z 1156 * q5p) * z 265 - (z 176 * q4p + z 177 * q5p + z 178 * q3p) * z 2151 - (z 177 * z 1578 + z 178 * z 1543 + z 22 * z 1126 * q4p + (Lit 2 1) * z 22 * z 1152 * q5p + z 22 * z 3 * z 43 * q3p) * z 266);
  SZ 2254 (z 13 * z 2251 + z 14 * z 2253);
  SZ 2255 (l5 * z 2232 - l6 * z 2221);
  SZ 2256 (z 2254 + l6 * z 2239 - (z 201 * q9p + z 202 * q3p + z 203 * q4p + z 204 * q5p) * z 2230 - (z 197 * q3p + z 198 * q5p + z 199 * q4p - z 200 * q9p) * z 2233 - (z 197 * z 1543 + z 198 * z 1578 + z 2055 * q5p + z 2072 * q3p + z 2255 * q4p) * z 336 - (z 202 * z 1543 + z 204 * z 1578 + l5 * z 2052 * q5p + l5 * z 2229 * q4p + l5 * z 43 * z 2067 * q3p) * z 335);
  SZ 2257 (z 17 * z 2250 + z 21 * z 19 * z 1126 - z 22 * z 16 * z 1126);
  SZ 2258 ((- z 21) * z 2150 - z 22 * z 2146)].
(* [_mooreriderlean2012.py:3817-4802] *)
Definition chunk10 : list stmt := [
  SZ 2259 (z 3 * z 2248 - z 4 * z 358);
  SZ 2260 (z 2258 + (z 176 * q4p + z 177 * q5p + z 178 * q3p) * z 2153 + (z 177 * z 1578 + z 178 * z 1543 + z 22 * z 1126 * q4p + (Lit 2 1) * z 22 * z 1152 * q5p + z 22 * z 3 * z 43 * q3p) * z 267 - z 2259 - (z 173 * q4p + z 174 * q5p + z 175 * q3p) * z 2152 - (z 174 * z 1578 + z 175 * z 1543 + z 21 * z 1126 * q4p + (Lit 2 1) * z 21 * z 1152 * q5p + z 21 * z 3 * z 43 * q3p) * z 265);
  SZ 2261 (z 17 * z 2260 + z 19 * z 2253 - z 16 * z 2251);
  SZ 2262 (l5 * z 2228 - l6 * z 2224);
  SZ 2263 (z 2261 + z 2262 + (z 201 * q9p + z 202 * q3p + z 203 * q4p + z 204 * q5p) * z 2231 + (z 205 * q9p + z 206 * q3p + z 207 * q4p + z 208 * q5p) * z 2233 + (z 202 * z 1543 + z 204 * z 1578 + l5 * z 2052 * q5p + l5 * z 2229 * q4p + l5 * z 43 * z 2067 * q3p) * z 334 + (z 206 * z 1543 + z 208 * z 1578 + l6 * z 2052 * q5p + l6 * z 2229 * q4p + l6 * z 43 * z 2067 * q3p) * z 336);
  SZ 2264 (z 21 * z 20 * z 1126 - z 15 * z 2250 - z 22 * z 18 * z 1126);
  SZ 2265 (z 20 * z 2253 - z 15 * z 2260 - z 18 * z 2251);
  SZ 2266 (z 2265 + (z 197 * q3p + z 198 * q5p + z 199 * q4p - z 200 * q9p) * z 2231 + (z 197 * z 1543 + z 198 * z 1578 + z 2055 * q5p + z 2072 * q3p + z 2255 * q4p) * z 334 - l5 * z 2239 - (z 205 * q9p + z 206 * q3p + z 207 * q4p + z 208 * q5p) * z 2230 - (z 206 * z 1543 + z 208 * z 1578 + l6 * z 2052 * q5p + l6 * z 2229 * q4p + l6 * z 43 * z 2067 * q3p) * z 335);
  SZ 2267 (l1 * z 1061 - l2 * z 48);
  SZ 2268 (z 2252 + (z 128 * q5p + z 129 * q4p + z 130 * q3p) * z 2152 - l1 * z 2158 - (z 134 * q4p + z 135 * q5p + z 136 * q3p) * z 2151 - (z 135 * z 1578 + z 136 * z 1543 + l2 * z 1126 * q4p + (Lit 2 1) * l2 * z 1152 * q5p + l2 * z 3 * z 43 * q3p) * z 266 - (z 2083 * q3p - z 128 * z 1578 - z 130 * z 1543 - z 2267 * q4p - l1 * z 1156 * q5p) * z 265);
  SZ 2269 (z 2249 + l2 * z 2158 + (z 2083 * q3p - z 128 * z 1578 - z 130 * z 1543 - z 2267 * q4p - l1 * z 1156 * q5p) * z 267 - (z 128 * q5p + z 129 * q4p + z 130 * q3p) * z 2153 - (z 131 * q4p + z 132 * q5p + z 133 * q3p) * z 2151 - (z 132 * z 1578 + z 133 * z 1543 + l1 * z 1126 * q4p + (Lit 2 1) * l1 * z 1152 * q5p + l1 * z 3 * z 43 * q3p) * z 266);
  SZ 2270 (l1 * z 2150 - l2 * z 2146);
  SZ 2271 (z 2270 + (z 131 * q4p + z 132 * q5p + z 133 * q3p) * z 2152 + (z 134 * q4p + z 135 * q5p + z 136 * q3p) * z 2153 + (z 132 * z 1578 + z 133 * z 1543 + l1 * z 1126 * q4p + (Lit 2 1) * l1 * z 1152 * q5p + l1 * z 3 * z 43 * q3p) * z 265 + (z 135 * z 1578 + z 136 * z 1543 + l2 * z 1126 * q4p + (Lit 2 1) * l2 * z 1152 * q5p + l2 * z 3 * z 43 * q3p) * z 267 - z 2259);
  SZ 2272 (z 2252 + (z 143 * q5p + z 144 * q4p + z 145 * q3p) * z 2152 - d1 * z 2158 - (z 1066 * q3p - z 143 * z 1578 - z 145 * z 1543 - d1 * z 1061 * q4p - d1 * z 1156 * q5p) * z 265);
  SZ 2273 (z 158 * z 1132 - d2 * z 1134 - l4 * z 1134);
  SZ 2274 ((z 159 * q3p + z 160 * q5p + z 161 * q7p + z 162 * q4p) * z 2195 - z 158 * z 2201 - (z 164 * q5p + z 165 * q4p + z 166 * q3p) * z 2194 - (z 164 * z 1578 + z 166 * z 1543 + z 163 * z 1127 * q4p + z 163 * z 1153 * q5p + z 163 * z 29 * z 43 * q3p) * z 293 - (z 2085 * q3p - z 159 * z 1543 - z 160 * z 1578 - z 2109 * q7p - z 2111 * q5p - z 2273 * q4p) * z 292);
  SZ 2275 (z 2249 + (z 1066 * q3p - z 143 * z 1578 - z 145 * z 1543 - d1 * z 1061 * q4p - d1 * z 1156 * q5p) * z 267 - (z 140 * q4p + z 141 * q5p + z 142 * q3p) * z 2151 - (z 143 * q5p + z 144 * q4p + z 145 * q3p) * z 2153 - (z 141 * z 1578 + z 142 * z 1543 + d1 * z 1126 * q4p + (Lit 2 1) * d1 * z 1152 * q5p + d1 * z 3 * z 43 * q3p) * z 266);
  SZ 2276 (d1 * z 2150 + (z 140 * q4p + z 141 * q5p + z 142 * q3p) * z 2152 + (z 141 * z 1578 + z 142 * z 1543 + d1 * z 1126 * q4p + (Lit 2 1) * d1 * z 1152 * q5p + d1 * z 3 * z 43 * q3p) * z 265 - z 2259);
  SZ 2277 (z 158 * z 2193 - d2 * z 2185 - l4 * z 2185);
  SZ 2278 (z 2277 + (z 164 * q5p + z 165 * q4p + z 166 * q3p) * z 2196 + (z 167 * q5p + z 168 * q4p + z 169 * q3p) * z 2195 + (z 164 * z 1578 + z 166 * z 1543 + z 163 * z 1127 * q4p + z 163 * z 1153 * q5p + z 163 * z 29 * z 43 * q3p) * z 294 + (z 167 * z 1578 + z 169 * z 1543 + z 158 * z 1127 * q4p + z 158 * z 1153 * q5p + z 158 * z 29 * z 43 * q3p) * z 292);
  SZ 2279 (z 163 * z 2201 + (z 2085 * q3p - z 159 * z 1543 - z 160 * z 1578 - z 2109 * q7p - z 2111 * q5p - z 2273 * q4p) * z 294 - (z 167 * q5p + z 168 * q4p + z 169 * q3p) * z 2194 - (z 159 * q3p + z 160 * q5p + z 161 * q7p + z 162 * q4p) * z 2196 - (z 167 * z 1578 + z 169 * z 1543 + z 158 * z 1127 * q4p + z 158 * z 1153 * q5p + z 158 * z 29 * z 43 * q3p) * z 293);
  SZ 2280 ((z 148 * q3p + z 149 * q5p + z 150 * q7p + z 151 * q4p) * z 2195 - d3 * z 2201 - (z 152 * q5p + z 153 * q4p + z 154 * q3p) * z 2194 - (z 152 * z 1578 + z 154 * z 1543 + d2 * z 1127 * q4p + d2 * z 1153 * q5p + d2 * z 29 * z 43 * q3p) * z 293 - (z 1074 * q3p - z 148 * z 1543 - z 149 * z 1578 - z 1135 * q4p - z 1161 * q5p - z 1191 * q7p) * z 292);
  SZ 2281 (d3 * z 2193 - d2 * z 2185);
  SZ 2282 (z 2281 + (z 152 * q5p + z 153 * q4p + z 154 * q3p) * z 2196 + (z 155 * q5p + z 156 * q4p + z 157 * q3p) * z 2195 + (z 152 * z 1578 + z 154 * z 1543 + d2 * z 1127 * q4p + d2 * z 1153 * q5p + d2 * z 29 * z 43 * q3p) * z 294 + (z 155 * z 1578 + z 157 * z 1543 + d3 * z 1127 * q4p + d3 * z 1153 * q5p + d3 * z 29 * z 43 * q3p) * z 292);
  SZ 2283 (d2 * z 2201 + (z 1074 * q3p - z 148 * z 1543 - z 149 * z 1578 - z 1135 * q4p - z 1161 * q5p - z 1191 * q7p) * z 294 - (z 155 * q5p + z 156 * q4p + z 157 * q3p) * z 2194 - (z 148 * q3p + z 149 * q5p + z 150 * q7p + z 151 * q4p) * z 2196 - (z 155 * z 1578 + z 157 * z 1543 + d3 * z 1127 * q4p + d3 * z 1153 * q5p + d3 * z 29 * z 43 * q3p) * z 293);
  SZ 2284 (z 45 * z 2155 + z 46 * z 2160 + z 46 * z 2163 + z 48 * z 762 + z 48 * z 773 + z 48 * z 780 + z 49 * z 2164 + z 60 * z 2169 + z 63 * z 2174 + z 74 * z 2198 + z 77 * z 2203 + z 77 * z 2206 + z 80 * z 2207 + z 92 * z 2214 + z 97 * z 2220 + z 109 * z 2235 + z 113 * z 2241 + z 117 * z 2242 + z 1061 * z 765 + z 1061 * z 777 + z 1061 * z 779 + z 1062 * z 787 + z 1062 * z 799 + z 1063 * z 796 + z 1063 * z 797 + z 1126 * z 769 + z 1126 * z 778 + z 1126 * z 792 + z 1126 * z 798 + z 1127 * z 816 + z 1127 * z 827 + z 1127 * z 842 + z 1127 * z 849 + z 1132 * z 812 + z 1132 * z 826 + z 1132 * z 828 + z 1134 * z 807 + z 1134 * z 821 + z 1134 * z 829 + z 1137 * z 847 + z 1137 * z 848 + z 1138 * z 837 + z 1138 * z 850 + z 2221 * z 858 + z 2221 * z 872 + z 2221 * z 879 + z 2229 * z 868 + z 2229 * z 877 + z 2232 * z 863 + z 2232 * z 876 + z 2232 * z 878 + ic11 * z 45 * z 2146 + ic22 * z 46 * z 2158 + ic31 * z 45 * z 2150 + ic31 * z 49 * z 2146 + ic33 * z 49 * z 2150 + id11 * z 60 * z 2168 + id11 * z 63 * z 2173 + id22 * z 46 * z 2158 + ie11 * z 74 * z 2185 + ie22 * z 77 * z 2201 + ie31 * z 74 * z 2193 + ie31 * z 80 * z 2185 + ie33 * z 80 * z 2193 + if11 * z 92 * z 2212 + if11 * z 97 * z 2219 + if22 * z 77 * z 2201 + ig11 * z 109 * z 2224 + ig22 * z 113 * z 2239 + ig31 * z 109 * z 2228 + ig31 * z 117 * z 2224 + ig33 * z 117 * z 2228 + md * z 4 * z 119 * z 358 + mg * (z 209 * z 2256 + z 212 * z 2263 + z 215 * z 2266 + (z 2255 + z 2257) * z 400 + (z 2243 + l6 * z 2229) * z 399 + (z 2264 - l5 * z 2229) * z 401) - md * z 3 * z 119 * z 2248 - mc * (z 131 * z 2268 + l1 * z 1126 * z 369 - z 134 * z 2269 - z 139 * z 2271 - z 2267 * z 368 - l2 * z 1126 * z 367) - me * (z 140 * z 2272 + z 140 * z 2274 + z 168 * z 2272 + z 168 * z 2274 + d1 * z 1126 * z 374 + d1 * z 1126 * z 386 + z 158 * z 1127 * z 374 + z 158 * z 1127 * z 386 + z 10 * z 162 * z 2275 + z 10 * z 2273 * z 372 - z 147 * z 2276 - z 162 * z 2278 - z 165 * z 2279 - z 2273 * z 384 - d1 * z 1061 * z 373 - z 163 * z 1127 * z 385 - z 9 * z 147 * z 2278 - z 9 * z 162 * z 2276 - z 9 * z 165 * z 2275 - z 9 * z 2273 * z 373 - z 10 * z 147 * z 2279 - z 10 * z 165 * z 2276 - d1 * z 9 * z 1061 * z 384 - d1 * z 10 * z 1061 * z 385 - z 163 * z 9 * z 1127 * z 372 - z 163 * z 10 * z 1127 * z 373) - mf * (z 140 * z 2272 + z 140 * z 2280 + z 156 * z 2272 + z 156 * z 2280 + d1 * z 1126 * z 374 + d1 * z 1126 * z 380 + d3 * z 1127 * z 374 + d3 * z 1127 * z 380 + z 10 * z 151 * z 2275 + z 10 * z 1135 * z 372 - z 147 * z 2276 - z 151 * z 2282 - z 153 * z 2283 - z 1135 * z 378 - d1 * z 1061 * z 373 - d2 * z 1127 * z 379 - z 9 * z 147 * z 2282 - z 9 * z 151 * z 2276 - z 9 * z 153 * z 2275 - z 9 * z 1135 * z 373 - z 10 * z 147 * z 2283 - z 10 * z 153 * z 2276 - d1 * z 9 * z 1061 * z 378 - d1 * z 10 * z 1061 * z 379 - d2 * z 9 * z 1127 * z 372 - d2 * z 10 * z 1127 * z 373));
  SZ 2285 (md * (z 1 * z 2246 + z 2 * z 2248 + z 2 * z 3 * z 360) + mg * (z 182 * z 2256 + z 187 * z 2263 + z 192 * z 2266 + z 2062 * z 400 - z 2061 * z 399 - z 2063 * z 401) + mc * (z 120 * z 2269 + z 122 * z 2268 + z 2 * z 4 * z 368 + z 2 * z 3 * z 5 * z 369 - z 121 * z 2271 - z 2 * z 3 * z 6 * z 367) - me * (z 121 * z 2276 + z 9 * z 121 * z 2278 + z 10 * z 120 * z 2278 + z 10 * z 121 * z 2279 + z 2 * z 3 * z 6 * z 372 + z 2 * z 3 * z 6 * z 9 * z 385 - z 120 * z 2275 - z 122 * z 2272 - z 122 * z 2274 - z 2 * z 4 * z 373 - z 9 * z 120 * z 2279 - z 2 * z 3 * z 5 * z 374 - z 2 * z 3 * z 5 * z 386 - z 2 * z 4 * z 9 * z 384 - z 2 * z 4 * z 10 * z 385 - z 2 * z 3 * z 6 * z 10 * z 384) - mf * (z 121 * z 2276 + z 9 * z 121 * z 2282 + z 10 * z 120 * z 2282 + z 10 * z 121 * z 2283 + z 2 * z 3 * z 6 * z 372 + z 2 * z 3 * z 6 * z 9 * z 379 - z 120 * z 2275 - z 122 * z 2272 - z 122 * z 2280 - z 2 * z 4 * z 373 - z 9 * z 120 * z 2283 - z 2 * z 3 * z 5 * z 374 - z 2 * z 3 * z 5 * z 380 - z 2 * z 4 * z 9 * z 378 - z 2 * z 4 * z 10 * z 379 - z 2 * z 3 * z 6 * z 10 * z 378));
  SZ 2286 (z 51 * z 2160 + z 51 * z 2163 + z 52 * z 2164 + z 52 * z 2207 + z 61 * z 2169 + z 64 * z 2174 + z 81 * z 2198 + z 82 * z 2203 + z 82 * z 2206 + z 90 * z 2214 + z 94 * z 2220 + z 110 * z 2235 + z 112 * z 2241 + z 115 * z 2242 + ic22 * z 51 * z 2158 + ic31 * z 52 * z 2146 + ic33 * z 52 * z 2150 + id11 * z 61 * z 2168 + id11 * z 64 * z 2173 + id22 * z 51 * z 2158 + ie11 * z 81 * z 2185 + ie22 * z 82 * z 2201 + ie31 * z 52 * z 2185 + ie31 * z 81 * z 2193 + ie33 * z 52 * z 2193 + if11 * z 90 * z 2212 + if11 * z 94 * z 2219 + if22 * z 82 * z 2201 + ig11 * z 110 * z 2224 + ig22 * z 112 * z 2239 + ig31 * z 110 * z 2228 + ig31 * z 115 * z 2224 + ig33 * z 115 * z 2228 + z 3 * z 43 * z 769 + z 3 * z 43 * z 778 + z 3 * z 43 * z 792 + z 3 * z 43 * z 798 + z 27 * z 43 * z 807 + z 27 * z 43 * z 821 + z 27 * z 43 * z 829 + z 29 * z 43 * z 816 + z 29 * z 43 * z 827 + z 29 * z 43 * z 842 + z 29 * z 43 * z 849 + z 43 * z 1077 * z 847 + z 43 * z 1077 * z 848 + z 43 * z 1078 * z 837 + z 43 * z 1078 * z 850 + z 43 * z 1141 * z 787 + z 43 * z 1141 * z 799 + z 43 * z 2065 * z 858 + z 43 * z 2065 * z 872 + z 43 * z 2065 * z 879 + z 43 * z 2066 * z 863 + z 43 * z 2066 * z 876 + z 43 * z 2066 * z 878 + z 43 * z 2067 * z 868 + z 43 * z 2067 * z 877 + z 4 * z 6 * z 43 * z 762 + z 4 * z 6 * z 43 * z 773 + z 4 * z 6 * z 43 * z 780 + mg * (z 211 * z 2256 + z 214 * z 2263 + z 217 * z 2266 + z 2074 * z 401 + z 2076 * z 399 + (z 2071 + z 2072) * z 400) - z 50 * z 2155 - ic11 * z 50 * z 2146 - ic31 * z 50 * z 2150 - md * z 118 * z 2246 - z 43 * z 1142 * z 796 - z 43 * z 1142 * z 797 - z 2086 * z 3 * z 43 * z 359 - z 4 * z 5 * z 43 * z 765 - z 4 * z 5 * z 43 * z 777 - z 4 * z 5 * z 43 * z 779 - z 4 * z 5 * z 43 * z 812 - z 4 * z 5 * z 43 * z 826 - z 4 * z 5 * z 43 * z 828 - mc * (z 2083 * z 368 - z 130 * z 2271 - z 137 * z 2269 - z 138 * z 2268 - z 2082 * z 367 - z 2084 * z 369) - me * (z 126 * z 2275 + z 169 * z 2272 + z 169 * z 2274 + z 1066 * z 373 + z 1067 * z 372 + z 2085 * z 384 + z 9 * z 126 * z 2279 + z 9 * z 1066 * z 384 + z 9 * z 1067 * z 385 + z 9 * z 2085 * z 373 + z 10 * z 159 * z 2275 + z 10 * z 1066 * z 385 + z 158 * z 29 * z 43 * z 374 + z 158 * z 29 * z 43 * z 386 - z 145 * z 2276 - z 146 * z 2272 - z 146 * z 2274 - z 159 * z 2278 - z 166 * z 2279 - z 1081 * z 374 - z 1081 * z 386 - z 9 * z 145 * z 2278 - z 9 * z 159 * z 2276 - z 9 * z 166 * z 2275 - z 10 * z 126 * z 2278 - z 10 * z 145 * z 2279 - z 10 * z 166 * z 2276 - z 10 * z 1067 * z 384 - z 10 * z 2085 * z 372 - z 163 * z 29 * z 43 * z 385 - z 163 * z 9 * z 29 * z 43 * z 372 - z 163 * z 10 * z 29 * z 43 * z 373) - mf * (z 126 * z 2275 + z 157 * z 2272 + z 157 * z 2280 + z 1066 * z 373 + z 1067 * z 372 + z 1074 * z 378 + z 9 * z 126 * z 2283 + z 9 * z 1066 * z 378 + z 9 * z 1067 * z 379 + z 9 * z 1074 * z 373 + z 10 * z 148 * z 2275 + z 10 * z 1066 * z 379 + d3 * z 29 * z 43 * z 374 + d3 * z 29 * z 43 * z 380 - z 145 * z 2276 - z 146 * z 2272 - z 146 * z 2280 - z 148 * z 2282 - z 154 * z 2283 - z 1081 * z 374 - z 1081 * z 380 - z 9 * z 145 * z 2282 - z 9 * z 148 * z 2276 - z 9 * z 154 * z 2275 - z 10 * z 126 * z 2282 - z 10 * z 145 * z 2283 - z 10 * z 154 * z 2276 - z 10 * z 1067 * z 378 - z 10 * z 1074 * z 372 - d2 * z 29 * z 43 * z 379 - d2 * z 9 * z 29 * z 43 * z 372 - d2 * z 10 * z 29 * z 43 * z 373));
  SZ 2287 (z 47 * z 2160 + z 47 * z 2163 + z 48 * z 2164 + z 65 * z 2174 + z 73 * z 2198 + z 76 * z 2203 + z 76 * z 2206 + z 78 * z 2207 + z 91 * z 2214 + z 95 * z 2220 + z 111 * z 2235 + z 114 * z 2241 + z 116 * z 2242 + z 1153 * z 816 + z 1153 * z 827 + z 1153 * z 842 + z 1153 * z 849 + z 1156 * z 765 + z 1156 * z 777 + z 1156 * z 779 + z 1159 * z 812 + z 1159 * z 826 + z 1159 * z 828 + z 1160 * z 807 + z 1160 * z 821 + z 1160 * z 829 + z 1163 * z 847 + z 1163 * z 848 + z 1164 * z 837 + z 1164 * z 850 + z 2051 * z 863 + z 2051 * z 876 + z 2051 * z 878 + z 2052 * z 868 + z 2052 * z 877 + (Lit 2 1) * z 1152 * z 769 + (Lit 2 1) * z 1152 * z 778 + (Lit 2 1) * z 1152 * z 792 + (Lit 2 1) * z 1152 * z 798 + ic22 * z 47 * z 2158 + ic31 * z 48 * z 2146 + ic33 * z 48 * z 2150 + id11 * z 65 * z 2173 + id22 * z 47 * z 2158 + ie11 * z 73 * z 2185 + ie22 * z 76 * z 2201 + ie31 * z 73 * z 2193 + ie31 * z 78 * z 2185 + ie33 * z 78 * z 2193 + if11 * z 91 * z 2212 + if11 * z 95 * z 2219 + if22 * z 76 * z 2201 + ig11 * z 111 * z 2224 + ig22 * z 114 * z 2239 + ig31 * z 111 * z 2228 + ig31 * z 116 * z 2224 + ig33 * z 116 * z 2228 + z 14 * z 1156 * z 858 + z 14 * z 1156 * z 872 + z 14 * z 1156 * z 879 + z 7 * z 1156 * z 796 + z 7 * z 1156 * z 797 + mg * (z 210 * z 2256 + z 213 * z 2263 + z 216 * z 2266 + (z 2053 + z 2055) * z 400 + ((Lit 2 1) * z 2058 + l6 * z 2052) * z 399 + (z 2056 - l5 * z 2052) * z 401) - z 62 * z 2169 - id11 * z 62 * z 2168 - z 8 * z 1156 * z 787 - z 8 * z 1156 * z 799 - mc * (z 132 * z 2268 + (Lit 2 1) * l1 * z 1152 * z 369 - z 128 * z 2271 - z 135 * z 2269 - (Lit 2 1) * l2 * z 1152 * z 367 - l1 * z 1156 * z 368) - me * (z 141 * z 2272 + z 141 * z 2274 + z 167 * z 2272 + z 167 * z 2274 + z 158 * z 1153 * z 374 + z 158 * z 1153 * z 386 + z 10 * z 160 * z 2275 + z 10 * z 2111 * z 372 + (Lit 2 1) * d1 * z 1152 * z 374 + (Lit 2 1) * d1 * z 1152 * z 386 - z 143 * z 2276 - z 160 * z 2278 - z 164 * z 2279 - z 2111 * z 384 - d1 * z 1156 * z 373 - z 163 * z 1153 * z 385 - z 9 * z 143 * z 2278 - z 9 * z 160 * z 2276 - z 9 * z 164 * z 2275 - z 9 * z 2111 * z 373 - z 10 * z 143 * z 2279 - z 10 * z 164 * z 2276 - d1 * z 9 * z 1156 * z 384 - d1 * z 10 * z 1156 * z 385 - z 163 * z 9 * z 1153 * z 372 - z 163 * z 10 * z 1153 * z 373) - mf * (z 141 * z 2272 + z 141 * z 2280 + z 155 * z 2272 + z 155 * z 2280 + d3 * z 1153 * z 374 + d3 * z 1153 * z 380 + z 10 * z 149 * z 2275 + z 10 * z 1161 * z 372 + (Lit 2 1) * d1 * z 1152 * z 374 + (Lit 2 1) * d1 * z 1152 * z 380 - z 143 * z 2276 - z 149 * z 2282 - z 152 * z 2283 - z 1161 * z 378 - d1 * z 1156 * z 373 - d2 * z 1153 * z 379 - z 9 * z 143 * z 2282 - z 9 * z 149 * z 2276 - z 9 * z 152 * z 2275 - z 9 * z 1161 * z 373 - z 10 * z 143 * z 2283 - z 10 * z 152 * z 2276 - d1 * z 9 * z 1156 * z 378 - d1 * z 10 * z 1156 * z 379 - d2 * z 9 * z 1153 * z 372 - d2 * z 10 * z 1153 * z 373));
  SZ 2288 (z 83 * (z 2206 + if22 * z 2201));
  SZ 2289 (md * (z 2 * z 2246 - z 1 * z 2248 - z 1 * z 3 * z 360) + me * (z 123 * z 2275 + z 124 * z 2276 + z 125 * z 2272 + z 125 * z 2274 + z 9 * z 123 * z 2279 + z 9 * z 124 * z 2278 + z 10 * z 124 * z 2279 + z 1 * z 3 * z 6 * z 372 + z 1 * z 3 * z 6 * z 9 * z 385 - z 1 * z 4 * z 373 - z 10 * z 123 * z 2278 - z 1 * z 3 * z 5 * z 374 - z 1 * z 3 * z 5 * z 386 - z 1 * z 4 * z 9 * z 384 - z 1 * z 4 * z 10 * z 385 - z 1 * z 3 * z 6 * z 10 * z 384) + mf * (z 123 * z 2275 + z 124 * z 2276 + z 125 * z 2272 + z 125 * z 2280 + z 9 * z 123 * z 2283 + z 9 * z 124 * z 2282 + z 10 * z 124 * z 2283 + z 1 * z 3 * z 6 * z 372 + z 1 * z 3 * z 6 * z 9 * z 379 - z 1 * z 4 * z 373 - z 10 * z 123 * z 2282 - z 1 * z 3 * z 5 * z 374 - z 1 * z 3 * z 5 * z 380 - z 1 * z 4 * z 9 * z 378 - z 1 * z 4 * z 10 * z 379 - z 1 * z 3 * z 6 * z 10 * z 378) - mg * (z 2048 * z 400 - z 183 * z 2256 - z 188 * z 2263 - z 193 * z 2266 - z 2047 * z 399 - z 2049 * z 401) - mc * (z 1 * z 4 * z 368 + z 1 * z 3 * z 5 * z 369 - z 123 * z 2269 - z 124 * z 2271 - z 125 * z 2268 - z 1 * z 3 * z 6 * z 367));
  SZ 2290 (z 2284 + z 538 * z 2285 + z 544 * z 2286 + z 547 * z 2287 + z 549 * z 2288 + z 1490 * z 917 - z 541 * z 2289 - z 1187 * z 913 - z 1540 * z 925 - z 1576 * z 933 - z 1622 * z 938);
  SZ 2291 (z 45 * z 2093 + z 48 * z 772 + z 49 * z 2098 + z 768 * z 1126 + z 776 * z 1061 + z 785 * z 1062 + z 790 * z 1126 + z 794 * z 1063 + z 806 * z 1134 + z 811 * z 1132 + z 815 * z 1127 + z 817 * z 1134 + z 822 * z 1132 + z 833 * z 1138 + z 840 * z 1127 + z 843 * z 1137 + z 856 * z 2221 + z 861 * z 2232 + z 865 * z 2229 + z 869 * z 2221 + z 873 * z 2232 + ic22 * z 3 * z 43 * z 46 + id11 * z 43 * z 60 * z 1141 + id22 * z 3 * z 43 * z 46 + ie11 * z 27 * z 43 * z 74 + ie22 * z 29 * z 43 * z 77 + ie31 * z 27 * z 43 * z 80 + if11 * z 43 * z 92 * z 1078 + if11 * z 43 * z 97 * z 1077 + if22 * z 29 * z 43 * z 77 + ig11 * z 43 * z 109 * z 2065 + ig22 * z 43 * z 113 * z 2067 + ig31 * z 43 * z 109 * z 2066 + ig31 * z 43 * z 117 * z 2065 + ig33 * z 43 * z 117 * z 2066 + mg * (z 209 * z 2076 + z 215 * z 2074 + z 212 * (z 2071 + z 2072) + z 214 * (z 2255 + z 2257) + z 211 * (z 2243 + l6 * z 2229) + z 217 * (z 2264 - l5 * z 2229)) - z 45 * z 2097 - z 48 * z 761 - z 49 * z 2094 - z 74 * z 2096 - z 80 * z 2095 - z 764 * z 1061 - id11 * z 43 * z 63 * z 1142 - mc * (z 131 * z 2084 + z 139 * z 2083 + l1 * z 138 * z 1126 - z 130 * z 2267 - z 134 * z 2082 - l2 * z 137 * z 1126) - me * (z 140 * z 1081 + z 147 * z 1066 + z 162 * z 2085 + z 168 * z 1081 + d1 * z 146 * z 1126 + z 158 * z 146 * z 1127 + z 9 * z 147 * z 2085 + z 9 * z 162 * z 1066 + z 9 * z 165 * z 1067 + z 10 * z 165 * z 1066 + z 163 * z 9 * z 126 * z 1127 - z 159 * z 2273 - d1 * z 145 * z 1061 - d1 * z 169 * z 1126 - z 158 * z 169 * z 1127 - z 163 * z 166 * z 1127 - z 9 * z 145 * z 2273 - z 10 * z 126 * z 2273 - z 10 * z 162 * z 1067 - d1 * z 9 * z 159 * z 1061 - d1 * z 10 * z 166 * z 1061 - z 158 * z 29 * z 43 * z 140 - z 158 * z 29 * z 43 * z 168 - z 163 * z 10 * z 145 * z 1127 - z 163 * z 29 * z 43 * z 165 - z 163 * z 10 * z 29 * z 43 * z 147) - mf * (z 140 * z 1081 + z 147 * z 1066 + z 151 * z 1074 + z 156 * z 1081 + d1 * z 146 * z 1126 + d3 * z 146 * z 1127 + z 9 * z 147 * z 1074 + z 9 * z 151 * z 1066 + z 9 * z 153 * z 1067 + z 10 * z 153 * z 1066 + d2 * z 9 * z 126 * z 1127 - z 148 * z 1135 - d1 * z 145 * z 1061 - d1 * z 157 * z 1126 - d2 * z 154 * z 1127 - d3 * z 157 * z 1127 - z 9 * z 145 * z 1135 - z 10 * z 126 * z 1135 - z 10 * z 151 * z 1067 - d1 * z 9 * z 148 * z 1061 - d1 * z 10 * z 154 * z 1061 - d2 * z 10 * z 145 * z 1127 - d2 * z 29 * z 43 * z 153 - d3 * z 29 * z 43 * z 140 - d3 * z 29 * z 43 * z 156 - d2 * z 10 * z 29 * z 43 * z 147));
  SZ 2292 (z 2291 + z 538 * z 2090 + z 544 * z 2099 + z 547 * z 2118 + z 549 * z 2100 + z 916 * z 1490 - z 541 * z 2087 - z 912 * z 1187 - z 919 * z 1540 - z 927 * z 1576 - z 936 * z 1622);
  SZ 2293 (z 1 * z 3 * z 1543 - z 1 * z 4 * q3p - z 2 * z 3 * q4p);
  SZ 2294 (z 1 * z 4 * z 1543 + z 1 * z 3 * q3p - z 2 * z 4 * q4p);
  SZ 2295 (z 3 * z 121 * q4p + z 4 * z 218 * q4p + z 4 * z 554 - z 2 * (PowN (z 3) 2) * q4p - z 2 * (PowN (z 4) 2) * q4p - z 3 * z 555 - z 3 * z 2293 - z 4 * z 2294);
  SZ 2296 (z 2 * z 4 * q3p - z 2 * z 3 * z 1543 - z 1 * z 3 * q4p);
  SZ 2297 ((- z 2) * z 4 * z 1543 - z 1 * z 4 * q4p - z 2 * z 3 * q3p);
  SZ 2298 (z 1 * (PowN (z 3) 2) * q4p + z 1 * (PowN (z 4) 2) * q4p + z 3 * z 558 + z 3 * z 2296 + z 4 * z 2297 - z 3 * z 124 * q4p - z 4 * z 219 * q4p - z 4 * z 557);
  SZ 2299 ((z 5 * z 8 + z 6 * z 7) * z 1578);
  SZ 2300 ((z 5 * z 7 - z 6 * z 8) * z 1578);
  SZ 2301 (rr * (z 60 * z 2299 - z 63 * z 2300 - z 54 * z 2165 - z 55 * z 2170 - z 1062 * z 560 - z 1063 * z 561));
  SZ 2302 (z 4 * z 1064 * q4p + z 3 * z 2301 + z 4 * z 566 - z 3 * z 229 * q4p);
  SZ 2303 (rr * (z 62 * z 2299 + z 65 * z 2300 + z 55 * z 2171 + z 7 * z 1156 * z 561 - z 54 * z 2167 - z 8 * z 1156 * z 560));
  SZ 2304 (z 4 * z 1170 * q4p - z 3 * z 223 * q4p - z 3 * z 2303 - z 4 * z 564);
  SZ 2305 (rr * (z 64 * z 2300 + z 43 * z 54 * z 2166 + z 43 * z 55 * z 2172 + z 43 * z 1141 * z 560 - z 61 * z 2299 - z 43 * z 1142 * z 561));
  SZ 2306 (z 3 * z 2305 - z 3 * z 222 * q4p - z 4 * z 1143 * q4p - z 4 * z 562);
  SZ 2307 (u1 * z 2295 + u2 * z 2298 + u4 * z 2302 + u5 * z 2304 + z 1197 * z 556 + z 1491 * z 559 + z 1578 * z 565 - u3 * z 2306 - z 1543 * z 563);
  SZ 2308 (z 1 * z 5 * z 1578 + z 1 * z 31 * z 1543 + z 1 * z 3 * z 5 * q3p + z 2 * z 2143 - z 2 * z 6 * z 1543);
  SZ 2309 ((- z 1) * z 6 * z 1578 - z 1 * z 41 * z 1543 - z 2 * z 5 * z 1543 - z 1 * z 3 * z 6 * q3p - z 2 * z 2147);
  SZ 2310 (z 2 * z 4 * z 9 * q7p + z 2 * z 3 * z 6 * z 10 * q7p + z 9 * z 2309 - z 10 * z 2293);
  SZ 2311 (z 2 * z 3 * z 6 * z 9 * q7p - z 2 * z 4 * z 10 * q7p - z 9 * z 2293 - z 10 * z 2309);
  SZ 2312 (z 5 * z 122 * z 1578 + z 6 * z 10 * z 238 * z 1578 + z 2 * z 3 * (PowN (z 5) 2) * q5p + z 6 * z 2308 + z 23 * z 2310 + z 1181 * z 305 - z 6 * z 9 * z 233 * z 1578 - z 25 * z 2311 - z 1182 * z 296);
  SZ 2313 (z 1 * z 6 * z 1543 + z 2 * z 5 * z 1578 + z 2 * z 31 * z 1543 + z 2 * z 3 * z 5 * q3p - z 1 * z 2143);
  SZ 2314 (z 1 * z 5 * z 1543 + z 1 * z 2147 - z 2 * z 6 * z 1578 - z 2 * z 41 * z 1543 - z 2 * z 3 * z 6 * q3p);
  SZ 2315 (z 9 * z 2314 + z 10 * z 2296 - z 1 * z 4 * z 9 * q7p - z 1 * z 3 * z 6 * z 10 * q7p);
  SZ 2316 (z 1 * z 4 * z 10 * q7p + z 9 * z 2296 - z 1 * z 3 * z 6 * z 9 * q7p - z 10 * z 2314);
  SZ 2317 (z 5 * z 125 * z 1578 + z 6 * z 10 * z 239 * z 1578 + z 6 * z 2313 + z 23 * z 2315 + z 1120 * z 296 - z 6 * z 9 * z 234 * z 1578 - z 1 * z 3 * (PowN (z 5) 2) * q5p - z 25 * z 2316 - z 1119 * z 305);
  SZ 2318 (z 5 * z 118 * z 1578 + rr * z 3 * z 5 * z 43 * q5p - z 6 * z 2244);
  SZ 2319 (d1 * z 4 * z 43 * q4p - z 2318);
  SZ 2320 (z 25 * z 2143 + z 3 * z 5 * z 296 - z 5 * z 29 * z 1578 - z 6 * z 10 * z 31 * z 1578 - z 5 * z 69 * q5p - z 6 * z 2175);
  SZ 2321 (z 23 * z 2175 + z 25 * z 2187 + z 66 * z 296 + z 69 * z 305 - z 6 * z 9 * z 29 * z 1578 - z 6 * z 10 * z 27 * z 1578);
  SZ 2322 ((Lit 2 1) * z 33 * z 2320 + (Lit 2 1) * z 34 * z 2321 + (Lit 2 1) * z 1069 * z 579 + (Lit 2 1) * z 1070 * z 580);
  SZ 2323 (((Lit 2 1) * z 33 * z 1071 * z 581 / z 35 + z 36 * ((Lit 4 1) * z 36 * z 2320 + (z 33 * z 1071 * z 581 - (Lit 2 1) * z 33 * z 35 * z 2322 - (Lit 2 1) * z 35 * z 1070 * z 581 - (Lit 2 1) * z 35 * z 1071 * z 580) / (PowH (z 35) 1))) / (PowN (z 36) 3));
  SZ 2324 (z 39 * z 43 * z 2186 + (Lit 1 4) * rf * z 82 * z 2323 + (Lit 1 2) * rf * z 29 * z 43 * z 584 + (Lit 1 2) * rf * z 43 * z 1076 * z 313);
  SZ 2325 (z 2319 - z 2324 - d3 * z 43 * z 2186);
  SZ 2326 ((- z 6) * z 118 * z 1578 - rr * z 3 * z 6 * z 43 * q5p - z 5 * z 2244);
  SZ 2327 (z 10 * z 1067 * q7p + d2 * z 43 * z 2186 + d1 * z 10 * z 43 * z 2142 - z 9 * z 1066 * q7p - z 9 * z 2326);
  SZ 2328 (((Lit 2 1) * z 34 * z 1071 * z 581 / z 35 + z 36 * ((Lit 4 1) * z 36 * z 2321 + (z 34 * z 1071 * z 581 - (Lit 2 1) * z 34 * z 35 * z 2322 - (Lit 2 1) * z 35 * z 1069 * z 581 - (Lit 2 1) * z 35 * z 1071 * z 579) / (PowH (z 35) 1))) / (PowN (z 36) 3));
  SZ 2329 (z 40 * z 43 * z 2186 + (Lit 1 4) * rf * z 82 * z 2328 + (Lit 1 2) * rf * z 29 * z 43 * z 582 + (Lit 1 2) * rf * z 43 * z 1072 * z 313);
  SZ 2330 (z 43 * (d2 * z 2184 - d3 * z 2142));
  SZ 2331 (z 9 * z 1067 * q7p + z 10 * z 1066 * q7p + z 10 * z 2326 + d1 * z 9 * z 43 * z 2142 - z 2330);
  SZ 2332 (z 12 * z 40 * z 90 * z 1625 + z 12 * z 40 * z 43 * z 1078 * q8p + (Lit 1 2) * rf * z 12 * z 90 * z 1072 * q8p + z 11 * z 39 * z 43 * z 2218 + (Lit 1 4) * rf * z 11 * z 94 * z 2323 + (Lit 1 2) * rf * z 11 * z 43 * z 1076 * z 329 + (Lit 1 2) * rf * z 11 * z 43 * z 1077 * z 584 - z 11 * z 39 * z 90 * z 1625 - z 11 * z 40 * z 94 * z 1625 - z 12 * z 39 * z 94 * z 1625 - z 11 * z 39 * z 43 * z 1078 * q8p - z 11 * z 40 * z 43 * z 1077 * q8p - z 12 * z 39 * z 43 * z 1077 * q8p - (Lit 1 2) * rf * z 11 * z 90 * z 1076 * q8p - (Lit 1 2) * rf * z 11 * z 94 * z 1072 * q8p - (Lit 1 2) * rf * z 12 * z 94 * z 1076 * q8p - z 11 * z 40 * z 43 * z 2211 - z 12 * z 39 * z 43 * z 2211 - z 12 * z 40 * z 43 * z 2218 - (Lit 1 4) * rf * z 11 * z 90 * z 2328 - (Lit 1 4) * rf * z 12 * z 90 * z 2323 - (Lit 1 4) * rf * z 12 * z 94 * z 2328 - (Lit 1 2) * rf * z 11 * z 43 * z 1072 * z 324 - (Lit 1 2) * rf * z 11 * z 43 * z 1078 * z 582 - (Lit 1 2) * rf * z 12 * z 43 * z 1072 * z 329 - (Lit 1 2) * rf * z 12 * z 43 * z 1076 * z 324 - (Lit 1 2) * rf * z 12 * z 43 * z 1077 * z 582 - (Lit 1 2) * rf * z 12 * z 43 * z 1078 * z 584);
  SZ 2333 (z 5 * z 262 * z 1578 + z 6 * z 10 * z 259 * z 1578 + z 5 * (z 1082 - z 1083) * q5p + z 6 * z 2325 + (z 1068 + z 1073) * z 305 + z 23 * (z 2327 + z 2329) - z 6 * z 9 * z 257 * z 1578 - (z 1075 + z 1079) * z 296 - z 25 * (z 2331 + z 2332));
  SZ 2334 (d1 * z 9 * z 1061 * q7p + d2 * z 2199 + d1 * z 10 * z 2148);
  SZ 2335 (z 40 * z 2199 + (Lit 1 4) * rf * z 77 * z 2328 + (Lit 1 2) * rf * z 1072 * z 312 + (Lit 1 2) * rf * z 1127 * z 582);
  SZ 2336 ((- d1) * z 2156 - d3 * z 2199);
  SZ 2337 (z 39 * z 2199 + (Lit 1 4) * rf * z 77 * z 2323 + (Lit 1 2) * rf * z 1076 * z 312 + (Lit 1 2) * rf * z 1127 * z 584);
  SZ 2338 (d3 * z 2188 - d2 * z 2177);
  SZ 2339 (z 2338 + d1 * z 9 * z 2148 - d1 * z 10 * z 1061 * q7p);
  SZ 2340 (z 12 * z 40 * z 92 * z 1625 + z 12 * z 40 * z 1138 * q8p + (Lit 1 2) * rf * z 12 * z 92 * z 1072 * q8p + z 11 * z 39 * z 2215 + (Lit 1 4) * rf * z 11 * z 97 * z 2323 + (Lit 1 2) * rf * z 11 * z 1076 * z 332 + (Lit 1 2) * rf * z 11 * z 1137 * z 584 - z 11 * z 39 * z 92 * z 1625 - z 11 * z 40 * z 97 * z 1625 - z 12 * z 39 * z 97 * z 1625 - z 11 * z 39 * z 1138 * q8p - z 11 * z 40 * z 1137 * q8p - z 12 * z 39 * z 1137 * q8p - (Lit 1 2) * rf * z 11 * z 92 * z 1076 * q8p - (Lit 1 2) * rf * z 11 * z 97 * z 1072 * q8p - (Lit 1 2) * rf * z 12 * z 97 * z 1076 * q8p - z 11 * z 40 * z 2208 - z 12 * z 39 * z 2208 - z 12 * z 40 * z 2215 - (Lit 1 2) * rf * z 11 * z 1072 * z 326 - (Lit 1 2) * rf * z 11 * z 1138 * z 582 - (Lit 1 2) * rf * z 12 * z 1072 * z 332 - (Lit 1 2) * rf * z 12 * z 1076 * z 326 - (Lit 1 2) * rf * z 12 * z 1137 * z 582 - (Lit 1 2) * rf * z 12 * z 1138 * z 584 - (Lit 1 4) * rf * z 11 * z 92 * z 2328 - (Lit 1 4) * rf * z 12 * z 92 * z 2323 - (Lit 1 4) * rf * z 12 * z 97 * z 2328);
  SZ 2341 (z 5 * z 263 * z 1578 + z 6 * z 10 * z 261 * z 1578 + z 5 * (z 1128 - z 1129) * q5p + (z 1130 + z 1131) * z 305 + z 23 * (z 2334 + z 2335) + z 6 * (z 2336 - z 2337) - z 6 * z 9 * z 256 * z 1578 - (z 1136 + z 1139) * z 296 - z 25 * (z 2339 + z 2340));
  SZ 2342 (d1 * z 9 * z 1156 * q7p + d2 * z 2200 + d1 * z 10 * z 2149);
  SZ 2343 (z 40 * z 2200 + (Lit 1 4) * rf * z 76 * z 2328 + (Lit 1 2) * rf * z 1072 * z 311 + (Lit 1 2) * rf * z 1153 * z 582);
  SZ 2344 ((- d1) * z 2157 - d3 * z 2200);
  SZ 2345 (z 39 * z 2200 + (Lit 1 4) * rf * z 76 * z 2323 + (Lit 1 2) * rf * z 1076 * z 311 + (Lit 1 2) * rf * z 1153 * z 584);
  SZ 2346 (d3 * z 2191 - d2 * z 2180);
  SZ 2347 (z 2346 + d1 * z 9 * z 2149 - d1 * z 10 * z 1156 * q7p);
  SZ 2348 (z 12 * z 40 * z 91 * z 1625 + z 12 * z 40 * z 1164 * q8p + (Lit 1 2) * rf * z 12 * z 91 * z 1072 * q8p + z 11 * z 39 * z 2216 + (Lit 1 4) * rf * z 11 * z 95 * z 2323 + (Lit 1 2) * rf * z 11 * z 1076 * z 330 + (Lit 1 2) * rf * z 11 * z 1163 * z 584 - z 11 * z 39 * z 91 * z 1625 - z 11 * z 40 * z 95 * z 1625 - z 12 * z 39 * z 95 * z 1625 - z 11 * z 39 * z 1164 * q8p - z 11 * z 40 * z 1163 * q8p - z 12 * z 39 * z 1163 * q8p - (Lit 1 2) * rf * z 11 * z 91 * z 1076 * q8p - (Lit 1 2) * rf * z 11 * z 95 * z 1072 * q8p - (Lit 1 2) * rf * z 12 * z 95 * z 1076 * q8p - z 11 * z 40 * z 2209 - z 12 * z 39 * z 2209 - z 12 * z 40 * z 2216 - (Lit 1 2) * rf * z 11 * z 1072 * z 325 - (Lit 1 2) * rf * z 11 * z 1164 * z 582 - (Lit 1 2) * rf * z 12 * z 1072 * z 330 - (Lit 1 2) * rf * z 12 * z 1076 * z 325 - (Lit 1 2) * rf * z 12 * z 1163 * z 582 - (Lit 1 2) * rf * z 12 * z 1164 * z 584 - (Lit 1 4) * rf * z 11 * z 91 * z 2328 - (Lit 1 4) * rf * z 12 * z 91 * z 2323 - (Lit 1 4) * rf * z 12 * z 95 * z 2328);
  SZ 2349 (z 5 * z 264 * z 1578 + z 6 * z 10 * z 260 * z 1578 + z 5 * (z 1154 - z 1155) * q5p + (z 1157 + z 1158) * z 305 + z 23 * (z 2342 + z 2343) + z 6 * (z 2344 - z 2345) - z 6 * z 9 * z 255 * z 1578 - (z 1162 + z 1165) * z 296 - z 25 * (z 2347 + z 2348));
  SZ 2350 ((Lit 1 4) * rf * z 23 * z 83 * z 2328 + (Lit 1 2) * rf * z 83 * z 1072 * z 305 - z 5 * z 250 * z 1578 - z 6 * z 9 * z 254 * z 1578 - (Lit 1 2) * rf * z 5 * z 83 * z 1076 * q5p - (Lit 1 4) * rf * z 6 * z 83 * z 2323);
  SZ 2351 (d3 * z 2192 - d2 * z 2183);
  SZ 2352 (z 12 * z 40 * z 93 * z 1625 + z 12 * z 40 * z 1193 * q8p + (Lit 1 2) * rf * z 12 * z 93 * z 1072 * q8p + z 11 * z 39 * z 2217 + (Lit 1 4) * rf * z 11 * z 96 * z 2323 + (Lit 1 2) * rf * z 11 * z 1076 * z 331 + (Lit 1 2) * rf * z 11 * z 1192 * z 584 - z 11 * z 39 * z 93 * z 1625 - z 11 * z 40 * z 96 * z 1625 - z 12 * z 39 * z 96 * z 1625 - z 11 * z 39 * z 1193 * q8p - z 11 * z 40 * z 1192 * q8p - z 12 * z 39 * z 1192 * q8p - (Lit 1 2) * rf * z 11 * z 93 * z 1076 * q8p - (Lit 1 2) * rf * z 11 * z 96 * z 1072 * q8p - (Lit 1 2) * rf * z 12 * z 96 * z 1076 * q8p - z 11 * z 40 * z 2210 - z 12 * z 39 * z 2210 - z 12 * z 40 * z 2217 - (Lit 1 2) * rf * z 11 * z 1072 * z 327 - (Lit 1 2) * rf * z 11 * z 1193 * z 582 - (Lit 1 2) * rf * z 12 * z 1072 * z 331 - (Lit 1 2) * rf * z 12 * z 1076 * z 327 - (Lit 1 2) * rf * z 12 * z 1192 * z 582 - (Lit 1 2) * rf * z 12 * z 1193 * z 584 - (Lit 1 4) * rf * z 11 * z 93 * z 2328 - (Lit 1 4) * rf * z 12 * z 93 * z 2323 - (Lit 1 4) * rf * z 12 * z 96 * z 2328);
  SZ 2353 ((z 1191 + z 1194) * z 296 + z 25 * (z 2351 + z 2352) - z 6 * z 10 * z 258 * z 1578);
  SZ 2354 (u1 * z 2312 + u2 * z 2317 + u3 * z 2333 + u4 * z 2341 + u5 * z 2349 + u8 * z 2350 + z 1197 * z 573 + z 1491 * z 578 + z 1543 * z 616 + z 1578 * z 594 + z 1625 * z 586 - u7 * z 2353);
  SZ 2355 (z 2244 - rr * z 4 * z 43 * q4p);
  SZ 2356 (z 1 * u2 * z 1543 + z 1 * z 1491 * q3p + u3 * z 2355 + z 1543 * z 552 + rr * u4 * z 2156 + rr * u5 * z 2157 + rr * z 1578 * z 275 - z 2 * u1 * z 1543 - z 2 * z 1197 * q3p);
  SZ 2357 (z 25 * z 2320 + z 1070 * z 296 - z 6 * z 10 * z 33 * z 1578);
  SZ 2358 (((Lit 3 2) * z 416 * z 1071 * z 581 + z 35 * ((Lit 2 1) * z 35 * z 2357 - z 416 * z 2322 - z 1071 * z 630 - z 25 * z 1070 * z 581)) / (PowH (z 35) 2));
  SZ 2359 (((Lit 2 1) * z 1071 * (z 36 * (z 33 * z 631 + (Lit 2 1) * z 420 * z 580) + (z 25 * z 36 - (Lit 3 1) * z 33 * z 420) * z 581 / (PowH (z 35) 0)) / (PowH (z 35) 0) + z 36 * ((Lit 2 1) * z 36 * (z 1094 * z 580 - (Lit 2 1) * z 6 * z 10 * z 36 * z 1578 - (Lit 2 1) * z 420 * z 2320 - z 33 * z 2358 - z 1070 * z 631 - z 1071 * z 296 / (PowH (z 35) 0)) - ((Lit 2 1) * z 35 * (z 25 * z 36 - (Lit 2 1) * z 33 * z 420) * z 2322 + (Lit 2 1) * z 35 * (z 33 * z 1094 - (Lit 2 1) * z 420 * z 1070) * z 581 - z 1071 * (z 25 * z 36 - (Lit 2 1) * z 33 * z 420) * z 581) / (PowH (z 35) 1))) / (PowN (z 36) 4));
  SZ 2360 ((z 34 * z 1071 * (z 36 * z 631 - (Lit 3 1) * z 420 * z 581 / (PowH (z 35) 0)) / (PowH (z 35) 0) + z 36 * (z 36 * z 1094 * z 579 - (Lit 2 1) * z 36 * z 420 * z 2321 - z 34 * z 36 * z 2358 - z 36 * z 1069 * z 631 - (z 34 * z 35 * z 1094 * z 581 + z 34 * z 420 * z 1071 * z 581 - (Lit 2 1) * z 34 * z 35 * z 420 * z 2322 - (Lit 2 1) * z 35 * z 420 * z 1069 * z 581 - (Lit 2 1) * z 35 * z 420 * z 1071 * z 579) / (PowH (z 35) 1))) / (PowN (z 36) 4));
  SZ 2361 (z 443 * z 2184 + (Lit 1 4) * rf * z 28 * z 2359 + (Lit 1 2) * rf * z 32 * z 2360 + (Lit 1 2) * rf * z 1095 * z 308 + (Lit 1 2) * rf * z 4 * z 5 * z 633 - z 434 * z 2142 - (Lit 1 2) * rf * z 27 * z 632 - (Lit 1 2) * rf * z 1096 * z 268);
  SZ 2362 (z 25 * z 2321 + z 1069 * z 296 - z 6 * z 10 * z 34 * z 1578);
  SZ 2363 (((Lit 3 2) * z 412 * z 1071 * z 581 + z 35 * ((Lit 2 1) * z 35 * z 2362 - z 412 * z 2322 - z 1071 * z 635 - z 25 * z 1069 * z 581)) / (PowH (z 35) 2));
  SZ 2364 ((z 33 * z 1071 * (z 36 * z 636 - (Lit 3 1) * z 418 * z 581 / (PowH (z 35) 0)) / (PowH (z 35) 0) + z 36 * (z 36 * z 1090 * z 580 - (Lit 2 1) * z 36 * z 418 * z 2320 - z 33 * z 36 * z 2363 - z 36 * z 1070 * z 636 - (z 33 * z 35 * z 1090 * z 581 + z 33 * z 418 * z 1071 * z 581 - (Lit 2 1) * z 33 * z 35 * z 418 * z 2322 - (Lit 2 1) * z 35 * z 418 * z 1070 * z 581 - (Lit 2 1) * z 35 * z 418 * z 1071 * z 580) / (PowH (z 35) 1))) / (PowN (z 36) 4));
  SZ 2365 (((Lit 2 1) * z 1071 * (z 36 * (z 34 * z 636 + (Lit 2 1) * z 418 * z 579) + (z 25 * z 36 - (Lit 3 1) * z 34 * z 418) * z 581 / (PowH (z 35) 0)) / (PowH (z 35) 0) + z 36 * ((Lit 2 1) * z 36 * (z 1090 * z 579 - (Lit 2 1) * z 6 * z 10 * z 36 * z 1578 - (Lit 2 1) * z 418 * z 2321 - z 34 * z 2363 - z 1069 * z 636 - z 1071 * z 296 / (PowH (z 35) 0)) - ((Lit 2 1) * z 35 * (z 25 * z 36 - (Lit 2 1) * z 34 * z 418) * z 2322 + (Lit 2 1) * z 35 * (z 34 * z 1090 - (Lit 2 1) * z 418 * z 1069) * z 581 - z 1071 * (z 25 * z 36 - (Lit 2 1) * z 34 * z 418) * z 581) / (PowH (z 35) 1))) / (PowN (z 36) 4));
  SZ 2366 (z 432 * z 2142 + (Lit 1 4) * rf * z 32 * z 2365 + (Lit 1 2) * rf * z 28 * z 2364 + (Lit 1 2) * rf * z 1091 * z 268 + (Lit 1 2) * rf * z 4 * z 5 * z 637 - z 444 * z 2184 - (Lit 1 2) * rf * z 27 * z 638 - (Lit 1 2) * rf * z 1092 * z 308);
  SZ 2367 ((Lit 2 1) * z 23 * z 2321 + (Lit 2 1) * z 1069 * z 305 - (Lit 2 1) * z 5 * z 33 * z 1578 - (Lit 2 1) * z 6 * z 9 * z 34 * z 1578 - (Lit 2 1) * z 5 * z 1070 * q5p - (Lit 2 1) * z 6 * z 2320);
  SZ 2368 (((Lit 3 2) * z 411 * z 1071 * z 581 + z 35 * ((Lit 2 1) * z 35 * z 2367 - z 411 * z 2322 - z 1071 * z 640 - z 1108 * z 581)) / (PowH (z 35) 2));
  SZ 2369 ((z 1071 * ((Lit 3 1) * z 33 * z 421 * z 581 / (PowH (z 35) 0) - z 36 * ((Lit 2 1) * z 5 * z 36 * q5p + z 33 * z 641 + (Lit 2 1) * z 421 * z 580 - (Lit 2 1) * z 6 * z 581 / (PowH (z 35) 0))) / (PowH (z 35) 0) + z 36 * ((z 33 * z 421 * z 1071 * z 581 - (Lit 2 1) * z 33 * z 35 * z 421 * z 2322 - (Lit 2 1) * z 35 * z 421 * z 1070 * z 581 - z 33 * z 35 * z 1109 * z 581) / (PowH (z 35) 1) + z 36 * ((Lit 4 1) * z 5 * z 36 * z 1578 + z 33 * z 2368 + z 1070 * z 641 + z 1109 * z 580 + (Lit 2 1) * z 421 * z 2320 - z 6 * ((Lit 2 1) * z 35 * z 2322 - z 1071 * z 581) / (PowH (z 35) 1)))) / (PowN (z 36) 4));
  SZ 2370 (((Lit 3 1) * z 34 * z 421 * z 1071 * z 581 / z 35 + z 36 * (z 36 * ((Lit 4 1) * z 6 * z 9 * z 36 * z 1578 + z 34 * z 2368 + z 1069 * z 641 + z 1109 * z 579 + (Lit 2 1) * z 421 * z 2321 + (Lit 2 1) * z 1071 * z 305 / (PowH (z 35) 0)) + ((Lit 2 1) * z 35 * (z 23 * z 36 - z 34 * z 421) * z 2322 - z 35 * z 1071 * (z 34 * z 641 + (Lit 2 1) * z 421 * z 579) - z 1071 * (z 23 * z 36 - z 34 * z 421) * z 581 - z 35 * (z 34 * z 1109 + (Lit 2 1) * z 421 * z 1069 + (Lit 2 1) * z 23 * z 1071 / (PowH (z 35) 0)) * z 581) / (PowH (z 35) 1))) / (PowN (z 36) 4));
  SZ 2371 ((Lit 1 2) * z 430 * z 2142 + (Lit 1 4) * rf * z 27 * z 643 + (Lit 1 4) * rf * z 1111 * z 308 + (Lit 1 4) * rf * z 4 * z 5 * z 642 - (Lit 1 2) * z 446 * z 2184 - (Lit 1 4) * rf * z 28 * z 2369 - (Lit 1 4) * rf * z 32 * z 2370 - (Lit 1 4) * rf * z 1110 * z 268);
  SZ 2372 (d1 * z 4 * z 5 * z 1578 + z 4 * z 6 * z 448 * z 1578 + d1 * z 3 * z 5 * q5p + z 3 * z 6 * z 448 * q5p + z 4 * z 5 * z 448 * q4p + z 4 * z 6 * z 455 * q5p + (Lit 1 2) * rf * z 4 * z 6 * z 1072 * q5p + z 3 * z 5 * z 2361 + (z 3 * z 24 - z 4 * z 10) * z 2366 + (Lit 1 4) * rf * (z 3 * z 10 + z 4 * z 24) * z 2323 + (Lit 1 2) * rf * (z 3 * z 24 - z 4 * z 10) * z 584 + z 1112 * (z 4 * z 10 * q7p + z 4 * z 26 * q4p - z 3 * z 9 * q4p - z 3 * z 295) + z 453 * (z 3 * z 5 * z 9 * z 1578 + z 4 * z 10 * q4p - z 3 * z 9 * q7p - z 3 * z 24 * q4p - z 4 * z 303) - z 3 * z 6 * z 455 * z 1578 - rr * z 4 * q4p - d1 * z 4 * z 6 * q4p - z 3 * z 5 * z 455 * q4p - z 3 * z 6 * z 1097 * q5p - z 4 * z 5 * z 1097 * q4p - (Lit 1 2) * rf * z 3 * z 5 * z 1072 * q4p - z 4 * z 5 * z 634 - (Lit 1 2) * rf * z 3 * z 5 * z 582 - (Lit 1 4) * rf * z 4 * z 5 * z 2328 - (z 3 * z 10 + z 4 * z 24) * z 639 - (z 3 * z 26 + z 4 * z 9) * z 2371 - (z 3 * z 9 - z 4 * z 26) * z 644 - z 1093 * (z 3 * z 10 * q4p + z 4 * z 9 * q7p + z 4 * z 24 * q4p - z 3 * z 303) - (Lit 1 2) * rf * z 1076 * (z 4 * z 10 * q4p - z 3 * z 9 * q7p - z 3 * z 24 * q4p - z 4 * z 303) - z 449 * (z 3 * z 10 * q4p + z 4 * z 9 * q7p + z 4 * z 24 * q4p - z 4 * z 5 * z 9 * z 1578 - z 3 * z 303) - z 451 * (z 3 * z 5 * z 10 * z 1578 - z 3 * z 10 * q7p - z 3 * z 26 * q4p - z 4 * z 9 * q4p - z 4 * z 295));
  SZ 2373 (z 5 * z 2175 - z 6 * z 29 * z 1578 - z 6 * z 69 * q5p);
  SZ 2374 (z 33 * z 2373 + z 410 * z 2320 + z 1070 * z 646 + z 5 * z 69 * z 580);
  SZ 2375 (((Lit 3 2) * z 415 * z 1071 * z 581 + z 35 * ((Lit 2 1) * z 35 * z 2374 - z 415 * z 2322 - z 1071 * z 647 - z 1085 * z 581)) / (PowH (z 35) 2));
  SZ 2376 (((Lit 3 1) * z 34 * z 417 * z 1071 * z 581 / z 35 + z 36 * (z 34 * z 36 * z 2375 + z 36 * z 1069 * z 648 + z 36 * z 1086 * z 579 + (Lit 2 1) * z 36 * z 417 * z 2321 + (z 34 * z 417 * z 1071 * z 581 - (Lit 2 1) * z 34 * z 35 * z 417 * z 2322 - (Lit 2 1) * z 35 * z 417 * z 1069 * z 581 - (Lit 2 1) * z 35 * z 417 * z 1071 * z 579 - z 34 * z 35 * z 1071 * z 648 - z 34 * z 35 * z 1086 * z 581) / (PowH (z 35) 1))) / (PowN (z 36) 4));
  SZ 2377 (((Lit 2 1) * z 1071 * ((Lit 3 1) * z 33 * z 417 * z 581 / (PowH (z 35) 0) + z 36 * (z 36 * z 646 - (Lit 2 1) * z 417 * z 580 - z 410 * z 581 / (PowH (z 35) 0))) / (PowH (z 35) 0) + z 36 * ((Lit 2 1) * (z 33 * z 417 * z 1071 * z 581 - (Lit 2 1) * z 33 * z 35 * z 417 * z 2322 - (Lit 2 1) * z 35 * z 417 * z 1070 * z 581 - z 33 * z 35 * z 1071 * z 648 - z 33 * z 35 * z 1086 * z 581) / (PowH (z 35) 1) + z 36 * ((Lit 2 1) * z 33 * z 2375 + (Lit 2 1) * z 1070 * z 648 + (Lit 2 1) * z 1086 * z 580 + (Lit 4 1) * z 417 * z 2320 - (Lit 4 1) * z 36 * z 2373 - (z 410 * z 1071 * z 581 - (Lit 2 1) * z 35 * z 410 * z 2322 - (Lit 2 1) * z 5 * z 35 * z 69 * z 581) / (PowH (z 35) 1)))) / (PowN (z 36) 4));
  SZ 2378 (z 429 * z 2142 + z 441 * z 2184 + (Lit 1 4) * rf * z 28 * z 2377 + (Lit 1 2) * rf * z 32 * z 2376 + (Lit 1 2) * rf * z 1088 * z 268 - (Lit 1 2) * rf * z 27 * z 649 - (Lit 1 2) * rf * z 1087 * z 308 - (Lit 1 2) * rf * z 4 * z 5 * z 650);
  SZ 2379 (z 29 * z 2321 + z 34 * z 2175 + z 69 * z 579 + z 1069 * z 300);
  SZ 2380 (((Lit 3 2) * z 414 * z 1071 * z 581 + z 35 * ((Lit 2 1) * z 35 * z 2379 - z 414 * z 2322 - z 1071 * z 652 - z 1098 * z 581)) / (PowH (z 35) 2));
  SZ 2381 (((Lit 3 1) * z 33 * z 419 * z 1071 * z 581 / z 35 + z 36 * (z 33 * z 36 * z 2380 + z 36 * z 1070 * z 653 + z 36 * z 1099 * z 580 + (Lit 2 1) * z 36 * z 419 * z 2320 + (z 33 * z 419 * z 1071 * z 581 - (Lit 2 1) * z 33 * z 35 * z 419 * z 2322 - (Lit 2 1) * z 35 * z 419 * z 1070 * z 581 - (Lit 2 1) * z 35 * z 419 * z 1071 * z 580 - z 33 * z 35 * z 1071 * z 653 - z 33 * z 35 * z 1099 * z 581) / (PowH (z 35) 1))) / (PowN (z 36) 4));
  SZ 2382 (((Lit 2 1) * z 1071 * (z 36 * (z 34 * z 653 + (Lit 2 1) * z 419 * z 579) + (z 29 * z 36 - (Lit 3 1) * z 34 * z 419) * z 581 / (PowH (z 35) 0)) / (PowH (z 35) 0) + z 36 * ((Lit 2 1) * z 36 * ((Lit 2 1) * z 36 * z 2175 - (Lit 2 1) * z 419 * z 2321 - z 34 * z 2380 - z 1069 * z 653 - z 1099 * z 579 - z 1071 * z 300 / (PowH (z 35) 0)) + (z 1071 * (z 29 * z 36 - (Lit 2 1) * z 34 * z 419) * z 581 - (Lit 2 1) * z 35 * (z 29 * z 36 - (Lit 2 1) * z 34 * z 419) * z 2322 - (Lit 2 1) * z 35 * (z 36 * z 69 - (Lit 2 1) * z 419 * z 1069 - z 34 * z 1099) * z 581) / (PowH (z 35) 1))) / (PowN (z 36) 4));
  SZ 2383 (z 433 * z 2142 + (Lit 1 4) * rf * z 32 * z 2382 + (Lit 1 2) * rf * z 4 * z 5 * z 654 - z 445 * z 2184 - (Lit 1 2) * rf * z 27 * z 655 - (Lit 1 2) * rf * z 28 * z 2381 - (Lit 1 2) * rf * z 1100 * z 268 - (Lit 1 2) * rf * z 1101 * z 308);
  SZ 2384 ((Lit 2 1) * z 27 * z 2321 + (Lit 2 1) * z 31 * z 2320 + (Lit 2 1) * z 33 * z 2143 + (Lit 2 1) * z 34 * z 2187 + (Lit 2 1) * z 66 * z 579 + (Lit 2 1) * z 1069 * z 310 + (Lit 2 1) * z 1070 * z 269 + (Lit 2 1) * z 3 * z 5 * z 580);
  SZ 2385 (((Lit 3 2) * z 413 * z 1071 * z 581 + z 35 * ((Lit 2 1) * z 35 * z 2384 - z 413 * z 2322 - z 1071 * z 657 - z 1103 * z 581)) / (PowH (z 35) 2));
  SZ 2386 ((z 1071 * (z 36 * (z 33 * z 658 + (Lit 2 1) * z 422 * z 580) + (Lit 2 1) * (z 31 * z 36 - (Lit 3 2) * z 33 * z 422) * z 581 / (PowH (z 35) 0)) / (PowH (z 35) 0) + z 36 * (z 36 * ((Lit 4 1) * z 36 * z 2143 - (Lit 2 1) * z 422 * z 2320 - z 33 * z 2385 - z 1070 * z 658 - z 1104 * z 580 - (Lit 2 1) * z 1071 * z 269 / (PowH (z 35) 0)) - ((Lit 2 1) * z 35 * (z 31 * z 36 - z 33 * z 422) * z 2322 - z 1071 * (z 31 * z 36 - z 33 * z 422) * z 581 - z 35 * (z 33 * z 1104 + (Lit 2 1) * z 422 * z 1070 - (Lit 2 1) * z 3 * z 5 * z 36) * z 581) / (PowH (z 35) 1))) / (PowN (z 36) 4));
  SZ 2387 ((z 1071 * (z 36 * (z 34 * z 658 + (Lit 2 1) * z 422 * z 579) + (Lit 2 1) * (z 27 * z 36 - (Lit 3 2) * z 34 * z 422) * z 581 / (PowH (z 35) 0)) / (PowH (z 35) 0) + z 36 * (z 36 * ((Lit 4 1) * z 36 * z 2187 - (Lit 2 1) * z 422 * z 2321 - z 34 * z 2385 - z 1069 * z 658 - z 1104 * z 579 - (Lit 2 1) * z 1071 * z 310 / (PowH (z 35) 0)) + (z 1071 * (z 27 * z 36 - z 34 * z 422) * z 581 - (Lit 2 1) * z 35 * (z 27 * z 36 - z 34 * z 422) * z 2322 - z 35 * ((Lit 2 1) * z 36 * z 66 - (Lit 2 1) * z 422 * z 1069 - z 34 * z 1104) * z 581) / (PowH (z 35) 1))) / (PowN (z 36) 4));
  SZ 2388 ((Lit 1 2) * z 431 * z 2142 + (Lit 1 2) * z 442 * z 2184 + (Lit 1 4) * rf * z 28 * z 2386 + (Lit 1 4) * rf * z 32 * z 2387 + (Lit 1 4) * rf * z 4 * z 5 * z 660 - (Lit 1 4) * rf * z 27 * z 659 - (Lit 1 4) * rf * z 1105 * z 308 - (Lit 1 4) * rf * z 1106 * z 268);
  SZ 2389 (d1 * z 3 * z 6 * z 1578 + z 3 * z 6 * z 9 * z 449 * z 1578 + z 4 * z 6 * z 10 * z 451 * z 1578 + d1 * z 3 * z 5 * q4p + z 3 * z 6 * z 448 * q4p + z 4 * z 5 * z 448 * q5p + z 4 * z 6 * z 455 * q4p + z 6 * z 10 * z 1102 * q7p + z 3 * z 5 * z 9 * z 449 * q4p + z 3 * z 5 * z 9 * z 1093 * q4p + z 3 * z 6 * z 10 * z 451 * q5p + z 4 * z 5 * z 10 * z 451 * q4p + z 4 * z 6 * z 10 * z 1112 * q5p + (Lit 1 2) * rf * z 4 * z 6 * z 1072 * q4p + (Lit 1 2) * rf * z 3 * z 5 * z 10 * z 1076 * q7p + (Lit 1 2) * rf * z 3 * z 6 * z 9 * z 1076 * q5p + (Lit 1 2) * rf * z 4 * z 5 * z 9 * z 1076 * q4p + z 2378 + z 3 * z 5 * z 9 * z 639 + z 4 * z 5 * z 9 * z 2366 + (Lit 1 2) * rf * z 4 * z 6 * z 582 + (Lit 1 2) * rf * z 4 * z 5 * z 9 * z 584 - z 3 * z 5 * z 448 * z 1578 - z 4 * z 5 * z 455 * z 1578 - z 5 * z 9 * z 454 * z 1578 - z 5 * z 10 * z 452 * z 1578 - z 4 * z 6 * z 9 * z 453 * z 1578 - d1 * z 4 * z 6 * q5p - z 3 * z 5 * z 455 * q5p - z 3 * z 6 * z 1097 * q4p - z 4 * z 5 * z 1097 * q5p - z 5 * z 9 * z 1102 * q5p - z 5 * z 10 * z 1107 * q5p - z 6 * z 9 * z 1107 * q7p - z 3 * z 5 * z 9 * z 451 * q7p - z 3 * z 5 * z 10 * z 453 * q7p - z 3 * z 5 * z 10 * z 1112 * q4p - z 3 * z 6 * z 9 * z 453 * q5p - z 4 * z 5 * z 9 * z 453 * q4p - z 4 * z 5 * z 9 * z 1112 * q7p - z 4 * z 5 * z 10 * z 449 * q7p - z 4 * z 5 * z 10 * z 1093 * q7p - z 4 * z 6 * z 9 * z 449 * q5p - z 4 * z 6 * z 9 * z 1093 * q5p - (Lit 1 2) * rf * z 3 * z 5 * z 1072 * q5p - z 3 * z 6 * z 634 - z 4 * z 6 * z 2361 - z 6 * z 9 * z 2383 - z 6 * z 10 * z 2388 - z 3 * z 5 * z 10 * z 644 - z 4 * z 5 * z 10 * z 2371 - (Lit 1 4) * rf * z 3 * z 6 * z 2328 - (Lit 1 4) * rf * z 3 * z 5 * z 9 * z 2323);
  SZ 2390 (z 6 * z 10 * z 454 * z 1578 + z 6 * z 10 * z 1102 * q5p + (Lit 1 2) * rf * z 1076 * (z 3 * z 9 * q4p + z 3 * z 5 * z 10 * q5p + z 3 * z 6 * z 9 * q7p - z 4 * z 10 * q7p - z 4 * z 6 * z 10 * q4p) + z 449 * (z 3 * z 5 * z 10 * z 1578 - z 3 * z 10 * q7p - z 4 * z 9 * q4p - z 3 * z 6 * z 10 * q4p - z 4 * z 5 * z 10 * q5p - z 4 * z 6 * z 9 * q7p) + z 5 * z 9 * z 2388 + (z 3 * z 9 - z 4 * z 6 * z 10) * z 2366 + (z 4 * z 10 - z 3 * z 6 * z 9) * z 644 + (Lit 1 4) * rf * (z 4 * z 9 + z 3 * z 6 * z 10) * z 2323 + (Lit 1 2) * rf * (z 3 * z 9 - z 4 * z 6 * z 10) * z 584 - z 6 * z 9 * z 452 * z 1578 - z 5 * z 9 * z 1102 * q7p - z 5 * z 10 * z 1107 * q7p - z 6 * z 9 * z 1107 * q5p - z 1093 * (z 3 * z 10 * q7p + z 4 * z 9 * q4p + z 3 * z 6 * z 10 * q4p + z 4 * z 5 * z 10 * q5p + z 4 * z 6 * z 9 * q7p) - z 1112 * (z 3 * z 9 * q7p + z 3 * z 6 * z 9 * q4p + z 4 * z 5 * z 9 * q5p - z 4 * z 10 * q4p - z 4 * z 6 * z 10 * q7p) - z 453 * (z 4 * z 5 * z 10 * z 1578 + z 3 * z 9 * q4p + z 3 * z 5 * z 10 * q5p + z 3 * z 6 * z 9 * q7p - z 4 * z 10 * q7p - z 4 * z 6 * z 10 * q4p) - z 451 * (z 4 * z 5 * z 9 * z 1578 + z 3 * z 5 * z 9 * q5p - z 3 * z 10 * q4p - z 4 * z 9 * q7p - z 3 * z 6 * z 10 * q7p - z 4 * z 6 * z 9 * q4p) - z 5 * z 10 * z 2383 - (z 3 * z 10 + z 4 * z 6 * z 9) * z 2371 - (z 4 * z 9 + z 3 * z 6 * z 10) * z 639);
  SZ 2391 (u4 * z 2372 + u5 * z 2389 + u7 * z 2390 + z 1578 * z 662);
  SZ 2392 (z 27 * z 2310 + z 29 * z 2311 + z 66 * z 571 + z 69 * z 572 + z 233 * z 2187 + z 238 * z 2175 + z 1181 * z 310 + z 1182 * z 300 - z 31 * z 2308 - z 122 * z 2143 - z 3 * z 5 * z 569 - z 2 * z 3 * z 5 * z 269);
  SZ 2393 (z 27 * z 2315 + z 29 * z 2316 + z 66 * z 576 + z 69 * z 577 + z 234 * z 2187 + z 239 * z 2175 + z 1 * z 3 * z 5 * z 269 - z 31 * z 2313 - z 125 * z 2143 - z 1119 * z 310 - z 1120 * z 300 - z 3 * z 5 * z 574);
  SZ 2394 (z 257 * z 2187 + z 259 * z 2175 + (z 1068 + z 1073) * z 310 + (z 1075 + z 1079) * z 300 + z 27 * (z 2327 + z 2329) + z 29 * (z 2331 + z 2332) + z 66 * (z 611 + z 612) + z 69 * (z 614 + z 615) - z 31 * z 2325 - z 262 * z 2143 - z 3 * z 5 * z 607 - (z 1082 - z 1083) * z 269);
  SZ 2395 (z 256 * z 2187 + z 261 * z 2175 + (z 1130 + z 1131) * z 310 + (z 1136 + z 1139) * z 300 + z 27 * (z 2334 + z 2335) + z 29 * (z 2339 + z 2340) + z 66 * (z 597 + z 598) + z 69 * (z 600 + z 601) - z 263 * z 2143 - (z 1128 - z 1129) * z 269 - z 31 * (z 2336 - z 2337) - z 3 * z 5 * (z 595 - z 596));
  SZ 2396 (z 255 * z 2187 + z 260 * z 2175 + (z 1157 + z 1158) * z 310 + (z 1162 + z 1165) * z 300 + z 27 * (z 2342 + z 2343) + z 29 * (z 2347 + z 2348) + z 66 * (z 589 + z 590) + z 69 * (z 592 + z 593) - z 264 * z 2143 - (z 1154 - z 1155) * z 269 - z 31 * (z 2344 - z 2345) - z 3 * z 5 * (z 587 - z 588));
  SZ 2397 (z 258 * z 2175 + (z 1191 + z 1194) * z 300 + z 29 * (z 2351 + z 2352) + z 69 * (z 617 + z 618));
  SZ 2398 (z 250 * z 2143 + z 254 * z 2187 + (Lit 1 2) * z 66 * z 583 + (Lit 1 2) * z 3 * z 5 * z 585 + (Lit 1 4) * rf * z 27 * z 83 * z 2328 + (Lit 1 4) * rf * z 31 * z 83 * z 2323 + (Lit 1 2) * rf * z 83 * z 1072 * z 310 + (Lit 1 2) * rf * z 83 * z 1076 * z 269);
  SZ 2399 (u1 * z 2392 + u2 * z 2393 + u3 * z 2394 + u4 * z 2395 + u5 * z 2396 + u7 * z 2397 + u8 * z 2398 + z 1197 * z 621 + z 1491 * z 622 + z 1543 * z 626 + z 1578 * z 624 + z 1625 * z 623);
  SZ 2400 ((z 1186 * (z 525 * z 568 + z 478 * z 496 * z 620 - z 511 * z 553 - z 535 * z 664 - z 478 * z 528 * z 628) - z 494 * (z 525 * z 2307 + z 1536 * z 568 + z 478 * z 496 * z 2354 + z 478 * z 1117 * z 620 + z 496 * z 1180 * z 620 - z 511 * z 2356 - z 535 * z 2391 - z 1538 * z 553 - z 1539 * z 664 - z 478 * z 528 * z 2399 - z 478 * z 1177 * z 628 - z 528 * z 1180 * z 628)) / (PowN (z 494) 2));
  SZ 2401 (z 48 * z 770 + z 767 * z 1126 + z 774 * z 1061 + z 789 * z 1126 + z 795 * z 1063 + z 803 * z 1134 + z 808 * z 1132 + z 813 * z 1127 + z 818 * z 1134 + z 823 * z 1132 + z 834 * z 1138 + z 838 * z 1127 + z 844 * z 1137 + z 857 * z 2221 + z 862 * z 2232 + z 867 * z 2229 + z 870 * z 2221 + z 874 * z 2232 + ic31 * z 45 * z 1156 + ic33 * z 49 * z 1156 + ie11 * z 74 * z 1160 + ie22 * z 77 * z 1153 + ie31 * z 74 * z 1159 + ie31 * z 80 * z 1160 + ie33 * z 80 * z 1159 + if11 * z 92 * z 1164 + if11 * z 97 * z 1163 + if22 * z 77 * z 1153 + ig22 * z 113 * z 2052 + ig31 * z 109 * z 2051 + ig33 * z 117 * z 2051 + z 2059 * z 109 * z 1156 + z 2130 * z 117 * z 1156 + (Lit 2 1) * ic22 * z 46 * z 1152 + (Lit 2 1) * id22 * z 46 * z 1152 + id11 * z 7 * z 63 * z 1156 + mc * (z 128 * z 2267 + l1 * z 132 * z 1126 + l1 * z 139 * z 1156 + l2 * z 135 * z 1126 + (Lit 2 1) * l1 * z 131 * z 1152 + (Lit 2 1) * l2 * z 134 * z 1152) + mg * (z 212 * (z 2053 + z 2055) + z 213 * (z 2255 + z 2257) + z 210 * (z 2243 + l6 * z 2229) + z 209 * ((Lit 2 1) * z 2058 + l6 * z 2052) + z 215 * (z 2056 - l5 * z 2052) + z 216 * (z 2264 - l5 * z 2229)) + me * (z 160 * z 2273 + z 162 * z 2111 + d1 * z 141 * z 1126 + d1 * z 143 * z 1061 + d1 * z 147 * z 1156 + d1 * z 167 * z 1126 + z 158 * z 140 * z 1153 + z 158 * z 141 * z 1127 + z 158 * z 167 * z 1127 + z 158 * z 168 * z 1153 + z 163 * z 164 * z 1127 + z 163 * z 165 * z 1153 + z 9 * z 143 * z 2273 + z 9 * z 147 * z 2111 + (Lit 2 1) * d1 * z 140 * z 1152 + (Lit 2 1) * d1 * z 168 * z 1152 + d1 * z 9 * z 160 * z 1061 + d1 * z 9 * z 162 * z 1156 + d1 * z 10 * z 164 * z 1061 + d1 * z 10 * z 165 * z 1156 + z 163 * z 10 * z 143 * z 1127 + z 163 * z 10 * z 147 * z 1153) + mf * (z 149 * z 1135 + z 151 * z 1161 + d1 * z 141 * z 1126 + d1 * z 143 * z 1061 + d1 * z 147 * z 1156 + d1 * z 155 * z 1126 + d2 * z 152 * z 1127 + d2 * z 153 * z 1153 + d3 * z 140 * z 1153 + d3 * z 141 * z 1127 + d3 * z 155 * z 1127 + d3 * z 156 * z 1153 + z 9 * z 143 * z 1135 + z 9 * z 147 * z 1161 + (Lit 2 1) * d1 * z 140 * z 1152 + (Lit 2 1) * d1 * z 156 * z 1152 + d1 * z 9 * z 149 * z 1061 + d1 * z 9 * z 151 * z 1156 + d1 * z 10 * z 152 * z 1061 + d1 * z 10 * z 153 * z 1156 + d2 * z 10 * z 143 * z 1127 + d2 * z 10 * z 147 * z 1153) - z 786 * z 1062 - id11 * z 8 * z 60 * z 1156);
  SZ 2402 (z 2401 + z 538 * z 2114 + z 544 * z 2132 + z 547 * z 2131 + z 915 * z 1490 + if22 * z 83 * z 549 * z 1153 - z 541 * z 2112 - z 911 * z 1187 - z 920 * z 1540 - z 928 * z 1576 - z 934 * z 1622);
  SZ 2403 ((z 494 * z 536 * z 2391 + z 494 * z 1575 * z 664 - z 536 * z 1186 * z 664) / (PowN (z 494) 2));
  SZ 2404 (z 841 * z 1127 + z 547 * z 841 * z 1153 + z 29 * z 43 * z 544 * z 841 - z 923 * z 1540 - z 931 * z 1576 - z 937 * z 1622);
  SZ 2405 ((z 1186 * (z 526 * z 568 + z 532 * z 628 - z 512 * z 553 - z 527 * z 620 - z 537 * z 664) - z 494 * (z 526 * z 2307 + z 532 * z 2399 + z 1608 * z 568 + z 1612 * z 628 - z 512 * z 2356 - z 527 * z 2354 - z 537 * z 2391 - z 1613 * z 553 - z 1614 * z 620 - z 1621 * z 664)) / (PowN (z 494) 2));
  SZ 2406 (md * z 2 * z 4 * z 119 + mc * (l2 * z 120 * z 1126 + z 2 * z 4 * z 139 - z 121 * z 2267 - l1 * z 122 * z 1126 - z 2 * z 3 * z 5 * z 131 - z 2 * z 3 * z 6 * z 134) - mg * (z 209 * z 2061 + z 215 * z 2063 - z 212 * z 2062 - z 187 * (z 2255 + z 2257) - z 182 * (z 2243 + l6 * z 2229) - z 192 * (z 2264 - l5 * z 2229)) - me * (d1 * z 121 * z 1061 + d1 * z 122 * z 1126 + z 158 * z 122 * z 1127 + z 9 * z 121 * z 2273 + z 10 * z 120 * z 2273 + z 163 * z 10 * z 121 * z 1127 + z 2 * z 3 * z 5 * z 140 + z 2 * z 3 * z 5 * z 168 + z 2 * z 3 * z 6 * z 9 * z 165 - z 2 * z 4 * z 147 - z 163 * z 9 * z 120 * z 1127 - z 2 * z 4 * z 9 * z 162 - z 2 * z 4 * z 10 * z 165 - z 2 * z 3 * z 6 * z 10 * z 162) - mf * (d1 * z 121 * z 1061 + d1 * z 122 * z 1126 + d3 * z 122 * z 1127 + z 9 * z 121 * z 1135 + z 10 * z 120 * z 1135 + d2 * z 10 * z 121 * z 1127 + z 2 * z 3 * z 5 * z 140 + z 2 * z 3 * z 5 * z 156 + z 2 * z 3 * z 6 * z 9 * z 153 - z 2 * z 4 * z 147 - d2 * z 9 * z 120 * z 1127 - z 2 * z 4 * z 9 * z 151 - z 2 * z 4 * z 10 * z 153 - z 2 * z 3 * z 6 * z 10 * z 151));
  SZ 2407 (z 2406 + z 538 * z 2089 + z 544 * z 2090 + z 547 * z 2114 + z 910 * z 1490 - z 541 * z 2081 - z 909 * z 1187 - z 911 * z 1576 - z 912 * z 1540);
  SZ 2408 ((z 1186 * (z 519 * z 568 + z 487 * z 496 * z 620 - z 504 * z 553 - z 533 * z 664 - z 487 * z 528 * z 628) - z 494 * (z 519 * z 2307 + z 1125 * z 568 + z 487 * z 496 * z 2354 + z 487 * z 1117 * z 620 + z 496 * z 1146 * z 620 - z 504 * z 2356 - z 533 * z 2391 - z 1150 * z 553 - z 1175 * z 664 - z 487 * z 528 * z 2399 - z 487 * z 1177 * z 628 - z 528 * z 1146 * z 628)) / (PowN (z 494) 2));
  SZ 2409 (me * (d1 * z 124 * z 1061 + z 9 * z 124 * z 2273 + z 163 * z 9 * z 123 * z 1127 + z 163 * z 10 * z 124 * z 1127 + z 1 * z 3 * z 5 * z 140 + z 1 * z 3 * z 5 * z 168 + z 1 * z 3 * z 6 * z 9 * z 165 - d1 * z 125 * z 1126 - z 158 * z 125 * z 1127 - z 1 * z 4 * z 147 - z 10 * z 123 * z 2273 - z 1 * z 4 * z 9 * z 162 - z 1 * z 4 * z 10 * z 165 - z 1 * z 3 * z 6 * z 10 * z 162) + mf * (d1 * z 124 * z 1061 + z 9 * z 124 * z 1135 + d2 * z 9 * z 123 * z 1127 + d2 * z 10 * z 124 * z 1127 + z 1 * z 3 * z 5 * z 140 + z 1 * z 3 * z 5 * z 156 + z 1 * z 3 * z 6 * z 9 * z 153 - d1 * z 125 * z 1126 - d3 * z 125 * z 1127 - z 1 * z 4 * z 147 - z 10 * z 123 * z 1135 - z 1 * z 4 * z 9 * z 151 - z 1 * z 4 * z 10 * z 153 - z 1 * z 3 * z 6 * z 10 * z 151) - md * z 1 * z 4 * z 119 - mc * (l1 * z 125 * z 1126 + z 1 * z 4 * z 139 - z 124 * z 2267 - l2 * z 123 * z 1126 - z 1 * z 3 * z 5 * z 131 - z 1 * z 3 * z 6 * z 134) - mg * (z 212 * z 2048 - z 209 * z 2047 - z 215 * z 2049 - z 188 * (z 2255 + z 2257) - z 183 * (z 2243 + l6 * z 2229) - z 193 * (z 2264 - l5 * z 2229)));
  SZ 2410 (z 2409 + z 538 * z 2081 + z 544 * z 2087 + z 547 * z 2112 + z 914 * z 1490 - z 541 * z 2080 - z 910 * z 1187 - z 915 * z 1576 - z 916 * z 1540);
  SZ 2411 ((z 1186 * (z 523 * z 568 + z 482 * z 496 * z 620 - z 509 * z 553 - z 534 * z 664 - z 482 * z 528 * z 628) - z 494 * (z 523 * z 2307 + z 1489 * z 568 + z 482 * z 496 * z 2354 + z 482 * z 1117 * z 620 + z 496 * z 1179 * z 620 - z 509 * z 2356 - z 534 * z 2391 - z 1483 * z 553 - z 1486 * z 664 - z 482 * z 528 * z 2399 - z 482 * z 1177 * z 628 - z 528 * z 1179 * z 628)) / (PowN (z 494) 2));
  SZ 2412 (z 2290 + z 941 * z 2403 + z 947 * z 2411 + z 2292 * z 667 + z 2402 * z 668 + z 2404 * z 669 + z 2407 * z 665 - z 940 * z 2400 - z 944 * z 2405 - z 946 * z 2408 - z 2410 * z 666);
  SZ 2413 (z 1132 + z 547 * z 1159 - z 52 * z 1540 - z 78 * z 1576 - z 4 * z 5 * z 43 * z 544);
  SZ 2414 (z 48 + z 50 * z 1540 + z 4 * z 6 * z 43 * z 544);
  SZ 2415 (z 1061 + z 547 * z 1156 - z 48 * z 1576 - z 52 * z 1540 - z 4 * z 5 * z 43 * z 544);
  SZ 2416 (z 2243 + l6 * z 2229 + z 183 * z 1490 + z 544 * z 2076 + z 547 * ((Lit 2 1) * z 2058 + l6 * z 2052) - z 182 * z 1187 - z 210 * z 1576 - z 211 * z 1540 - z 538 * z 2061 - z 541 * z 2047);
  SZ 2417 (z 2255 + z 2257 + z 188 * z 1490 + z 538 * z 2062 + z 541 * z 2048 + z 544 * (z 2071 + z 2072) + z 547 * (z 2053 + z 2055) - z 187 * z 1187 - z 213 * z 1576 - z 214 * z 1540);
  SZ 2418 (z 2264 + z 193 * z 1490 + z 544 * z 2074 + z 547 * (z 2056 - l5 * z 2052) - l5 * z 2229 - z 192 * z 1187 - z 216 * z 1576 - z 217 * z 1540 - z 538 * z 2063 - z 541 * z 2049);
  SZ 2419 (z 2267 + z 121 * z 1187 + z 124 * z 1490 + l1 * z 547 * z 1156 + z 1 * z 4 * z 541 + z 2 * z 4 * z 538 - z 128 * z 1576 - z 130 * z 1540 - z 544 * z 2083);
  SZ 2420 (z 125 * z 1490 + z 132 * z 1576 + z 544 * z 2084 + z 1 * z 3 * z 5 * z 541 + z 2 * z 3 * z 5 * z 538 - l1 * z 1126 - z 122 * z 1187 - z 138 * z 1540 - (Lit 2 1) * l1 * z 547 * z 1152);
  SZ 2421 (l2 * z 1126 + z 123 * z 1490 + z 544 * z 2082 + (Lit 2 1) * l2 * z 547 * z 1152 - z 120 * z 1187 - z 135 * z 1576 - z 137 * z 1540 - z 1 * z 3 * z 6 * z 541 - z 2 * z 3 * z 6 * z 538);
  SZ 2422 (z 2221 + z 14 * z 547 * z 1156 + z 43 * z 544 * z 2065 - z 110 * z 1540 - z 111 * z 1576);
  SZ 2423 (z 123 * z 1490 + z 126 * z 1540 - z 120 * z 1187 - z 544 * z 1067 - z 1 * z 3 * z 6 * z 541 - z 2 * z 3 * z 6 * z 538);
  SZ 2424 (d1 * z 1061 + z 121 * z 1187 + z 124 * z 1490 + d1 * z 547 * z 1156 + z 1 * z 4 * z 541 + z 2 * z 4 * z 538 - z 143 * z 1576 - z 145 * z 1540 - z 544 * z 1066);
  SZ 2425 (z 125 * z 1490 + z 141 * z 1576 + z 544 * z 1081 + z 1 * z 3 * z 5 * z 541 + z 2 * z 3 * z 5 * z 538 - d1 * z 1126 - z 122 * z 1187 - z 146 * z 1540 - (Lit 2 1) * d1 * z 547 * z 1152);
  SZ 2426 (z 167 * z 1576 + z 169 * z 1540 - z 158 * z 1127 - z 158 * z 547 * z 1153 - z 158 * z 29 * z 43 * z 544);
  SZ 2427 (z 163 * z 1127 + z 163 * z 547 * z 1153 + z 163 * z 29 * z 43 * z 544 - z 164 * z 1576 - z 166 * z 1540);
  SZ 2428 (z 3 * z 10 + z 4 * z 6 * z 9);
  SZ 2429 (z 2273 + z 547 * z 2111 - z 159 * z 1540 - z 160 * z 1576 - z 544 * z 2085);
  SZ 2430 (z 155 * z 1576 + z 157 * z 1540 - d3 * z 1127 - d3 * z 547 * z 1153 - d3 * z 29 * z 43 * z 544);
  SZ 2431 (d2 * z 1127 + d2 * z 547 * z 1153 + d2 * z 29 * z 43 * z 544 - z 152 * z 1576 - z 154 * z 1540);
  SZ 2432 (z 1135 + z 547 * z 1161 - z 148 * z 1540 - z 149 * z 1576 - z 544 * z 1074);
  SZ 2433 (T7 * z 2413 + z 403 * z 3 * z 119 + T4 * z 5 * z 2414 + T4 * z 6 * z 2415 + z 406 * (z 106 * z 2416 + z 107 * z 2417 + z 108 * z 2418 + z 744 * z 2065 + z 745 * z 2067 + z 746 * z 2066) + z 2422 * z 408 + z 13 * z 2414 * z 409 + z 14 * z 2415 * z 409 - T7 * z 2415 - z 402 * (z 42 * z 2421 + z 4 * z 5 * z 705 - z 3 * z 704 - z 4 * z 2419 - z 32 * z 2420 - z 4 * z 6 * z 703) - z 404 * (z 42 * z 2423 + z 4 * z 5 * z 716 + z 4 * z 5 * z 719 - z 3 * z 715 - z 4 * z 2424 - z 32 * z 2425 - z 32 * z 2426 - z 717 * z 2428 - z 718 * z 1339 - z 733 * z 2427 - z 734 * z 2429 - z 4 * z 6 * z 720) - z 405 * (z 42 * z 2423 + z 4 * z 5 * z 716 + z 4 * z 5 * z 737 - z 3 * z 715 - z 4 * z 2424 - z 32 * z 2425 - z 32 * z 2430 - z 733 * z 2431 - z 734 * z 2432 - z 735 * z 2428 - z 736 * z 1339 - z 4 * z 6 * z 720));
  SZ 2434 (z 791 * z 1126 + (Lit 2 1) * z 547 * z 791 * z 1152 + z 3 * z 43 * z 544 * z 791 - z 921 * z 1540 - z 929 * z 1576);
  SZ 2435 (z 2434 + z 542 * z 2410 + z 947 * z 1484 - z 539 * z 2407 - z 545 * z 2292 - z 550 * z 2404 - z 940 * z 1541 - z 944 * z 1624 - z 946 * z 1188);
  SZ 2436 (z 854 * z 2221 + z 859 * z 2232 + z 864 * z 2229 + mg * (z 205 * (z 2243 + l6 * z 2229) - z 200 * (z 2255 + z 2257) - z 201 * (z 2264 - l5 * z 2229)));
  SZ 2437 (z 2436 + z 538 * z 2064 + z 541 * z 2050 + z 544 * z 2105 + z 547 * z 2104 + z 907 * z 1490 - z 906 * z 1187 - z 924 * z 1540 - z 932 * z 1576);
  SZ 2438 (z 950 * z 2107 + z 960 * z 2435 - z 945 * z 2103 - z 964 * z 2437);
  SZ 2439 (z 805 * z 1134 + z 810 * z 1132 + z 819 * z 1134 + z 824 * z 1132 + z 836 * z 1138 + z 845 * z 1137 + (Lit 2 1) * z 74 * z 2123 + (Lit 2 1) * z 80 * z 2124 + ie11 * z 74 * z 1190 + ie31 * z 80 * z 1190 + if11 * z 92 * z 1193 + if11 * z 97 * z 1192 + me * z 2109 * (z 162 + z 9 * z 147) + mf * z 1191 * (z 151 + z 9 * z 147) + me * z 161 * (z 2273 + d1 * z 9 * z 1061) + mf * z 150 * (z 1135 + d1 * z 9 * z 1061));
  SZ 2440 (z 2439 + z 544 * z 2127 + z 547 * z 2126 + z 899 * z 1187 + z 900 * z 1490 - z 538 * z 2115 - z 541 * z 2110 - z 922 * z 1540 - z 930 * z 1576);
  SZ 2441 (z 2440 + z 543 * z 2410 + z 548 * z 2402 + z 551 * z 2404 + z 940 * z 1542 + z 946 * z 1196 - z 540 * z 2407 - z 546 * z 2292 - z 941 * z 1577 - z 944 * z 1623 - z 947 * z 1487);
  SZ 2442 (z 950 * z 2137 + z 965 * z 2435 - z 951 * z 2103 - z 964 * z 2441);
  SZ 2443 (z 951 * z 2107 + z 960 * z 2441 - z 945 * z 2137 - z 965 * z 2437);
  SZ 2444 (z 983 * z 2438 + z 997 * z 2078 - z 905 * z 2442 - z 982 * z 2443 - z 999 * z 2139);
  SZ 2445 (z 75 * z 2198 + z 79 * z 2207 + z 93 * z 2214 + z 96 * z 2220 + z 1190 * z 807 + z 1190 * z 821 + z 1190 * z 829 + z 1192 * z 847 + z 1192 * z 848 + z 1193 * z 837 + z 1193 * z 850 + ie11 * z 75 * z 2185 + ie31 * z 75 * z 2193 + ie31 * z 79 * z 2185 + ie33 * z 79 * z 2193 + if11 * z 93 * z 2212 + if11 * z 96 * z 2219 + (Lit 2 1) * z 29 * (z 30 + z 69) * z 812 + (Lit 2 1) * z 29 * (z 30 + z 69) * z 826 + (Lit 2 1) * z 29 * (z 30 + z 69) * z 828 + me * z 161 * (z 2278 + z 9 * z 2276 - z 10 * z 2275) + me * z 2109 * (z 384 + z 9 * z 373 - z 10 * z 372) + mf * z 150 * (z 2282 + z 9 * z 2276 - z 10 * z 2275) + mf * z 1191 * (z 378 + z 9 * z 373 - z 10 * z 372));
  SZ 2446 (z 2445 + z 543 * z 2289 + z 548 * z 2287 + z 551 * z 2288 + z 1196 * z 913 + z 1542 * z 925 - z 540 * z 2285 - z 546 * z 2286 - z 1487 * z 917 - z 1577 * z 933 - z 1623 * z 938);
  SZ 2447 (z 2446 + z 967 * z 2403 + z 972 * z 2411 + z 2116 * z 665 + z 2119 * z 667 + z 2120 * z 669 + z 2133 * z 668 - z 970 * z 2400 - z 971 * z 2408 - z 975 * z 2405 - z 2113 * z 666);
  SZ 2448 (z 52 * z 1542 + z 548 * z 1159 + z 4 * z 5 * z 43 * z 546 + (Lit 2 1) * z 29 * (z 30 + z 69) - z 78 * z 1577);
  SZ 2449 ((- z 50) * z 1542 - z 4 * z 6 * z 43 * z 546);
  SZ 2450 (z 52 * z 1542 + z 548 * z 1156 + z 4 * z 5 * z 43 * z 546 - z 48 * z 1577);
  SZ 2451 (z 182 * z 1196 + z 211 * z 1542 + z 540 * z 2061 + z 543 * z 2047 + z 548 * ((Lit 2 1) * z 2058 + l6 * z 2052) - z 183 * z 1487 - z 210 * z 1577 - z 546 * z 2076);
  SZ 2452 (z 187 * z 1196 + z 214 * z 1542 + z 548 * (z 2053 + z 2055) - z 188 * z 1487 - z 213 * z 1577 - z 540 * z 2062 - z 543 * z 2048 - z 546 * (z 2071 + z 2072));
  SZ 2453 (z 192 * z 1196 + z 217 * z 1542 + z 540 * z 2063 + z 543 * z 2049 + z 548 * (z 2056 - l5 * z 2052) - z 193 * z 1487 - z 216 * z 1577 - z 546 * z 2074);
  SZ 2454 (z 130 * z 1542 + z 546 * z 2083 + l1 * z 548 * z 1156 - z 121 * z 1196 - z 124 * z 1487 - z 128 * z 1577 - z 1 * z 4 * z 543 - z 2 * z 4 * z 540);
  SZ 2455 (z 122 * z 1196 + z 132 * z 1577 + z 138 * z 1542 - z 125 * z 1487 - z 546 * z 2084 - (Lit 2 1) * l1 * z 548 * z 1152 - z 1 * z 3 * z 5 * z 543 - z 2 * z 3 * z 5 * z 540);
  SZ 2456 (z 120 * z 1196 + z 137 * z 1542 + (Lit 2 1) * l2 * z 548 * z 1152 + z 1 * z 3 * z 6 * z 543 + z 2 * z 3 * z 6 * z 540 - z 123 * z 1487 - z 135 * z 1577 - z 546 * z 2082);
  SZ 2457 (z 110 * z 1542 + z 14 * z 548 * z 1156 - z 111 * z 1577 - z 43 * z 546 * z 2065);
  SZ 2458 (z 120 * z 1196 + z 546 * z 1067 + z 1 * z 3 * z 6 * z 543 + z 2 * z 3 * z 6 * z 540 - z 123 * z 1487 - z 126 * z 1542);
  SZ 2459 (z 145 * z 1542 + z 546 * z 1066 + d1 * z 548 * z 1156 - z 121 * z 1196 - z 124 * z 1487 - z 143 * z 1577 - z 1 * z 4 * z 543 - z 2 * z 4 * z 540);
  SZ 2460 (z 122 * z 1196 + z 141 * z 1577 + z 146 * z 1542 - z 125 * z 1487 - z 546 * z 1081 - (Lit 2 1) * d1 * z 548 * z 1152 - z 1 * z 3 * z 5 * z 543 - z 2 * z 3 * z 5 * z 540);
  SZ 2461 (z 167 * z 1577 + z 158 * z 29 * z 43 * z 546 - z 169 * z 1542 - z 158 * z 548 * z 1153);
  SZ 2462 (z 2109 + z 159 * z 1542 + z 546 * z 2085 + z 548 * z 2111 - z 160 * z 1577);
  SZ 2463 (z 166 * z 1542 + z 163 * z 548 * z 1153 - z 164 * z 1577 - z 163 * z 29 * z 43 * z 546);
  SZ 2464 (z 155 * z 1577 + d3 * z 29 * z 43 * z 546 - z 157 * z 1542 - d3 * z 548 * z 1153);
  SZ 2465 (z 154 * z 1542 + d2 * z 548 * z 1153 - z 152 * z 1577 - d2 * z 29 * z 43 * z 546);
  SZ 2466 (z 1191 + z 148 * z 1542 + z 546 * z 1074 + z 548 * z 1161 - z 149 * z 1577);
  SZ 2467 (T7 * z 2448 + T4 * z 5 * z 2449 + T4 * z 6 * z 2450 + z 406 * (z 106 * z 2451 + z 107 * z 2452 + z 108 * z 2453 + z 750 * z 2065 + z 751 * z 2067 + z 752 * z 2066) + z 2457 * z 408 + z 13 * z 2449 * z 409 + z 14 * z 2450 * z 409 - T7 * z 2450 - z 402 * (z 42 * z 2456 + z 4 * z 5 * z 711 - z 3 * z 710 - z 4 * z 2454 - z 32 * z 2455 - z 4 * z 6 * z 709) - z 404 * (z 42 * z 2458 + z 4 * z 5 * z 730 + z 4 * z 5 * z 732 - z 3 * z 729 - z 4 * z 2459 - z 32 * z 2460 - z 32 * z 2461 - z 727 * z 1339 - z 731 * z 2428 - z 733 * z 2463 - z 734 * z 2462 - z 4 * z 6 * z 728) - z 405 * (z 42 * z 2458 + z 4 * z 5 * z 730 + z 4 * z 5 * z 743 - z 3 * z 729 - z 4 * z 2459 - z 32 * z 2460 - z 32 * z 2464 - z 733 * z 2465 - z 734 * z 2466 - z 741 * z 1339 - z 742 * z 2428 - z 4 * z 6 * z 728));
  SZ 2468 (z 950 * z 2106 + z 973 * z 2435 - z 945 * z 2121 - z 978 * z 2437);
  SZ 2469 (z 950 * z 2134 + z 979 * z 2435 - z 951 * z 2121 - z 978 * z 2441);
  SZ 2470 (z 951 * z 2106 + z 973 * z 2441 - z 945 * z 2134 - z 979 * z 2437);
  SZ 2471 (z 983 * z 2468 + z 1013 * z 2078 - z 905 * z 2469 - z 982 * z 2470 - z 1014 * z 2139);
  SZ 2472 (z 53 * (z 2163 + id22 * z 2158));
  SZ 2473 (z 2472 + z 542 * z 2289 + z 1484 * z 917 - z 539 * z 2285 - z 545 * z 2286 - z 550 * z 2288 - z 1188 * z 913 - z 1541 * z 925 - z 1624 * z 938);
  SZ 2474 (z 2473 + z 954 * z 2403 + z 958 * z 2411 + z 2091 * z 665 + z 2101 * z 667 + z 2102 * z 669 + z 2136 * z 668 - z 955 * z 2400 - z 957 * z 2408 - z 961 * z 2405 - z 2088 * z 666);
  SZ 2475 (z 51 * z 1541 + z 3 * z 43 * z 545);
  SZ 2476 ((- z 51) * z 1541 - z 3 * z 43 * z 545);
  SZ 2477 (z 50 * z 1541 - z 4 * z 6 * z 43 * z 545);
  SZ 2478 (z 183 * z 1484 + z 539 * z 2061 + z 542 * z 2047 - z 182 * z 1188 - z 211 * z 1541 - z 545 * z 2076);
  SZ 2479 (z 188 * z 1484 - z 187 * z 1188 - z 214 * z 1541 - z 539 * z 2062 - z 542 * z 2048 - z 545 * (z 2071 + z 2072));
  SZ 2480 (z 193 * z 1484 + z 539 * z 2063 + z 542 * z 2049 - z 192 * z 1188 - z 217 * z 1541 - z 545 * z 2074);
  SZ 2481 (z 121 * z 1188 + z 124 * z 1484 + z 545 * z 2083 - z 130 * z 1541 - z 1 * z 4 * z 542 - z 2 * z 4 * z 539);
  SZ 2482 (z 125 * z 1484 - z 122 * z 1188 - z 138 * z 1541 - z 545 * z 2084 - z 1 * z 3 * z 5 * z 542 - z 2 * z 3 * z 5 * z 539);
  SZ 2483 (z 123 * z 1484 + z 1 * z 3 * z 6 * z 542 + z 2 * z 3 * z 6 * z 539 - z 120 * z 1188 - z 137 * z 1541 - z 545 * z 2082);
  SZ 2484 (z 121 * z 1188 + z 124 * z 1484 + z 545 * z 1066 - z 145 * z 1541 - z 1 * z 4 * z 542 - z 2 * z 4 * z 539);
  SZ 2485 (z 125 * z 1484 - z 122 * z 1188 - z 146 * z 1541 - z 545 * z 1081 - z 1 * z 3 * z 5 * z 542 - z 2 * z 3 * z 5 * z 539);
  SZ 2486 (z 169 * z 1541 + z 158 * z 29 * z 43 * z 545);
  SZ 2487 (z 123 * z 1484 + z 126 * z 1541 + z 545 * z 1067 + z 1 * z 3 * z 6 * z 542 + z 2 * z 3 * z 6 * z 539 - z 120 * z 1188);
  SZ 2488 (z 166 * z 1541 + z 163 * z 29 * z 43 * z 545);
  SZ 2489 (z 159 * z 1541 - z 545 * z 2085);
  SZ 2490 (z 157 * z 1541 + d3 * z 29 * z 43 * z 545);
  SZ 2491 (z 154 * z 1541 + d2 * z 29 * z 43 * z 545);
  SZ 2492 (z 148 * z 1541 - z 545 * z 1074);
  SZ 2493 (z 52 * z 1541 - z 4 * z 5 * z 43 * z 545);
  SZ 2494 (z 110 * z 1541 + z 43 * z 545 * z 2065);
  SZ 2495 (T6 * z 2475 + T6 * z 2476 + T4 * z 5 * z 2477 + z 406 * (z 106 * z 2478 + z 107 * z 2479 + z 108 * z 2480 + z 747 * z 2065 + z 748 * z 2067 + z 749 * z 2066) + z 13 * z 2477 * z 409 - T4 * z 6 * z 2493 - z 402 * (z 42 * z 2483 + z 4 * z 5 * z 708 - z 3 * z 707 - z 4 * z 2481 - z 32 * z 2482 - z 4 * z 6 * z 706) - z 404 * (z 42 * z 2487 + z 724 * z 2428 + z 725 * z 1339 + z 733 * z 2488 + z 734 * z 2489 + z 4 * z 5 * z 723 + z 4 * z 5 * z 726 - z 3 * z 722 - z 4 * z 2484 - z 32 * z 2485 - z 32 * z 2486 - z 4 * z 6 * z 721) - z 405 * (z 42 * z 2487 + z 733 * z 2491 + z 734 * z 2492 + z 738 * z 2428 + z 739 * z 1339 + z 4 * z 5 * z 723 + z 4 * z 5 * z 740 - z 3 * z 722 - z 4 * z 2484 - z 32 * z 2485 - z 32 * z 2490 - z 4 * z 6 * z 721) - z 2494 * z 408 - z 14 * z 2493 * z 409);
  SZ 2496 (z 979 * z 2438 + z 997 * z 2134 - z 973 * z 2442 - z 978 * z 2443 - z 995 * z 2106 - z 999 * z 2121);
  SZ 2497 (z 98 * z 2235 + z 99 * z 2241 + ig11 * z 98 * z 2224 + ig22 * z 99 * z 2239 + ig31 * z 98 * z 2228 - mg * (z 200 * z 2263 + z 201 * z 2266 - z 205 * z 2256));
  SZ 2498 (z 2497 + z 903 * z 2403 + z 907 * z 2411 + z 2050 * z 666 + z 2060 * z 668 + z 2064 * z 665 + z 2077 * z 667 - z 902 * z 2400 - z 906 * z 2408);
  SZ 2499 (z 406 * (z 200 * z 2067 + z 201 * z 2066 - z 205 * z 2065));
  SZ 2500 (z 48 * z 760 + z 48 * z 771 + z 763 * z 1061 + z 766 * z 1126 + z 775 * z 1061 + z 784 * z 1062 + z 788 * z 1126 + z 793 * z 1063 + z 804 * z 1134 + z 809 * z 1132 + z 814 * z 1127 + z 820 * z 1134 + z 825 * z 1132 + z 835 * z 1138 + z 839 * z 1127 + z 846 * z 1137 + z 855 * z 2221 + z 860 * z 2232 + z 866 * z 2229 + z 871 * z 2221 + z 875 * z 2232 + ic11 * z 45 * z 48 + ic22 * z 46 * z 1126 + ic31 * z 45 * z 1061 + ic31 * z 48 * z 49 + ic33 * z 49 * z 1061 + id11 * z 60 * z 1062 + id11 * z 63 * z 1063 + id22 * z 46 * z 1126 + ie11 * z 74 * z 1134 + ie22 * z 77 * z 1127 + ie31 * z 74 * z 1132 + ie31 * z 80 * z 1134 + ie33 * z 80 * z 1132 + if11 * z 92 * z 1138 + if11 * z 97 * z 1137 + if22 * z 77 * z 1127 + ig11 * z 109 * z 2221 + ig22 * z 113 * z 2229 + ig31 * z 109 * z 2232 + ig31 * z 117 * z 2221 + ig33 * z 117 * z 2232 + (Lit 2 1) * mc * (z 139 * z 2267 + l1 * z 131 * z 1126 + l2 * z 134 * z 1126) + (Lit 2 1) * mg * (z 212 * (z 2255 + z 2257) + z 209 * (z 2243 + l6 * z 2229) + z 215 * (z 2264 - l5 * z 2229)) + (Lit 2 1) * me * (z 162 * z 2273 + d1 * z 140 * z 1126 + d1 * z 147 * z 1061 + d1 * z 168 * z 1126 + z 158 * z 140 * z 1127 + z 158 * z 168 * z 1127 + z 163 * z 165 * z 1127 + z 9 * z 147 * z 2273 + d1 * z 9 * z 162 * z 1061 + d1 * z 10 * z 165 * z 1061 + z 163 * z 10 * z 147 * z 1127) + (Lit 2 1) * mf * (z 151 * z 1135 + d1 * z 140 * z 1126 + d1 * z 147 * z 1061 + d1 * z 156 * z 1126 + d2 * z 153 * z 1127 + d3 * z 140 * z 1127 + d3 * z 156 * z 1127 + z 9 * z 147 * z 1135 + d1 * z 9 * z 151 * z 1061 + d1 * z 10 * z 153 * z 1061 + d2 * z 10 * z 147 * z 1127));
  SZ 2501 (ic22 * z 51 * z 1126 + ic31 * z 48 * z 52 + ic33 * z 52 * z 1061 + id11 * z 61 * z 1062 + id11 * z 64 * z 1063 + id22 * z 51 * z 1126 + ie11 * z 81 * z 1134 + ie22 * z 82 * z 1127 + ie31 * z 52 * z 1134 + ie31 * z 81 * z 1132 + ie33 * z 52 * z 1132 + if11 * z 90 * z 1138 + if11 * z 94 * z 1137 + if22 * z 82 * z 1127 + ig11 * z 110 * z 2221 + ig22 * z 112 * z 2229 + ig31 * z 110 * z 2232 + ig31 * z 115 * z 2221 + ig33 * z 115 * z 2232 + z 3 * z 43 * z 766 + z 3 * z 43 * z 788 + z 27 * z 43 * z 804 + z 27 * z 43 * z 820 + z 29 * z 43 * z 814 + z 29 * z 43 * z 839 + z 43 * z 784 * z 1141 + z 43 * z 835 * z 1078 + z 43 * z 846 * z 1077 + z 43 * z 855 * z 2065 + z 43 * z 860 * z 2066 + z 43 * z 866 * z 2067 + z 43 * z 871 * z 2065 + z 43 * z 875 * z 2066 + z 4 * z 6 * z 43 * z 760 + z 4 * z 6 * z 43 * z 771 + mg * (z 209 * z 2076 + z 215 * z 2074 + z 212 * (z 2071 + z 2072) + z 214 * (z 2255 + z 2257) + z 211 * (z 2243 + l6 * z 2229) + z 217 * (z 2264 - l5 * z 2229)) - ic11 * z 48 * z 50 - ic31 * z 50 * z 1061 - z 43 * z 793 * z 1142 - z 4 * z 5 * z 43 * z 763 - z 4 * z 5 * z 43 * z 775 - z 4 * z 5 * z 43 * z 809 - z 4 * z 5 * z 43 * z 825 - mc * (z 131 * z 2084 + z 139 * z 2083 + l1 * z 138 * z 1126 - z 130 * z 2267 - z 134 * z 2082 - l2 * z 137 * z 1126) - me * (z 140 * z 1081 + z 147 * z 1066 + z 162 * z 2085 + z 168 * z 1081 + d1 * z 146 * z 1126 + z 158 * z 146 * z 1127 + z 9 * z 147 * z 2085 + z 9 * z 162 * z 1066 + z 9 * z 165 * z 1067 + z 10 * z 165 * z 1066 + z 163 * z 9 * z 126 * z 1127 - z 159 * z 2273 - d1 * z 145 * z 1061 - d1 * z 169 * z 1126 - z 158 * z 169 * z 1127 - z 163 * z 166 * z 1127 - z 9 * z 145 * z 2273 - z 10 * z 126 * z 2273 - z 10 * z 162 * z 1067 - d1 * z 9 * z 159 * z 1061 - d1 * z 10 * z 166 * z 1061 - z 158 * z 29 * z 43 * z 140 - z 158 * z 29 * z 43 * z 168 - z 163 * z 10 * z 145 * z 1127 - z 163 * z 29 * z 43 * z 165 - z 163 * z 10 * z 29 * z 43 * z 147) - mf * (z 140 * z 1081 + z 147 * z 1066 + z 151 * z 1074 + z 156 * z 1081 + d1 * z 146 * z 1126 + d3 * z 146 * z 1127 + z 9 * z 147 * z 1074 + z 9 * z 151 * z 1066 + z 9 * z 153 * z 1067 + z 10 * z 153 * z 1066 + d2 * z 9 * z 126 * z 1127 - z 148 * z 1135 - d1 * z 145 * z 1061 - d1 * z 157 * z 1126 - d2 * z 154 * z 1127 - d3 * z 157 * z 1127 - z 9 * z 145 * z 1135 - z 10 * z 126 * z 1135 - z 10 * z 151 * z 1067 - d1 * z 9 * z 148 * z 1061 - d1 * z 10 * z 154 * z 1061 - d2 * z 10 * z 145 * z 1127 - d2 * z 29 * z 43 * z 153 - d3 * z 29 * z 43 * z 140 - d3 * z 29 * z 43 * z 156 - d2 * z 10 * z 29 * z 43 * z 147));
  SZ 2502 (z 763 * z 1156 + z 775 * z 1156 + z 804 * z 1160 + z 809 * z 1159 + z 814 * z 1153 + z 820 * z 1160 + z 825 * z 1159 + z 835 * z 1164 + z 839 * z 1153 + z 846 * z 1163 + z 860 * z 2051 + z 866 * z 2052 + z 875 * z 2051 + (Lit 2 1) * z 766 * z 1152 + (Lit 2 1) * z 788 * z 1152 + ic22 * z 47 * z 1126 + ic31 * (PowN (z 48) 2) + ic33 * z 48 * z 1061 + id11 * z 65 * z 1063 + id22 * z 47 * z 1126 + ie11 * z 73 * z 1134 + ie22 * z 76 * z 1127 + ie31 * z 73 * z 1132 + ie31 * z 78 * z 1134 + ie33 * z 78 * z 1132 + if11 * z 91 * z 1138 + if11 * z 95 * z 1137 + if22 * z 76 * z 1127 + ig11 * z 111 * z 2221 + ig22 * z 114 * z 2229 + ig31 * z 111 * z 2232 + ig31 * z 116 * z 2221 + ig33 * z 116 * z 2232 + z 14 * z 855 * z 1156 + z 14 * z 871 * z 1156 + z 7 * z 793 * z 1156 + mc * (z 128 * z 2267 + l1 * z 132 * z 1126 + l1 * z 139 * z 1156 + l2 * z 135 * z 1126 + (Lit 2 1) * l1 * z 131 * z 1152 + (Lit 2 1) * l2 * z 134 * z 1152) + mg * (z 212 * (z 2053 + z 2055) + z 213 * (z 2255 + z 2257) + z 210 * (z 2243 + l6 * z 2229) + z 209 * ((Lit 2 1) * z 2058 + l6 * z 2052) + z 215 * (z 2056 - l5 * z 2052) + z 216 * (z 2264 - l5 * z 2229)) + me * (z 160 * z 2273 + z 162 * z 2111 + d1 * z 141 * z 1126 + d1 * z 143 * z 1061 + d1 * z 147 * z 1156 + d1 * z 167 * z 1126 + z 158 * z 140 * z 1153 + z 158 * z 141 * z 1127 + z 158 * z 167 * z 1127 + z 158 * z 168 * z 1153 + z 163 * z 164 * z 1127 + z 163 * z 165 * z 1153 + z 9 * z 143 * z 2273 + z 9 * z 147 * z 2111 + (Lit 2 1) * d1 * z 140 * z 1152 + (Lit 2 1) * d1 * z 168 * z 1152 + d1 * z 9 * z 160 * z 1061 + d1 * z 9 * z 162 * z 1156 + d1 * z 10 * z 164 * z 1061 + d1 * z 10 * z 165 * z 1156 + z 163 * z 10 * z 143 * z 1127 + z 163 * z 10 * z 147 * z 1153) + mf * (z 149 * z 1135 + z 151 * z 1161 + d1 * z 141 * z 1126 + d1 * z 143 * z 1061 + d1 * z 147 * z 1156 + d1 * z 155 * z 1126 + d2 * z 152 * z 1127 + d2 * z 153 * z 1153 + d3 * z 140 * z 1153 + d3 * z 141 * z 1127 + d3 * z 155 * z 1127 + d3 * z 156 * z 1153 + z 9 * z 143 * z 1135 + z 9 * z 147 * z 1161 + (Lit 2 1) * d1 * z 140 * z 1152 + (Lit 2 1) * d1 * z 156 * z 1152 + d1 * z 9 * z 149 * z 1061 + d1 * z 9 * z 151 * z 1156 + d1 * z 10 * z 152 * z 1061 + d1 * z 10 * z 153 * z 1156 + d2 * z 10 * z 143 * z 1127 + d2 * z 10 * z 147 * z 1153) - id11 * z 62 * z 1062 - z 8 * z 784 * z 1156);
  SZ 2503 (z 2500 + z 538 * z 2406 + z 544 * z 2501 + z 547 * z 2502 + z 888 * z 1490 + if22 * z 83 * z 549 * z 1127 - z 541 * z 2409 - z 887 * z 1187 - z 918 * z 1540 - z 926 * z 1576 - z 935 * z 1622);
  SZ 2504 (z 2503 + z 538 * z 2407 + z 544 * z 2292 + z 547 * z 2402 + z 549 * z 2404 + z 947 * z 1490 - z 541 * z 2410 - z 940 * z 1540 - z 941 * z 1576 - z 944 * z 1622 - z 946 * z 1187);
  SZ 2505 (z 542 * z 2409 + z 888 * z 1484 + id22 * z 53 * z 1126 - z 539 * z 2406 - z 545 * z 2501 - z 887 * z 1188 - z 918 * z 1541 - z 935 * z 1624 - if22 * z 83 * z 550 * z 1127);
  SZ 2506 (z 2505 + z 538 * z 2091 + z 544 * z 2101 + z 547 * z 2136 + z 549 * z 2102 + z 958 * z 1490 - z 541 * z 2088 - z 954 * z 1576 - z 955 * z 1540 - z 957 * z 1187 - z 961 * z 1622);
  SZ 2507 (z 949 * z 2103 + z 964 * z 2504 - z 950 * z 2506 - z 963 * z 2435);
  SZ 2508 (z 905 * z 2134 - z 973 * z 2078 - z 983 * z 2106)].
(* [_mooreriderlean2012.py:4803-5544] *)
Definition chunk11 : list stmt := [
  SZ 2509 (z 949 * z 2107 + z 960 * z 2504 - z 945 * z 2506 - z 963 * z 2437);
  SZ 2510 (z 978 * z 2078 + z 983 * z 2121 - z 979 * z 2139 - z 982 * z 2134);
  SZ 2511 (z 804 * z 1190 + z 820 * z 1190 + z 835 * z 1193 + z 846 * z 1192 + ie11 * z 75 * z 1134 + ie31 * z 75 * z 1132 + ie31 * z 79 * z 1134 + ie33 * z 79 * z 1132 + if11 * z 93 * z 1138 + if11 * z 96 * z 1137 + (Lit 2 1) * z 29 * z 809 * (z 30 + z 69) + (Lit 2 1) * z 29 * z 825 * (z 30 + z 69) + me * z 2109 * (z 162 + z 9 * z 147) + mf * z 1191 * (z 151 + z 9 * z 147) + me * z 161 * (z 2273 + d1 * z 9 * z 1061) + mf * z 150 * (z 1135 + d1 * z 9 * z 1061));
  SZ 2512 (z 2511 + z 543 * z 2409 + z 548 * z 2502 + z 887 * z 1196 + z 918 * z 1542 + if22 * z 83 * z 551 * z 1127 - z 540 * z 2406 - z 546 * z 2501 - z 888 * z 1487 - z 926 * z 1577 - z 935 * z 1623);
  SZ 2513 (z 2512 + z 538 * z 2116 + z 544 * z 2119 + z 547 * z 2133 + z 549 * z 2120 + z 972 * z 1490 - z 541 * z 2113 - z 967 * z 1576 - z 970 * z 1540 - z 971 * z 1187 - z 975 * z 1622);
  SZ 2514 (ig11 * z 98 * z 2221 + ig22 * z 99 * z 2229 + ig31 * z 98 * z 2232 + mg * (z 205 * (z 2243 + l6 * z 2229) - z 200 * (z 2255 + z 2257) - z 201 * (z 2264 - l5 * z 2229)));
  SZ 2515 (z 2514 + z 538 * z 2064 + z 541 * z 2050 + z 544 * z 2077 + z 547 * z 2060 + z 907 * z 1490 - z 902 * z 1540 - z 903 * z 1576 - z 906 * z 1187);
  SZ 2516 (z 905 * z 2513 - z 973 * z 2515 - z 981 * z 2106);
  SZ 2517 (z 977 * z 2139 + z 982 * z 2513 - z 978 * z 2515 - z 981 * z 2121);
  SZ 2518 (z 949 * z 2137 + z 965 * z 2504 - z 951 * z 2506 - z 963 * z 2441);
  SZ 2519 (z 905 * z 2121 - z 973 * z 2139 - z 982 * z 2106);
  SZ 2520 (z 977 * z 2078 + z 983 * z 2513 - z 979 * z 2515 - z 981 * z 2134);
  SZ 2521 (z 989 * z 2508 + z 990 * z 2507 + z 993 * z 2510 + z 994 * z 2509 + z 995 * z 2516 + z 996 * z 2442 + z 999 * z 2517 + z 1000 * z 2443 - z 991 * z 2519 - z 992 * z 2518 - z 997 * z 2520 - z 998 * z 2438);
  SZ 2522 ((z 2521 * (z 1005 * z 985 + z 1022 * z 987 - z 1015 * z 986 - z 1026 * z 988) - z 1001 * (z 2141 * z 985 + z 2444 * z 987 + z 1015 * (z 2495 - z 2474) - z 2471 * z 986 - z 2496 * z 988 - z 1026 * (z 2499 + z 2498) - z 1005 * (z 2433 - z 2412) - z 1022 * (z 2467 - z 2447))) / (PowN (z 1001) 2));
  SZ 2523 (z 13 * z 1257 + z 14 * z 1256);
  SZ 2524 (z 19 * z 1256 - z 16 * z 1257);
  SZ 2525 (z 20 * z 1256 - z 18 * z 1257);
  SZ 2526 (mg * (z 200 * z 2524 + z 201 * z 2525 - z 205 * z 2523));
  SZ 2527 (z 1285 * (z 21 * z 19 - z 22 * z 16));
  SZ 2528 ((Lit 2 1) * l5 * z 15 * z 1285 - (Lit 2 1) * z 2527);
  SZ 2529 (z 1285 * (z 21 * z 20 - z 22 * z 18));
  SZ 2530 ((Lit 2 1) * l5 * z 17 * z 1285 - (Lit 2 1) * z 2529);
  SZ 2531 (z 2057 * z 1285);
  SZ 2532 ((- (Lit 2 1)) * z 2531 - (Lit 2 1) * l6 * z 17 * z 1285);
  SZ 2533 ((Lit 2 1) * ig31 * z 15 * z 98 * z 1285 - (Lit 2 1) * ig22 * z 17 * z 99 * z 1285 - mg * (z 200 * z 2528 + z 201 * z 2530 - z 205 * z 2532));
  SZ 2534 (z 13 * z 1308 + z 14 * z 1307);
  SZ 2535 (z 19 * z 1307 - z 16 * z 1308);
  SZ 2536 (z 20 * z 1307 - z 18 * z 1308);
  SZ 2537 (mg * (z 200 * z 2535 + z 201 * z 2536 - z 205 * z 2534));
  SZ 2538 (z 3 * (z 13 * z 5 + z 14 * z 6));
  SZ 2539 (z 3 * (z 5 * z 18 - z 6 * z 20));
  SZ 2540 (z 3 * (z 5 * z 16 - z 6 * z 19));
  SZ 2541 (z 3 * z 43 * (z 21 * z 6 + z 22 * z 5));
  SZ 2542 (z 17 * z 2541 - z 5 * z 19 * z 118 - z 6 * z 16 * z 118);
  SZ 2543 (z 43 * (l5 * z 2539 + l6 * z 2538));
  SZ 2544 ((- z 15) * z 2541 - z 5 * z 20 * z 118 - z 6 * z 18 * z 118);
  SZ 2545 (z 2544 - l5 * z 43 * z 2540);
  SZ 2546 (z 118 * (z 13 * z 6 - z 14 * z 5));
  SZ 2547 (z 2546 + l6 * z 43 * z 2540);
  SZ 2548 (ig22 * z 43 * z 99 * z 2540 + ig31 * z 43 * z 98 * z 2539 + mg * (z 205 * z 2547 - z 201 * z 2545 - z 200 * (z 2542 + z 2543)) - ig11 * z 43 * z 98 * z 2538);
  SZ 2549 (z 540 * z 2537 + z 548 * z 2533 + z 902 * z 1551 + z 906 * z 1324 - z 543 * z 2526 - z 546 * z 2548 - z 903 * z 1581 - z 907 * z 1498);
  SZ 2550 ((Lit 2 1) * mc * (z 123 * z 1257 + z 125 * z 1256) + (Lit 2 1) * me * (z 123 * z 1257 + z 125 * z 1256) + (Lit 2 1) * mf * (z 123 * z 1257 + z 125 * z 1256) + (Lit 2 1) * mg * (z 183 * z 2523 + z 188 * z 2524 + z 193 * z 2525));
  SZ 2551 (mc * (z 120 * z 1257 + z 122 * z 1256 + z 123 * z 1308 + z 125 * z 1307) + me * (z 120 * z 1257 + z 122 * z 1256 + z 123 * z 1308 + z 125 * z 1307) + mf * (z 120 * z 1257 + z 122 * z 1256 + z 123 * z 1308 + z 125 * z 1307) + mg * (z 182 * z 2523 + z 183 * z 2534 + z 187 * z 2524 + z 188 * z 2535 + z 192 * z 2525 + z 193 * z 2536));
  SZ 2552 (z 3 * z 43 * (l1 * z 6 - l2 * z 5));
  SZ 2553 (d2 * z 1209 + l4 * z 1209 - z 158 * z 3 * z 6 * z 43);
  SZ 2554 (mg * (z 183 * z 2547 + z 193 * z 2545 + z 211 * z 2523 + z 214 * z 2524 + z 217 * z 2525 + z 188 * (z 2542 + z 2543)) - mc * (z 124 * z 2552 + z 5 * z 118 * z 125 - z 137 * z 1257 - z 138 * z 1256 - z 6 * z 118 * z 123) - me * (z 124 * z 1202 + z 126 * z 1257 + z 169 * z 1256 + z 158 * z 125 * z 1201 + z 5 * z 118 * z 125 + z 10 * z 123 * z 2553 + z 10 * z 159 * z 1257 - z 146 * z 1256 - z 6 * z 118 * z 123 - z 9 * z 124 * z 2553 - z 9 * z 166 * z 1257 - z 163 * z 9 * z 123 * z 1201 - z 163 * z 10 * z 124 * z 1201) - mf * (z 124 * z 1202 + z 126 * z 1257 + z 157 * z 1256 + d3 * z 125 * z 1201 + z 5 * z 118 * z 125 + z 10 * z 123 * z 1210 + z 10 * z 148 * z 1257 - z 146 * z 1256 - z 6 * z 118 * z 123 - z 9 * z 124 * z 1210 - z 9 * z 154 * z 1257 - d2 * z 9 * z 123 * z 1201 - d2 * z 10 * z 124 * z 1201));
  SZ 2555 (z 542 * z 2550 + z 914 * z 1495 - z 539 * z 2551 - z 545 * z 2554 - z 910 * z 1314 - z 916 * z 1550);
  SZ 2556 ((Lit 2 1) * mc * (z 120 * z 1308 + z 122 * z 1307) + (Lit 2 1) * me * (z 120 * z 1308 + z 122 * z 1307) + (Lit 2 1) * mf * (z 120 * z 1308 + z 122 * z 1307) + (Lit 2 1) * mg * (z 182 * z 2534 + z 187 * z 2535 + z 192 * z 2536));
  SZ 2557 (mg * (z 182 * z 2547 + z 192 * z 2545 + z 211 * z 2534 + z 214 * z 2535 + z 217 * z 2536 + z 187 * (z 2542 + z 2543)) + me * (z 121 * z 1202 + z 146 * z 1307 + z 6 * z 118 * z 120 + z 9 * z 166 * z 1308 + z 163 * z 9 * z 120 * z 1201 - z 126 * z 1308 - z 169 * z 1307 - z 158 * z 122 * z 1201 - z 5 * z 118 * z 122 - z 9 * z 121 * z 2553 - z 10 * z 120 * z 2553 - z 10 * z 159 * z 1308 - z 163 * z 10 * z 121 * z 1201) + mf * (z 121 * z 1202 + z 146 * z 1307 + z 6 * z 118 * z 120 + z 9 * z 154 * z 1308 + d2 * z 9 * z 120 * z 1201 - z 126 * z 1308 - z 157 * z 1307 - d3 * z 122 * z 1201 - z 5 * z 118 * z 122 - z 9 * z 121 * z 1210 - z 10 * z 120 * z 1210 - z 10 * z 148 * z 1308 - d2 * z 10 * z 121 * z 1201) - mc * (z 5 * z 118 * z 122 - z 121 * z 2552 - z 137 * z 1308 - z 138 * z 1307 - z 6 * z 118 * z 120));
  SZ 2558 (z 542 * z 2551 + z 910 * z 1495 - z 539 * z 2556 - z 545 * z 2557 - z 909 * z 1314 - z 912 * z 1550);
  SZ 2559 (ic11 * z 3 * z 5 * z 43);
  SZ 2560 (ic33 * z 3 * z 6 * z 43);
  SZ 2561 (ie33 * z 3 * z 6 * z 43);
  SZ 2562 (ie31 * z 3 * z 6 * z 43);
  SZ 2563 (ic31 * z 3 * z 6 * z 43);
  SZ 2564 (ic31 * z 3 * z 5 * z 43);
  SZ 2565 (z 50 * z 2559 + z 50 * z 2563 + z 815 * z 1201 + z 840 * z 1201 + ie22 * z 82 * z 1201 + if22 * z 82 * z 1201 + z 43 * z 833 * z 1214 + z 43 * z 861 * z 2539 + z 43 * z 865 * z 2540 + z 43 * z 873 * z 2539 + if11 * z 43 * z 90 * z 1214 + ig22 * z 43 * z 112 * z 2540 + ig31 * z 43 * z 110 * z 2539 + ig33 * z 43 * z 115 * z 2539 + z 3 * z 5 * z 43 * z 761 + z 3 * z 6 * z 43 * z 764 + (Lit 2 1) * mg * (z 211 * z 2547 + z 217 * z 2545 + z 214 * (z 2542 + z 2543)) + (Lit 2 1) * me * (z 159 * z 2553 + z 158 * z 169 * z 1201 + z 163 * z 166 * z 1201 + z 5 * z 118 * z 169 + z 9 * z 145 * z 2553 + z 10 * z 126 * z 2553 + z 163 * z 10 * z 145 * z 1201 + z 6 * z 9 * z 118 * z 166 - z 145 * z 1202 - z 158 * z 146 * z 1201 - z 5 * z 118 * z 146 - z 6 * z 118 * z 126 - z 9 * z 159 * z 1202 - z 10 * z 166 * z 1202 - z 163 * z 9 * z 126 * z 1201 - z 6 * z 10 * z 118 * z 159) + (Lit 2 1) * mf * (z 148 * z 1210 + d2 * z 154 * z 1201 + d3 * z 157 * z 1201 + z 5 * z 118 * z 157 + z 9 * z 145 * z 1210 + z 10 * z 126 * z 1210 + d2 * z 10 * z 145 * z 1201 + z 6 * z 9 * z 118 * z 154 - z 145 * z 1202 - d3 * z 146 * z 1201 - z 5 * z 118 * z 146 - z 6 * z 118 * z 126 - z 9 * z 148 * z 1202 - z 10 * z 154 * z 1202 - d2 * z 9 * z 126 * z 1201 - z 6 * z 10 * z 118 * z 148) - z 52 * z 2560 - z 52 * z 2561 - z 52 * z 2564 - z 81 * z 2562 - z 806 * z 1209 - z 817 * z 1209 - ie11 * z 81 * z 1209 - ie31 * z 52 * z 1209 - z 43 * z 785 * z 1278 - z 43 * z 794 * z 1279 - z 43 * z 843 * z 1213 - z 43 * z 856 * z 2538 - z 43 * z 869 * z 2538 - id11 * z 43 * z 61 * z 1278 - id11 * z 43 * z 64 * z 1279 - if11 * z 43 * z 94 * z 1213 - ig11 * z 43 * z 110 * z 2538 - ig31 * z 43 * z 115 * z 2538 - z 3 * z 5 * z 43 * z 772 - z 3 * z 6 * z 43 * z 776 - z 3 * z 6 * z 43 * z 811 - z 3 * z 6 * z 43 * z 822 - (Lit 2 1) * mc * (z 130 * z 2552 + z 5 * z 118 * z 138 - z 6 * z 118 * z 137));
  SZ 2566 (z 542 * z 2554 + z 916 * z 1495 - z 539 * z 2557 - z 545 * z 2565 - z 912 * z 1314 - z 919 * z 1550 - z 936 * z 1642 - if22 * z 83 * z 550 * z 1201);
  SZ 2567 ((- z 923) * z 1550 - z 937 * z 1642 - z 545 * z 841 * z 1201);
  SZ 2568 (z 542 * z 2555 + z 958 * z 1495 - z 539 * z 2558 - z 545 * z 2566 - z 550 * z 2567 - z 921 * z 1550 - z 955 * z 1550 - z 957 * z 1314 - z 961 * z 1642);
  SZ 2569 ((Lit 2 1) * z 15 * z 859 * z 1285 - (Lit 2 1) * z 17 * z 864 * z 1285 - mg * (z 200 * z 2528 + z 201 * z 2530 - z 205 * z 2532));
  SZ 2570 (z 43 * z 859 * z 2539 + z 43 * z 864 * z 2540 + mg * (z 205 * z 2547 - z 201 * z 2545 - z 200 * (z 2542 + z 2543)) - z 43 * z 854 * z 2538);
  SZ 2571 (z 540 * z 2537 + z 548 * z 2569 + z 906 * z 1324 + z 924 * z 1551 - z 543 * z 2526 - z 546 * z 2570 - z 907 * z 1498 - z 932 * z 1581);
  SZ 2572 (z 539 * z 2537 + z 907 * z 1495 - z 542 * z 2526 - z 545 * z 2570 - z 906 * z 1314 - z 924 * z 1550);
  SZ 2573 (z 921 * z 1551 - z 929 * z 1581 - (Lit 2 1) * z 548 * z 791 * z 1285);
  SZ 2574 ((Lit 2 1) * z 158 * z 1316 - d2 * z 1317 - l4 * z 1317);
  SZ 2575 ((me * z 2574 + mf * z 1318) * (z 9 * z 124 - z 10 * z 123) - z 10 * z 1257 * (me * z 161 + mf * z 150));
  SZ 2576 (z 158 * z 1290 - d2 * z 1291 - l4 * z 1291);
  SZ 2577 (mg * (z 183 * z 2532 + z 188 * z 2528 + z 193 * z 2530 + z 210 * z 2523 + z 213 * z 2524 + z 216 * z 2525) + mc * (z 135 * z 1257 + (Lit 2 1) * l1 * z 125 * z 1285 - z 132 * z 1256 - (Lit 2 1) * l2 * z 123 * z 1285) - me * (z 141 * z 1256 + z 167 * z 1256 + z 158 * z 125 * z 1286 + z 10 * z 123 * z 2576 + z 10 * z 160 * z 1257 - (Lit 2 1) * d1 * z 125 * z 1285 - z 9 * z 124 * z 2576 - z 9 * z 164 * z 1257 - z 163 * z 9 * z 123 * z 1286 - z 163 * z 10 * z 124 * z 1286) - mf * (z 141 * z 1256 + z 155 * z 1256 + d3 * z 125 * z 1286 + z 10 * z 123 * z 1292 + z 10 * z 149 * z 1257 - (Lit 2 1) * d1 * z 125 * z 1285 - z 9 * z 124 * z 1292 - z 9 * z 152 * z 1257 - d2 * z 9 * z 123 * z 1286 - d2 * z 10 * z 124 * z 1286));
  SZ 2578 (z 2575 + z 543 * z 2550 + z 548 * z 2577 + z 910 * z 1324 + z 916 * z 1551 - z 540 * z 2551 - z 546 * z 2554 - z 914 * z 1498 - z 915 * z 1581);
  SZ 2579 (mg * (z 182 * z 2532 + z 187 * z 2528 + z 192 * z 2530 + z 210 * z 2534 + z 213 * z 2535 + z 216 * z 2536) + mc * (z 135 * z 1308 + (Lit 2 1) * l1 * z 122 * z 1285 - z 132 * z 1307 - (Lit 2 1) * l2 * z 120 * z 1285) + me * (z 9 * z 164 * z 1308 + (Lit 2 1) * d1 * z 122 * z 1285 + z 163 * z 9 * z 120 * z 1286 - z 141 * z 1307 - z 167 * z 1307 - z 158 * z 122 * z 1286 - z 9 * z 121 * z 2576 - z 10 * z 120 * z 2576 - z 10 * z 160 * z 1308 - z 163 * z 10 * z 121 * z 1286) + mf * (z 9 * z 152 * z 1308 + (Lit 2 1) * d1 * z 122 * z 1285 + d2 * z 9 * z 120 * z 1286 - z 141 * z 1307 - z 155 * z 1307 - d3 * z 122 * z 1286 - z 9 * z 121 * z 1292 - z 10 * z 120 * z 1292 - z 10 * z 149 * z 1308 - d2 * z 10 * z 121 * z 1286));
  SZ 2580 (z 10 * z 1308 * (me * z 161 + mf * z 150) + (me * z 2574 + mf * z 1318) * (z 9 * z 121 + z 10 * z 120));
  SZ 2581 (z 543 * z 2551 + z 548 * z 2579 + z 909 * z 1324 + z 912 * z 1551 - z 2580 - z 540 * z 2556 - z 546 * z 2557 - z 910 * z 1498 - z 911 * z 1581);
  SZ 2582 (z 806 * z 1317 + z 817 * z 1317 + z 833 * z 1320 + z 843 * z 1319 + (Lit 2 1) * z 811 * z 1316 + (Lit 2 1) * z 822 * z 1316 + if11 * z 43 * z 93 * z 1214 + me * z 2574 * (z 159 + z 9 * z 145 + z 10 * z 126) + mf * z 1318 * (z 148 + z 9 * z 145 + z 10 * z 126) + me * z 161 * (z 2553 - z 9 * z 1202 - z 6 * z 10 * z 118) + mf * z 150 * (z 1210 - z 9 * z 1202 - z 6 * z 10 * z 118) - z 75 * z 2562 - z 79 * z 2561 - ie11 * z 75 * z 1209 - ie31 * z 79 * z 1209 - if11 * z 43 * z 96 * z 1213);
  SZ 2583 (z 806 * z 1291 + z 811 * z 1290 + z 815 * z 1286 + z 817 * z 1291 + z 822 * z 1290 + z 833 * z 1294 + z 840 * z 1286 + z 843 * z 1293 + ie22 * z 76 * z 1201 + if22 * z 76 * z 1201 + (Lit 2 1) * z 15 * z 861 * z 1285 + (Lit 2 1) * z 15 * z 873 * z 1285 + id11 * z 43 * z 62 * z 1278 + if11 * z 43 * z 91 * z 1214 + ig22 * z 43 * z 114 * z 2540 + ig31 * z 43 * z 111 * z 2539 + ig33 * z 43 * z 116 * z 2539 + mg * (z 210 * z 2547 + z 211 * z 2532 + z 214 * z 2528 + z 216 * z 2545 + z 217 * z 2530 + z 213 * (z 2542 + z 2543)) + me * (z 159 * z 2576 + z 160 * z 2553 + z 158 * z 141 * z 1201 + z 158 * z 167 * z 1201 + z 158 * z 169 * z 1286 + z 163 * z 164 * z 1201 + z 163 * z 166 * z 1286 + z 5 * z 118 * z 141 + z 5 * z 118 * z 167 + z 9 * z 143 * z 2553 + z 9 * z 145 * z 2576 + z 10 * z 126 * z 2576 + (Lit 2 1) * d1 * z 146 * z 1285 + z 163 * z 10 * z 143 * z 1201 + z 163 * z 10 * z 145 * z 1286 + z 6 * z 9 * z 118 * z 164 - z 143 * z 1202 - (Lit 2 1) * d1 * z 169 * z 1285 - z 158 * z 146 * z 1286 - z 9 * z 160 * z 1202 - z 10 * z 164 * z 1202 - z 163 * z 9 * z 126 * z 1286 - z 6 * z 10 * z 118 * z 160) + mf * (z 148 * z 1292 + z 149 * z 1210 + d2 * z 152 * z 1201 + d2 * z 154 * z 1286 + d3 * z 141 * z 1201 + d3 * z 155 * z 1201 + d3 * z 157 * z 1286 + z 5 * z 118 * z 141 + z 5 * z 118 * z 155 + z 9 * z 143 * z 1210 + z 9 * z 145 * z 1292 + z 10 * z 126 * z 1292 + (Lit 2 1) * d1 * z 146 * z 1285 + d2 * z 10 * z 143 * z 1201 + d2 * z 10 * z 145 * z 1286 + z 6 * z 9 * z 118 * z 152 - z 143 * z 1202 - (Lit 2 1) * d1 * z 157 * z 1285 - d3 * z 146 * z 1286 - z 9 * z 149 * z 1202 - z 10 * z 152 * z 1202 - d2 * z 9 * z 126 * z 1286 - z 6 * z 10 * z 118 * z 149) - (Lit 2 1) * z 768 * z 1285 - (Lit 2 1) * z 790 * z 1285 - z 48 * z 2560 - z 48 * z 2564 - z 73 * z 2562 - z 78 * z 2561 - (Lit 2 1) * z 17 * z 865 * z 1285 - ie11 * z 73 * z 1209 - ie31 * z 78 * z 1209 - id11 * z 43 * z 65 * z 1279 - if11 * z 43 * z 95 * z 1213 - ig11 * z 43 * z 111 * z 2538 - ig31 * z 43 * z 116 * z 2538 - mc * (z 128 * z 2552 + (Lit 2 1) * l2 * z 137 * z 1285 - (Lit 2 1) * l1 * z 138 * z 1285 - z 5 * z 118 * z 132 - z 6 * z 118 * z 135));
  SZ 2584 (z 2582 + z 543 * z 2554 + z 548 * z 2583 + z 912 * z 1324 + z 919 * z 1551 + if22 * z 83 * z 551 * z 1201 - z 540 * z 2557 - z 546 * z 2565 - z 916 * z 1498 - z 927 * z 1581 - z 936 * z 1641);
  SZ 2585 (z 923 * z 1551 + z 548 * z 841 * z 1286 - z 931 * z 1581 - z 937 * z 1641 - z 546 * z 841 * z 1201);
  SZ 2586 (z 2573 + z 542 * z 2578 + z 972 * z 1495 - z 539 * z 2581 - z 545 * z 2584 - z 550 * z 2585 - z 970 * z 1550 - z 971 * z 1314 - z 975 * z 1642);
  SZ 2587 (z 964 * z 2571 + z 973 * z 2568 - z 960 * z 2586 - z 978 * z 2572);
  SZ 2588 (z 805 * z 1317 + z 819 * z 1317 + z 836 * z 1320 + z 845 * z 1319 + (Lit 2 1) * z 810 * z 1316 + (Lit 2 1) * z 824 * z 1316 + ie11 * z 75 * z 1317 + ie31 * z 79 * z 1317 + if11 * z 93 * z 1320 + if11 * z 96 * z 1319 + (Lit 2 1) * ie31 * z 75 * z 1316 + (Lit 2 1) * ie33 * z 79 * z 1316 + (Lit 2 1) * me * z 161 * z 2574 + (Lit 2 1) * mf * z 150 * z 1318);
  SZ 2589 (z 805 * z 1291 + z 810 * z 1290 + z 819 * z 1291 + z 824 * z 1290 + z 836 * z 1294 + z 845 * z 1293 + ie11 * z 73 * z 1317 + ie31 * z 78 * z 1317 + if11 * z 91 * z 1320 + if11 * z 95 * z 1319 + me * z 161 * z 2576 + mf * z 150 * z 1292 + (Lit 2 1) * ie31 * z 73 * z 1316 + (Lit 2 1) * ie33 * z 78 * z 1316 + me * z 2574 * (z 160 + z 9 * z 143) + mf * z 1318 * (z 149 + z 9 * z 143));
  SZ 2590 (ie11 * z 81 * z 1317 + ie31 * z 52 * z 1317 + if11 * z 90 * z 1320 + if11 * z 94 * z 1319 + z 43 * z 836 * z 1214 + (Lit 2 1) * ie31 * z 81 * z 1316 + (Lit 2 1) * ie33 * z 52 * z 1316 + me * z 2574 * (z 159 + z 9 * z 145 + z 10 * z 126) + mf * z 1318 * (z 148 + z 9 * z 145 + z 10 * z 126) + me * z 161 * (z 2553 - z 9 * z 1202 - z 6 * z 10 * z 118) + mf * z 150 * (z 1210 - z 9 * z 1202 - z 6 * z 10 * z 118) - z 805 * z 1209 - z 819 * z 1209 - z 43 * z 845 * z 1213 - z 3 * z 6 * z 43 * z 810 - z 3 * z 6 * z 43 * z 824);
  SZ 2591 (z 2588 + z 540 * z 2580 + z 543 * z 2575 + z 548 * z 2589 + z 922 * z 1551 - z 546 * z 2590 - z 899 * z 1324 - z 900 * z 1498 - z 930 * z 1581);
  SZ 2592 (z 803 * z 1317 + z 818 * z 1317 + z 834 * z 1320 + z 844 * z 1319 + (Lit 2 1) * z 808 * z 1316 + (Lit 2 1) * z 823 * z 1316 + ie11 * z 75 * z 1291 + ie31 * z 75 * z 1290 + ie31 * z 79 * z 1291 + ie33 * z 79 * z 1290 + if11 * z 93 * z 1294 + if11 * z 96 * z 1293 + me * z 161 * z 2576 + mf * z 150 * z 1292 + me * z 2574 * (z 160 + z 9 * z 143) + mf * z 1318 * (z 149 + z 9 * z 143));
  SZ 2593 (z 803 * z 1291 + z 808 * z 1290 + z 813 * z 1286 + z 818 * z 1291 + z 823 * z 1290 + z 834 * z 1294 + z 838 * z 1286 + z 844 * z 1293 + ie11 * z 73 * z 1291 + ie22 * z 76 * z 1286 + ie31 * z 73 * z 1290 + ie31 * z 78 * z 1291 + ie33 * z 78 * z 1290 + if11 * z 91 * z 1294 + if11 * z 95 * z 1293 + if22 * z 76 * z 1286 + (Lit 2 1) * z 15 * z 862 * z 1285 + (Lit 2 1) * z 15 * z 874 * z 1285 + (Lit 2 1) * ig31 * z 15 * z 111 * z 1285 + (Lit 2 1) * ig33 * z 15 * z 116 * z 1285 + (Lit 2 1) * mg * (z 210 * z 2532 + z 213 * z 2528 + z 216 * z 2530) - (Lit 2 1) * z 767 * z 1285 - (Lit 2 1) * z 789 * z 1285 - (Lit 2 1) * ic22 * z 47 * z 1285 - (Lit 2 1) * id22 * z 47 * z 1285 - (Lit 2 1) * z 17 * z 867 * z 1285 - (Lit 2 1) * ig22 * z 17 * z 114 * z 1285 - (Lit 4 1) * mc * z 1285 * (l1 * z 132 + l2 * z 135) - (Lit 2 1) * me * ((Lit 2 1) * d1 * z 141 * z 1285 + (Lit 2 1) * d1 * z 167 * z 1285 - z 160 * z 2576 - z 158 * z 141 * z 1286 - z 158 * z 167 * z 1286 - z 163 * z 164 * z 1286 - z 9 * z 143 * z 2576 - z 163 * z 10 * z 143 * z 1286) - (Lit 2 1) * mf * ((Lit 2 1) * d1 * z 141 * z 1285 + (Lit 2 1) * d1 * z 155 * z 1285 - z 149 * z 1292 - d2 * z 152 * z 1286 - d3 * z 141 * z 1286 - d3 * z 155 * z 1286 - z 9 * z 143 * z 1292 - d2 * z 10 * z 143 * z 1286));
  SZ 2594 (z 813 * z 1201 + z 838 * z 1201 + ie11 * z 81 * z 1291 + ie22 * z 82 * z 1286 + ie31 * z 52 * z 1291 + ie31 * z 81 * z 1290 + ie33 * z 52 * z 1290 + if11 * z 90 * z 1294 + if11 * z 94 * z 1293 + if22 * z 82 * z 1286 + z 43 * z 786 * z 1278 + z 43 * z 834 * z 1214 + z 43 * z 862 * z 2539 + z 43 * z 867 * z 2540 + z 43 * z 874 * z 2539 + (Lit 2 1) * ig31 * z 15 * z 110 * z 1285 + (Lit 2 1) * ig33 * z 15 * z 115 * z 1285 + mg * (z 210 * z 2547 + z 211 * z 2532 + z 214 * z 2528 + z 216 * z 2545 + z 217 * z 2530 + z 213 * (z 2542 + z 2543)) + me * (z 159 * z 2576 + z 160 * z 2553 + z 158 * z 141 * z 1201 + z 158 * z 167 * z 1201 + z 158 * z 169 * z 1286 + z 163 * z 164 * z 1201 + z 163 * z 166 * z 1286 + z 5 * z 118 * z 141 + z 5 * z 118 * z 167 + z 9 * z 143 * z 2553 + z 9 * z 145 * z 2576 + z 10 * z 126 * z 2576 + (Lit 2 1) * d1 * z 146 * z 1285 + z 163 * z 10 * z 143 * z 1201 + z 163 * z 10 * z 145 * z 1286 + z 6 * z 9 * z 118 * z 164 - z 143 * z 1202 - (Lit 2 1) * d1 * z 169 * z 1285 - z 158 * z 146 * z 1286 - z 9 * z 160 * z 1202 - z 10 * z 164 * z 1202 - z 163 * z 9 * z 126 * z 1286 - z 6 * z 10 * z 118 * z 160) + mf * (z 148 * z 1292 + z 149 * z 1210 + d2 * z 152 * z 1201 + d2 * z 154 * z 1286 + d3 * z 141 * z 1201 + d3 * z 155 * z 1201 + d3 * z 157 * z 1286 + z 5 * z 118 * z 141 + z 5 * z 118 * z 155 + z 9 * z 143 * z 1210 + z 9 * z 145 * z 1292 + z 10 * z 126 * z 1292 + (Lit 2 1) * d1 * z 146 * z 1285 + d2 * z 10 * z 143 * z 1201 + d2 * z 10 * z 145 * z 1286 + z 6 * z 9 * z 118 * z 152 - z 143 * z 1202 - (Lit 2 1) * d1 * z 157 * z 1285 - d3 * z 146 * z 1286 - z 9 * z 149 * z 1202 - z 10 * z 152 * z 1202 - d2 * z 9 * z 126 * z 1286 - z 6 * z 10 * z 118 * z 149) - z 803 * z 1209 - z 818 * z 1209 - (Lit 2 1) * ic22 * z 51 * z 1285 - (Lit 2 1) * id22 * z 51 * z 1285 - z 43 * z 795 * z 1279 - z 43 * z 844 * z 1213 - z 43 * z 857 * z 2538 - z 43 * z 870 * z 2538 - (Lit 2 1) * ig22 * z 17 * z 112 * z 1285 - z 3 * z 5 * z 43 * z 770 - z 3 * z 6 * z 43 * z 774 - z 3 * z 6 * z 43 * z 808 - z 3 * z 6 * z 43 * z 823 - mc * (z 128 * z 2552 + (Lit 2 1) * l2 * z 137 * z 1285 - (Lit 2 1) * l1 * z 138 * z 1285 - z 5 * z 118 * z 132 - z 6 * z 118 * z 135));
  SZ 2595 (z 2592 + z 543 * z 2577 + z 548 * z 2593 + z 911 * z 1324 + z 920 * z 1551 + if22 * z 83 * z 551 * z 1286 - z 540 * z 2579 - z 546 * z 2594 - z 915 * z 1498 - z 928 * z 1581 - z 934 * z 1641);
  SZ 2596 (z 2591 + z 543 * z 2578 + z 548 * z 2595 + z 551 * z 2585 + z 970 * z 1551 + z 971 * z 1324 - z 540 * z 2581 - z 546 * z 2584 - z 967 * z 1581 - z 972 * z 1498 - z 975 * z 1641);
  SZ 2597 (z 539 * z 2580 + z 542 * z 2575 + z 899 * z 1314 + z 900 * z 1495 - z 545 * z 2590 - z 922 * z 1550);
  SZ 2598 (z 542 * z 2577 + z 915 * z 1495 - z 539 * z 2579 - z 545 * z 2594 - z 911 * z 1314 - z 920 * z 1550 - z 934 * z 1642 - (Lit 2 1) * id22 * z 53 * z 1285 - if22 * z 83 * z 550 * z 1286);
  SZ 2599 (z 2597 + z 543 * z 2555 + z 548 * z 2598 + z 551 * z 2567 + z 955 * z 1551 + z 957 * z 1324 - z 540 * z 2558 - z 546 * z 2566 - z 954 * z 1581 - z 958 * z 1498 - z 961 * z 1641);
  SZ 2600 (z 964 * z 2596 + z 979 * z 2568 - z 965 * z 2586 - z 978 * z 2599);
  SZ 2601 (z 539 * z 2537 + z 907 * z 1495 - z 542 * z 2526 - z 545 * z 2548 - z 902 * z 1550 - z 906 * z 1314);
  SZ 2602 (z 965 * z 2571 + z 973 * z 2599 - z 960 * z 2596 - z 979 * z 2572);
  SZ 2603 (z 983 * z 2587 + z 1003 * z 2549 - z 905 * z 2600 - z 982 * z 2602 - z 1004 * z 2601);
  SZ 2604 (z 4 * z 6 * q4p - z 3 * z 6 * z 1582 - z 3 * z 5 * q5p);
  SZ 2605 ((- z 4) * z 6 * z 1582 - z 3 * z 6 * q4p - z 4 * z 5 * q5p);
  SZ 2606 (z 3 * z 2604 + z 4 * z 2605);
  SZ 2607 (z 3 * z 5 * z 1582 - z 3 * z 6 * q5p - z 4 * z 5 * q4p);
  SZ 2608 (q4p * z 2606 - z 43 * z 1552 * z 271 - z 43 * q3p * z 2607);
  SZ 2609 (z 4 * z 5 * z 1582 + z 3 * z 5 * q4p - z 4 * z 6 * q5p);
  SZ 2610 (z 3 * z 2607 + z 4 * z 2609);
  SZ 2611 (z 6 * (PowN (z 3) 2) * q4p + z 6 * (PowN (z 4) 2) * q4p + z 3 * z 2605 - z 4 * z 2604);
  SZ 2612 (z 1582 * z 278 + q4p * z 2610 + q5p * z 2611 + z 43 * z 1552 * z 268 + z 43 * q3p * z 2604);
  SZ 2613 (z 47 * z 1582 + z 51 * z 1552 + z 1263 * q4p - (Lit 2 1) * z 1285 * q5p);
  SZ 2614 ((- z 50) * z 1552 - z 3 * z 5 * z 43 * q3p - z 6 * ((PowN (z 3) 2) + (PowN (z 4) 2)) * q4p);
  SZ 2615 (z 48 * z 1582 + z 52 * z 1552 + z 5 * ((PowN (z 3) 2) + (PowN (z 4) 2)) * q4p - z 3 * z 6 * z 43 * q3p);
  SZ 2616 (ic31 * z 2614 + ic33 * z 2615);
  SZ 2617 (z 266 * z 2616 + z 758 * z 2613 - z 759 * z 2615 - ic22 * z 267 * z 2613);
  SZ 2618 (z 31 * z 2607 + z 42 * z 2605 + z 3 * z 5 * z 269 + z 3 * z 6 * z 273 - z 32 * z 2609 - z 41 * z 2604 - z 4 * z 5 * z 268 - z 4 * z 6 * z 271);
  SZ 2619 ((Lit 2 1) * (PowN (z 6) 2) * q5p + (Lit 2 1) * z 41 * z 2609 + (Lit 2 1) * z 42 * z 2607 + (Lit 2 1) * z 3 * z 5 * z 271 + (Lit 2 1) * z 4 * z 5 * z 273 - (Lit 2 1) * z 5 * z 6 * z 1582 - (Lit 2 1) * (PowN (z 5) 2) * q5p);
  SZ 2620 (z 1552 * z 276 + z 1582 * z 275 + q4p * z 2618 + q5p * z 2619);
  SZ 2621 (ic11 * z 2614 + ic31 * z 2615);
  SZ 2622 (z 267 * z 2621 + z 757 * z 2615 - z 265 * z 2616 - z 758 * z 2614);
  SZ 2623 (z 64 * z 1552 + z 65 * z 1582 + z 1199 * q4p - z 43 * z 1279 * q3p);
  SZ 2624 (z 61 * z 1552 - z 62 * z 1582 - z 1198 * q4p - z 43 * z 1278 * q3p);
  SZ 2625 (z 781 * z 2623 + id11 * z 283 * z 2624 - z 783 * z 2624 - id11 * z 281 * z 2623);
  SZ 2626 (z 759 * z 2614 + ic22 * z 265 * z 2613 - z 266 * z 2621 - z 757 * z 2613);
  SZ 2627 (z 6 * z 8 * ((PowN (z 3) 2) + (PowN (z 4) 2)) * q6p + z 7 * z 2606 - z 5 * z 7 * ((PowN (z 3) 2) + (PowN (z 4) 2)) * q6p - z 8 * z 2610);
  SZ 2628 (z 3 * z 5 * z 8 * q6p + z 3 * z 6 * z 7 * q6p - z 7 * z 2607 - z 8 * z 2604);
  SZ 2629 (q4p * z 2627 + z 43 * z 1552 * z 285 + z 43 * q3p * z 2628 - z 1582 * z 286 - z 8 * q5p * z 2611);
  SZ 2630 (z 783 * z 2613 + id11 * z 282 * z 2623 - z 782 * z 2623 - id22 * z 283 * z 2613);
  SZ 2631 (z 7 * z 2610 + z 8 * z 2606 - z 5 * z 8 * ((PowN (z 3) 2) + (PowN (z 4) 2)) * q6p - z 6 * z 7 * ((PowN (z 3) 2) + (PowN (z 4) 2)) * q6p);
  SZ 2632 (z 3 * z 6 * z 8 * q6p + z 7 * z 2604 - z 3 * z 5 * z 7 * q6p - z 8 * z 2607);
  SZ 2633 (z 1582 * z 290 + q4p * z 2631 + z 7 * q5p * z 2611 + z 43 * z 1552 * z 289 + z 43 * q3p * z 2632);
  SZ 2634 (z 782 * z 2624 + id22 * z 281 * z 2613 - z 781 * z 2613 - id11 * z 282 * z 2624);
  SZ 2635 (z 5 * z 10 * z 1582 + z 5 * z 9 * q7p - z 6 * z 10 * q5p);
  SZ 2636 ((- z 3) * z 5 * z 10 * q4p - z 4 * z 2635);
  SZ 2637 (z 4 * z 5 * z 10 * q4p - z 3 * z 2635);
  SZ 2638 (z 29 * z 2604 + z 32 * z 2636 + z 4 * z 6 * z 301 + z 3 * z 5 * z 10 * z 269 - z 31 * z 2637 - z 69 * z 2605 - z 3 * z 6 * z 300 - z 4 * z 5 * z 10 * z 268);
  SZ 2639 ((- z 6) * z 10 * z 1582 - z 5 * z 10 * q5p - z 6 * z 9 * q7p);
  SZ 2640 (z 4 * z 2639 - z 3 * z 6 * z 10 * q4p);
  SZ 2641 (z 4 * z 6 * z 10 * q4p + z 3 * z 2639);
  SZ 2642 (z 5 * z 26 * z 1582 + z 10 * (PowN (z 5) 2) * q5p + z 5 * z 295 + z 6 * z 2635 + z 31 * z 2640 + z 32 * z 2641 + z 71 * z 2605 + z 72 * z 2604 - z 6 * z 26 * q5p - z 3 * z 6 * z 298 - z 4 * z 6 * z 297 - z 3 * z 6 * z 10 * z 268 - z 4 * z 6 * z 10 * z 269);
  SZ 2643 (z 5 * z 9 * z 1582 - z 5 * z 10 * q7p - z 6 * z 9 * q5p);
  SZ 2644 (z 3 * z 2643 - z 4 * z 5 * z 9 * q4p);
  SZ 2645 (z 6 * z 10 * q7p - z 6 * z 9 * z 1582 - z 5 * z 9 * q5p);
  SZ 2646 ((- z 3) * z 5 * z 9 * q4p - z 4 * z 2643);
  SZ 2647 (z 6 * z 23 * q5p + z 5 * z 6 * z 9 * q5p + z 32 * z 2644 + z 66 * z 2604 + z 4 * z 6 * z 306 + z 3 * z 5 * z 9 * z 268 + z 4 * z 5 * z 9 * z 269 - z 5 * z 23 * z 1582 - z 5 * z 305 - z 6 * z 2645 - z 31 * z 2646 - z 70 * z 2605 - z 3 * z 6 * z 304);
  SZ 2648 (z 4 * z 5 * z 9 * q4p - z 3 * z 2643);
  SZ 2649 (z 1582 * z 299 + q4p * z 2638 + q5p * z 2642 + q7p * z 2647 + z 43 * z 1552 * z 308 + z 43 * q3p * z 2648);
  SZ 2650 (z 3 * z 2635 - z 4 * z 5 * z 10 * q4p);
  SZ 2651 (z 3 * z 5 * z 9 * q4p + z 4 * z 2643);
  SZ 2652 (z 27 * z 2650 + z 29 * z 2644 + z 30 * z 2651 + z 66 * z 2636 + z 3 * z 5 * z 9 * z 300 + z 3 * z 5 * z 10 * z 310 + z 4 * z 5 * z 9 * z 313 - z 4 * z 5 * z 10 * z 304);
  SZ 2653 (z 4 * z 2645 - z 3 * z 6 * z 9 * q4p);
  SZ 2654 (z 4 * z 6 * z 9 * q4p + z 3 * z 2645);
  SZ 2655 (z 24 * z 2639 + z 25 * z 2643 + z 29 * z 2653 + z 67 * z 2636 + z 5 * z 9 * z 296 + z 3 * z 6 * z 9 * z 313 - z 30 * z 2654 - z 68 * z 2650 - z 6 * z 10 * z 303 - z 3 * z 5 * z 10 * z 316 - z 4 * z 5 * z 10 * z 315 - z 4 * z 6 * z 9 * z 300);
  SZ 2656 ((Lit 2 1) * z 25 * z 2639 + (Lit 2 1) * z 29 * z 2636 + (Lit 2 1) * z 30 * z 2650 + (Lit 2 1) * z 3 * z 5 * z 10 * z 313 - (Lit 2 1) * z 6 * z 10 * z 296 - (Lit 2 1) * z 4 * z 5 * z 10 * z 300);
  SZ 2657 (z 1582 * z 317 + q4p * z 2652 + q5p * z 2655 + q7p * z 2656 + z 43 * z 1552 * z 268 + z 43 * q3p * z 2604);
  SZ 2658 (z 76 * z 1582 + z 82 * z 1552 + z 1201 * q3p + z 1264 * q4p + z 1286 * q5p);
  SZ 2659 (z 73 * z 1582 + z 81 * z 1552 + z 1271 * q4p + z 1291 * q5p + z 1317 * q7p - z 1209 * q3p);
  SZ 2660 (z 52 * z 1552 + z 78 * z 1582 + z 1270 * q4p + z 1290 * q5p + (Lit 2 1) * z 1316 * q7p - z 3 * z 6 * z 43 * q3p);
  SZ 2661 (ie31 * z 2659 + ie33 * z 2660);
  SZ 2662 (z 293 * z 2661 + z 801 * z 2658 - z 802 * z 2660 - ie22 * z 294 * z 2658);
  SZ 2663 (z 3 * z 6 * z 310 + z 4 * z 6 * z 308 + z 3 * z 5 * z 9 * z 269 - z 27 * z 2604 - z 28 * z 2605 - z 31 * z 2648 - z 32 * z 2651 - z 4 * z 5 * z 9 * z 268);
  SZ 2664 (z 9 * (PowN (z 6) 2) * q5p + z 5 * z 2645 + z 27 * z 2609 + z 41 * z 2651 + z 4 * z 5 * z 310 + z 3 * z 5 * z 9 * z 271 + z 4 * z 5 * z 9 * z 273 - z 6 * z 23 * z 1582 - z 5 * z 23 * q5p - z 6 * z 305 - z 28 * z 2607 - z 42 * z 2648 - z 3 * z 5 * z 308);
  SZ 2665 (z 1582 * z 311 + q4p * z 2663 + q5p * z 2664 + z 43 * z 1552 * z 313 + z 43 * q3p * z 2650);
  SZ 2666 (ie11 * z 2659 + ie31 * z 2660);
  SZ 2667 (z 294 * z 2666 + z 800 * z 2660 - z 292 * z 2661 - z 801 * z 2659);
  SZ 2668 (z 94 * z 1552 + z 95 * z 1582 + z 1273 * q4p + z 1293 * q5p + z 1319 * q7p - z 43 * z 1213 * q3p);
  SZ 2669 (z 90 * z 1552 + z 91 * z 1582 + z 1274 * q4p + z 1294 * q5p + z 1320 * q7p + z 43 * z 1214 * q3p);
  SZ 2670 (z 830 * z 2668 + if11 * z 323 * z 2669 - z 832 * z 2669 - if11 * z 321 * z 2668);
  SZ 2671 (z 802 * z 2659 + ie22 * z 292 * z 2658 - z 293 * z 2666 - z 800 * z 2658);
  SZ 2672 (z 11 * z 2638 - z 11 * z 80 * z 1643 - z 12 * z 74 * z 1643 - z 11 * z 1270 * q8p - z 12 * z 1271 * q8p - z 12 * z 2652);
  SZ 2673 (z 11 * z 2642 - z 11 * z 78 * z 1643 - z 12 * z 73 * z 1643 - z 11 * z 1290 * q8p - z 12 * z 1291 * q8p - z 12 * z 2655);
  SZ 2674 (z 11 * z 2647 - z 11 * z 79 * z 1643 - z 12 * z 75 * z 1643 - (Lit 2 1) * z 11 * z 1316 * q8p - z 12 * z 1317 * q8p - z 12 * z 2656);
  SZ 2675 (z 3 * z 6 * z 11 * q8p + z 3 * z 5 * z 9 * z 12 * q8p + z 11 * z 2648 - z 11 * z 32 * z 1643 - z 12 * z 28 * z 1643 - z 12 * z 2604);
  SZ 2676 (z 1582 * z 325 + q4p * z 2672 + q5p * z 2673 + q7p * z 2674 + z 43 * z 1552 * z 324 + z 43 * q3p * z 2675);
  SZ 2677 (z 76 * z 1582 + z 82 * z 1552 + z 83 * z 1643 + z 1201 * q3p + z 1264 * q4p + z 1286 * q5p);
  SZ 2678 (z 832 * z 2677 + if11 * z 322 * z 2668 - z 831 * z 2668 - if22 * z 323 * z 2677);
  SZ 2679 (z 11 * z 74 * z 1643 + z 11 * z 1271 * q8p + z 11 * z 2652 + z 12 * z 2638 - z 12 * z 80 * z 1643 - z 12 * z 1270 * q8p);
  SZ 2680 (z 11 * z 73 * z 1643 + z 11 * z 1291 * q8p + z 11 * z 2655 + z 12 * z 2642 - z 12 * z 78 * z 1643 - z 12 * z 1290 * q8p);
  SZ 2681 (z 11 * z 75 * z 1643 + z 11 * z 1317 * q8p + z 11 * z 2656 + z 12 * z 2647 - z 12 * z 79 * z 1643 - (Lit 2 1) * z 12 * z 1316 * q8p);
  SZ 2682 (z 11 * z 28 * z 1643 + z 3 * z 6 * z 12 * q8p + z 11 * z 2604 + z 12 * z 2648 - z 12 * z 32 * z 1643 - z 3 * z 5 * z 9 * z 11 * q8p);
  SZ 2683 (z 1582 * z 330 + q4p * z 2679 + q5p * z 2680 + q7p * z 2681 + z 43 * z 1552 * z 329 + z 43 * q3p * z 2682);
  SZ 2684 (z 831 * z 2669 + if22 * z 321 * z 2677 - z 830 * z 2677 - if11 * z 322 * z 2669);
  SZ 2685 (((PowN (z 3) 2) + (PowN (z 4) 2)) * (z 13 * z 6 - z 14 * z 5));
  SZ 2686 (z 13 * z 2606 + z 14 * z 2610);
  SZ 2687 (z 14 * z 2604 - z 13 * z 2607);
  SZ 2688 (q4p * z 2686 + z 14 * z 1582 * z 278 + z 14 * q5p * z 2611 + z 43 * z 1552 * z 341 + z 43 * q3p * z 2687);
  SZ 2689 (z 20 * z 2610 - z 17 * z 1263 * q9p - z 15 * z 2618 - z 18 * z 2606 - z 5 * ((PowN (z 3) 2) + (PowN (z 4) 2)) * z 338 - z 6 * ((PowN (z 3) 2) + (PowN (z 4) 2)) * z 337);
  SZ 2690 ((Lit 2 1) * z 17 * z 1285 * q9p + z 20 * z 2611 - z 15 * z 2619);
  SZ 2691 (z 18 * z 2607 + z 20 * z 2604 + z 3 * z 6 * z 338 - z 3 * z 5 * z 337);
  SZ 2692 (z 1582 * z 349 + q4p * z 2689 + q5p * z 2690 + z 43 * z 1552 * z 348 + z 43 * q3p * z 2691);
  SZ 2693 (z 17 * z 1263 + z 5 * z 19 * ((PowN (z 3) 2) + (PowN (z 4) 2)) + z 6 * z 16 * ((PowN (z 3) 2) + (PowN (z 4) 2)));
  SZ 2694 (z 112 * z 1552 + z 114 * z 1582 + z 2693 * q4p + z 43 * z 2540 * q3p - (Lit 2 1) * z 17 * z 1285 * q5p);
  SZ 2695 (z 110 * z 1552 + z 111 * z 1582 - z 2685 * q4p - z 43 * z 2538 * q3p);
  SZ 2696 (z 5 * z 20 * ((PowN (z 3) 2) + (PowN (z 4) 2)) + z 6 * z 18 * ((PowN (z 3) 2) + (PowN (z 4) 2)) - z 15 * z 1263);
  SZ 2697 (z 115 * z 1552 + z 116 * z 1582 + z 2696 * q4p + z 43 * z 2539 * q3p + (Lit 2 1) * z 15 * z 1285 * q5p);
  SZ 2698 (ig31 * z 2695 + ig33 * z 2697);
  SZ 2699 (z 335 * z 2698 + z 852 * z 2694 - z 853 * z 2697 - ig22 * z 336 * z 2694);
  SZ 2700 (z 5 * z 20 * ((PowN (z 3) 2) + (PowN (z 4) 2)) * q9p + z 6 * z 18 * ((PowN (z 3) 2) + (PowN (z 4) 2)) * q9p + z 17 * z 2618 + z 19 * z 2610 - z 15 * z 1263 * q9p - z 16 * z 2606);
  SZ 2701 ((Lit 2 1) * z 15 * z 1285 * q9p + z 17 * z 2619 + z 19 * z 2611);
  SZ 2702 (z 3 * z 5 * z 18 * q9p + z 16 * z 2607 + z 19 * z 2604 - z 3 * z 6 * z 20 * q9p);
  SZ 2703 (z 1582 * z 346 + q4p * z 2700 + q5p * z 2701 + z 43 * z 1552 * z 344 + z 43 * q3p * z 2702);
  SZ 2704 (ig11 * z 2695 + ig31 * z 2697);
  SZ 2705 (z 336 * z 2704 + z 851 * z 2697 - z 334 * z 2698 - z 852 * z 2695);
  SZ 2706 (z 853 * z 2695 + ig22 * z 334 * z 2694 - z 335 * z 2704 - z 851 * z 2694);
  SZ 2707 (z 2057 * z 1263);
  SZ 2708 (z 1552 * (z 354 + z 3 * z 43 * z 353));
  SZ 2709 (z 1552 * (z 43 * z 352 + z 118 * z 356));
  SZ 2710 ((- z 5) * z 360 - z 5 * z 2708 - z 6 * z 359 - z 41 * z 2709 - z 4 * z 5 * z 358);
  SZ 2711 (((PowN (z 3) 2) + (PowN (z 4) 2)) * (z 21 * z 5 - z 22 * z 6));
  SZ 2712 (z 2710 + z 22 * z 2620 + (z 173 * q4p + z 174 * q5p + z 175 * q3p) * z 2613 + (z 174 * z 1582 + z 175 * z 1552 + z 21 * z 1263 * q4p - (Lit 2 1) * z 21 * z 1285 * q5p) * z 266 - (z 170 * q4p + z 171 * q3p - z 172 * q5p) * z 2615 - (z 171 * z 1552 + z 2541 * q3p - z 172 * z 1582 - z 2711 * q4p) * z 267);
  SZ 2713 (z 5 * z 359 + z 31 * z 2709 - z 6 * z 360 - z 6 * z 2708 - z 4 * z 6 * z 358);
  SZ 2714 (z 2713 + z 21 * z 2620 + (z 170 * q4p + z 171 * q3p - z 172 * q5p) * z 2614 + (z 171 * z 1552 + z 2541 * q3p - z 172 * z 1582 - z 2711 * q4p) * z 265 - (z 176 * q4p + z 177 * q5p + z 178 * q3p) * z 2613 - (z 177 * z 1582 + z 178 * z 1552 + z 22 * z 1263 * q4p - (Lit 2 1) * z 22 * z 1285 * q5p) * z 266);
  SZ 2715 (z 13 * z 2712 + z 14 * z 2714);
  SZ 2716 (l5 * z 2696 + l6 * z 2685);
  SZ 2717 (z 2715 + l6 * z 2703 + ((Lit 2 1) * l5 * z 17 * z 1285 * q5p - z 202 * z 1552 - z 204 * z 1582 - l5 * z 2693 * q4p - l5 * z 43 * z 2540 * q3p) * z 335 - (z 201 * q9p + z 202 * q3p + z 203 * q4p + z 204 * q5p) * z 2694 - (z 197 * q3p + z 198 * q5p + z 199 * q4p - z 200 * q9p) * z 2697 - (z 197 * z 1552 + z 198 * z 1582 + z 2543 * q3p + z 2716 * q4p + (Lit 2 1) * l5 * z 15 * z 1285 * q5p) * z 336);
  SZ 2718 (z 21 * z 19 * z 1263 - z 17 * z 2711 - z 22 * z 16 * z 1263);
  SZ 2719 ((- z 21) * z 2612 - z 22 * z 2608);
  SZ 2720 (z 2719 + (z 176 * q4p + z 177 * q5p + z 178 * q3p) * z 2615 + (z 177 * z 1582 + z 178 * z 1552 + z 22 * z 1263 * q4p - (Lit 2 1) * z 22 * z 1285 * q5p) * z 267 - z 3 * z 2709 - (z 173 * q4p + z 174 * q5p + z 175 * q3p) * z 2614 - (z 174 * z 1582 + z 175 * z 1552 + z 21 * z 1263 * q4p - (Lit 2 1) * z 21 * z 1285 * q5p) * z 265);
  SZ 2721 (z 17 * z 2720 + z 19 * z 2714 - z 16 * z 2712);
  SZ 2722 (l5 * z 2692 - l6 * z 2688);
  SZ 2723 (z 2721 + z 2722 + (z 201 * q9p + z 202 * q3p + z 203 * q4p + z 204 * q5p) * z 2695 + (z 205 * q9p + z 206 * q3p + z 207 * q4p + z 208 * q5p) * z 2697 - ((Lit 2 1) * l5 * z 17 * z 1285 * q5p - z 202 * z 1552 - z 204 * z 1582 - l5 * z 2693 * q4p - l5 * z 43 * z 2540 * q3p) * z 334 - ((Lit 2 1) * l6 * z 17 * z 1285 * q5p - z 206 * z 1552 - z 208 * z 1582 - l6 * z 2693 * q4p - l6 * z 43 * z 2540 * q3p) * z 336);
  SZ 2724 (z 15 * z 2711 + z 21 * z 20 * z 1263 - z 22 * z 18 * z 1263);
  SZ 2725 (z 20 * z 2714 - z 15 * z 2720 - z 18 * z 2712);
  SZ 2726 (z 2725 + (z 197 * q3p + z 198 * q5p + z 199 * q4p - z 200 * q9p) * z 2695 + (z 197 * z 1552 + z 198 * z 1582 + z 2543 * q3p + z 2716 * q4p + (Lit 2 1) * l5 * z 15 * z 1285 * q5p) * z 334 + ((Lit 2 1) * l6 * z 17 * z 1285 * q5p - z 206 * z 1552 - z 208 * z 1582 - l6 * z 2693 * q4p - l6 * z 43 * z 2540 * q3p) * z 335 - l5 * z 2703 - (z 205 * q9p + z 206 * q3p + z 207 * q4p + z 208 * q5p) * z 2694);
  SZ 2727 ((l1 * z 5 + l2 * z 6) * ((PowN (z 3) 2) + (PowN (z 4) 2)));
  SZ 2728 (z 2713 + (z 128 * q5p + z 129 * q4p + z 130 * q3p) * z 2614 - l1 * z 2620 - (z 134 * q4p + z 135 * q5p + z 136 * q3p) * z 2613 - (z 135 * z 1582 + z 136 * z 1552 + l2 * z 1263 * q4p - (Lit 2 1) * l2 * z 1285 * q5p) * z 266 - (z 2552 * q3p - z 128 * z 1582 - z 130 * z 1552 - z 2727 * q4p) * z 265);
  SZ 2729 (z 2710 + l2 * z 2620 + (z 2552 * q3p - z 128 * z 1582 - z 130 * z 1552 - z 2727 * q4p) * z 267 - (z 128 * q5p + z 129 * q4p + z 130 * q3p) * z 2615 - (z 131 * q4p + z 132 * q5p + z 133 * q3p) * z 2613 - (z 132 * z 1582 + z 133 * z 1552 + l1 * z 1263 * q4p - (Lit 2 1) * l1 * z 1285 * q5p) * z 266);
  SZ 2730 (l1 * z 2612 - l2 * z 2608);
  SZ 2731 (z 2730 + (z 131 * q4p + z 132 * q5p + z 133 * q3p) * z 2614 + (z 134 * q4p + z 135 * q5p + z 136 * q3p) * z 2615 + (z 132 * z 1582 + z 133 * z 1552 + l1 * z 1263 * q4p - (Lit 2 1) * l1 * z 1285 * q5p) * z 265 + (z 135 * z 1582 + z 136 * z 1552 + l2 * z 1263 * q4p - (Lit 2 1) * l2 * z 1285 * q5p) * z 267 - z 3 * z 2709);
  SZ 2732 (z 2713 + (z 143 * q5p + z 144 * q4p + z 145 * q3p) * z 2614 - d1 * z 2620 - (z 1202 * q3p - z 143 * z 1582 - z 145 * z 1552 - z 1267 * q4p) * z 265);
  SZ 2733 (z 158 * z 1270 - d2 * z 1271 - l4 * z 1271);
  SZ 2734 ((z 159 * q3p + z 160 * q5p + z 161 * q7p + z 162 * q4p) * z 2659 + (z 159 * z 1552 + z 160 * z 1582 + z 2553 * q3p + z 2574 * q7p + z 2576 * q5p + z 2733 * q4p) * z 292 - z 158 * z 2665 - (z 164 * q5p + z 165 * q4p + z 166 * q3p) * z 2658 - (z 164 * z 1582 + z 166 * z 1552 + z 163 * z 1201 * q3p + z 163 * z 1264 * q4p + z 163 * z 1286 * q5p) * z 293);
  SZ 2735 (z 2710 + (z 1202 * q3p - z 143 * z 1582 - z 145 * z 1552 - z 1267 * q4p) * z 267 - (z 140 * q4p + z 141 * q5p + z 142 * q3p) * z 2613 - (z 143 * q5p + z 144 * q4p + z 145 * q3p) * z 2615 - (z 141 * z 1582 + z 142 * z 1552 + d1 * z 1263 * q4p - (Lit 2 1) * d1 * z 1285 * q5p) * z 266);
  SZ 2736 (d1 * z 2612 + (z 140 * q4p + z 141 * q5p + z 142 * q3p) * z 2614 + (z 141 * z 1582 + z 142 * z 1552 + d1 * z 1263 * q4p - (Lit 2 1) * d1 * z 1285 * q5p) * z 265 - z 3 * z 2709);
  SZ 2737 (z 158 * z 2657 - d2 * z 2649 - l4 * z 2649);
  SZ 2738 (z 2737 + (z 164 * q5p + z 165 * q4p + z 166 * q3p) * z 2660 + (z 167 * q5p + z 168 * q4p + z 169 * q3p) * z 2659 + (z 164 * z 1582 + z 166 * z 1552 + z 163 * z 1201 * q3p + z 163 * z 1264 * q4p + z 163 * z 1286 * q5p) * z 294 + (z 167 * z 1582 + z 169 * z 1552 + z 158 * z 1201 * q3p + z 158 * z 1264 * q4p + z 158 * z 1286 * q5p) * z 292);
  SZ 2739 (z 163 * z 2665 - (z 167 * q5p + z 168 * q4p + z 169 * q3p) * z 2658 - (z 159 * q3p + z 160 * q5p + z 161 * q7p + z 162 * q4p) * z 2660 - (z 159 * z 1552 + z 160 * z 1582 + z 2553 * q3p + z 2574 * q7p + z 2576 * q5p + z 2733 * q4p) * z 294 - (z 167 * z 1582 + z 169 * z 1552 + z 158 * z 1201 * q3p + z 158 * z 1264 * q4p + z 158 * z 1286 * q5p) * z 293);
  SZ 2740 ((z 148 * q3p + z 149 * q5p + z 150 * q7p + z 151 * q4p) * z 2659 + (z 148 * z 1552 + z 149 * z 1582 + z 1210 * q3p + z 1272 * q4p + z 1292 * q5p + z 1318 * q7p) * z 292 - d3 * z 2665 - (z 152 * q5p + z 153 * q4p + z 154 * q3p) * z 2658 - (z 152 * z 1582 + z 154 * z 1552 + d2 * z 1201 * q3p + d2 * z 1264 * q4p + d2 * z 1286 * q5p) * z 293);
  SZ 2741 (d3 * z 2657 - d2 * z 2649);
  SZ 2742 (z 2741 + (z 152 * q5p + z 153 * q4p + z 154 * q3p) * z 2660 + (z 155 * q5p + z 156 * q4p + z 157 * q3p) * z 2659 + (z 152 * z 1582 + z 154 * z 1552 + d2 * z 1201 * q3p + d2 * z 1264 * q4p + d2 * z 1286 * q5p) * z 294 + (z 155 * z 1582 + z 157 * z 1552 + d3 * z 1201 * q3p + d3 * z 1264 * q4p + d3 * z 1286 * q5p) * z 292);
  SZ 2743 (d2 * z 2665 - (z 155 * q5p + z 156 * q4p + z 157 * q3p) * z 2658 - (z 148 * q3p + z 149 * q5p + z 150 * q7p + z 151 * q4p) * z 2660 - (z 148 * z 1552 + z 149 * z 1582 + z 1210 * q3p + z 1272 * q4p + z 1292 * q5p + z 1318 * q7p) * z 294 - (z 155 * z 1582 + z 157 * z 1552 + d3 * z 1201 * q3p + d3 * z 1264 * q4p + d3 * z 1286 * q5p) * z 293);
  SZ 2744 (z 45 * z 2617 + z 46 * z 2622 + z 46 * z 2625 + z 49 * z 2626 + z 60 * z 2630 + z 63 * z 2634 + z 74 * z 2662 + z 77 * z 2667 + z 77 * z 2670 + z 80 * z 2671 + z 92 * z 2678 + z 97 * z 2684 + z 109 * z 2699 + z 113 * z 2705 + z 117 * z 2706 + z 1199 * z 796 + z 1199 * z 797 + z 1263 * z 769 + z 1263 * z 778 + z 1263 * z 792 + z 1263 * z 798 + z 1264 * z 816 + z 1264 * z 827 + z 1264 * z 842 + z 1264 * z 849 + z 1270 * z 812 + z 1270 * z 826 + z 1270 * z 828 + z 1271 * z 807 + z 1271 * z 821 + z 1271 * z 829 + z 1273 * z 847 + z 1273 * z 848 + z 1274 * z 837 + z 1274 * z 850 + z 2693 * z 868 + z 2693 * z 877 + z 2696 * z 863 + z 2696 * z 876 + z 2696 * z 878 + ic11 * z 45 * z 2608 + ic22 * z 46 * z 2620 + ic31 * z 45 * z 2612 + ic31 * z 49 * z 2608 + ic33 * z 49 * z 2612 + id11 * z 60 * z 2629 + id11 * z 63 * z 2633 + id22 * z 46 * z 2620 + ie11 * z 74 * z 2649 + ie22 * z 77 * z 2665 + ie31 * z 74 * z 2657 + ie31 * z 80 * z 2649 + ie33 * z 80 * z 2657 + if11 * z 92 * z 2676 + if11 * z 97 * z 2683 + if22 * z 77 * z 2665 + ig11 * z 109 * z 2688 + ig22 * z 113 * z 2703 + ig31 * z 109 * z 2692 + ig31 * z 117 * z 2688 + ig33 * z 117 * z 2692 + z 5 * ((PowN (z 3) 2) + (PowN (z 4) 2)) * z 765 + z 5 * ((PowN (z 3) 2) + (PowN (z 4) 2)) * z 777 + z 5 * ((PowN (z 3) 2) + (PowN (z 4) 2)) * z 779 + mg * (z 209 * z 2717 + z 212 * z 2723 + z 215 * z 2726 + (z 2716 + z 2718) * z 400 + (z 2707 + l6 * z 2693) * z 399 + (z 2724 - l5 * z 2693) * z 401) - z 1198 * z 787 - z 1198 * z 799 - z 2685 * z 858 - z 2685 * z 872 - z 2685 * z 879 - md * z 3 * z 119 * z 2709 - z 6 * ((PowN (z 3) 2) + (PowN (z 4) 2)) * z 762 - z 6 * ((PowN (z 3) 2) + (PowN (z 4) 2)) * z 773 - z 6 * ((PowN (z 3) 2) + (PowN (z 4) 2)) * z 780 - mc * (z 131 * z 2728 + l1 * z 1263 * z 369 - z 134 * z 2729 - z 139 * z 2731 - z 2727 * z 368 - l2 * z 1263 * z 367) - me * (z 140 * z 2732 + z 140 * z 2734 + z 168 * z 2732 + z 168 * z 2734 + d1 * z 1263 * z 374 + d1 * z 1263 * z 386 + z 158 * z 1264 * z 374 + z 158 * z 1264 * z 386 + z 10 * z 162 * z 2735 + z 10 * z 2733 * z 372 - z 147 * z 2736 - z 162 * z 2738 - z 165 * z 2739 - z 1267 * z 373 - z 2733 * z 384 - z 163 * z 1264 * z 385 - z 9 * z 147 * z 2738 - z 9 * z 162 * z 2736 - z 9 * z 165 * z 2735 - z 9 * z 1267 * z 384 - z 9 * z 2733 * z 373 - z 10 * z 147 * z 2739 - z 10 * z 165 * z 2736 - z 10 * z 1267 * z 385 - z 163 * z 9 * z 1264 * z 372 - z 163 * z 10 * z 1264 * z 373) - mf * (z 140 * z 2732 + z 140 * z 2740 + z 156 * z 2732 + z 156 * z 2740 + d1 * z 1263 * z 374 + d1 * z 1263 * z 380 + d3 * z 1264 * z 374 + d3 * z 1264 * z 380 + z 10 * z 151 * z 2735 + z 10 * z 1272 * z 372 - z 147 * z 2736 - z 151 * z 2742 - z 153 * z 2743 - z 1267 * z 373 - z 1272 * z 378 - d2 * z 1264 * z 379 - z 9 * z 147 * z 2742 - z 9 * z 151 * z 2736 - z 9 * z 153 * z 2735 - z 9 * z 1267 * z 378 - z 9 * z 1272 * z 373 - z 10 * z 147 * z 2743 - z 10 * z 153 * z 2736 - z 10 * z 1267 * z 379 - d2 * z 9 * z 1264 * z 372 - d2 * z 10 * z 1264 * z 373));
  SZ 2745 (mg * (z 182 * z 2717 + z 187 * z 2723 + z 192 * z 2726 + z 2534 * z 399 + z 2535 * z 400 + z 2536 * z 401) + me * (z 120 * z 2735 + z 122 * z 2732 + z 122 * z 2734 + z 1307 * z 374 + z 1307 * z 386 + z 1308 * z 372 + z 9 * z 120 * z 2739 + z 9 * z 1308 * z 385 - z 121 * z 2736 - z 9 * z 121 * z 2738 - z 10 * z 120 * z 2738 - z 10 * z 121 * z 2739 - z 10 * z 1308 * z 384) + mf * (z 120 * z 2735 + z 122 * z 2732 + z 122 * z 2740 + z 1307 * z 374 + z 1307 * z 380 + z 1308 * z 372 + z 9 * z 120 * z 2743 + z 9 * z 1308 * z 379 - z 121 * z 2736 - z 9 * z 121 * z 2742 - z 10 * z 120 * z 2742 - z 10 * z 121 * z 2743 - z 10 * z 1308 * z 378) - md * (z 1 * z 2708 - z 2 * z 2709) - mc * (z 121 * z 2731 - z 120 * z 2729 - z 122 * z 2728 - z 1307 * z 369 - z 1308 * z 367));
  SZ 2746 (z 51 * z 2622 + z 51 * z 2625 + z 52 * z 2626 + z 52 * z 2671 + z 61 * z 2630 + z 64 * z 2634 + z 81 * z 2662 + z 82 * z 2667 + z 82 * z 2670 + z 90 * z 2678 + z 94 * z 2684 + z 110 * z 2699 + z 112 * z 2705 + z 115 * z 2706 + z 1201 * z 816 + z 1201 * z 827 + z 1201 * z 842 + z 1201 * z 849 + ic22 * z 51 * z 2620 + ic31 * z 52 * z 2608 + ic33 * z 52 * z 2612 + id11 * z 61 * z 2629 + id11 * z 64 * z 2633 + id22 * z 51 * z 2620 + ie11 * z 81 * z 2649 + ie22 * z 82 * z 2665 + ie31 * z 52 * z 2649 + ie31 * z 81 * z 2657 + ie33 * z 52 * z 2657 + if11 * z 90 * z 2676 + if11 * z 94 * z 2683 + if22 * z 82 * z 2665 + ig11 * z 110 * z 2688 + ig22 * z 112 * z 2703 + ig31 * z 110 * z 2692 + ig31 * z 115 * z 2688 + ig33 * z 115 * z 2692 + md * z 118 * z 2708 + z 43 * z 1214 * z 837 + z 43 * z 1214 * z 850 + z 43 * z 2539 * z 863 + z 43 * z 2539 * z 876 + z 43 * z 2539 * z 878 + z 43 * z 2540 * z 868 + z 43 * z 2540 * z 877 + mg * (z 211 * z 2717 + z 214 * z 2723 + z 217 * z 2726 + z 2545 * z 401 + z 2547 * z 399 + (z 2542 + z 2543) * z 400) + me * (z 145 * z 2736 + z 146 * z 2732 + z 146 * z 2734 + z 159 * z 2738 + z 166 * z 2739 + z 2553 * z 384 + z 163 * z 1201 * z 385 + z 6 * z 118 * z 372 + z 9 * z 145 * z 2738 + z 9 * z 159 * z 2736 + z 9 * z 166 * z 2735 + z 9 * z 2553 * z 373 + z 10 * z 126 * z 2738 + z 10 * z 145 * z 2739 + z 10 * z 166 * z 2736 + z 163 * z 9 * z 1201 * z 372 + z 163 * z 10 * z 1201 * z 373 + z 6 * z 9 * z 118 * z 385 - z 126 * z 2735 - z 169 * z 2732 - z 169 * z 2734 - z 1202 * z 373 - z 158 * z 1201 * z 374 - z 158 * z 1201 * z 386 - z 5 * z 118 * z 374 - z 5 * z 118 * z 386 - z 9 * z 126 * z 2739 - z 9 * z 1202 * z 384 - z 10 * z 159 * z 2735 - z 10 * z 1202 * z 385 - z 10 * z 2553 * z 372 - z 6 * z 10 * z 118 * z 384) + mf * (z 145 * z 2736 + z 146 * z 2732 + z 146 * z 2740 + z 148 * z 2742 + z 154 * z 2743 + z 1210 * z 378 + d2 * z 1201 * z 379 + z 6 * z 118 * z 372 + z 9 * z 145 * z 2742 + z 9 * z 148 * z 2736 + z 9 * z 154 * z 2735 + z 9 * z 1210 * z 373 + z 10 * z 126 * z 2742 + z 10 * z 145 * z 2743 + z 10 * z 154 * z 2736 + d2 * z 9 * z 1201 * z 372 + d2 * z 10 * z 1201 * z 373 + z 6 * z 9 * z 118 * z 379 - z 126 * z 2735 - z 157 * z 2732 - z 157 * z 2740 - z 1202 * z 373 - d3 * z 1201 * z 374 - d3 * z 1201 * z 380 - z 5 * z 118 * z 374 - z 5 * z 118 * z 380 - z 9 * z 126 * z 2743 - z 9 * z 1202 * z 378 - z 10 * z 148 * z 2735 - z 10 * z 1202 * z 379 - z 10 * z 1210 * z 372 - z 6 * z 10 * z 118 * z 378) - z 50 * z 2617 - z 1209 * z 807 - z 1209 * z 821 - z 1209 * z 829 - ic11 * z 50 * z 2608 - ic31 * z 50 * z 2612 - z 43 * z 1213 * z 847 - z 43 * z 1213 * z 848 - z 43 * z 1278 * z 787 - z 43 * z 1278 * z 799 - z 43 * z 1279 * z 796 - z 43 * z 1279 * z 797 - z 43 * z 2538 * z 858 - z 43 * z 2538 * z 872 - z 43 * z 2538 * z 879 - z 3 * z 5 * z 43 * z 762 - z 3 * z 5 * z 43 * z 773 - z 3 * z 5 * z 43 * z 780 - z 3 * z 6 * z 43 * z 765 - z 3 * z 6 * z 43 * z 777 - z 3 * z 6 * z 43 * z 779 - z 3 * z 6 * z 43 * z 812 - z 3 * z 6 * z 43 * z 826 - z 3 * z 6 * z 43 * z 828 - mc * (z 2552 * z 368 + z 5 * z 118 * z 369 - z 130 * z 2731 - z 137 * z 2729 - z 138 * z 2728 - z 6 * z 118 * z 367));
  SZ 2747 (z 47 * z 2622 + z 47 * z 2625 + z 48 * z 2626 + z 65 * z 2634 + z 73 * z 2662 + z 76 * z 2667 + z 76 * z 2670 + z 78 * z 2671 + z 91 * z 2678 + z 95 * z 2684 + z 111 * z 2699 + z 114 * z 2705 + z 116 * z 2706 + z 1286 * z 816 + z 1286 * z 827 + z 1286 * z 842 + z 1286 * z 849 + z 1290 * z 812 + z 1290 * z 826 + z 1290 * z 828 + z 1291 * z 807 + z 1291 * z 821 + z 1291 * z 829 + z 1293 * z 847 + z 1293 * z 848 + z 1294 * z 837 + z 1294 * z 850 + ic22 * z 47 * z 2620 + ic31 * z 48 * z 2608 + ic33 * z 48 * z 2612 + id11 * z 65 * z 2633 + id22 * z 47 * z 2620 + ie11 * z 73 * z 2649 + ie22 * z 76 * z 2665 + ie31 * z 73 * z 2657 + ie31 * z 78 * z 2649 + ie33 * z 78 * z 2657 + if11 * z 91 * z 2676 + if11 * z 95 * z 2683 + if22 * z 76 * z 2665 + ig11 * z 111 * z 2688 + ig22 * z 114 * z 2703 + ig31 * z 111 * z 2692 + ig31 * z 116 * z 2688 + ig33 * z 116 * z 2692 + (Lit 2 1) * z 15 * z 1285 * z 863 + (Lit 2 1) * z 15 * z 1285 * z 876 + (Lit 2 1) * z 15 * z 1285 * z 878 + mg * (z 210 * z 2717 + z 213 * z 2723 + z 216 * z 2726 + z 2528 * z 400 + z 2530 * z 401 + z 2532 * z 399) + mc * (z 128 * z 2731 + z 135 * z 2729 + (Lit 2 1) * l1 * z 1285 * z 369 - z 132 * z 2728 - (Lit 2 1) * l2 * z 1285 * z 367) - (Lit 2 1) * z 1285 * z 769 - (Lit 2 1) * z 1285 * z 778 - (Lit 2 1) * z 1285 * z 792 - (Lit 2 1) * z 1285 * z 798 - z 62 * z 2630 - (Lit 2 1) * z 17 * z 1285 * z 868 - (Lit 2 1) * z 17 * z 1285 * z 877 - id11 * z 62 * z 2629 - me * (z 141 * z 2732 + z 141 * z 2734 + z 167 * z 2732 + z 167 * z 2734 + z 158 * z 1286 * z 374 + z 158 * z 1286 * z 386 + z 10 * z 160 * z 2735 + z 10 * z 2576 * z 372 - z 143 * z 2736 - z 160 * z 2738 - z 164 * z 2739 - z 2576 * z 384 - (Lit 2 1) * d1 * z 1285 * z 374 - (Lit 2 1) * d1 * z 1285 * z 386 - z 163 * z 1286 * z 385 - z 9 * z 143 * z 2738 - z 9 * z 160 * z 2736 - z 9 * z 164 * z 2735 - z 9 * z 2576 * z 373 - z 10 * z 143 * z 2739 - z 10 * z 164 * z 2736 - z 163 * z 9 * z 1286 * z 372 - z 163 * z 10 * z 1286 * z 373) - mf * (z 141 * z 2732 + z 141 * z 2740 + z 155 * z 2732 + z 155 * z 2740 + d3 * z 1286 * z 374 + d3 * z 1286 * z 380 + z 10 * z 149 * z 2735 + z 10 * z 1292 * z 372 - z 143 * z 2736 - z 149 * z 2742 - z 152 * z 2743 - z 1292 * z 378 - (Lit 2 1) * d1 * z 1285 * z 374 - (Lit 2 1) * d1 * z 1285 * z 380 - d2 * z 1286 * z 379 - z 9 * z 143 * z 2742 - z 9 * z 149 * z 2736 - z 9 * z 152 * z 2735 - z 9 * z 1292 * z 373 - z 10 * z 143 * z 2743 - z 10 * z 152 * z 2736 - d2 * z 9 * z 1286 * z 372 - d2 * z 10 * z 1286 * z 373));
  SZ 2748 (z 83 * (z 2670 + if22 * z 2665));
  SZ 2749 (mc * (z 123 * z 2729 + z 124 * z 2731 + z 125 * z 2728 + z 1256 * z 369 + z 1257 * z 367) + mg * (z 183 * z 2717 + z 188 * z 2723 + z 193 * z 2726 + z 2523 * z 399 + z 2524 * z 400 + z 2525 * z 401) + me * (z 123 * z 2735 + z 124 * z 2736 + z 125 * z 2732 + z 125 * z 2734 + z 1256 * z 374 + z 1256 * z 386 + z 1257 * z 372 + z 9 * z 123 * z 2739 + z 9 * z 124 * z 2738 + z 9 * z 1257 * z 385 + z 10 * z 124 * z 2739 - z 10 * z 123 * z 2738 - z 10 * z 1257 * z 384) + mf * (z 123 * z 2735 + z 124 * z 2736 + z 125 * z 2732 + z 125 * z 2740 + z 1256 * z 374 + z 1256 * z 380 + z 1257 * z 372 + z 9 * z 123 * z 2743 + z 9 * z 124 * z 2742 + z 9 * z 1257 * z 379 + z 10 * z 124 * z 2743 - z 10 * z 123 * z 2742 - z 10 * z 1257 * z 378) - md * (z 1 * z 2709 + z 2 * z 2708));
  SZ 2750 (z 2744 + z 538 * z 2745 + z 544 * z 2746 + z 547 * z 2747 + z 549 * z 2748 + z 1501 * z 917 - z 541 * z 2749 - z 1313 * z 913 - z 1549 * z 925 - z 1580 * z 933 - z 1640 * z 938);
  SZ 2751 (z 768 * z 1263 + z 790 * z 1263 + z 794 * z 1199 + z 806 * z 1271 + z 811 * z 1270 + z 815 * z 1264 + z 817 * z 1271 + z 822 * z 1270 + z 833 * z 1274 + z 840 * z 1264 + z 843 * z 1273 + z 861 * z 2696 + z 865 * z 2693 + z 873 * z 2696 + ie22 * z 77 * z 1201 + if22 * z 77 * z 1201 + if11 * z 43 * z 92 * z 1214 + ig22 * z 43 * z 113 * z 2540 + ig31 * z 43 * z 109 * z 2539 + ig33 * z 43 * z 117 * z 2539 + z 5 * z 776 * ((PowN (z 3) 2) + (PowN (z 4) 2)) + z 6 * z 761 * ((PowN (z 3) 2) + (PowN (z 4) 2)) + mg * (z 209 * z 2547 + z 215 * z 2545 + z 212 * (z 2542 + z 2543) + z 214 * (z 2716 + z 2718) + z 211 * (z 2707 + l6 * z 2693) + z 217 * (z 2724 - l5 * z 2693)) + me * (z 145 * z 1267 + z 159 * z 2733 + z 162 * z 2553 + d1 * z 169 * z 1263 + z 158 * z 140 * z 1201 + z 158 * z 168 * z 1201 + z 158 * z 169 * z 1264 + z 163 * z 165 * z 1201 + z 163 * z 166 * z 1264 + z 5 * z 118 * z 140 + z 5 * z 118 * z 168 + z 9 * z 145 * z 2733 + z 9 * z 147 * z 2553 + z 9 * z 159 * z 1267 + z 10 * z 126 * z 2733 + z 10 * z 166 * z 1267 + z 163 * z 10 * z 145 * z 1264 + z 163 * z 10 * z 147 * z 1201 + z 6 * z 9 * z 118 * z 165 - z 147 * z 1202 - d1 * z 146 * z 1263 - z 158 * z 146 * z 1264 - z 9 * z 162 * z 1202 - z 10 * z 165 * z 1202 - z 163 * z 9 * z 126 * z 1264 - z 6 * z 10 * z 118 * z 162) + mf * (z 145 * z 1267 + z 148 * z 1272 + z 151 * z 1210 + d1 * z 157 * z 1263 + d2 * z 153 * z 1201 + d2 * z 154 * z 1264 + d3 * z 140 * z 1201 + d3 * z 156 * z 1201 + d3 * z 157 * z 1264 + z 5 * z 118 * z 140 + z 5 * z 118 * z 156 + z 9 * z 145 * z 1272 + z 9 * z 147 * z 1210 + z 9 * z 148 * z 1267 + z 10 * z 126 * z 1272 + z 10 * z 154 * z 1267 + d2 * z 10 * z 145 * z 1264 + d2 * z 10 * z 147 * z 1201 + z 6 * z 9 * z 118 * z 153 - z 147 * z 1202 - d1 * z 146 * z 1263 - d3 * z 146 * z 1264 - z 9 * z 151 * z 1202 - z 10 * z 153 * z 1202 - d2 * z 9 * z 126 * z 1264 - z 6 * z 10 * z 118 * z 151) - z 45 * z 2559 - z 45 * z 2563 - z 49 * z 2560 - z 49 * z 2564 - z 74 * z 2562 - z 80 * z 2561 - z 785 * z 1198 - z 856 * z 2685 - z 869 * z 2685 - ie11 * z 74 * z 1209 - ie31 * z 80 * z 1209 - id11 * z 43 * z 60 * z 1278 - id11 * z 43 * z 63 * z 1279 - if11 * z 43 * z 97 * z 1213 - ig11 * z 43 * z 109 * z 2538 - ig31 * z 43 * z 117 * z 2538 - z 5 * z 764 * ((PowN (z 3) 2) + (PowN (z 4) 2)) - z 6 * z 772 * ((PowN (z 3) 2) + (PowN (z 4) 2)) - mc * (z 139 * z 2552 + l1 * z 138 * z 1263 - z 130 * z 2727 - l2 * z 137 * z 1263 - z 5 * z 118 * z 131 - z 6 * z 118 * z 134));
  SZ 2752 (z 2751 + z 538 * z 2557 + z 544 * z 2565 + z 547 * z 2583 + z 916 * z 1501 + if22 * z 83 * z 549 * z 1201 - z 541 * z 2554 - z 912 * z 1313 - z 919 * z 1549 - z 927 * z 1580 - z 936 * z 1640);
  SZ 2753 (z 1 * ((PowN (z 3) 2) + (PowN (z 4) 2)) * z 1552);
  SZ 2754 (z 2 * ((PowN (z 3) 2) + (PowN (z 4) 2)) * z 1552);
  SZ 2755 (z 6 * z 8 * q5p + z 6 * z 8 * q6p - z 5 * z 8 * z 1582 - z 6 * z 7 * z 1582 - z 5 * z 7 * q5p - z 5 * z 7 * q6p);
  SZ 2756 (z 5 * z 7 * z 1582 - z 6 * z 8 * z 1582 - z 5 * z 8 * q5p - z 5 * z 8 * q6p - z 6 * z 7 * q5p - z 6 * z 7 * q6p);
  SZ 2757 (rr * (z 1198 * z 560 - z 54 * z 288 - z 54 * z 2627 - z 55 * z 2631 - z 60 * z 2755 - z 63 * z 2756 - z 220 * z 284 - z 1199 * z 561));
  SZ 2758 (z 3 * z 2757 - z 4 * z 1200 * q4p)].
(* [_mooreriderlean2012.py:5545-6328] *)
Definition chunk12 : list stmt := [
  SZ 2759 (rr * (z 54 * z 290 + z 65 * z 2756 + z 7 * z 55 * z 2611 - z 62 * z 2755 - z 220 * z 286 - z 8 * z 54 * z 2611));
  SZ 2760 (z 4 * z 1300 * q4p - z 3 * z 2759);
  SZ 2761 (rr * (z 61 * z 2755 + z 64 * z 2756 + z 43 * z 54 * z 289 + z 43 * z 54 * z 2628 + z 43 * z 55 * z 2632 + z 43 * z 220 * z 285 - z 43 * z 1278 * z 560 - z 43 * z 1279 * z 561));
  SZ 2762 (z 3 * z 2761 - z 4 * z 1280 * q4p);
  SZ 2763 (u4 * z 2758 + u5 * z 2760 + z 1325 * z 556 + z 1502 * z 559 + z 1582 * z 565 - u1 * z 2753 - u2 * z 2754 - u3 * z 2762 - z 1552 * z 563);
  SZ 2764 (z 1 * z 5 * z 1582 + z 1 * z 31 * z 1552 + z 2 * z 2605 - z 2 * z 6 * z 1552 - z 1 * z 6 * q5p - z 2 * z 5 * q3p - z 1 * z 4 * z 6 * q3p);
  SZ 2765 (z 2 * z 6 * q3p - z 1 * z 6 * z 1582 - z 1 * z 41 * z 1552 - z 2 * z 5 * z 1552 - z 1 * z 5 * q5p - z 1 * z 4 * z 5 * q3p - z 2 * z 2609);
  SZ 2766 (z 9 * z 2765 - z 1 * z 3 * z 10 * z 1552 - z 10 * z 1308 * q7p);
  SZ 2767 ((- z 1) * z 3 * z 9 * z 1552 - z 9 * z 1308 * q7p - z 10 * z 2765);
  SZ 2768 (z 5 * z 122 * z 1582 + z 5 * z 1307 * q5p + z 5 * z 569 + z 6 * z 2764 + z 23 * z 2766 + z 233 * z 2645 + z 6 * z 10 * z 572 + z 9 * z 1308 * z 305 + z 10 * z 1308 * z 296 - z 6 * z 122 * q5p - z 25 * z 2767 - z 238 * z 2639 - z 6 * z 9 * z 571);
  SZ 2769 (z 1 * z 6 * z 1552 + z 2 * z 5 * z 1582 + z 2 * z 31 * z 1552 + z 1 * z 5 * q3p - z 2 * z 6 * q5p - z 2 * z 4 * z 6 * q3p - z 1 * z 2605);
  SZ 2770 (z 1 * z 5 * z 1552 + z 1 * z 2609 - z 2 * z 6 * z 1582 - z 2 * z 41 * z 1552 - z 1 * z 6 * q3p - z 2 * z 5 * q5p - z 2 * z 4 * z 5 * q3p);
  SZ 2771 (z 9 * z 2770 - z 2 * z 3 * z 10 * z 1552 - z 10 * z 1257 * q7p);
  SZ 2772 ((- z 2) * z 3 * z 9 * z 1552 - z 9 * z 1257 * q7p - z 10 * z 2770);
  SZ 2773 (z 5 * z 125 * z 1582 + z 5 * z 1256 * q5p + z 5 * z 574 + z 6 * z 2769 + z 23 * z 2771 + z 234 * z 2645 + z 6 * z 10 * z 577 + z 9 * z 1257 * z 305 + z 10 * z 1257 * z 296 - z 6 * z 125 * q5p - z 25 * z 2772 - z 239 * z 2639 - z 6 * z 9 * z 576);
  SZ 2774 (z 5 * z 118 * z 1582 + z 5 * z 354 - z 6 * z 118 * q5p);
  SZ 2775 (z 6 * z 29 * q5p + z 4 * z 10 * (PowN (z 5) 2) * q5p + z 25 * z 2605 + z 31 * z 2639 - z 5 * z 29 * z 1582 - z 5 * z 300 - z 6 * z 2636 - z 4 * z 6 * z 296 - z 6 * z 10 * z 269);
  SZ 2776 (z 23 * z 2636 + z 25 * z 2651 + z 27 * z 2639 + z 29 * z 2645 + z 4 * z 5 * z 9 * z 296 - z 6 * z 9 * z 300 - z 6 * z 10 * z 310 - z 4 * z 5 * z 10 * z 305);
  SZ 2777 ((Lit 2 1) * z 33 * z 2775 + (Lit 2 1) * z 34 * z 2776 + (Lit 2 1) * z 1204 * z 579 + (Lit 2 1) * z 1205 * z 580);
  SZ 2778 (((Lit 2 1) * z 33 * z 1206 * z 581 / z 35 + z 36 * ((Lit 4 1) * z 36 * z 2775 + (z 33 * z 1206 * z 581 - (Lit 2 1) * z 33 * z 35 * z 2777 - (Lit 2 1) * z 35 * z 1205 * z 581 - (Lit 2 1) * z 35 * z 1206 * z 580) / (PowH (z 35) 1))) / (PowN (z 36) 3));
  SZ 2779 (z 39 * z 43 * z 2650 + (Lit 1 4) * rf * z 82 * z 2778 + (Lit 1 2) * rf * z 1201 * z 584 + (Lit 1 2) * rf * z 43 * z 1212 * z 313);
  SZ 2780 ((- z 2774) - z 2779 - d3 * z 43 * z 2650);
  SZ 2781 ((- z 6) * z 118 * z 1582 - z 5 * z 118 * q5p - z 6 * z 354);
  SZ 2782 (d2 * z 43 * z 2650 + d1 * z 10 * z 43 * z 2604 - z 9 * z 1202 * q7p - z 6 * z 10 * z 118 * q7p - z 9 * z 2781);
  SZ 2783 (((Lit 2 1) * z 34 * z 1206 * z 581 / z 35 + z 36 * ((Lit 4 1) * z 36 * z 2776 + (z 34 * z 1206 * z 581 - (Lit 2 1) * z 34 * z 35 * z 2777 - (Lit 2 1) * z 35 * z 1204 * z 581 - (Lit 2 1) * z 35 * z 1206 * z 579) / (PowH (z 35) 1))) / (PowN (z 36) 3));
  SZ 2784 (z 40 * z 43 * z 2650 + (Lit 1 4) * rf * z 82 * z 2783 + (Lit 1 2) * rf * z 1201 * z 582 + (Lit 1 2) * rf * z 43 * z 1207 * z 313);
  SZ 2785 (z 43 * (d2 * z 2648 - d3 * z 2604));
  SZ 2786 (z 10 * z 1202 * q7p + z 10 * z 2781 + d1 * z 9 * z 43 * z 2604 - z 6 * z 9 * z 118 * q7p - z 2785);
  SZ 2787 (z 12 * z 40 * z 90 * z 1643 + z 11 * z 40 * z 43 * z 1213 * q8p + z 12 * z 39 * z 43 * z 1213 * q8p + z 12 * z 40 * z 43 * z 1214 * q8p + (Lit 1 2) * rf * z 12 * z 90 * z 1207 * q8p + z 11 * z 39 * z 43 * z 2682 + (Lit 1 4) * rf * z 11 * z 94 * z 2778 + (Lit 1 2) * rf * z 11 * z 43 * z 1212 * z 329 + (Lit 1 2) * rf * z 12 * z 43 * z 1213 * z 582 - z 11 * z 39 * z 90 * z 1643 - z 11 * z 40 * z 94 * z 1643 - z 12 * z 39 * z 94 * z 1643 - z 11 * z 39 * z 43 * z 1214 * q8p - (Lit 1 2) * rf * z 11 * z 90 * z 1212 * q8p - (Lit 1 2) * rf * z 11 * z 94 * z 1207 * q8p - (Lit 1 2) * rf * z 12 * z 94 * z 1212 * q8p - z 11 * z 40 * z 43 * z 2675 - z 12 * z 39 * z 43 * z 2675 - z 12 * z 40 * z 43 * z 2682 - (Lit 1 4) * rf * z 11 * z 90 * z 2783 - (Lit 1 4) * rf * z 12 * z 90 * z 2778 - (Lit 1 4) * rf * z 12 * z 94 * z 2783 - (Lit 1 2) * rf * z 11 * z 43 * z 1207 * z 324 - (Lit 1 2) * rf * z 11 * z 43 * z 1213 * z 584 - (Lit 1 2) * rf * z 11 * z 43 * z 1214 * z 582 - (Lit 1 2) * rf * z 12 * z 43 * z 1207 * z 329 - (Lit 1 2) * rf * z 12 * z 43 * z 1212 * z 324 - (Lit 1 2) * rf * z 12 * z 43 * z 1214 * z 584);
  SZ 2788 (z 5 * z 262 * z 1582 + z 5 * (z 1216 - z 1217) * q5p + z 5 * z 607 + z 6 * z 2780 + z 257 * z 2645 + (z 1203 + z 1208) * z 305 + z 23 * (z 2782 + z 2784) + z 6 * z 10 * (z 614 + z 615) - z 6 * z 262 * q5p - z 259 * z 2639 - (z 1211 + z 1215) * z 296 - z 25 * (z 2786 + z 2787) - z 6 * z 9 * (z 611 + z 612));
  SZ 2789 (z 9 * z 1267 * q7p + d2 * z 2663 + d1 * z 10 * z 2610);
  SZ 2790 (z 40 * z 2663 + (Lit 1 4) * rf * z 77 * z 2783 + (Lit 1 2) * rf * z 1207 * z 312 + (Lit 1 2) * rf * z 1264 * z 582);
  SZ 2791 ((- d1) * z 2618 - d3 * z 2663);
  SZ 2792 (z 39 * z 2663 + (Lit 1 4) * rf * z 77 * z 2778 + (Lit 1 2) * rf * z 1212 * z 312 + (Lit 1 2) * rf * z 1264 * z 584);
  SZ 2793 (d3 * z 2652 - d2 * z 2638);
  SZ 2794 (z 2793 + d1 * z 9 * z 2610 - z 10 * z 1267 * q7p);
  SZ 2795 (z 12 * z 40 * z 92 * z 1643 + z 12 * z 40 * z 1274 * q8p + (Lit 1 2) * rf * z 12 * z 92 * z 1207 * q8p + z 11 * z 39 * z 2679 + (Lit 1 4) * rf * z 11 * z 97 * z 2778 + (Lit 1 2) * rf * z 11 * z 1212 * z 332 + (Lit 1 2) * rf * z 11 * z 1273 * z 584 - z 11 * z 39 * z 92 * z 1643 - z 11 * z 40 * z 97 * z 1643 - z 12 * z 39 * z 97 * z 1643 - z 11 * z 39 * z 1274 * q8p - z 11 * z 40 * z 1273 * q8p - z 12 * z 39 * z 1273 * q8p - (Lit 1 2) * rf * z 11 * z 92 * z 1212 * q8p - (Lit 1 2) * rf * z 11 * z 97 * z 1207 * q8p - (Lit 1 2) * rf * z 12 * z 97 * z 1212 * q8p - z 11 * z 40 * z 2672 - z 12 * z 39 * z 2672 - z 12 * z 40 * z 2679 - (Lit 1 2) * rf * z 11 * z 1207 * z 326 - (Lit 1 2) * rf * z 11 * z 1274 * z 582 - (Lit 1 2) * rf * z 12 * z 1207 * z 332 - (Lit 1 2) * rf * z 12 * z 1212 * z 326 - (Lit 1 2) * rf * z 12 * z 1273 * z 582 - (Lit 1 2) * rf * z 12 * z 1274 * z 584 - (Lit 1 4) * rf * z 11 * z 92 * z 2783 - (Lit 1 4) * rf * z 12 * z 92 * z 2778 - (Lit 1 4) * rf * z 12 * z 97 * z 2783);
  SZ 2796 (z 5 * z 263 * z 1582 + z 5 * (z 1265 - z 1266) * q5p + z 256 * z 2645 + (z 1268 + z 1269) * z 305 + z 23 * (z 2789 + z 2790) + z 5 * (z 595 - z 596) + z 6 * (z 2791 - z 2792) + z 6 * z 10 * (z 600 + z 601) - z 6 * z 263 * q5p - z 261 * z 2639 - z 1276 * z 296 - z 25 * (z 2794 + z 2795) - z 6 * z 9 * (z 597 + z 598));
  SZ 2797 (d2 * z 2664 + d1 * z 10 * z 2611);
  SZ 2798 (z 40 * z 2664 + (Lit 1 4) * rf * z 76 * z 2783 + (Lit 1 2) * rf * z 1207 * z 311 + (Lit 1 2) * rf * z 1286 * z 582);
  SZ 2799 ((- d1) * z 2619 - d3 * z 2664);
  SZ 2800 (z 39 * z 2664 + (Lit 1 4) * rf * z 76 * z 2778 + (Lit 1 2) * rf * z 1212 * z 311 + (Lit 1 2) * rf * z 1286 * z 584);
  SZ 2801 (d3 * z 2655 - d2 * z 2642);
  SZ 2802 (z 2801 + d1 * z 9 * z 2611);
  SZ 2803 (z 12 * z 40 * z 91 * z 1643 + z 12 * z 40 * z 1294 * q8p + (Lit 1 2) * rf * z 12 * z 91 * z 1207 * q8p + z 11 * z 39 * z 2680 + (Lit 1 4) * rf * z 11 * z 95 * z 2778 + (Lit 1 2) * rf * z 11 * z 1212 * z 330 + (Lit 1 2) * rf * z 11 * z 1293 * z 584 - z 11 * z 39 * z 91 * z 1643 - z 11 * z 40 * z 95 * z 1643 - z 12 * z 39 * z 95 * z 1643 - z 11 * z 39 * z 1294 * q8p - z 11 * z 40 * z 1293 * q8p - z 12 * z 39 * z 1293 * q8p - (Lit 1 2) * rf * z 11 * z 91 * z 1212 * q8p - (Lit 1 2) * rf * z 11 * z 95 * z 1207 * q8p - (Lit 1 2) * rf * z 12 * z 95 * z 1212 * q8p - z 11 * z 40 * z 2673 - z 12 * z 39 * z 2673 - z 12 * z 40 * z 2680 - (Lit 1 2) * rf * z 11 * z 1207 * z 325 - (Lit 1 2) * rf * z 11 * z 1294 * z 582 - (Lit 1 2) * rf * z 12 * z 1207 * z 330 - (Lit 1 2) * rf * z 12 * z 1212 * z 325 - (Lit 1 2) * rf * z 12 * z 1293 * z 582 - (Lit 1 2) * rf * z 12 * z 1294 * z 584 - (Lit 1 4) * rf * z 11 * z 91 * z 2783 - (Lit 1 4) * rf * z 12 * z 91 * z 2778 - (Lit 1 4) * rf * z 12 * z 95 * z 2783);
  SZ 2804 (z 5 * z 264 * z 1582 + z 5 * (z 1287 - z 1288) * q5p + z 255 * z 2645 + z 23 * (z 2797 + z 2798) + (z 1289 + d2 * z 1286) * z 305 + z 5 * (z 587 - z 588) + z 6 * (z 2799 - z 2800) + z 6 * z 10 * (z 592 + z 593) - z 6 * z 264 * q5p - z 260 * z 2639 - (z 1292 + z 1295) * z 296 - z 25 * (z 2802 + z 2803) - z 6 * z 9 * (z 589 + z 590));
  SZ 2805 (z 6 * z 250 * q5p + z 254 * z 2645 + (Lit 1 4) * rf * z 23 * z 83 * z 2783 + (Lit 1 2) * rf * z 83 * z 1207 * z 305 - z 5 * z 250 * z 1582 - (Lit 1 2) * rf * z 5 * z 83 * z 1212 * q5p - (Lit 1 2) * z 5 * z 585 - (Lit 1 2) * z 6 * z 9 * z 583 - (Lit 1 4) * rf * z 6 * z 83 * z 2778);
  SZ 2806 (d3 * z 2656 - d2 * z 2647);
  SZ 2807 (z 12 * z 40 * z 93 * z 1643 + z 12 * z 40 * z 1320 * q8p + (Lit 1 2) * rf * z 12 * z 93 * z 1207 * q8p + z 11 * z 39 * z 2681 + (Lit 1 4) * rf * z 11 * z 96 * z 2778 + (Lit 1 2) * rf * z 11 * z 1212 * z 331 + (Lit 1 2) * rf * z 11 * z 1319 * z 584 - z 11 * z 39 * z 93 * z 1643 - z 11 * z 40 * z 96 * z 1643 - z 12 * z 39 * z 96 * z 1643 - z 11 * z 39 * z 1320 * q8p - z 11 * z 40 * z 1319 * q8p - z 12 * z 39 * z 1319 * q8p - (Lit 1 2) * rf * z 11 * z 93 * z 1212 * q8p - (Lit 1 2) * rf * z 11 * z 96 * z 1207 * q8p - (Lit 1 2) * rf * z 12 * z 96 * z 1212 * q8p - z 11 * z 40 * z 2674 - z 12 * z 39 * z 2674 - z 12 * z 40 * z 2681 - (Lit 1 2) * rf * z 11 * z 1207 * z 327 - (Lit 1 2) * rf * z 11 * z 1320 * z 582 - (Lit 1 2) * rf * z 12 * z 1207 * z 331 - (Lit 1 2) * rf * z 12 * z 1212 * z 327 - (Lit 1 2) * rf * z 12 * z 1319 * z 582 - (Lit 1 2) * rf * z 12 * z 1320 * z 584 - (Lit 1 4) * rf * z 11 * z 93 * z 2783 - (Lit 1 4) * rf * z 12 * z 93 * z 2778 - (Lit 1 4) * rf * z 12 * z 96 * z 2783);
  SZ 2808 (z 258 * z 2639 + (z 1318 + z 1321) * z 296 + z 25 * (z 2806 + z 2807) - z 6 * z 10 * (z 617 + z 618));
  SZ 2809 (u1 * z 2768 + u2 * z 2773 + u3 * z 2788 + u4 * z 2796 + u5 * z 2804 + u8 * z 2805 + z 1325 * z 573 + z 1502 * z 578 + z 1552 * z 616 + z 1582 * z 594 + z 1643 * z 586 - u7 * z 2808);
  SZ 2810 (z 1 * u2 * z 1552 + z 1 * z 1502 * q3p + z 1552 * z 552 + rr * u4 * z 2618 + rr * u5 * z 2619 + rr * z 1582 * z 275 - z 2 * u1 * z 1552 - z 2 * z 1325 * q3p);
  SZ 2811 (z 25 * z 2775 + z 33 * z 2639 + z 1205 * z 296 - z 6 * z 10 * z 580);
  SZ 2812 (((Lit 3 2) * z 416 * z 1206 * z 581 + z 35 * ((Lit 2 1) * z 35 * z 2811 - z 416 * z 2777 - z 1206 * z 630 - z 1230 * z 581)) / (PowH (z 35) 2));
  SZ 2813 (((Lit 2 1) * z 1206 * (z 36 * (z 33 * z 631 + (Lit 2 1) * z 420 * z 580) + (z 25 * z 36 - (Lit 3 1) * z 33 * z 420) * z 581 / (PowH (z 35) 0)) / (PowH (z 35) 0) + z 36 * ((Lit 2 1) * z 36 * ((Lit 2 1) * z 36 * z 2639 - (Lit 2 1) * z 420 * z 2775 - z 33 * z 2812 - z 1205 * z 631 - z 1231 * z 580 - z 1206 * z 296 / (PowH (z 35) 0)) - ((Lit 2 1) * z 35 * (z 25 * z 36 - (Lit 2 1) * z 33 * z 420) * z 2777 - z 1206 * (z 25 * z 36 - (Lit 2 1) * z 33 * z 420) * z 581 - (Lit 2 1) * z 35 * (z 33 * z 1231 + (Lit 2 1) * z 420 * z 1205 + z 6 * z 10 * z 36) * z 581) / (PowH (z 35) 1))) / (PowN (z 36) 4));
  SZ 2814 (((Lit 3 1) * z 34 * z 420 * z 1206 * z 581 / z 35 + z 36 * (z 34 * z 36 * z 2812 + z 36 * z 1204 * z 631 + z 36 * z 1231 * z 579 + (Lit 2 1) * z 36 * z 420 * z 2776 + (z 34 * z 420 * z 1206 * z 581 - (Lit 2 1) * z 34 * z 35 * z 420 * z 2777 - (Lit 2 1) * z 35 * z 420 * z 1204 * z 581 - (Lit 2 1) * z 35 * z 420 * z 1206 * z 579 - z 34 * z 35 * z 1206 * z 631 - z 34 * z 35 * z 1231 * z 581) / (PowH (z 35) 1))) / (PowN (z 36) 4));
  SZ 2815 (z 443 * z 2648 + (Lit 1 4) * rf * z 28 * z 2813 + (Lit 1 2) * rf * z 1232 * z 308 + (Lit 1 2) * rf * z 3 * z 6 * z 633 + (Lit 1 2) * rf * z 3 * z 5 * z 9 * z 632 - z 434 * z 2604 - (Lit 1 2) * rf * z 32 * z 2814 - (Lit 1 2) * rf * z 1233 * z 268);
  SZ 2816 (z 25 * z 2776 + z 34 * z 2639 + z 1204 * z 296 - z 6 * z 10 * z 579);
  SZ 2817 (((Lit 3 2) * z 412 * z 1206 * z 581 + z 35 * ((Lit 2 1) * z 35 * z 2816 - z 412 * z 2777 - z 1206 * z 635 - z 1225 * z 581)) / (PowH (z 35) 2));
  SZ 2818 (((Lit 3 1) * z 33 * z 418 * z 1206 * z 581 / z 35 + z 36 * (z 33 * z 36 * z 2817 + z 36 * z 1205 * z 636 + z 36 * z 1226 * z 580 + (Lit 2 1) * z 36 * z 418 * z 2775 + (z 33 * z 418 * z 1206 * z 581 - (Lit 2 1) * z 33 * z 35 * z 418 * z 2777 - (Lit 2 1) * z 35 * z 418 * z 1205 * z 581 - (Lit 2 1) * z 35 * z 418 * z 1206 * z 580 - z 33 * z 35 * z 1206 * z 636 - z 33 * z 35 * z 1226 * z 581) / (PowH (z 35) 1))) / (PowN (z 36) 4));
  SZ 2819 (((Lit 2 1) * z 1206 * (z 36 * (z 34 * z 636 + (Lit 2 1) * z 418 * z 579) + (z 25 * z 36 - (Lit 3 1) * z 34 * z 418) * z 581 / (PowH (z 35) 0)) / (PowH (z 35) 0) + z 36 * ((Lit 2 1) * z 36 * ((Lit 2 1) * z 36 * z 2639 - (Lit 2 1) * z 418 * z 2776 - z 34 * z 2817 - z 1204 * z 636 - z 1226 * z 579 - z 1206 * z 296 / (PowH (z 35) 0)) - ((Lit 2 1) * z 35 * (z 25 * z 36 - (Lit 2 1) * z 34 * z 418) * z 2777 - z 1206 * (z 25 * z 36 - (Lit 2 1) * z 34 * z 418) * z 581 - (Lit 2 1) * z 35 * (z 34 * z 1226 + (Lit 2 1) * z 418 * z 1204 + z 6 * z 10 * z 36) * z 581) / (PowH (z 35) 1))) / (PowN (z 36) 4));
  SZ 2820 (z 432 * z 2604 + (Lit 1 4) * rf * z 32 * z 2819 + (Lit 1 2) * rf * z 1227 * z 268 + (Lit 1 2) * rf * z 3 * z 6 * z 637 + (Lit 1 2) * rf * z 3 * z 5 * z 9 * z 638 - z 444 * z 2648 - (Lit 1 2) * rf * z 28 * z 2818 - (Lit 1 2) * rf * z 1228 * z 308);
  SZ 2821 ((Lit 2 1) * z 6 * z 33 * q5p + (Lit 2 1) * z 23 * z 2776 + (Lit 2 1) * z 34 * z 2645 + (Lit 2 1) * z 1204 * z 305 - (Lit 2 1) * z 5 * z 33 * z 1582 - (Lit 2 1) * z 5 * z 1205 * q5p - (Lit 2 1) * z 5 * z 580 - (Lit 2 1) * z 6 * z 2775 - (Lit 2 1) * z 6 * z 9 * z 579);
  SZ 2822 (((Lit 3 2) * z 411 * z 1206 * z 581 + z 35 * ((Lit 2 1) * z 35 * z 2821 - z 411 * z 2777 - z 1206 * z 640 - z 1245 * z 581)) / (PowH (z 35) 2));
  SZ 2823 (((Lit 2 1) * z 1206 * ((Lit 3 2) * z 33 * z 421 * z 581 / (PowH (z 35) 0) - z 36 * (z 5 * z 36 * q5p - z 6 * z 581 / (PowH (z 35) 0))) / (PowH (z 35) 0) + z 36 * ((z 33 * z 421 * z 1206 * z 581 - (Lit 2 1) * z 33 * z 35 * z 421 * z 2777 - (Lit 2 1) * z 35 * z 421 * z 1205 * z 581 - z 33 * z 35 * z 1246 * z 581 - z 35 * z 1206 * (z 33 * z 641 + (Lit 2 1) * z 421 * z 580)) / (PowH (z 35) 1) + z 36 * ((Lit 4 1) * z 5 * z 36 * z 1582 + z 33 * z 2822 + z 1205 * z 641 + z 1246 * z 580 + (Lit 2 1) * z 421 * z 2775 - (Lit 4 1) * z 6 * z 36 * q5p - ((Lit 2 1) * z 5 * z 35 * z 581 + (Lit 2 1) * z 6 * z 35 * z 2777 - z 6 * z 1206 * z 581) / (PowH (z 35) 1)))) / (PowN (z 36) 4));
  SZ 2824 ((z 1206 * (z 36 * (z 34 * z 641 + (Lit 2 1) * z 421 * z 579) + (Lit 2 1) * (z 23 * z 36 - (Lit 3 2) * z 34 * z 421) * z 581 / (PowH (z 35) 0)) / (PowH (z 35) 0) + z 36 * (z 36 * ((Lit 4 1) * z 36 * z 2645 - (Lit 2 1) * z 421 * z 2776 - z 34 * z 2822 - z 1204 * z 641 - z 1246 * z 579 - (Lit 2 1) * z 1206 * z 305 / (PowH (z 35) 0)) - ((Lit 2 1) * z 35 * (z 23 * z 36 - z 34 * z 421) * z 2777 - z 1206 * (z 23 * z 36 - z 34 * z 421) * z 581 - z 35 * (z 34 * z 1246 + (Lit 2 1) * z 421 * z 1204 + (Lit 2 1) * z 6 * z 9 * z 36) * z 581) / (PowH (z 35) 1))) / (PowN (z 36) 4));
  SZ 2825 ((Lit 1 2) * z 430 * z 2604 + (Lit 1 4) * rf * z 32 * z 2824 + (Lit 1 4) * rf * z 1247 * z 268 + (Lit 1 4) * rf * z 1248 * z 308 + (Lit 1 4) * rf * z 3 * z 6 * z 642 - (Lit 1 2) * z 446 * z 2648 - (Lit 1 4) * rf * z 28 * z 2823 - (Lit 1 4) * rf * z 3 * z 5 * z 9 * z 643);
  SZ 2826 (d1 * z 4 * z 5 * z 1582 + z 4 * z 6 * z 448 * z 1582 + d1 * z 3 * z 5 * q4p + z 3 * z 6 * z 448 * q4p + z 4 * z 5 * z 448 * q5p + z 4 * z 6 * z 455 * q4p + (Lit 1 2) * rf * z 4 * z 6 * z 1207 * q5p + z 3 * z 5 * z 2815 + z 3 * z 5 * z 9 * z 639 + (Lit 1 2) * rf * z 4 * z 6 * z 582 + (Lit 1 2) * rf * z 4 * z 5 * z 9 * z 584 + (z 3 * z 24 - z 4 * z 10) * z 2820 + (Lit 1 4) * rf * (z 3 * z 10 + z 4 * z 24) * z 2778 + z 449 * (z 3 * z 5 * z 9 * q4p + z 4 * z 2643) + z 451 * (z 4 * z 5 * z 10 * q4p - z 3 * z 2635) + z 1249 * (z 4 * z 10 * q7p + z 4 * z 26 * q4p - z 3 * z 9 * q4p - z 3 * z 295) - z 3 * z 6 * z 455 * z 1582 - d1 * z 4 * z 6 * q5p - z 3 * z 5 * z 455 * q5p - z 3 * z 6 * z 1234 * q5p - z 4 * z 5 * z 1234 * q4p - (Lit 1 2) * rf * z 3 * z 5 * z 1207 * q4p - z 3 * z 6 * z 634 - z 3 * z 5 * z 10 * z 644 - (Lit 1 4) * rf * z 4 * z 5 * z 2783 - (z 3 * z 26 + z 4 * z 9) * z 2825 - z 453 * (z 4 * z 5 * z 9 * q4p - z 3 * z 2643) - z 1229 * (z 3 * z 10 * q4p + z 4 * z 9 * q7p + z 4 * z 24 * q4p - z 3 * z 303) - (Lit 1 2) * rf * z 1212 * (z 4 * z 10 * q4p - z 3 * z 9 * q7p - z 3 * z 24 * q4p - z 4 * z 303));
  SZ 2827 (z 4 * z 5 * z 6 * z 10 * q5p + z 5 * z 2636 - z 6 * z 29 * z 1582 - z 5 * z 29 * q5p - z 6 * z 300);
  SZ 2828 (z 33 * z 2827 + z 410 * z 2775 + z 1205 * z 646 + z 1219 * z 580);
  SZ 2829 (((Lit 3 2) * z 415 * z 1206 * z 581 + z 35 * ((Lit 2 1) * z 35 * z 2828 - z 415 * z 2777 - z 1206 * z 647 - z 1220 * z 581)) / (PowH (z 35) 2));
  SZ 2830 (((Lit 3 1) * z 34 * z 417 * z 1206 * z 581 / z 35 + z 36 * (z 34 * z 36 * z 2829 + z 36 * z 1204 * z 648 + z 36 * z 1221 * z 579 + (Lit 2 1) * z 36 * z 417 * z 2776 + (z 34 * z 417 * z 1206 * z 581 - (Lit 2 1) * z 34 * z 35 * z 417 * z 2777 - (Lit 2 1) * z 35 * z 417 * z 1204 * z 581 - (Lit 2 1) * z 35 * z 417 * z 1206 * z 579 - z 34 * z 35 * z 1206 * z 648 - z 34 * z 35 * z 1221 * z 581) / (PowH (z 35) 1))) / (PowN (z 36) 4));
  SZ 2831 (((Lit 6 1) * z 33 * z 417 * z 1206 * z 581 / z 35 - z 36 * (z 36 * ((Lit 4 1) * z 36 * z 2827 - (Lit 4 1) * z 417 * z 2775 - (Lit 2 1) * z 33 * z 2829 - (Lit 2 1) * z 1205 * z 648 - (Lit 2 1) * z 1221 * z 580 - ((Lit 2 1) * z 35 * z 410 * z 2777 + (Lit 2 1) * z 35 * z 1219 * z 581 - z 410 * z 1206 * z 581) / (PowH (z 35) 1)) + (Lit 2 1) * (z 33 * z 35 * z 1221 * z 581 + (Lit 2 1) * z 33 * z 35 * z 417 * z 2777 + (Lit 2 1) * z 35 * z 417 * z 1205 * z 581 - z 33 * z 417 * z 1206 * z 581 - z 35 * z 1206 * (z 36 * z 646 - (Lit 2 1) * z 417 * z 580 - z 33 * z 648 - z 410 * z 581 / (PowH (z 35) 0))) / (PowH (z 35) 1))) / (PowN (z 36) 4));
  SZ 2832 (z 429 * z 2604 + z 441 * z 2648 + (Lit 1 4) * rf * z 28 * z 2831 + (Lit 1 2) * rf * z 32 * z 2830 + (Lit 1 2) * rf * z 1223 * z 268 + (Lit 1 2) * rf * z 3 * z 5 * z 9 * z 649 - (Lit 1 2) * rf * z 1222 * z 308 - (Lit 1 2) * rf * z 3 * z 6 * z 650);
  SZ 2833 (z 29 * z 2776 + z 34 * z 2636 + z 1204 * z 300 - z 4 * z 5 * z 10 * z 579);
  SZ 2834 (((Lit 3 2) * z 414 * z 1206 * z 581 + z 35 * ((Lit 2 1) * z 35 * z 2833 - z 414 * z 2777 - z 1206 * z 652 - z 1235 * z 581)) / (PowH (z 35) 2));
  SZ 2835 (((Lit 3 1) * z 33 * z 419 * z 1206 * z 581 / z 35 + z 36 * (z 33 * z 36 * z 2834 + z 36 * z 1205 * z 653 + z 36 * z 1236 * z 580 + (Lit 2 1) * z 36 * z 419 * z 2775 + (z 33 * z 419 * z 1206 * z 581 - (Lit 2 1) * z 33 * z 35 * z 419 * z 2777 - (Lit 2 1) * z 35 * z 419 * z 1205 * z 581 - (Lit 2 1) * z 35 * z 419 * z 1206 * z 580 - z 33 * z 35 * z 1206 * z 653 - z 33 * z 35 * z 1236 * z 581) / (PowH (z 35) 1))) / (PowN (z 36) 4));
  SZ 2836 (((Lit 2 1) * z 1206 * (z 36 * (z 34 * z 653 + (Lit 2 1) * z 419 * z 579) + (z 29 * z 36 - (Lit 3 1) * z 34 * z 419) * z 581 / (PowH (z 35) 0)) / (PowH (z 35) 0) + z 36 * ((Lit 2 1) * z 36 * ((Lit 2 1) * z 36 * z 2636 - (Lit 2 1) * z 419 * z 2776 - z 34 * z 2834 - z 1204 * z 653 - z 1236 * z 579 - z 1206 * z 300 / (PowH (z 35) 0)) - ((Lit 2 1) * z 35 * (z 29 * z 36 - (Lit 2 1) * z 34 * z 419) * z 2777 - z 1206 * (z 29 * z 36 - (Lit 2 1) * z 34 * z 419) * z 581 - (Lit 2 1) * z 35 * (z 34 * z 1236 + (Lit 2 1) * z 419 * z 1204 + z 4 * z 5 * z 10 * z 36) * z 581) / (PowH (z 35) 1))) / (PowN (z 36) 4));
  SZ 2837 (z 433 * z 2604 + (Lit 1 4) * rf * z 32 * z 2836 + (Lit 1 2) * rf * z 1237 * z 268 + (Lit 1 2) * rf * z 3 * z 6 * z 654 + (Lit 1 2) * rf * z 3 * z 5 * z 9 * z 655 - z 445 * z 2648 - (Lit 1 2) * rf * z 28 * z 2835 - (Lit 1 2) * rf * z 1238 * z 308);
  SZ 2838 ((Lit 2 1) * z 27 * z 2776 + (Lit 2 1) * z 31 * z 2775 + (Lit 2 1) * z 33 * z 2605 + (Lit 2 1) * z 34 * z 2651 + (Lit 2 1) * z 1204 * z 310 + (Lit 2 1) * z 1205 * z 269 + (Lit 2 1) * z 4 * z 5 * z 9 * z 579 - (Lit 2 1) * z 4 * z 6 * z 580);
  SZ 2839 (((Lit 3 2) * z 413 * z 1206 * z 581 + z 35 * ((Lit 2 1) * z 35 * z 2838 - z 413 * z 2777 - z 1206 * z 657 - z 1240 * z 581)) / (PowH (z 35) 2));
  SZ 2840 ((z 1206 * (z 36 * (z 33 * z 658 + (Lit 2 1) * z 422 * z 580) + (Lit 2 1) * (z 31 * z 36 - (Lit 3 2) * z 33 * z 422) * z 581 / (PowH (z 35) 0)) / (PowH (z 35) 0) + z 36 * (z 36 * ((Lit 4 1) * z 36 * z 2605 - (Lit 2 1) * z 422 * z 2775 - z 33 * z 2839 - z 1205 * z 658 - z 1241 * z 580 - (Lit 2 1) * z 1206 * z 269 / (PowH (z 35) 0)) - ((Lit 2 1) * z 35 * (z 31 * z 36 - z 33 * z 422) * z 2777 - z 1206 * (z 31 * z 36 - z 33 * z 422) * z 581 - z 35 * (z 33 * z 1241 + (Lit 2 1) * z 422 * z 1205 + (Lit 2 1) * z 4 * z 6 * z 36) * z 581) / (PowH (z 35) 1))) / (PowN (z 36) 4));
  SZ 2841 ((z 1206 * (z 36 * (z 34 * z 658 + (Lit 2 1) * z 422 * z 579) + (Lit 2 1) * (z 27 * z 36 - (Lit 3 2) * z 34 * z 422) * z 581 / (PowH (z 35) 0)) / (PowH (z 35) 0) + z 36 * (z 36 * ((Lit 4 1) * z 36 * z 2651 - (Lit 2 1) * z 422 * z 2776 - z 34 * z 2839 - z 1204 * z 658 - z 1241 * z 579 - (Lit 2 1) * z 1206 * z 310 / (PowH (z 35) 0)) - ((Lit 2 1) * z 35 * (z 27 * z 36 - z 34 * z 422) * z 2777 - z 1206 * (z 27 * z 36 - z 34 * z 422) * z 581 - z 35 * (z 34 * z 1241 + (Lit 2 1) * z 422 * z 1204 - (Lit 2 1) * z 4 * z 5 * z 9 * z 36) * z 581) / (PowH (z 35) 1))) / (PowN (z 36) 4));
  SZ 2842 ((Lit 1 2) * z 431 * z 2604 + (Lit 1 2) * z 442 * z 2648 + (Lit 1 4) * rf * z 28 * z 2840 + (Lit 1 4) * rf * z 32 * z 2841 + (Lit 1 4) * rf * z 1242 * z 308 + (Lit 1 4) * rf * z 3 * z 6 * z 660 + (Lit 1 4) * rf * z 3 * z 5 * z 9 * z 659 - (Lit 1 4) * rf * z 1243 * z 268);
  SZ 2843 (d1 * z 3 * z 6 * z 1582 + z 3 * z 6 * z 9 * z 449 * z 1582 + z 4 * z 6 * z 10 * z 451 * z 1582 + d1 * z 3 * z 5 * q5p + z 3 * z 6 * z 448 * q5p + z 4 * z 5 * z 448 * q4p + z 4 * z 6 * z 455 * q5p + z 5 * z 10 * z 454 * q7p + z 6 * z 9 * z 454 * q5p + z 6 * z 10 * z 452 * q5p + z 6 * z 10 * z 1239 * q7p + z 3 * z 5 * z 9 * z 449 * q5p + z 3 * z 5 * z 9 * z 1229 * q4p + z 3 * z 6 * z 10 * z 451 * q4p + z 4 * z 5 * z 10 * z 451 * q5p + z 4 * z 6 * z 9 * z 451 * q7p + z 4 * z 6 * z 10 * z 453 * q7p + z 4 * z 6 * z 10 * z 1249 * q5p + (Lit 1 2) * rf * z 4 * z 6 * z 1207 * q4p + (Lit 1 2) * rf * z 3 * z 5 * z 10 * z 1212 * q7p + (Lit 1 2) * rf * z 3 * z 6 * z 9 * z 1212 * q5p + (Lit 1 2) * rf * z 4 * z 5 * z 9 * z 1212 * q4p + z 2832 + z 4 * z 5 * z 9 * z 2820 + z 4 * z 6 * z 10 * z 644 + (Lit 1 2) * rf * z 3 * z 6 * z 9 * z 584 - z 3 * z 5 * z 448 * z 1582 - z 4 * z 5 * z 455 * z 1582 - z 5 * z 9 * z 454 * z 1582 - z 5 * z 10 * z 452 * z 1582 - z 4 * z 6 * z 9 * z 453 * z 1582 - d1 * z 4 * z 6 * q4p - z 3 * z 5 * z 455 * q4p - z 3 * z 6 * z 1234 * q4p - z 4 * z 5 * z 1234 * q5p - z 5 * z 9 * z 452 * q7p - z 5 * z 9 * z 1239 * q5p - z 5 * z 10 * z 1244 * q5p - z 6 * z 9 * z 1244 * q7p - z 3 * z 5 * z 10 * z 1249 * q4p - z 3 * z 6 * z 9 * z 453 * q4p - z 3 * z 6 * z 10 * z 449 * q7p - z 4 * z 5 * z 9 * z 453 * q5p - z 4 * z 5 * z 9 * z 1249 * q7p - z 4 * z 5 * z 10 * z 1229 * q7p - z 4 * z 6 * z 9 * z 449 * q4p - z 4 * z 6 * z 9 * z 1229 * q5p - (Lit 1 2) * rf * z 3 * z 5 * z 1207 * q5p - z 4 * z 5 * z 634 - z 4 * z 6 * z 2815 - z 5 * z 9 * z 656 - z 5 * z 10 * z 661 - z 6 * z 9 * z 2837 - z 6 * z 10 * z 2842 - z 4 * z 5 * z 10 * z 2825 - z 4 * z 6 * z 9 * z 639 - (Lit 1 2) * rf * z 3 * z 5 * z 582 - (Lit 1 4) * rf * z 3 * z 6 * z 2783 - (Lit 1 4) * rf * z 3 * z 5 * z 9 * z 2778);
  SZ 2844 (z 6 * z 10 * z 454 * z 1582 + z 5 * z 10 * z 454 * q5p + z 6 * z 9 * z 454 * q7p + z 6 * z 10 * z 452 * q7p + z 6 * z 10 * z 1239 * q5p + z 449 * (z 3 * z 5 * z 10 * z 1582 + z 3 * z 5 * z 9 * q7p - z 3 * z 6 * z 10 * q5p - z 4 * z 5 * z 10 * q4p) + (Lit 1 2) * rf * z 1212 * (z 3 * z 9 * q4p + z 3 * z 5 * z 10 * q5p + z 3 * z 6 * z 9 * q7p - z 4 * z 10 * q7p - z 4 * z 6 * z 10 * q4p) + z 5 * z 9 * z 2842 + z 6 * z 10 * z 656 + (Lit 1 2) * rf * z 3 * z 5 * z 10 * z 584 + (z 3 * z 9 - z 4 * z 6 * z 10) * z 2820 + (Lit 1 4) * rf * (z 4 * z 9 + z 3 * z 6 * z 10) * z 2778 - z 6 * z 9 * z 452 * z 1582 - z 5 * z 9 * z 452 * q5p - z 5 * z 9 * z 1239 * q7p - z 5 * z 10 * z 1244 * q7p - z 6 * z 9 * z 1244 * q5p - z 453 * (z 4 * z 5 * z 10 * z 1582 + z 3 * z 5 * z 10 * q4p + z 4 * z 5 * z 9 * q7p - z 4 * z 6 * z 10 * q5p) - z 451 * (z 4 * z 5 * z 9 * z 1582 + z 3 * z 5 * z 9 * q4p - z 4 * z 5 * z 10 * q7p - z 4 * z 6 * z 9 * q5p) - z 1229 * (z 3 * z 10 * q7p + z 4 * z 9 * q4p + z 3 * z 6 * z 10 * q4p + z 4 * z 5 * z 10 * q5p + z 4 * z 6 * z 9 * q7p) - z 1249 * (z 3 * z 9 * q7p + z 3 * z 6 * z 9 * q4p + z 4 * z 5 * z 9 * q5p - z 4 * z 10 * q4p - z 4 * z 6 * z 10 * q7p) - z 5 * z 10 * z 2837 - z 6 * z 9 * z 661 - z 4 * z 5 * z 9 * z 644 - z 4 * z 5 * z 10 * z 639 - (z 3 * z 10 + z 4 * z 6 * z 9) * z 2825);
  SZ 2845 (u4 * z 2826 + u5 * z 2843 + u7 * z 2844 + z 1582 * z 662);
  SZ 2846 (z 27 * z 2766 + z 29 * z 2767 + z 233 * z 2651 + z 238 * z 2636 + z 4 * z 6 * z 569 + z 9 * z 1308 * z 310 + z 4 * z 5 * z 9 * z 571 - z 31 * z 2764 - z 122 * z 2605 - z 1307 * z 269 - z 10 * z 1308 * z 300 - z 4 * z 5 * z 10 * z 572);
  SZ 2847 (z 27 * z 2771 + z 29 * z 2772 + z 234 * z 2651 + z 239 * z 2636 + z 4 * z 6 * z 574 + z 9 * z 1257 * z 310 + z 4 * z 5 * z 9 * z 576 - z 31 * z 2769 - z 125 * z 2605 - z 1256 * z 269 - z 10 * z 1257 * z 300 - z 4 * z 5 * z 10 * z 577);
  SZ 2848 (z 257 * z 2651 + z 259 * z 2636 + z 4 * z 6 * z 607 + (z 1203 + z 1208) * z 310 + (z 1211 + z 1215) * z 300 + z 27 * (z 2782 + z 2784) + z 29 * (z 2786 + z 2787) + z 4 * z 5 * z 9 * (z 611 + z 612) - z 31 * z 2780 - z 262 * z 2605 - (z 1216 - z 1217) * z 269 - z 4 * z 5 * z 10 * (z 614 + z 615));
  SZ 2849 (z 256 * z 2651 + z 261 * z 2636 + z 1276 * z 300 + (z 1268 + z 1269) * z 310 + z 27 * (z 2789 + z 2790) + z 29 * (z 2794 + z 2795) + z 4 * z 5 * z 9 * (z 597 + z 598) + z 4 * z 6 * (z 595 - z 596) - z 263 * z 2605 - (z 1265 - z 1266) * z 269 - z 31 * (z 2791 - z 2792) - z 4 * z 5 * z 10 * (z 600 + z 601));
  SZ 2850 (z 255 * z 2651 + z 260 * z 2636 + (z 1292 + z 1295) * z 300 + z 27 * (z 2797 + z 2798) + z 29 * (z 2802 + z 2803) + (z 1289 + d2 * z 1286) * z 310 + z 4 * z 5 * z 9 * (z 589 + z 590) + z 4 * z 6 * (z 587 - z 588) - z 264 * z 2605 - (z 1287 - z 1288) * z 269 - z 31 * (z 2799 - z 2800) - z 4 * z 5 * z 10 * (z 592 + z 593));
  SZ 2851 (z 258 * z 2636 + (z 1318 + z 1321) * z 300 + z 29 * (z 2806 + z 2807) - z 4 * z 5 * z 10 * (z 617 + z 618));
  SZ 2852 (z 250 * z 2605 + z 254 * z 2651 + (Lit 1 4) * rf * z 27 * z 83 * z 2783 + (Lit 1 4) * rf * z 31 * z 83 * z 2778 + (Lit 1 2) * rf * z 83 * z 1207 * z 310 + (Lit 1 2) * rf * z 83 * z 1212 * z 269 + (Lit 1 2) * z 4 * z 5 * z 9 * z 583 - (Lit 1 2) * z 4 * z 6 * z 585);
  SZ 2853 (u1 * z 2846 + u2 * z 2847 + u3 * z 2848 + u4 * z 2849 + u5 * z 2850 + u7 * z 2851 + u8 * z 2852 + z 1325 * z 621 + z 1502 * z 622 + z 1552 * z 626 + z 1582 * z 624 + z 1643 * z 623);
  SZ 2854 ((z 1312 * (z 525 * z 568 + z 478 * z 496 * z 620 - z 511 * z 553 - z 535 * z 664 - z 478 * z 528 * z 628) - z 494 * (z 525 * z 2763 + z 1545 * z 568 + z 478 * z 496 * z 2809 + z 478 * z 1254 * z 620 - z 511 * z 2810 - z 535 * z 2845 - z 1547 * z 553 - z 1548 * z 664 - z 478 * z 528 * z 2853 - z 478 * z 1306 * z 628)) / (PowN (z 494) 2));
  SZ 2855 (z 767 * z 1263 + z 786 * z 1198 + z 789 * z 1263 + z 795 * z 1199 + z 803 * z 1271 + z 808 * z 1270 + z 813 * z 1264 + z 818 * z 1271 + z 823 * z 1270 + z 834 * z 1274 + z 838 * z 1264 + z 844 * z 1273 + z 862 * z 2696 + z 867 * z 2693 + z 874 * z 2696 + ie11 * z 74 * z 1291 + ie22 * z 77 * z 1286 + ie31 * z 74 * z 1290 + ie31 * z 80 * z 1291 + ie33 * z 80 * z 1290 + if11 * z 92 * z 1294 + if11 * z 97 * z 1293 + if22 * z 77 * z 1286 + (Lit 2 1) * ig31 * z 15 * z 109 * z 1285 + (Lit 2 1) * ig33 * z 15 * z 117 * z 1285 + z 5 * z 774 * ((PowN (z 3) 2) + (PowN (z 4) 2)) + mg * (z 209 * z 2532 + z 212 * z 2528 + z 215 * z 2530 + z 213 * (z 2716 + z 2718) + z 210 * (z 2707 + l6 * z 2693) + z 216 * (z 2724 - l5 * z 2693)) - z 857 * z 2685 - z 870 * z 2685 - (Lit 2 1) * ic22 * z 46 * z 1285 - (Lit 2 1) * id22 * z 46 * z 1285 - (Lit 2 1) * ig22 * z 17 * z 113 * z 1285 - z 6 * z 770 * ((PowN (z 3) 2) + (PowN (z 4) 2)) - mc * ((Lit 2 1) * l1 * z 131 * z 1285 + (Lit 2 1) * l2 * z 134 * z 1285 - z 128 * z 2727 - l1 * z 132 * z 1263 - l2 * z 135 * z 1263) - me * ((Lit 2 1) * d1 * z 140 * z 1285 + (Lit 2 1) * d1 * z 168 * z 1285 - z 143 * z 1267 - z 160 * z 2733 - z 162 * z 2576 - d1 * z 141 * z 1263 - d1 * z 167 * z 1263 - z 158 * z 140 * z 1286 - z 158 * z 141 * z 1264 - z 158 * z 167 * z 1264 - z 158 * z 168 * z 1286 - z 163 * z 164 * z 1264 - z 163 * z 165 * z 1286 - z 9 * z 143 * z 2733 - z 9 * z 147 * z 2576 - z 9 * z 160 * z 1267 - z 10 * z 164 * z 1267 - z 163 * z 10 * z 143 * z 1264 - z 163 * z 10 * z 147 * z 1286) - mf * ((Lit 2 1) * d1 * z 140 * z 1285 + (Lit 2 1) * d1 * z 156 * z 1285 - z 143 * z 1267 - z 149 * z 1272 - z 151 * z 1292 - d1 * z 141 * z 1263 - d1 * z 155 * z 1263 - d2 * z 152 * z 1264 - d2 * z 153 * z 1286 - d3 * z 140 * z 1286 - d3 * z 141 * z 1264 - d3 * z 155 * z 1264 - d3 * z 156 * z 1286 - z 9 * z 143 * z 1272 - z 9 * z 147 * z 1292 - z 9 * z 149 * z 1267 - z 10 * z 152 * z 1267 - d2 * z 10 * z 143 * z 1264 - d2 * z 10 * z 147 * z 1286));
  SZ 2856 (z 2855 + z 538 * z 2579 + z 544 * z 2594 + z 547 * z 2593 + z 915 * z 1501 + if22 * z 83 * z 549 * z 1286 - z 541 * z 2577 - z 911 * z 1313 - z 920 * z 1549 - z 928 * z 1580 - z 934 * z 1640);
  SZ 2857 ((z 494 * z 536 * z 2845 + z 494 * z 1579 * z 664 - z 536 * z 1312 * z 664) / (PowN (z 494) 2));
  SZ 2858 (z 841 * z 1264 + z 544 * z 841 * z 1201 + z 547 * z 841 * z 1286 - z 923 * z 1549 - z 931 * z 1580 - z 937 * z 1640);
  SZ 2859 ((z 1312 * (z 526 * z 568 + z 532 * z 628 - z 512 * z 553 - z 527 * z 620 - z 537 * z 664) - z 494 * (z 526 * z 2763 + z 532 * z 2853 + z 1626 * z 568 + z 1630 * z 628 - z 512 * z 2810 - z 527 * z 2809 - z 537 * z 2845 - z 1631 * z 553 - z 1632 * z 620 - z 1639 * z 664)) / (PowN (z 494) 2));
  SZ 2860 (mg * (z 209 * z 2534 + z 212 * z 2535 + z 215 * z 2536 + z 187 * (z 2716 + z 2718) + z 182 * (z 2707 + l6 * z 2693) + z 192 * (z 2724 - l5 * z 2693)) + me * (z 9 * z 165 * z 1308 + z 163 * z 9 * z 120 * z 1264 - z 121 * z 1267 - z 140 * z 1307 - z 168 * z 1307 - d1 * z 122 * z 1263 - z 158 * z 122 * z 1264 - z 9 * z 121 * z 2733 - z 10 * z 120 * z 2733 - z 10 * z 162 * z 1308 - z 163 * z 10 * z 121 * z 1264) + mf * (z 9 * z 153 * z 1308 + d2 * z 9 * z 120 * z 1264 - z 121 * z 1267 - z 140 * z 1307 - z 156 * z 1307 - d1 * z 122 * z 1263 - d3 * z 122 * z 1264 - z 9 * z 121 * z 1272 - z 10 * z 120 * z 1272 - z 10 * z 151 * z 1308 - d2 * z 10 * z 121 * z 1264) - mc * (z 121 * z 2727 + z 131 * z 1307 + l1 * z 122 * z 1263 - z 134 * z 1308 - l2 * z 120 * z 1263));
  SZ 2861 (z 2860 + z 538 * z 2556 + z 544 * z 2557 + z 547 * z 2579 + z 910 * z 1501 - z 541 * z 2551 - z 909 * z 1313 - z 911 * z 1580 - z 912 * z 1549);
  SZ 2862 ((z 1312 * (z 519 * z 568 + z 487 * z 496 * z 620 - z 504 * z 553 - z 533 * z 664 - z 487 * z 528 * z 628) + z 494 * (z 504 * z 2810 + z 533 * z 2845 + z 1283 * z 553 + z 1304 * z 664 + z 487 * z 528 * z 2853 + z 487 * z 1306 * z 628 + z 2 * z 3 * z 496 * z 1280 * z 620 - z 519 * z 2763 - z 1262 * z 568 - z 487 * z 496 * z 2809 - z 487 * z 1254 * z 620 - z 2 * z 3 * z 528 * z 1280 * z 628)) / (PowN (z 494) 2));
  SZ 2863 (mg * (z 209 * z 2523 + z 212 * z 2524 + z 215 * z 2525 + z 188 * (z 2716 + z 2718) + z 183 * (z 2707 + l6 * z 2693) + z 193 * (z 2724 - l5 * z 2693)) - mc * (z 131 * z 1256 + l1 * z 125 * z 1263 - z 124 * z 2727 - z 134 * z 1257 - l2 * z 123 * z 1263) - me * (z 140 * z 1256 + z 168 * z 1256 + d1 * z 125 * z 1263 + z 158 * z 125 * z 1264 + z 10 * z 123 * z 2733 + z 10 * z 162 * z 1257 - z 124 * z 1267 - z 9 * z 124 * z 2733 - z 9 * z 165 * z 1257 - z 163 * z 9 * z 123 * z 1264 - z 163 * z 10 * z 124 * z 1264) - mf * (z 140 * z 1256 + z 156 * z 1256 + d1 * z 125 * z 1263 + d3 * z 125 * z 1264 + z 10 * z 123 * z 1272 + z 10 * z 151 * z 1257 - z 124 * z 1267 - z 9 * z 124 * z 1272 - z 9 * z 153 * z 1257 - d2 * z 9 * z 123 * z 1264 - d2 * z 10 * z 124 * z 1264));
  SZ 2864 (z 2863 + z 538 * z 2551 + z 544 * z 2554 + z 547 * z 2577 + z 914 * z 1501 - z 541 * z 2550 - z 910 * z 1313 - z 915 * z 1580 - z 916 * z 1549);
  SZ 2865 ((z 1312 * (z 523 * z 568 + z 482 * z 496 * z 620 - z 509 * z 553 - z 534 * z 664 - z 482 * z 528 * z 628) + z 494 * (z 509 * z 2810 + z 534 * z 2845 + z 1494 * z 553 + z 1497 * z 664 + z 482 * z 528 * z 2853 + z 482 * z 1306 * z 628 + z 1 * z 3 * z 496 * z 1280 * z 620 - z 523 * z 2763 - z 1500 * z 568 - z 482 * z 496 * z 2809 - z 482 * z 1254 * z 620 - z 1 * z 3 * z 528 * z 1280 * z 628)) / (PowN (z 494) 2));
  SZ 2866 (z 2750 + z 941 * z 2857 + z 947 * z 2865 + z 2752 * z 667 + z 2856 * z 668 + z 2858 * z 669 + z 2861 * z 665 - z 940 * z 2854 - z 944 * z 2859 - z 946 * z 2862 - z 2864 * z 666);
  SZ 2867 (z 1270 + z 547 * z 1290 - z 52 * z 1549 - z 78 * z 1580 - z 3 * z 6 * z 43 * z 544);
  SZ 2868 (z 50 * z 1549 - z 3 * z 5 * z 43 * z 544 - z 6 * ((PowN (z 3) 2) + (PowN (z 4) 2)));
  SZ 2869 (z 5 * ((PowN (z 3) 2) + (PowN (z 4) 2)) - z 48 * z 1580 - z 52 * z 1549 - z 3 * z 6 * z 43 * z 544);
  SZ 2870 (z 2707 + l6 * z 2693 + z 183 * z 1501 + z 538 * z 2534 + z 544 * z 2547 + z 547 * z 2532 - z 182 * z 1313 - z 210 * z 1580 - z 211 * z 1549 - z 541 * z 2523);
  SZ 2871 (z 2716 + z 2718 + z 188 * z 1501 + z 538 * z 2535 + z 547 * z 2528 + z 544 * (z 2542 + z 2543) - z 187 * z 1313 - z 213 * z 1580 - z 214 * z 1549 - z 541 * z 2524);
  SZ 2872 (z 2724 + z 193 * z 1501 + z 538 * z 2536 + z 544 * z 2545 + z 547 * z 2530 - l5 * z 2693 - z 192 * z 1313 - z 216 * z 1580 - z 217 * z 1549 - z 541 * z 2525);
  SZ 2873 (z 2727 + z 121 * z 1313 + z 124 * z 1501 - z 128 * z 1580 - z 130 * z 1549 - z 544 * z 2552);
  SZ 2874 (z 125 * z 1501 + z 132 * z 1580 + z 538 * z 1307 + (Lit 2 1) * l1 * z 547 * z 1285 - l1 * z 1263 - z 122 * z 1313 - z 138 * z 1549 - z 541 * z 1256 - z 5 * z 118 * z 544);
  SZ 2875 (l2 * z 1263 + z 123 * z 1501 + z 538 * z 1308 + z 6 * z 118 * z 544 - z 120 * z 1313 - z 135 * z 1580 - z 137 * z 1549 - z 541 * z 1257 - (Lit 2 1) * l2 * z 547 * z 1285);
  SZ 2876 ((- z 2685) - z 110 * z 1549 - z 111 * z 1580 - z 43 * z 544 * z 2538);
  SZ 2877 (z 123 * z 1501 + z 126 * z 1549 + z 538 * z 1308 + z 6 * z 118 * z 544 - z 120 * z 1313 - z 541 * z 1257);
  SZ 2878 (z 1267 + z 121 * z 1313 + z 124 * z 1501 - z 143 * z 1580 - z 145 * z 1549 - z 544 * z 1202);
  SZ 2879 (z 125 * z 1501 + z 141 * z 1580 + z 538 * z 1307 + (Lit 2 1) * d1 * z 547 * z 1285 - d1 * z 1263 - z 122 * z 1313 - z 146 * z 1549 - z 541 * z 1256 - z 5 * z 118 * z 544);
  SZ 2880 (z 167 * z 1580 + z 169 * z 1549 - z 158 * z 1264 - z 158 * z 544 * z 1201 - z 158 * z 547 * z 1286);
  SZ 2881 (z 163 * z 1264 + z 163 * z 544 * z 1201 + z 163 * z 547 * z 1286 - z 164 * z 1580 - z 166 * z 1549);
  SZ 2882 (z 2733 + z 544 * z 2553 + z 547 * z 2576 - z 159 * z 1549 - z 160 * z 1580);
  SZ 2883 (z 155 * z 1580 + z 157 * z 1549 - d3 * z 1264 - d3 * z 544 * z 1201 - d3 * z 547 * z 1286);
  SZ 2884 (d2 * z 1264 + d2 * z 544 * z 1201 + d2 * z 547 * z 1286 - z 152 * z 1580 - z 154 * z 1549);
  SZ 2885 (z 1272 + z 544 * z 1210 + z 547 * z 1292 - z 148 * z 1549 - z 149 * z 1580);
  SZ 2886 (T7 * z 2867 + T4 * z 5 * z 672 + T4 * z 5 * z 2868 + T4 * z 6 * z 2869 + z 402 * (z 4 * z 2873 + z 32 * z 2874 - z 42 * z 2875 - z 3 * z 5 * z 703 - z 3 * z 6 * z 705) + z 2876 * z 408 + z 13 * z 2868 * z 409 + z 14 * z 2869 * z 409 - T7 * z 2869 - T4 * z 6 * z 670 - z 406 * (z 744 * z 2538 - z 106 * z 2870 - z 107 * z 2871 - z 108 * z 2872 - z 745 * z 2540 - z 746 * z 2539) - z 404 * (z 42 * z 2877 + z 3 * z 5 * z 720 + z 3 * z 6 * z 716 + z 3 * z 6 * z 719 + z 3 * z 5 * z 9 * z 717 - z 4 * z 2878 - z 32 * z 2879 - z 32 * z 2880 - z 733 * z 2881 - z 734 * z 2882 - z 3 * z 5 * z 10 * z 718) - z 405 * (z 42 * z 2877 + z 3 * z 5 * z 720 + z 3 * z 6 * z 716 + z 3 * z 6 * z 737 + z 3 * z 5 * z 9 * z 735 - z 4 * z 2878 - z 32 * z 2879 - z 32 * z 2883 - z 733 * z 2884 - z 734 * z 2885 - z 3 * z 5 * z 10 * z 736));
  SZ 2887 (z 791 * z 1263 - z 921 * z 1549 - z 929 * z 1580 - (Lit 2 1) * z 547 * z 791 * z 1285);
  SZ 2888 (z 2887 + z 542 * z 2864 + z 947 * z 1495 - z 539 * z 2861 - z 545 * z 2752 - z 550 * z 2858 - z 940 * z 1550 - z 944 * z 1642 - z 946 * z 1314);
  SZ 2889 (z 859 * z 2696 + z 864 * z 2693 + mg * (z 205 * (z 2707 + l6 * z 2693) - z 200 * (z 2716 + z 2718) - z 201 * (z 2724 - l5 * z 2693)) - z 854 * z 2685);
  SZ 2890 (z 2889 + z 541 * z 2526 + z 544 * z 2570 + z 547 * z 2569 + z 907 * z 1501 - z 538 * z 2537 - z 906 * z 1313 - z 924 * z 1549 - z 932 * z 1580);
  SZ 2891 (z 950 * z 2572 + z 960 * z 2888 - z 945 * z 2568 - z 964 * z 2890);
  SZ 2892 (z 805 * z 1271 + z 810 * z 1270 + z 819 * z 1271 + z 824 * z 1270 + z 836 * z 1274 + z 845 * z 1273 + ie11 * z 74 * z 1317 + ie31 * z 80 * z 1317 + if11 * z 92 * z 1320 + if11 * z 97 * z 1319 + (Lit 2 1) * ie31 * z 74 * z 1316 + (Lit 2 1) * ie33 * z 80 * z 1316 + me * z 161 * (z 2733 + z 9 * z 1267) + me * z 2574 * (z 162 + z 9 * z 147) + mf * z 150 * (z 1272 + z 9 * z 1267) + mf * z 1318 * (z 151 + z 9 * z 147));
  SZ 2893 (z 2892 + z 544 * z 2590 + z 547 * z 2589 + z 899 * z 1313 + z 900 * z 1501 - z 538 * z 2580 - z 541 * z 2575 - z 922 * z 1549 - z 930 * z 1580);
  SZ 2894 (z 2893 + z 543 * z 2864 + z 548 * z 2856 + z 551 * z 2858 + z 940 * z 1551 + z 946 * z 1324 - z 540 * z 2861 - z 546 * z 2752 - z 941 * z 1581 - z 944 * z 1641 - z 947 * z 1498);
  SZ 2895 (z 950 * z 2599 + z 965 * z 2888 - z 951 * z 2568 - z 964 * z 2894);
  SZ 2896 (z 951 * z 2572 + z 960 * z 2894 - z 945 * z 2599 - z 965 * z 2890);
  SZ 2897 (z 983 * z 2891 + z 997 * z 2549 - z 905 * z 2895 - z 982 * z 2896 - z 999 * z 2601);
  SZ 2898 (z 75 * z 2662 + z 79 * z 2671 + z 93 * z 2678 + z 96 * z 2684 + z 1317 * z 807 + z 1317 * z 821 + z 1317 * z 829 + z 1319 * z 847 + z 1319 * z 848 + z 1320 * z 837 + z 1320 * z 850 + (Lit 2 1) * z 1316 * z 812 + (Lit 2 1) * z 1316 * z 826 + (Lit 2 1) * z 1316 * z 828 + ie11 * z 75 * z 2649 + ie31 * z 75 * z 2657 + ie31 * z 79 * z 2649 + ie33 * z 79 * z 2657 + if11 * z 93 * z 2676 + if11 * z 96 * z 2683 + me * z 161 * (z 2738 + z 9 * z 2736 - z 10 * z 2735) + me * z 2574 * (z 384 + z 9 * z 373 - z 10 * z 372) + mf * z 150 * (z 2742 + z 9 * z 2736 - z 10 * z 2735) + mf * z 1318 * (z 378 + z 9 * z 373 - z 10 * z 372));
  SZ 2899 (z 2898 + z 543 * z 2749 + z 548 * z 2747 + z 551 * z 2748 + z 1324 * z 913 + z 1551 * z 925 - z 540 * z 2745 - z 546 * z 2746 - z 1498 * z 917 - z 1581 * z 933 - z 1641 * z 938);
  SZ 2900 (z 2899 + z 967 * z 2857 + z 972 * z 2865 + z 2581 * z 665 + z 2584 * z 667 + z 2585 * z 669 + z 2595 * z 668 - z 970 * z 2854 - z 971 * z 2862 - z 975 * z 2859 - z 2578 * z 666);
  SZ 2901 ((Lit 2 1) * z 1316 + z 52 * z 1551 + z 548 * z 1290 + z 3 * z 6 * z 43 * z 546 - z 78 * z 1581);
  SZ 2902 (z 3 * z 5 * z 43 * z 546 - z 50 * z 1551);
  SZ 2903 (z 52 * z 1551 + z 3 * z 6 * z 43 * z 546 - z 48 * z 1581);
  SZ 2904 (z 182 * z 1324 + z 211 * z 1551 + z 543 * z 2523 + z 548 * z 2532 - z 183 * z 1498 - z 210 * z 1581 - z 540 * z 2534 - z 546 * z 2547);
  SZ 2905 (z 187 * z 1324 + z 214 * z 1551 + z 543 * z 2524 + z 548 * z 2528 - z 188 * z 1498 - z 213 * z 1581 - z 540 * z 2535 - z 546 * (z 2542 + z 2543));
  SZ 2906 (z 192 * z 1324 + z 217 * z 1551 + z 543 * z 2525 + z 548 * z 2530 - z 193 * z 1498 - z 216 * z 1581 - z 540 * z 2536 - z 546 * z 2545);
  SZ 2907 (z 130 * z 1551 + z 546 * z 2552 - z 121 * z 1324 - z 124 * z 1498 - z 128 * z 1581);
  SZ 2908 (z 122 * z 1324 + z 132 * z 1581 + z 138 * z 1551 + z 543 * z 1256 + z 5 * z 118 * z 546 + (Lit 2 1) * l1 * z 548 * z 1285 - z 125 * z 1498 - z 540 * z 1307);
  SZ 2909 (z 120 * z 1324 + z 137 * z 1551 + z 543 * z 1257 - z 123 * z 1498 - z 135 * z 1581 - z 540 * z 1308 - (Lit 2 1) * l2 * z 548 * z 1285 - z 6 * z 118 * z 546);
  SZ 2910 (z 110 * z 1551 + z 43 * z 546 * z 2538 - z 111 * z 1581);
  SZ 2911 (z 120 * z 1324 + z 543 * z 1257 - z 123 * z 1498 - z 126 * z 1551 - z 540 * z 1308 - z 6 * z 118 * z 546);
  SZ 2912 (z 145 * z 1551 + z 546 * z 1202 - z 121 * z 1324 - z 124 * z 1498 - z 143 * z 1581);
  SZ 2913 (z 122 * z 1324 + z 141 * z 1581 + z 146 * z 1551 + z 543 * z 1256 + z 5 * z 118 * z 546 + (Lit 2 1) * d1 * z 548 * z 1285 - z 125 * z 1498 - z 540 * z 1307);
  SZ 2914 (z 167 * z 1581 + z 158 * z 546 * z 1201 - z 169 * z 1551 - z 158 * z 548 * z 1286);
  SZ 2915 (z 2574 + z 159 * z 1551 + z 548 * z 2576 - z 160 * z 1581 - z 546 * z 2553);
  SZ 2916 (z 166 * z 1551 + z 163 * z 548 * z 1286 - z 164 * z 1581 - z 163 * z 546 * z 1201);
  SZ 2917 (z 155 * z 1581 + d3 * z 546 * z 1201 - z 157 * z 1551 - d3 * z 548 * z 1286);
  SZ 2918 (z 154 * z 1551 + d2 * z 548 * z 1286 - z 152 * z 1581 - d2 * z 546 * z 1201);
  SZ 2919 (z 1318 + z 148 * z 1551 + z 548 * z 1292 - z 149 * z 1581 - z 546 * z 1210);
  SZ 2920 (T7 * z 2901 + T4 * z 5 * z 678 + T4 * z 5 * z 2902 + T4 * z 6 * z 2903 + z 402 * (z 4 * z 2907 + z 32 * z 2908 - z 42 * z 2909 - z 3 * z 5 * z 709 - z 3 * z 6 * z 711) + z 2910 * z 408 + z 13 * z 2902 * z 409 + z 14 * z 2903 * z 409 - T7 * z 2903 - T4 * z 6 * z 676 - z 406 * (z 750 * z 2538 - z 106 * z 2904 - z 107 * z 2905 - z 108 * z 2906 - z 751 * z 2540 - z 752 * z 2539) - z 404 * (z 42 * z 2911 + z 3 * z 5 * z 728 + z 3 * z 6 * z 730 + z 3 * z 6 * z 732 + z 3 * z 5 * z 9 * z 731 - z 4 * z 2912 - z 32 * z 2913 - z 32 * z 2914 - z 733 * z 2916 - z 734 * z 2915 - z 3 * z 5 * z 10 * z 727) - z 405 * (z 42 * z 2911 + z 3 * z 5 * z 728 + z 3 * z 6 * z 730 + z 3 * z 6 * z 743 + z 3 * z 5 * z 9 * z 742 - z 4 * z 2912 - z 32 * z 2913 - z 32 * z 2917 - z 733 * z 2918 - z 734 * z 2919 - z 3 * z 5 * z 10 * z 741));
  SZ 2921 (z 950 * z 2571 + z 973 * z 2888 - z 945 * z 2586 - z 978 * z 2890);
  SZ 2922 (z 950 * z 2596 + z 979 * z 2888 - z 951 * z 2586 - z 978 * z 2894);
  SZ 2923 (z 951 * z 2571 + z 973 * z 2894 - z 945 * z 2596 - z 979 * z 2890);
  SZ 2924 (z 983 * z 2921 + z 1013 * z 2549 - z 905 * z 2922 - z 982 * z 2923 - z 1014 * z 2601);
  SZ 2925 (z 53 * (z 2625 + id22 * z 2620));
  SZ 2926 (z 2925 + z 542 * z 2749 + z 1495 * z 917 - z 539 * z 2745 - z 545 * z 2746 - z 550 * z 2748 - z 1314 * z 913 - z 1550 * z 925 - z 1642 * z 938);
  SZ 2927 (z 2926 + z 954 * z 2857 + z 958 * z 2865 + z 2558 * z 665 + z 2566 * z 667 + z 2567 * z 669 + z 2598 * z 668 - z 955 * z 2854 - z 957 * z 2862 - z 961 * z 2859 - z 2555 * z 666);
  SZ 2928 (z 50 * z 1550 + z 3 * z 5 * z 43 * z 545);
  SZ 2929 (z 183 * z 1495 + z 542 * z 2523 - z 182 * z 1314 - z 211 * z 1550 - z 539 * z 2534 - z 545 * z 2547);
  SZ 2930 (z 188 * z 1495 + z 542 * z 2524 - z 187 * z 1314 - z 214 * z 1550 - z 539 * z 2535 - z 545 * (z 2542 + z 2543));
  SZ 2931 (z 193 * z 1495 + z 542 * z 2525 - z 192 * z 1314 - z 217 * z 1550 - z 539 * z 2536 - z 545 * z 2545);
  SZ 2932 (z 121 * z 1314 + z 124 * z 1495 + z 545 * z 2552 - z 130 * z 1550);
  SZ 2933 (z 125 * z 1495 + z 542 * z 1256 + z 5 * z 118 * z 545 - z 122 * z 1314 - z 138 * z 1550 - z 539 * z 1307);
  SZ 2934 (z 123 * z 1495 + z 542 * z 1257 - z 120 * z 1314 - z 137 * z 1550 - z 539 * z 1308 - z 6 * z 118 * z 545);
  SZ 2935 (z 121 * z 1314 + z 124 * z 1495 + z 545 * z 1202 - z 145 * z 1550);
  SZ 2936 (z 125 * z 1495 + z 542 * z 1256 + z 5 * z 118 * z 545 - z 122 * z 1314 - z 146 * z 1550 - z 539 * z 1307);
  SZ 2937 (z 169 * z 1550 + z 158 * z 545 * z 1201);
  SZ 2938 (z 123 * z 1495 + z 126 * z 1550 + z 542 * z 1257 - z 120 * z 1314 - z 539 * z 1308 - z 6 * z 118 * z 545);
  SZ 2939 (z 166 * z 1550 + z 163 * z 545 * z 1201);
  SZ 2940 (z 159 * z 1550 + z 545 * z 2553);
  SZ 2941 (z 157 * z 1550 + d3 * z 545 * z 1201);
  SZ 2942 (z 154 * z 1550 + d2 * z 545 * z 1201);
  SZ 2943 (z 148 * z 1550 + z 545 * z 1210);
  SZ 2944 (z 52 * z 1550 - z 3 * z 6 * z 43 * z 545);
  SZ 2945 (z 110 * z 1550 - z 43 * z 545 * z 2538);
  SZ 2946 (T4 * z 5 * z 2928 + z 402 * (z 4 * z 2932 + z 32 * z 2933 - z 42 * z 2934 - z 3 * z 5 * z 706 - z 3 * z 6 * z 708) + z 404 * (z 4 * z 2935 + z 32 * z 2936 + z 32 * z 2937 + z 3 * z 5 * z 9 * z 724 - z 42 * z 2938 - z 733 * z 2939 - z 734 * z 2940 - z 3 * z 5 * z 721 - z 3 * z 6 * z 723 - z 3 * z 6 * z 726 - z 3 * z 5 * z 10 * z 725) + z 405 * (z 4 * z 2935 + z 32 * z 2936 + z 32 * z 2941 + z 3 * z 5 * z 9 * z 738 - z 42 * z 2938 - z 733 * z 2942 - z 734 * z 2943 - z 3 * z 5 * z 721 - z 3 * z 6 * z 723 - z 3 * z 6 * z 740 - z 3 * z 5 * z 10 * z 739) + z 13 * z 2928 * z 409 - T4 * z 5 * z 675 - T4 * z 6 * z 673 - T4 * z 6 * z 2944 - z 406 * (z 747 * z 2538 - z 106 * z 2929 - z 107 * z 2930 - z 108 * z 2931 - z 748 * z 2540 - z 749 * z 2539) - z 2945 * z 408 - z 14 * z 2944 * z 409);
  SZ 2947 (z 979 * z 2891 + z 997 * z 2596 - z 973 * z 2895 - z 978 * z 2896 - z 995 * z 2571 - z 999 * z 2586);
  SZ 2948 (z 98 * z 2699 + z 99 * z 2705 + ig11 * z 98 * z 2688 + ig22 * z 99 * z 2703 + ig31 * z 98 * z 2692 - mg * (z 200 * z 2723 + z 201 * z 2726 - z 205 * z 2717));
  SZ 2949 (z 2948 + z 903 * z 2857 + z 907 * z 2865 + z 2526 * z 666 + z 2533 * z 668 + z 2548 * z 667 - z 902 * z 2854 - z 906 * z 2862 - z 2537 * z 665);
  SZ 2950 (z 406 * (z 200 * z 2540 + z 201 * z 2539 + z 205 * z 2538));
  SZ 2951 (ic11 * z 6 * ((PowN (z 3) 2) + (PowN (z 4) 2)));
  SZ 2952 (ic31 * z 5 * ((PowN (z 3) 2) + (PowN (z 4) 2)));
  SZ 2953 (ic31 * z 6 * ((PowN (z 3) 2) + (PowN (z 4) 2)));
  SZ 2954 (ic33 * z 5 * ((PowN (z 3) 2) + (PowN (z 4) 2)));
  SZ 2955 (z 45 * z 2952 + z 49 * z 2954 + z 766 * z 1263 + z 788 * z 1263 + z 793 * z 1199 + z 804 * z 1271 + z 809 * z 1270 + z 814 * z 1264 + z 820 * z 1271 + z 825 * z 1270 + z 835 * z 1274 + z 839 * z 1264 + z 846 * z 1273 + z 860 * z 2696 + z 866 * z 2693 + z 875 * z 2696 + ic22 * z 46 * z 1263 + id11 * z 63 * z 1199 + id22 * z 46 * z 1263 + ie11 * z 74 * z 1271 + ie22 * z 77 * z 1264 + ie31 * z 74 * z 1270 + ie31 * z 80 * z 1271 + ie33 * z 80 * z 1270 + if11 * z 92 * z 1274 + if11 * z 97 * z 1273 + if22 * z 77 * z 1264 + ig22 * z 113 * z 2693 + ig31 * z 109 * z 2696 + ig33 * z 117 * z 2696 + z 5 * z 763 * ((PowN (z 3) 2) + (PowN (z 4) 2)) + z 5 * z 775 * ((PowN (z 3) 2) + (PowN (z 4) 2)) + (Lit 2 1) * mc * (z 139 * z 2727 + l1 * z 131 * z 1263 + l2 * z 134 * z 1263) + (Lit 2 1) * mg * (z 212 * (z 2716 + z 2718) + z 209 * (z 2707 + l6 * z 2693) + z 215 * (z 2724 - l5 * z 2693)) + (Lit 2 1) * me * (z 147 * z 1267 + z 162 * z 2733 + d1 * z 140 * z 1263 + d1 * z 168 * z 1263 + z 158 * z 140 * z 1264 + z 158 * z 168 * z 1264 + z 163 * z 165 * z 1264 + z 9 * z 147 * z 2733 + z 9 * z 162 * z 1267 + z 10 * z 165 * z 1267 + z 163 * z 10 * z 147 * z 1264) + (Lit 2 1) * mf * (z 147 * z 1267 + z 151 * z 1272 + d1 * z 140 * z 1263 + d1 * z 156 * z 1263 + d2 * z 153 * z 1264 + d3 * z 140 * z 1264 + d3 * z 156 * z 1264 + z 9 * z 147 * z 1272 + z 9 * z 151 * z 1267 + z 10 * z 153 * z 1267 + d2 * z 10 * z 147 * z 1264) - z 45 * z 2951 - z 49 * z 2953 - z 784 * z 1198 - z 855 * z 2685 - z 871 * z 2685 - id11 * z 60 * z 1198 - ig11 * z 109 * z 2685 - ig31 * z 117 * z 2685 - z 6 * z 760 * ((PowN (z 3) 2) + (PowN (z 4) 2)) - z 6 * z 771 * ((PowN (z 3) 2) + (PowN (z 4) 2)));
  SZ 2956 (z 50 * z 2951 + z 52 * z 2954 + z 814 * z 1201 + z 839 * z 1201 + ic22 * z 51 * z 1263 + id11 * z 64 * z 1199 + id22 * z 51 * z 1263 + ie11 * z 81 * z 1271 + ie22 * z 82 * z 1264 + ie31 * z 52 * z 1271 + ie31 * z 81 * z 1270 + ie33 * z 52 * z 1270 + if11 * z 90 * z 1274 + if11 * z 94 * z 1273 + if22 * z 82 * z 1264 + ig22 * z 112 * z 2693 + ig31 * z 110 * z 2696 + ig33 * z 115 * z 2696 + z 43 * z 835 * z 1214 + z 43 * z 860 * z 2539 + z 43 * z 866 * z 2540 + z 43 * z 875 * z 2539 + mg * (z 209 * z 2547 + z 215 * z 2545 + z 212 * (z 2542 + z 2543) + z 214 * (z 2716 + z 2718) + z 211 * (z 2707 + l6 * z 2693) + z 217 * (z 2724 - l5 * z 2693)) + me * (z 145 * z 1267 + z 159 * z 2733 + z 162 * z 2553 + d1 * z 169 * z 1263 + z 158 * z 140 * z 1201 + z 158 * z 168 * z 1201 + z 158 * z 169 * z 1264 + z 163 * z 165 * z 1201 + z 163 * z 166 * z 1264 + z 5 * z 118 * z 140 + z 5 * z 118 * z 168 + z 9 * z 145 * z 2733 + z 9 * z 147 * z 2553 + z 9 * z 159 * z 1267 + z 10 * z 126 * z 2733 + z 10 * z 166 * z 1267 + z 163 * z 10 * z 145 * z 1264 + z 163 * z 10 * z 147 * z 1201 + z 6 * z 9 * z 118 * z 165 - z 147 * z 1202 - d1 * z 146 * z 1263 - z 158 * z 146 * z 1264 - z 9 * z 162 * z 1202 - z 10 * z 165 * z 1202 - z 163 * z 9 * z 126 * z 1264 - z 6 * z 10 * z 118 * z 162) + mf * (z 145 * z 1267 + z 148 * z 1272 + z 151 * z 1210 + d1 * z 157 * z 1263 + d2 * z 153 * z 1201 + d2 * z 154 * z 1264 + d3 * z 140 * z 1201 + d3 * z 156 * z 1201 + d3 * z 157 * z 1264 + z 5 * z 118 * z 140 + z 5 * z 118 * z 156 + z 9 * z 145 * z 1272 + z 9 * z 147 * z 1210 + z 9 * z 148 * z 1267 + z 10 * z 126 * z 1272 + z 10 * z 154 * z 1267 + d2 * z 10 * z 145 * z 1264 + d2 * z 10 * z 147 * z 1201 + z 6 * z 9 * z 118 * z 153 - z 147 * z 1202 - d1 * z 146 * z 1263 - d3 * z 146 * z 1264 - z 9 * z 151 * z 1202 - z 10 * z 153 * z 1202 - d2 * z 9 * z 126 * z 1264 - z 6 * z 10 * z 118 * z 151) - z 50 * z 2952 - z 52 * z 2953 - z 804 * z 1209 - z 820 * z 1209 - id11 * z 61 * z 1198 - ig11 * z 110 * z 2685 - ig31 * z 115 * z 2685 - z 43 * z 784 * z 1278 - z 43 * z 793 * z 1279 - z 43 * z 846 * z 1213 - z 43 * z 855 * z 2538 - z 43 * z 871 * z 2538 - z 3 * z 5 * z 43 * z 760 - z 3 * z 5 * z 43 * z 771 - z 3 * z 6 * z 43 * z 763 - z 3 * z 6 * z 43 * z 775 - z 3 * z 6 * z 43 * z 809 - z 3 * z 6 * z 43 * z 825 - mc * (z 139 * z 2552 + l1 * z 138 * z 1263 - z 130 * z 2727 - l2 * z 137 * z 1263 - z 5 * z 118 * z 131 - z 6 * z 118 * z 134));
  SZ 2957 (z 48 * z 2954 + z 804 * z 1291 + z 809 * z 1290 + z 814 * z 1286 + z 820 * z 1291 + z 825 * z 1290 + z 835 * z 1294 + z 839 * z 1286 + z 846 * z 1293 + ic22 * z 47 * z 1263 + id11 * z 62 * z 1198 + id11 * z 65 * z 1199 + id22 * z 47 * z 1263 + ie11 * z 73 * z 1271 + ie22 * z 76 * z 1264 + ie31 * z 73 * z 1270 + ie31 * z 78 * z 1271 + ie33 * z 78 * z 1270 + if11 * z 91 * z 1274 + if11 * z 95 * z 1273 + if22 * z 76 * z 1264 + ig22 * z 114 * z 2693 + ig31 * z 111 * z 2696 + ig33 * z 116 * z 2696 + (Lit 2 1) * z 15 * z 860 * z 1285 + (Lit 2 1) * z 15 * z 875 * z 1285 + mg * (z 209 * z 2532 + z 212 * z 2528 + z 215 * z 2530 + z 213 * (z 2716 + z 2718) + z 210 * (z 2707 + l6 * z 2693) + z 216 * (z 2724 - l5 * z 2693)) - (Lit 2 1) * z 766 * z 1285 - (Lit 2 1) * z 788 * z 1285 - z 48 * z 2953 - (Lit 2 1) * z 17 * z 866 * z 1285 - ig11 * z 111 * z 2685 - ig31 * z 116 * z 2685 - mc * ((Lit 2 1) * l1 * z 131 * z 1285 + (Lit 2 1) * l2 * z 134 * z 1285 - z 128 * z 2727 - l1 * z 132 * z 1263 - l2 * z 135 * z 1263) - me * ((Lit 2 1) * d1 * z 140 * z 1285 + (Lit 2 1) * d1 * z 168 * z 1285 - z 143 * z 1267 - z 160 * z 2733 - z 162 * z 2576 - d1 * z 141 * z 1263 - d1 * z 167 * z 1263 - z 158 * z 140 * z 1286 - z 158 * z 141 * z 1264 - z 158 * z 167 * z 1264 - z 158 * z 168 * z 1286 - z 163 * z 164 * z 1264 - z 163 * z 165 * z 1286 - z 9 * z 143 * z 2733 - z 9 * z 147 * z 2576 - z 9 * z 160 * z 1267 - z 10 * z 164 * z 1267 - z 163 * z 10 * z 143 * z 1264 - z 163 * z 10 * z 147 * z 1286) - mf * ((Lit 2 1) * d1 * z 140 * z 1285 + (Lit 2 1) * d1 * z 156 * z 1285 - z 143 * z 1267 - z 149 * z 1272 - z 151 * z 1292 - d1 * z 141 * z 1263 - d1 * z 155 * z 1263 - d2 * z 152 * z 1264 - d2 * z 153 * z 1286 - d3 * z 140 * z 1286 - d3 * z 141 * z 1264 - d3 * z 155 * z 1264 - d3 * z 156 * z 1286 - z 9 * z 143 * z 1272 - z 9 * z 147 * z 1292 - z 9 * z 149 * z 1267 - z 10 * z 152 * z 1267 - d2 * z 10 * z 143 * z 1264 - d2 * z 10 * z 147 * z 1286));
  SZ 2958 (z 2955 + z 538 * z 2860 + z 544 * z 2956 + z 547 * z 2957 + z 888 * z 1501 + if22 * z 83 * z 549 * z 1264 - z 541 * z 2863 - z 887 * z 1313 - z 918 * z 1549 - z 926 * z 1580 - z 935 * z 1640);
  SZ 2959 (z 2958 + z 538 * z 2861 + z 544 * z 2752 + z 547 * z 2856 + z 549 * z 2858 + z 947 * z 1501 - z 541 * z 2864 - z 940 * z 1549 - z 941 * z 1580 - z 944 * z 1640 - z 946 * z 1313);
  SZ 2960 (z 542 * z 2863 + z 888 * z 1495 + id22 * z 53 * z 1263 - z 539 * z 2860 - z 545 * z 2956 - z 887 * z 1314 - z 918 * z 1550 - z 935 * z 1642 - if22 * z 83 * z 550 * z 1264);
  SZ 2961 (z 2960 + z 538 * z 2558 + z 544 * z 2566 + z 547 * z 2598 + z 549 * z 2567 + z 958 * z 1501 - z 541 * z 2555 - z 954 * z 1580 - z 955 * z 1549 - z 957 * z 1313 - z 961 * z 1640);
  SZ 2962 (z 949 * z 2568 + z 964 * z 2959 - z 950 * z 2961 - z 963 * z 2888);
  SZ 2963 (z 905 * z 2596 - z 973 * z 2549 - z 983 * z 2571);
  SZ 2964 (z 949 * z 2572 + z 960 * z 2959 - z 945 * z 2961 - z 963 * z 2890);
  SZ 2965 (z 978 * z 2549 + z 983 * z 2586 - z 979 * z 2601 - z 982 * z 2596);
  SZ 2966 (z 804 * z 1317 + z 820 * z 1317 + z 835 * z 1320 + z 846 * z 1319 + (Lit 2 1) * z 809 * z 1316 + (Lit 2 1) * z 825 * z 1316 + ie11 * z 75 * z 1271 + ie31 * z 75 * z 1270 + ie31 * z 79 * z 1271 + ie33 * z 79 * z 1270 + if11 * z 93 * z 1274 + if11 * z 96 * z 1273 + me * z 161 * (z 2733 + z 9 * z 1267) + me * z 2574 * (z 162 + z 9 * z 147) + mf * z 150 * (z 1272 + z 9 * z 1267) + mf * z 1318 * (z 151 + z 9 * z 147));
  SZ 2967 (z 2966 + z 543 * z 2863 + z 548 * z 2957 + z 887 * z 1324 + z 918 * z 1551 + if22 * z 83 * z 551 * z 1264 - z 540 * z 2860 - z 546 * z 2956 - z 888 * z 1498 - z 926 * z 1581 - z 935 * z 1641);
  SZ 2968 (z 2967 + z 538 * z 2581 + z 544 * z 2584 + z 547 * z 2595 + z 549 * z 2585 + z 972 * z 1501 - z 541 * z 2578 - z 967 * z 1580 - z 970 * z 1549 - z 971 * z 1313 - z 975 * z 1640);
  SZ 2969 (ig22 * z 99 * z 2693 + ig31 * z 98 * z 2696 + mg * (z 205 * (z 2707 + l6 * z 2693) - z 200 * (z 2716 + z 2718) - z 201 * (z 2724 - l5 * z 2693)) - ig11 * z 98 * z 2685);
  SZ 2970 (z 2969 + z 541 * z 2526 + z 544 * z 2548 + z 547 * z 2533 + z 907 * z 1501 - z 538 * z 2537 - z 902 * z 1549 - z 903 * z 1580 - z 906 * z 1313);
  SZ 2971 (z 905 * z 2968 - z 973 * z 2970 - z 981 * z 2571);
  SZ 2972 (z 977 * z 2601 + z 982 * z 2968 - z 978 * z 2970 - z 981 * z 2586);
  SZ 2973 (z 949 * z 2599 + z 965 * z 2959 - z 951 * z 2961 - z 963 * z 2894);
  SZ 2974 (z 905 * z 2586 - z 973 * z 2601 - z 982 * z 2571);
  SZ 2975 (z 977 * z 2549 + z 983 * z 2968 - z 979 * z 2970 - z 981 * z 2596);
  SZ 2976 (z 989 * z 2963 + z 990 * z 2962 + z 993 * z 2965 + z 994 * z 2964 + z 995 * z 2971 + z 996 * z 2895 + z 999 * z 2972 + z 1000 * z 2896 - z 991 * z 2974 - z 992 * z 2973 - z 997 * z 2975 - z 998 * z 2891);
  SZ 2977 ((z 2976 * (z 1005 * z 985 + z 1022 * z 987 - z 1015 * z 986 - z 1026 * z 988) - z 1001 * (z 2603 * z 985 + z 2897 * z 987 + z 1015 * (z 2946 - z 2927) - z 2924 * z 986 - z 2947 * z 988 - z 1026 * (z 2950 + z 2949) - z 1005 * (z 2886 - z 2866) - z 1022 * (z 2920 - z 2900))) / (PowN (z 1001) 2));
  SZ 2978 (z 903 * z 1585 + z 907 * z 1506 - z 902 * z 1556 - z 906 * z 1337);
  SZ 2979 (z 910 * z 1336 - z 914 * z 1504 - z 916 * z 1555);
  SZ 2980 (z 909 * z 1336 - z 910 * z 1504 - z 912 * z 1555);
  SZ 2981 (z 43 * (z 58 * z 794 + z 785 * z 1328 + id11 * z 58 * z 64 + id11 * z 61 * z 1328));
  SZ 2982 (z 912 * z 1336 + z 936 * z 1650 - z 545 * z 2981 - z 916 * z 1504 - z 919 * z 1555);
  SZ 2983 (z 937 * z 1650 - z 923 * z 1555);
  SZ 2984 (z 542 * z 2979 + z 957 * z 1336 + z 961 * z 1650 - z 539 * z 2980 - z 545 * z 2982 - z 550 * z 2983 - z 921 * z 1555 - z 955 * z 1555 - z 958 * z 1504);
  SZ 2985 (z 907 * z 1506 + z 932 * z 1585 - z 906 * z 1337 - z 924 * z 1556);
  SZ 2986 (z 906 * z 1336 - z 907 * z 1504 - z 924 * z 1555);
  SZ 2987 (z 929 * z 1585 - z 921 * z 1556);
  SZ 2988 (z 914 * z 1506 + z 915 * z 1585 - z 910 * z 1337 - z 916 * z 1556);
  SZ 2989 (z 910 * z 1506 + z 911 * z 1585 - z 909 * z 1337 - z 912 * z 1556);
  SZ 2990 (id11 * z 43 * z 58 * z 65 - z 7 * z 48 * z 785 - z 8 * z 48 * z 794 - id11 * z 43 * z 62 * z 1328);
  SZ 2991 (z 548 * z 2990 + z 916 * z 1506 + z 927 * z 1585 + z 936 * z 1649 - z 546 * z 2981 - z 912 * z 1337 - z 919 * z 1556);
  SZ 2992 (z 931 * z 1585 + z 937 * z 1649 - z 923 * z 1556);
  SZ 2993 (z 2987 + z 542 * z 2988 + z 971 * z 1336 + z 975 * z 1650 - z 539 * z 2989 - z 545 * z 2991 - z 550 * z 2992 - z 970 * z 1555 - z 972 * z 1504);
  SZ 2994 (z 964 * z 2985 + z 973 * z 2984 - z 960 * z 2993 - z 978 * z 2986);
  SZ 2995 (z 899 * z 1337 + z 900 * z 1506 + z 930 * z 1585 - z 922 * z 1556);
  SZ 2996 (z 48 * (z 7 * z 786 + id11 * z 7 * z 62 - z 8 * z 795 - id11 * z 8 * z 65));
  SZ 2997 (z 43 * z 58 * z 795 - z 43 * z 786 * z 1328 - id11 * z 7 * z 48 * z 61 - id11 * z 8 * z 48 * z 64);
  SZ 2998 (z 548 * z 2996 + z 915 * z 1506 + z 928 * z 1585 + z 934 * z 1649 - z 546 * z 2997 - z 911 * z 1337 - z 920 * z 1556);
  SZ 2999 (z 2995 + z 543 * z 2988 + z 548 * z 2998 + z 551 * z 2992 + z 967 * z 1585 + z 972 * z 1506 + z 975 * z 1649 - z 540 * z 2989 - z 546 * z 2991 - z 970 * z 1556 - z 971 * z 1337);
  SZ 3000 ((- z 899) * z 1336 - z 900 * z 1504 - z 922 * z 1555);
  SZ 3001 (z 911 * z 1336 + z 934 * z 1650 - z 545 * z 2997 - z 915 * z 1504 - z 920 * z 1555);
  SZ 3002 (z 3000 + z 543 * z 2979 + z 548 * z 3001 + z 551 * z 2983 + z 954 * z 1585 + z 958 * z 1506 + z 961 * z 1649 - z 540 * z 2980 - z 546 * z 2982 - z 955 * z 1556 - z 957 * z 1337);
  SZ 3003 (z 964 * z 2999 + z 979 * z 2984 - z 965 * z 2993 - z 978 * z 3002);
  SZ 3004 (z 906 * z 1336 - z 902 * z 1555 - z 907 * z 1504);
  SZ 3005 (z 965 * z 2985 + z 973 * z 3002 - z 960 * z 2999 - z 979 * z 2986);
  SZ 3006 (z 983 * z 2994 + z 1003 * z 2978 - z 905 * z 3003 - z 982 * z 3005 - z 1004 * z 3004);
  SZ 3007 (z 6 * ((PowN (z 3) 2) + (PowN (z 4) 2)) * z 1586);
  SZ 3008 ((- z 3007) * q4p - z 3 * z 5 * z 43 * z 1586 * q3p - z 43 * z 1557 * z 271)].
(* [_mooreriderlean2012.py:6329-6830] *)
Definition chunk13 : list stmt := [
  SZ 3009 (z 5 * ((PowN (z 3) 2) + (PowN (z 4) 2)) * z 1586);
  SZ 3010 (z 3009 * q4p + z 1586 * z 278 + z 43 * z 1557 * z 268 - z 3 * z 6 * z 43 * z 1586 * q3p);
  SZ 3011 (z 47 * z 1586 + z 51 * z 1557);
  SZ 3012 (z 48 * z 1586 + z 52 * z 1557);
  SZ 3013 (ic33 * z 3012 - ic31 * z 50 * z 1557);
  SZ 3014 (z 3011 * z 758 + z 3013 * z 266 - z 3012 * z 759 - ic22 * z 3011 * z 267);
  SZ 3015 ((z 3 * z 5 * z 31 + z 3 * z 6 * z 41 - z 4 * z 5 * z 32 - z 4 * z 6 * z 42) * z 1586);
  SZ 3016 (z 5 * (z 6 - z 3 * z 42 - z 4 * z 41) * z 1586);
  SZ 3017 (z 3015 * q4p + z 1557 * z 276 + z 1586 * z 275 - (Lit 2 1) * z 3016 * q5p);
  SZ 3018 (ic31 * z 3012 - ic11 * z 50 * z 1557);
  SZ 3019 (z 3012 * z 757 + z 3018 * z 267 + z 50 * z 1557 * z 758 - z 3013 * z 265);
  SZ 3020 (z 64 * z 1557 + z 65 * z 1586 + z 60 * q4p + z 43 * z 58 * q3p - z 8 * z 48 * q5p);
  SZ 3021 (z 61 * z 1557 + z 1326 * q4p + z 43 * z 1328 * q3p - z 62 * z 1586 - z 7 * z 48 * q5p);
  SZ 3022 (z 781 * z 3020 + id11 * z 283 * z 3021 - z 783 * z 3021 - id11 * z 281 * z 3020);
  SZ 3023 (ic22 * z 3011 * z 265 - z 3011 * z 757 - z 3018 * z 266 - z 50 * z 1557 * z 759);
  SZ 3024 (z 8 * z 49 * q6p - z 7 * z 3007 - z 8 * z 3009 - z 7 * z 45 * q6p - z 7 * z 279 - z 8 * z 270);
  SZ 3025 (z 3 * z 6 * z 8 * z 1586 + z 7 * z 42 * q6p + z 8 * z 32 * q6p + z 8 * z 271 - z 3 * z 5 * z 7 * z 1586 - z 7 * z 268);
  SZ 3026 (q4p * z 3024 + z 43 * z 1557 * z 285 + z 43 * q3p * z 3025 - z 1586 * z 286 - q5p * z 290);
  SZ 3027 (z 3011 * z 783 + id11 * z 282 * z 3020 - z 782 * z 3020 - id22 * z 3011 * z 283);
  SZ 3028 (z 7 * z 3009 + z 7 * z 270 - z 8 * z 3007 - z 7 * z 49 * q6p - z 8 * z 45 * q6p - z 8 * z 279);
  SZ 3029 ((- z 7) * z 48 * q6p - z 8 * z 278);
  SZ 3030 (z 8 * z 42 * q6p - z 3 * z 5 * z 8 * z 1586 - z 3 * z 6 * z 7 * z 1586 - z 7 * z 32 * q6p - z 7 * z 271 - z 8 * z 268);
  SZ 3031 (z 1586 * z 290 + q4p * z 3028 + q5p * z 3029 + z 43 * z 1557 * z 289 + z 43 * q3p * z 3030);
  SZ 3032 (z 782 * z 3021 + id22 * z 3011 * z 281 - z 3011 * z 781 - id11 * z 282 * z 3021);
  SZ 3033 (z 4 * z 5 * z 10 * z 1586);
  SZ 3034 (z 3 * z 5 * z 10 * z 1586);
  SZ 3035 (z 31 * z 3034 + z 4 * z 6 * z 69 * z 1586 - z 32 * z 3033 - z 3 * z 6 * z 29 * z 1586);
  SZ 3036 (z 4 * z 6 * z 10 * z 1586);
  SZ 3037 (z 3 * z 6 * z 10 * z 1586);
  SZ 3038 (z 5 * z 26 * z 1586 + z 5 * z 6 * z 10 * z 1586 - z 31 * z 3036 - z 32 * z 3037 - z 3 * z 6 * z 72 * z 1586 - z 4 * z 6 * z 71 * z 1586);
  SZ 3039 (z 3 * z 5 * z 9 * z 1586);
  SZ 3040 (z 4 * z 5 * z 9 * z 1586);
  SZ 3041 (z 31 * z 3040 + z 32 * z 3039 + z 4 * z 6 * z 70 * z 1586 + z 9 * (PowN (z 6) 2) * z 1586 - z 5 * z 23 * z 1586 - z 3 * z 6 * z 66 * z 1586);
  SZ 3042 (z 3035 * q4p + z 3038 * q5p + z 3041 * q7p + z 1586 * z 299 + z 43 * z 1557 * z 308 - z 43 * z 3039 * q3p);
  SZ 3043 (z 27 * z 3034 + z 29 * z 3039 + z 30 * z 3040 - z 66 * z 3033);
  SZ 3044 (z 4 * z 6 * z 9 * z 1586);
  SZ 3045 (z 3 * z 6 * z 9 * z 1586);
  SZ 3046 (z 30 * z 3045 + z 5 * z 9 * z 25 * z 1586 - z 29 * z 3044 - z 67 * z 3033 - z 68 * z 3034 - z 6 * z 10 * z 24 * z 1586);
  SZ 3047 ((Lit 2 1) * z 30 * z 3034 - (Lit 2 1) * z 29 * z 3033 - (Lit 2 1) * z 6 * z 10 * z 25 * z 1586);
  SZ 3048 (z 3043 * q4p + z 3046 * q5p + z 3047 * q7p + z 1586 * z 317 + z 43 * z 1557 * z 268 - z 3 * z 6 * z 43 * z 1586 * q3p);
  SZ 3049 (z 76 * z 1586 + z 82 * z 1557);
  SZ 3050 (z 73 * z 1586 + z 81 * z 1557);
  SZ 3051 (z 52 * z 1557 + z 78 * z 1586);
  SZ 3052 (ie31 * z 3050 + ie33 * z 3051);
  SZ 3053 (z 3049 * z 801 + z 3052 * z 293 - z 3051 * z 802 - ie22 * z 3049 * z 294);
  SZ 3054 (z 31 * z 3039 + z 3 * z 6 * z 27 * z 1586 + z 4 * z 6 * z 28 * z 1586 - z 32 * z 3040);
  SZ 3055 (z 41 * z 3040 + z 42 * z 3039 + z 4 * z 5 * z 27 * z 1586 - z 6 * z 23 * z 1586 - z 3 * z 5 * z 28 * z 1586 - z 5 * z 6 * z 9 * z 1586);
  SZ 3056 (z 3054 * q4p + z 3055 * q5p + z 43 * z 3034 * q3p + z 1586 * z 311 + z 43 * z 1557 * z 313);
  SZ 3057 (ie11 * z 3050 + ie31 * z 3051);
  SZ 3058 (z 3051 * z 800 + z 3057 * z 294 - z 3050 * z 801 - z 3052 * z 292);
  SZ 3059 (z 94 * z 1557 + z 95 * z 1586);
  SZ 3060 (z 90 * z 1557 + z 91 * z 1586);
  SZ 3061 (z 3059 * z 830 + if11 * z 3060 * z 323 - z 3060 * z 832 - if11 * z 3059 * z 321);
  SZ 3062 (z 3050 * z 802 + ie22 * z 3049 * z 292 - z 3049 * z 800 - z 3057 * z 293);
  SZ 3063 (z 11 * z 3035 - z 12 * z 3043 - z 11 * z 80 * z 1651 - z 12 * z 74 * z 1651);
  SZ 3064 (z 11 * z 3038 - z 12 * z 3046 - z 11 * z 78 * z 1651 - z 12 * z 73 * z 1651);
  SZ 3065 (z 11 * z 3041 - z 12 * z 3047 - z 11 * z 79 * z 1651 - z 12 * z 75 * z 1651);
  SZ 3066 (z 3 * z 6 * z 12 * z 1586 - z 11 * z 3039 - z 11 * z 32 * z 1651 - z 12 * z 28 * z 1651);
  SZ 3067 (z 3063 * q4p + z 3064 * q5p + z 3065 * q7p + z 43 * z 3066 * q3p + z 1586 * z 325 + z 43 * z 1557 * z 324);
  SZ 3068 (z 76 * z 1586 + z 82 * z 1557 + z 83 * z 1651);
  SZ 3069 (z 3068 * z 832 + if11 * z 3059 * z 322 - z 3059 * z 831 - if22 * z 3068 * z 323);
  SZ 3070 (z 11 * z 3043 + z 12 * z 3035 + z 11 * z 74 * z 1651 - z 12 * z 80 * z 1651);
  SZ 3071 (z 11 * z 3046 + z 12 * z 3038 + z 11 * z 73 * z 1651 - z 12 * z 78 * z 1651);
  SZ 3072 (z 11 * z 3047 + z 12 * z 3041 + z 11 * z 75 * z 1651 - z 12 * z 79 * z 1651);
  SZ 3073 (z 11 * z 28 * z 1651 - z 12 * z 3039 - z 12 * z 32 * z 1651 - z 3 * z 6 * z 11 * z 1586);
  SZ 3074 (z 3070 * q4p + z 3071 * q5p + z 3072 * q7p + z 43 * z 3073 * q3p + z 1586 * z 330 + z 43 * z 1557 * z 329);
  SZ 3075 (z 3060 * z 831 + if22 * z 3068 * z 321 - z 3068 * z 830 - if11 * z 3060 * z 322);
  SZ 3076 (z 14 * z 3009 - z 13 * z 3007);
  SZ 3077 (z 3 * (z 13 * z 5 + z 14 * z 6) * z 1586);
  SZ 3078 (z 3076 * q4p + z 14 * z 1586 * z 278 + z 43 * z 1557 * z 341 - z 43 * z 3077 * q3p);
  SZ 3079 (z 18 * z 3007 + z 20 * z 3009 - z 15 * z 3015);
  SZ 3080 (z 3 * (z 5 * z 18 - z 6 * z 20) * z 1586);
  SZ 3081 (z 3079 * q4p + z 43 * z 3080 * q3p + (Lit 2 1) * z 15 * z 3016 * q5p + z 1586 * z 349 + z 43 * z 1557 * z 348);
  SZ 3082 (z 112 * z 1557 + z 114 * z 1586);
  SZ 3083 (z 110 * z 1557 + z 111 * z 1586);
  SZ 3084 (z 115 * z 1557 + z 116 * z 1586);
  SZ 3085 (ig31 * z 3083 + ig33 * z 3084);
  SZ 3086 (z 3082 * z 852 + z 3085 * z 335 - z 3084 * z 853 - ig22 * z 3082 * z 336);
  SZ 3087 (z 16 * z 3007 + z 17 * z 3015 + z 19 * z 3009);
  SZ 3088 (z 3 * (z 5 * z 16 - z 6 * z 19) * z 1586);
  SZ 3089 (z 3087 * q4p + z 43 * z 3088 * q3p + z 1586 * z 346 + z 43 * z 1557 * z 344 - (Lit 2 1) * z 17 * z 3016 * q5p);
  SZ 3090 (ig11 * z 3083 + ig31 * z 3084);
  SZ 3091 (z 3084 * z 851 + z 3090 * z 336 - z 3083 * z 852 - z 3085 * z 334);
  SZ 3092 (z 3083 * z 853 + ig22 * z 3082 * z 334 - z 3082 * z 851 - z 3090 * z 335);
  SZ 3093 (z 1557 * (z 354 + z 3 * z 43 * z 353));
  SZ 3094 (z 1557 * (z 43 * z 352 + z 118 * z 356));
  SZ 3095 ((- z 5) * z 3093 - z 41 * z 3094);
  SZ 3096 (z 3011 * (z 173 * q4p + z 174 * q5p + z 175 * q3p) + z 3095 + z 22 * z 3017 + (z 174 * z 1586 + z 175 * z 1557) * z 266 - z 3012 * (z 170 * q4p + z 171 * q3p - z 172 * q5p) - (z 171 * z 1557 - z 172 * z 1586) * z 267);
  SZ 3097 (z 31 * z 3094 - z 6 * z 3093);
  SZ 3098 (z 3097 + z 21 * z 3017 + (z 171 * z 1557 - z 172 * z 1586) * z 265 - z 3011 * (z 176 * q4p + z 177 * q5p + z 178 * q3p) - z 50 * z 1557 * (z 170 * q4p + z 171 * q3p - z 172 * q5p) - (z 177 * z 1586 + z 178 * z 1557) * z 266);
  SZ 3099 (z 13 * z 3096 + z 14 * z 3098);
  SZ 3100 (z 3099 + l6 * z 3089 - z 3082 * (z 201 * q9p + z 202 * q3p + z 203 * q4p + z 204 * q5p) - z 3084 * (z 197 * q3p + z 198 * q5p + z 199 * q4p - z 200 * q9p) - (z 197 * z 1557 + z 198 * z 1586) * z 336 - (z 202 * z 1557 + z 204 * z 1586) * z 335);
  SZ 3101 ((- z 21) * z 3010 - z 22 * z 3008);
  SZ 3102 (z 3012 * (z 176 * q4p + z 177 * q5p + z 178 * q3p) + z 50 * z 1557 * (z 173 * q4p + z 174 * q5p + z 175 * q3p) + z 3101 + (z 177 * z 1586 + z 178 * z 1557) * z 267 - z 3 * z 3094 - (z 174 * z 1586 + z 175 * z 1557) * z 265);
  SZ 3103 (z 17 * z 3102 + z 19 * z 3098 - z 16 * z 3096);
  SZ 3104 (l5 * z 3081 - l6 * z 3078);
  SZ 3105 (z 3083 * (z 201 * q9p + z 202 * q3p + z 203 * q4p + z 204 * q5p) + z 3084 * (z 205 * q9p + z 206 * q3p + z 207 * q4p + z 208 * q5p) + z 3103 + z 3104 + (z 202 * z 1557 + z 204 * z 1586) * z 334 + (z 206 * z 1557 + z 208 * z 1586) * z 336);
  SZ 3106 (z 20 * z 3098 - z 15 * z 3102 - z 18 * z 3096);
  SZ 3107 (z 3083 * (z 197 * q3p + z 198 * q5p + z 199 * q4p - z 200 * q9p) + z 3106 + (z 197 * z 1557 + z 198 * z 1586) * z 334 - z 3082 * (z 205 * q9p + z 206 * q3p + z 207 * q4p + z 208 * q5p) - l5 * z 3089 - (z 206 * z 1557 + z 208 * z 1586) * z 335);
  SZ 3108 (z 3097 + (z 128 * z 1586 + z 130 * z 1557) * z 265 - z 3011 * (z 134 * q4p + z 135 * q5p + z 136 * q3p) - z 50 * z 1557 * (z 128 * q5p + z 129 * q4p + z 130 * q3p) - l1 * z 3017 - (z 135 * z 1586 + z 136 * z 1557) * z 266);
  SZ 3109 (z 3095 + l2 * z 3017 - z 3011 * (z 131 * q4p + z 132 * q5p + z 133 * q3p) - z 3012 * (z 128 * q5p + z 129 * q4p + z 130 * q3p) - (z 128 * z 1586 + z 130 * z 1557) * z 267 - (z 132 * z 1586 + z 133 * z 1557) * z 266);
  SZ 3110 (l1 * z 3010 - l2 * z 3008);
  SZ 3111 (z 3012 * (z 134 * q4p + z 135 * q5p + z 136 * q3p) + z 3110 + (z 132 * z 1586 + z 133 * z 1557) * z 265 + (z 135 * z 1586 + z 136 * z 1557) * z 267 - z 50 * z 1557 * (z 131 * q4p + z 132 * q5p + z 133 * q3p) - z 3 * z 3094);
  SZ 3112 (z 3097 + (z 143 * z 1586 + z 145 * z 1557) * z 265 - z 50 * z 1557 * (z 143 * q5p + z 144 * q4p + z 145 * q3p) - d1 * z 3017);
  SZ 3113 (z 3050 * (z 159 * q3p + z 160 * q5p + z 161 * q7p + z 162 * q4p) + (z 159 * z 1557 + z 160 * z 1586) * z 292 - z 3049 * (z 164 * q5p + z 165 * q4p + z 166 * q3p) - z 158 * z 3056 - (z 164 * z 1586 + z 166 * z 1557) * z 293);
  SZ 3114 (z 3095 - z 3011 * (z 140 * q4p + z 141 * q5p + z 142 * q3p) - z 3012 * (z 143 * q5p + z 144 * q4p + z 145 * q3p) - (z 141 * z 1586 + z 142 * z 1557) * z 266 - (z 143 * z 1586 + z 145 * z 1557) * z 267);
  SZ 3115 (d1 * z 3010 + (z 141 * z 1586 + z 142 * z 1557) * z 265 - z 50 * z 1557 * (z 140 * q4p + z 141 * q5p + z 142 * q3p) - z 3 * z 3094);
  SZ 3116 (z 158 * z 3048 - d2 * z 3042 - l4 * z 3042);
  SZ 3117 (z 3050 * (z 167 * q5p + z 168 * q4p + z 169 * q3p) + z 3051 * (z 164 * q5p + z 165 * q4p + z 166 * q3p) + z 3116 + (z 164 * z 1586 + z 166 * z 1557) * z 294 + (z 167 * z 1586 + z 169 * z 1557) * z 292);
  SZ 3118 (z 163 * z 3056 - z 3049 * (z 167 * q5p + z 168 * q4p + z 169 * q3p) - z 3051 * (z 159 * q3p + z 160 * q5p + z 161 * q7p + z 162 * q4p) - (z 159 * z 1557 + z 160 * z 1586) * z 294 - (z 167 * z 1586 + z 169 * z 1557) * z 293);
  SZ 3119 (z 3050 * (z 148 * q3p + z 149 * q5p + z 150 * q7p + z 151 * q4p) + (z 148 * z 1557 + z 149 * z 1586) * z 292 - z 3049 * (z 152 * q5p + z 153 * q4p + z 154 * q3p) - d3 * z 3056 - (z 152 * z 1586 + z 154 * z 1557) * z 293);
  SZ 3120 (d3 * z 3048 - d2 * z 3042);
  SZ 3121 (z 3050 * (z 155 * q5p + z 156 * q4p + z 157 * q3p) + z 3051 * (z 152 * q5p + z 153 * q4p + z 154 * q3p) + z 3120 + (z 152 * z 1586 + z 154 * z 1557) * z 294 + (z 155 * z 1586 + z 157 * z 1557) * z 292);
  SZ 3122 (d2 * z 3056 - z 3049 * (z 155 * q5p + z 156 * q4p + z 157 * q3p) - z 3051 * (z 148 * q3p + z 149 * q5p + z 150 * q7p + z 151 * q4p) - (z 148 * z 1557 + z 149 * z 1586) * z 294 - (z 155 * z 1586 + z 157 * z 1557) * z 293);
  SZ 3123 (z 45 * z 3014 + z 46 * z 3019 + z 46 * z 3022 + z 49 * z 3023 + z 60 * z 796 + z 60 * z 797 + z 60 * z 3027 + z 63 * z 3032 + z 74 * z 3053 + z 77 * z 3058 + z 77 * z 3061 + z 80 * z 3062 + z 92 * z 3069 + z 97 * z 3075 + z 109 * z 3086 + z 113 * z 3091 + z 117 * z 3092 + z 1326 * z 787 + z 1326 * z 799 + ic11 * z 45 * z 3008 + ic22 * z 46 * z 3017 + ic31 * z 45 * z 3010 + ic31 * z 49 * z 3008 + ic33 * z 49 * z 3010 + id11 * z 60 * z 3026 + id11 * z 63 * z 3031 + id22 * z 46 * z 3017 + ie11 * z 74 * z 3042 + ie22 * z 77 * z 3056 + ie31 * z 74 * z 3048 + ie31 * z 80 * z 3042 + ie33 * z 80 * z 3048 + if11 * z 92 * z 3067 + if11 * z 97 * z 3074 + if22 * z 77 * z 3056 + ig11 * z 109 * z 3078 + ig22 * z 113 * z 3089 + ig31 * z 109 * z 3081 + ig31 * z 117 * z 3078 + ig33 * z 117 * z 3081 + mg * (z 209 * z 3100 + z 212 * z 3105 + z 215 * z 3107) - md * z 3 * z 119 * z 3094 - mc * (z 131 * z 3108 - z 134 * z 3109 - z 139 * z 3111) - me * (z 140 * z 3112 + z 140 * z 3113 + z 168 * z 3112 + z 168 * z 3113 + z 10 * z 162 * z 3114 - z 147 * z 3115 - z 162 * z 3117 - z 165 * z 3118 - z 9 * z 147 * z 3117 - z 9 * z 162 * z 3115 - z 9 * z 165 * z 3114 - z 10 * z 147 * z 3118 - z 10 * z 165 * z 3115) - mf * (z 140 * z 3112 + z 140 * z 3119 + z 156 * z 3112 + z 156 * z 3119 + z 10 * z 151 * z 3114 - z 147 * z 3115 - z 151 * z 3121 - z 153 * z 3122 - z 9 * z 147 * z 3121 - z 9 * z 151 * z 3115 - z 9 * z 153 * z 3114 - z 10 * z 147 * z 3122 - z 10 * z 153 * z 3115));
  SZ 3124 (mg * (z 182 * z 3100 + z 187 * z 3105 + z 192 * z 3107) + me * (z 120 * z 3114 + z 122 * z 3112 + z 122 * z 3113 + z 9 * z 120 * z 3118 - z 121 * z 3115 - z 9 * z 121 * z 3117 - z 10 * z 120 * z 3117 - z 10 * z 121 * z 3118) + mf * (z 120 * z 3114 + z 122 * z 3112 + z 122 * z 3119 + z 9 * z 120 * z 3122 - z 121 * z 3115 - z 9 * z 121 * z 3121 - z 10 * z 120 * z 3121 - z 10 * z 121 * z 3122) - md * (z 1 * z 3093 - z 2 * z 3094) - mc * (z 121 * z 3111 - z 120 * z 3109 - z 122 * z 3108));
  SZ 3125 (z 51 * z 3019 + z 51 * z 3022 + z 52 * z 3023 + z 52 * z 3062 + z 61 * z 3027 + z 64 * z 3032 + z 81 * z 3053 + z 82 * z 3058 + z 82 * z 3061 + z 90 * z 3069 + z 94 * z 3075 + z 110 * z 3086 + z 112 * z 3091 + z 115 * z 3092 + ic22 * z 51 * z 3017 + ic31 * z 52 * z 3008 + ic33 * z 52 * z 3010 + id11 * z 61 * z 3026 + id11 * z 64 * z 3031 + id22 * z 51 * z 3017 + ie11 * z 81 * z 3042 + ie22 * z 82 * z 3056 + ie31 * z 52 * z 3042 + ie31 * z 81 * z 3048 + ie33 * z 52 * z 3048 + if11 * z 90 * z 3067 + if11 * z 94 * z 3074 + if22 * z 82 * z 3056 + ig11 * z 110 * z 3078 + ig22 * z 112 * z 3089 + ig31 * z 110 * z 3081 + ig31 * z 115 * z 3078 + ig33 * z 115 * z 3081 + md * z 118 * z 3093 + z 43 * z 58 * z 796 + z 43 * z 58 * z 797 + z 43 * z 1328 * z 787 + z 43 * z 1328 * z 799 + mc * (z 130 * z 3111 + z 137 * z 3109 + z 138 * z 3108) + mg * (z 211 * z 3100 + z 214 * z 3105 + z 217 * z 3107) - z 50 * z 3014 - ic11 * z 50 * z 3008 - ic31 * z 50 * z 3010 - me * (z 126 * z 3114 + z 169 * z 3112 + z 169 * z 3113 + z 9 * z 126 * z 3118 + z 10 * z 159 * z 3114 - z 145 * z 3115 - z 146 * z 3112 - z 146 * z 3113 - z 159 * z 3117 - z 166 * z 3118 - z 9 * z 145 * z 3117 - z 9 * z 159 * z 3115 - z 9 * z 166 * z 3114 - z 10 * z 126 * z 3117 - z 10 * z 145 * z 3118 - z 10 * z 166 * z 3115) - mf * (z 126 * z 3114 + z 157 * z 3112 + z 157 * z 3119 + z 9 * z 126 * z 3122 + z 10 * z 148 * z 3114 - z 145 * z 3115 - z 146 * z 3112 - z 146 * z 3119 - z 148 * z 3121 - z 154 * z 3122 - z 9 * z 145 * z 3121 - z 9 * z 148 * z 3115 - z 9 * z 154 * z 3114 - z 10 * z 126 * z 3121 - z 10 * z 145 * z 3122 - z 10 * z 154 * z 3115));
  SZ 3126 (z 47 * z 3019 + z 47 * z 3022 + z 48 * z 3023 + z 65 * z 3032 + z 73 * z 3053 + z 76 * z 3058 + z 76 * z 3061 + z 78 * z 3062 + z 91 * z 3069 + z 95 * z 3075 + z 111 * z 3086 + z 114 * z 3091 + z 116 * z 3092 + ic22 * z 47 * z 3017 + ic31 * z 48 * z 3008 + ic33 * z 48 * z 3010 + id11 * z 65 * z 3031 + id22 * z 47 * z 3017 + ie11 * z 73 * z 3042 + ie22 * z 76 * z 3056 + ie31 * z 73 * z 3048 + ie31 * z 78 * z 3042 + ie33 * z 78 * z 3048 + if11 * z 91 * z 3067 + if11 * z 95 * z 3074 + if22 * z 76 * z 3056 + ig11 * z 111 * z 3078 + ig22 * z 114 * z 3089 + ig31 * z 111 * z 3081 + ig31 * z 116 * z 3078 + ig33 * z 116 * z 3081 + mg * (z 210 * z 3100 + z 213 * z 3105 + z 216 * z 3107) - z 62 * z 3027 - id11 * z 62 * z 3026 - z 7 * z 48 * z 787 - z 7 * z 48 * z 799 - z 8 * z 48 * z 796 - z 8 * z 48 * z 797 - mc * (z 132 * z 3108 - z 128 * z 3111 - z 135 * z 3109) - me * (z 141 * z 3112 + z 141 * z 3113 + z 167 * z 3112 + z 167 * z 3113 + z 10 * z 160 * z 3114 - z 143 * z 3115 - z 160 * z 3117 - z 164 * z 3118 - z 9 * z 143 * z 3117 - z 9 * z 160 * z 3115 - z 9 * z 164 * z 3114 - z 10 * z 143 * z 3118 - z 10 * z 164 * z 3115) - mf * (z 141 * z 3112 + z 141 * z 3119 + z 155 * z 3112 + z 155 * z 3119 + z 10 * z 149 * z 3114 - z 143 * z 3115 - z 149 * z 3121 - z 152 * z 3122 - z 9 * z 143 * z 3121 - z 9 * z 149 * z 3115 - z 9 * z 152 * z 3114 - z 10 * z 143 * z 3122 - z 10 * z 152 * z 3115));
  SZ 3127 (z 83 * (z 3061 + if22 * z 3056));
  SZ 3128 (mc * (z 123 * z 3109 + z 124 * z 3111 + z 125 * z 3108) + mg * (z 183 * z 3100 + z 188 * z 3105 + z 193 * z 3107) - md * (z 1 * z 3094 + z 2 * z 3093) - me * (z 10 * z 123 * z 3117 - z 123 * z 3114 - z 124 * z 3115 - z 125 * z 3112 - z 125 * z 3113 - z 9 * z 123 * z 3118 - z 9 * z 124 * z 3117 - z 10 * z 124 * z 3118) - mf * (z 10 * z 123 * z 3121 - z 123 * z 3114 - z 124 * z 3115 - z 125 * z 3112 - z 125 * z 3119 - z 9 * z 123 * z 3122 - z 9 * z 124 * z 3121 - z 10 * z 124 * z 3122));
  SZ 3129 (z 3123 + z 538 * z 3124 + z 544 * z 3125 + z 547 * z 3126 + z 549 * z 3127 + z 1335 * z 913 + z 1584 * z 933 + z 1648 * z 938 - z 541 * z 3128 - z 1507 * z 917 - z 1554 * z 925);
  SZ 3130 (z 60 * z 794 + z 785 * z 1326 + id11 * z 43 * z 58 * z 63 + id11 * z 43 * z 60 * z 1328);
  SZ 3131 (z 3130 + z 544 * z 2981 + z 547 * z 2990 + z 912 * z 1335 + z 927 * z 1584 + z 936 * z 1648 - z 916 * z 1507 - z 919 * z 1554);
  SZ 3132 (z 1 * ((PowN (z 3) 2) + (PowN (z 4) 2)) * z 1557);
  SZ 3133 (z 2 * ((PowN (z 3) 2) + (PowN (z 4) 2)) * z 1557);
  SZ 3134 (z 6 * z 8 * q5p + z 6 * z 8 * q6p - z 5 * z 8 * z 1586 - z 6 * z 7 * z 1586 - z 5 * z 7 * q5p - z 5 * z 7 * q6p);
  SZ 3135 (z 5 * z 7 * z 1586 - z 6 * z 8 * z 1586 - z 5 * z 8 * q5p - z 5 * z 8 * q6p - z 6 * z 7 * q5p - z 6 * z 7 * q6p);
  SZ 3136 (rr * (z 54 * z 288 + z 54 * z 3024 + z 55 * z 3028 + z 60 * z 561 + z 60 * z 3134 + z 63 * z 3135 + z 220 * z 284 + z 1326 * z 560));
  SZ 3137 (z 4 * z 1327 * q4p - z 3 * z 3136);
  SZ 3138 (rr * (z 55 * z 3029 + z 65 * z 3135 - z 62 * z 3134 - z 220 * z 286 - z 7 * z 48 * z 560 - z 8 * z 48 * z 561));
  SZ 3139 (z 4 * z 1331 * q4p - z 3 * z 3138);
  SZ 3140 (rr * (z 61 * z 3134 + z 64 * z 3135 + z 43 * z 54 * z 289 + z 43 * z 54 * z 3025 + z 43 * z 55 * z 3030 + z 43 * z 58 * z 561 + z 43 * z 220 * z 285 + z 43 * z 1328 * z 560));
  SZ 3141 (z 3 * z 3140 - z 4 * z 1329 * q4p);
  SZ 3142 (u4 * z 3137 + u5 * z 3139 + z 1338 * z 556 + z 1508 * z 559 + z 1586 * z 565 - u1 * z 3132 - u2 * z 3133 - u3 * z 3141 - z 1557 * z 563);
  SZ 3143 (z 1 * z 5 * z 1586 + z 1 * z 31 * z 1557 - z 2 * z 6 * z 1557 - z 2 * z 4 * z 6 * z 1586);
  SZ 3144 ((- z 1) * z 6 * z 1586 - z 1 * z 41 * z 1557 - z 2 * z 5 * z 1557 - z 2 * z 4 * z 5 * z 1586);
  SZ 3145 (z 9 * z 3144 - z 1 * z 3 * z 10 * z 1557);
  SZ 3146 ((- z 10) * z 3144 - z 1 * z 3 * z 9 * z 1557);
  SZ 3147 (z 6 * z 3143 + z 23 * z 3145 + z 5 * z 122 * z 1586 + z 6 * z 10 * z 238 * z 1586 - z 25 * z 3146 - z 6 * z 9 * z 233 * z 1586);
  SZ 3148 (z 1 * z 6 * z 1557 + z 2 * z 5 * z 1586 + z 2 * z 31 * z 1557 + z 1 * z 4 * z 6 * z 1586);
  SZ 3149 (z 1 * z 5 * z 1557 + z 1 * z 4 * z 5 * z 1586 - z 2 * z 6 * z 1586 - z 2 * z 41 * z 1557);
  SZ 3150 (z 9 * z 3149 - z 2 * z 3 * z 10 * z 1557);
  SZ 3151 ((- z 10) * z 3149 - z 2 * z 3 * z 9 * z 1557);
  SZ 3152 (z 6 * z 3148 + z 23 * z 3150 + z 5 * z 125 * z 1586 + z 6 * z 10 * z 239 * z 1586 - z 25 * z 3151 - z 6 * z 9 * z 234 * z 1586);
  SZ 3153 (z 6 * z 3033 - z 5 * z 29 * z 1586 - z 4 * z 6 * z 25 * z 1586 - z 6 * z 10 * z 31 * z 1586);
  SZ 3154 (z 25 * z 3040 - z 23 * z 3033 - z 6 * z 9 * z 29 * z 1586 - z 6 * z 10 * z 27 * z 1586);
  SZ 3155 ((Lit 2 1) * z 33 * z 3153 + (Lit 2 1) * z 34 * z 3154);
  SZ 3156 (((Lit 2 1) * z 36 * z 3153 - z 33 * z 3155 / (PowH (z 35) 0)) / (PowN (z 36) 2));
  SZ 3157 (z 39 * z 43 * z 3034 + (Lit 1 2) * rf * z 82 * z 3156);
  SZ 3158 ((- z 3157) - d3 * z 43 * z 3034 - z 5 * z 118 * z 1586);
  SZ 3159 (d1 * z 3 * z 6 * z 43 * z 1586);
  SZ 3160 (d2 * z 43 * z 3034 + z 6 * z 9 * z 118 * z 1586 - z 10 * z 3159);
  SZ 3161 (((Lit 2 1) * z 36 * z 3154 - z 34 * z 3155 / (PowH (z 35) 0)) / (PowN (z 36) 2));
  SZ 3162 (z 40 * z 43 * z 3034 + (Lit 1 2) * rf * z 82 * z 3161);
  SZ 3163 (z 43 * (d2 * z 3039 - d3 * z 3 * z 6 * z 1586));
  SZ 3164 (z 3163 - z 9 * z 3159 - z 6 * z 10 * z 118 * z 1586);
  SZ 3165 (z 11 * z 39 * z 43 * z 3073 + z 12 * z 40 * z 90 * z 1651 + (Lit 1 2) * rf * z 11 * z 94 * z 3156 - z 11 * z 39 * z 90 * z 1651 - z 11 * z 40 * z 43 * z 3066 - z 11 * z 40 * z 94 * z 1651 - z 12 * z 39 * z 43 * z 3066 - z 12 * z 39 * z 94 * z 1651 - z 12 * z 40 * z 43 * z 3073 - (Lit 1 2) * rf * z 11 * z 90 * z 3161 - (Lit 1 2) * rf * z 12 * z 90 * z 3156 - (Lit 1 2) * rf * z 12 * z 94 * z 3161);
  SZ 3166 (z 6 * z 3158 + z 5 * z 262 * z 1586 + z 6 * z 10 * z 259 * z 1586 + z 23 * (z 3160 + z 3162) - z 6 * z 9 * z 257 * z 1586 - z 25 * (z 3164 + z 3165));
  SZ 3167 (d2 * z 3054 + d1 * z 10 * z 3009);
  SZ 3168 (z 40 * z 3054 + (Lit 1 2) * rf * z 77 * z 3161);
  SZ 3169 ((- d1) * z 3015 - d3 * z 3054);
  SZ 3170 (z 39 * z 3054 + (Lit 1 2) * rf * z 77 * z 3156);
  SZ 3171 (d3 * z 3043 - d2 * z 3035);
  SZ 3172 (z 3171 + d1 * z 9 * z 3009);
  SZ 3173 (z 11 * z 39 * z 3070 + z 12 * z 40 * z 92 * z 1651 + (Lit 1 2) * rf * z 11 * z 97 * z 3156 - z 11 * z 40 * z 3063 - z 12 * z 39 * z 3063 - z 12 * z 40 * z 3070 - z 11 * z 39 * z 92 * z 1651 - z 11 * z 40 * z 97 * z 1651 - z 12 * z 39 * z 97 * z 1651 - (Lit 1 2) * rf * z 11 * z 92 * z 3161 - (Lit 1 2) * rf * z 12 * z 92 * z 3156 - (Lit 1 2) * rf * z 12 * z 97 * z 3161);
  SZ 3174 (z 5 * z 263 * z 1586 + z 6 * z 10 * z 261 * z 1586 + z 23 * (z 3167 + z 3168) + z 6 * (z 3169 - z 3170) - z 6 * z 9 * z 256 * z 1586 - z 25 * (z 3172 + z 3173));
  SZ 3175 (z 40 * z 3055 + (Lit 1 2) * rf * z 76 * z 3161);
  SZ 3176 ((Lit 2 1) * d1 * z 3016 - d3 * z 3055);
  SZ 3177 (z 39 * z 3055 + (Lit 1 2) * rf * z 76 * z 3156);
  SZ 3178 (d3 * z 3046 - d2 * z 3038);
  SZ 3179 (z 11 * z 39 * z 3071 + z 12 * z 40 * z 91 * z 1651 + (Lit 1 2) * rf * z 11 * z 95 * z 3156 - z 11 * z 40 * z 3064 - z 12 * z 39 * z 3064 - z 12 * z 40 * z 3071 - z 11 * z 39 * z 91 * z 1651 - z 11 * z 40 * z 95 * z 1651 - z 12 * z 39 * z 95 * z 1651 - (Lit 1 2) * rf * z 11 * z 91 * z 3161 - (Lit 1 2) * rf * z 12 * z 91 * z 3156 - (Lit 1 2) * rf * z 12 * z 95 * z 3161);
  SZ 3180 (z 5 * z 264 * z 1586 + z 6 * z 10 * z 260 * z 1586 + z 6 * (z 3176 - z 3177) + z 23 * (z 3175 + d2 * z 3055) - z 6 * z 9 * z 255 * z 1586 - z 25 * (z 3178 + z 3179));
  SZ 3181 ((Lit 1 2) * rf * z 23 * z 83 * z 3161 - z 5 * z 250 * z 1586 - z 6 * z 9 * z 254 * z 1586 - (Lit 1 2) * rf * z 6 * z 83 * z 3156);
  SZ 3182 (d3 * z 3047 - d2 * z 3041);
  SZ 3183 (z 11 * z 39 * z 3072 + z 12 * z 40 * z 93 * z 1651 + (Lit 1 2) * rf * z 11 * z 96 * z 3156 - z 11 * z 40 * z 3065 - z 12 * z 39 * z 3065 - z 12 * z 40 * z 3072 - z 11 * z 39 * z 93 * z 1651 - z 11 * z 40 * z 96 * z 1651 - z 12 * z 39 * z 96 * z 1651 - (Lit 1 2) * rf * z 11 * z 93 * z 3161 - (Lit 1 2) * rf * z 12 * z 93 * z 3156 - (Lit 1 2) * rf * z 12 * z 96 * z 3161);
  SZ 3184 (z 25 * (z 3182 + z 3183) - z 6 * z 10 * z 258 * z 1586);
  SZ 3185 (u1 * z 3147 + u2 * z 3152 + u3 * z 3166 + u4 * z 3174 + u5 * z 3180 + u8 * z 3181 + z 1338 * z 573 + z 1508 * z 578 + z 1557 * z 616 + z 1586 * z 594 + z 1651 * z 586 - u7 * z 3184);
  SZ 3186 (rr * u4 * z 3015 + z 1 * u2 * z 1557 + z 1 * z 1508 * q3p + z 1557 * z 552 + rr * z 1586 * z 275 - (Lit 2 1) * rr * u5 * z 3016 - z 2 * u1 * z 1557 - z 2 * z 1338 * q3p);
  SZ 3187 (z 25 * z 3153 - z 6 * z 10 * z 33 * z 1586);
  SZ 3188 (((Lit 2 1) * z 35 * z 3187 - z 416 * z 3155) / (PowH (z 35) 1));
  SZ 3189 (((z 25 * z 36 - (Lit 2 1) * z 33 * z 420) * z 3155 / (PowH (z 35) 0) + z 36 * (z 33 * z 3188 + (Lit 2 1) * z 420 * z 3153 + (Lit 2 1) * z 6 * z 10 * z 36 * z 1586)) / (PowN (z 36) 3));
  SZ 3190 ((z 34 * z 36 * z 3188 + (Lit 2 1) * z 36 * z 420 * z 3154 - (Lit 2 1) * z 34 * z 420 * z 3155 / (PowH (z 35) 0)) / (PowN (z 36) 3));
  SZ 3191 (z 3 * z 6 * z 434 * z 1586 - z 443 * z 3039 - (Lit 1 2) * rf * z 28 * z 3189 - (Lit 1 2) * rf * z 32 * z 3190);
  SZ 3192 (z 25 * z 3154 - z 6 * z 10 * z 34 * z 1586);
  SZ 3193 (((Lit 2 1) * z 35 * z 3192 - z 412 * z 3155) / (PowH (z 35) 1));
  SZ 3194 ((z 33 * z 36 * z 3193 + (Lit 2 1) * z 36 * z 418 * z 3153 - (Lit 2 1) * z 33 * z 418 * z 3155 / (PowH (z 35) 0)) / (PowN (z 36) 3));
  SZ 3195 (((z 25 * z 36 - (Lit 2 1) * z 34 * z 418) * z 3155 / (PowH (z 35) 0) + z 36 * (z 34 * z 3193 + (Lit 2 1) * z 418 * z 3154 + (Lit 2 1) * z 6 * z 10 * z 36 * z 1586)) / (PowN (z 36) 3));
  SZ 3196 (z 444 * z 3039 - (Lit 1 2) * rf * z 28 * z 3194 - (Lit 1 2) * rf * z 32 * z 3195 - z 3 * z 6 * z 432 * z 1586);
  SZ 3197 ((Lit 2 1) * z 23 * z 3154 - (Lit 2 1) * z 6 * z 3153 - (Lit 2 1) * z 5 * z 33 * z 1586 - (Lit 2 1) * z 6 * z 9 * z 34 * z 1586);
  SZ 3198 (((Lit 2 1) * z 35 * z 3197 - z 411 * z 3155) / (PowH (z 35) 1));
  SZ 3199 (((Lit 2 1) * z 33 * z 421 * z 3155 / (PowH (z 35) 0) - z 36 * (z 33 * z 3198 + (Lit 2 1) * z 421 * z 3153 + (Lit 4 1) * z 5 * z 36 * z 1586 - (Lit 2 1) * z 6 * z 3155 / (PowH (z 35) 0))) / (PowN (z 36) 3));
  SZ 3200 (((Lit 2 1) * (z 23 * z 36 - z 34 * z 421) * z 3155 / (PowH (z 35) 0) + z 36 * (z 34 * z 3198 + (Lit 2 1) * z 421 * z 3154 + (Lit 4 1) * z 6 * z 9 * z 36 * z 1586)) / (PowN (z 36) 3));
  SZ 3201 ((Lit 1 2) * z 446 * z 3039 + (Lit 1 4) * rf * z 28 * z 3199 - (Lit 1 4) * rf * z 32 * z 3200 - (Lit 1 2) * z 3 * z 6 * z 430 * z 1586);
  SZ 3202 (z 3 * z 5 * z 3191 + d1 * z 4 * z 5 * z 1586 + z 4 * z 6 * z 448 * z 1586 + z 3 * z 5 * z 9 * z 453 * z 1586 + z 4 * z 5 * z 9 * z 449 * z 1586 + (z 3 * z 24 - z 4 * z 10) * z 3196 + (Lit 1 2) * rf * (z 3 * z 10 + z 4 * z 24) * z 3156 - z 3 * z 6 * z 455 * z 1586 - (Lit 1 2) * rf * z 4 * z 5 * z 3161 - z 3 * z 5 * z 10 * z 451 * z 1586 - (z 3 * z 26 + z 4 * z 9) * z 3201);
  SZ 3203 ((- z 5) * z 3033 - z 6 * z 29 * z 1586);
  SZ 3204 (z 33 * z 3203 + z 410 * z 3153);
  SZ 3205 (((Lit 2 1) * z 35 * z 3204 - z 415 * z 3155) / (PowH (z 35) 1));
  SZ 3206 ((z 34 * z 36 * z 3205 + (Lit 2 1) * z 36 * z 417 * z 3154 - (Lit 2 1) * z 34 * z 417 * z 3155 / (PowH (z 35) 0)) / (PowN (z 36) 3));
  SZ 3207 (((Lit 2 1) * z 33 * z 417 * z 3155 / (PowH (z 35) 0) + z 36 * ((Lit 2 1) * z 36 * z 3203 - (Lit 2 1) * z 417 * z 3153 - z 33 * z 3205 - z 410 * z 3155 / (PowH (z 35) 0))) / (PowN (z 36) 3));
  SZ 3208 ((Lit 1 2) * rf * z 32 * z 3206 - z 441 * z 3039 - (Lit 1 2) * rf * z 28 * z 3207 - z 3 * z 6 * z 429 * z 1586);
  SZ 3209 (z 29 * z 3154 - z 34 * z 3033);
  SZ 3210 (((Lit 2 1) * z 35 * z 3209 - z 414 * z 3155) / (PowH (z 35) 1));
  SZ 3211 ((z 33 * z 36 * z 3210 + (Lit 2 1) * z 36 * z 419 * z 3153 - (Lit 2 1) * z 33 * z 419 * z 3155 / (PowH (z 35) 0)) / (PowN (z 36) 3));
  SZ 3212 (((z 29 * z 36 - (Lit 2 1) * z 34 * z 419) * z 3155 / (PowH (z 35) 0) + z 36 * (z 34 * z 3210 + (Lit 2 1) * z 36 * z 3033 + (Lit 2 1) * z 419 * z 3154)) / (PowN (z 36) 3));
  SZ 3213 (z 445 * z 3039 - (Lit 1 2) * rf * z 28 * z 3211 - (Lit 1 2) * rf * z 32 * z 3212 - z 3 * z 6 * z 433 * z 1586);
  SZ 3214 ((Lit 2 1) * z 27 * z 3154 + (Lit 2 1) * z 31 * z 3153 + (Lit 2 1) * z 34 * z 3040 - (Lit 2 1) * z 4 * z 6 * z 33 * z 1586);
  SZ 3215 (((Lit 2 1) * z 35 * z 3214 - z 413 * z 3155) / (PowH (z 35) 1));
  SZ 3216 (((Lit 2 1) * (z 31 * z 36 - z 33 * z 422) * z 3155 / (PowH (z 35) 0) + z 36 * (z 33 * z 3215 + (Lit 2 1) * z 422 * z 3153 + (Lit 4 1) * z 4 * z 6 * z 36 * z 1586)) / (PowN (z 36) 3));
  SZ 3217 (((Lit 2 1) * (z 27 * z 36 - z 34 * z 422) * z 3155 / (PowH (z 35) 0) - z 36 * ((Lit 4 1) * z 36 * z 3040 - (Lit 2 1) * z 422 * z 3154 - z 34 * z 3215)) / (PowN (z 36) 3));
  SZ 3218 ((- (Lit 1 2)) * z 442 * z 3039 - (Lit 1 4) * rf * z 28 * z 3216 - (Lit 1 4) * rf * z 32 * z 3217 - (Lit 1 2) * z 3 * z 6 * z 431 * z 1586);
  SZ 3219 (z 3208 + d1 * z 3 * z 6 * z 1586 + z 4 * z 5 * z 9 * z 3196 + z 3 * z 6 * z 9 * z 449 * z 1586 + z 4 * z 6 * z 10 * z 451 * z 1586 - z 4 * z 6 * z 3191 - z 6 * z 9 * z 3213 - z 6 * z 10 * z 3218 - z 3 * z 5 * z 448 * z 1586 - z 4 * z 5 * z 10 * z 3201 - z 4 * z 5 * z 455 * z 1586 - z 5 * z 9 * z 454 * z 1586 - z 5 * z 10 * z 452 * z 1586 - (Lit 1 2) * rf * z 3 * z 6 * z 3161 - z 4 * z 6 * z 9 * z 453 * z 1586 - (Lit 1 2) * rf * z 3 * z 5 * z 9 * z 3156);
  SZ 3220 (z 5 * z 9 * z 3218 + z 6 * z 10 * z 454 * z 1586 + z 3 * z 5 * z 10 * z 449 * z 1586 + (z 3 * z 9 - z 4 * z 6 * z 10) * z 3196 + (Lit 1 2) * rf * (z 4 * z 9 + z 3 * z 6 * z 10) * z 3156 - z 5 * z 10 * z 3213 - z 6 * z 9 * z 452 * z 1586 - z 4 * z 5 * z 9 * z 451 * z 1586 - z 4 * z 5 * z 10 * z 453 * z 1586 - (z 3 * z 10 + z 4 * z 6 * z 9) * z 3201);
  SZ 3221 (u4 * z 3202 + u5 * z 3219 + u7 * z 3220 + z 1586 * z 662);
  SZ 3222 (z 27 * z 3145 + z 29 * z 3146 + z 233 * z 3040 + z 4 * z 6 * z 122 * z 1586 - z 31 * z 3143 - z 238 * z 3033);
  SZ 3223 (z 27 * z 3150 + z 29 * z 3151 + z 234 * z 3040 + z 4 * z 6 * z 125 * z 1586 - z 31 * z 3148 - z 239 * z 3033);
  SZ 3224 (z 257 * z 3040 + z 4 * z 6 * z 262 * z 1586 + z 27 * (z 3160 + z 3162) + z 29 * (z 3164 + z 3165) - z 31 * z 3158 - z 259 * z 3033);
  SZ 3225 (z 256 * z 3040 + z 4 * z 6 * z 263 * z 1586 + z 27 * (z 3167 + z 3168) + z 29 * (z 3172 + z 3173) - z 261 * z 3033 - z 31 * (z 3169 - z 3170));
  SZ 3226 (z 255 * z 3040 + z 4 * z 6 * z 264 * z 1586 + z 29 * (z 3178 + z 3179) + z 27 * (z 3175 + d2 * z 3055) - z 260 * z 3033 - z 31 * (z 3176 - z 3177));
  SZ 3227 (z 29 * (z 3182 + z 3183) - z 258 * z 3033);
  SZ 3228 (z 254 * z 3040 + (Lit 1 2) * rf * z 27 * z 83 * z 3161 + (Lit 1 2) * rf * z 31 * z 83 * z 3156 - z 4 * z 6 * z 250 * z 1586);
  SZ 3229 (u1 * z 3222 + u2 * z 3223 + u3 * z 3224 + u4 * z 3225 + u5 * z 3226 + u7 * z 3227 + u8 * z 3228 + z 1338 * z 621 + z 1508 * z 622 + z 1557 * z 626 + z 1586 * z 624 + z 1651 * z 623);
  SZ 3230 ((z 1334 * (z 525 * z 568 + z 478 * z 496 * z 620 - z 511 * z 553 - z 535 * z 664 - z 478 * z 528 * z 628) + z 494 * (z 525 * z 3142 + z 478 * z 496 * z 3185 - z 511 * z 3186 - z 535 * z 3221 - z 1553 * z 664 - z 478 * z 528 * z 3229)) / (PowN (z 494) 2));
  SZ 3231 (z 60 * z 795 - z 786 * z 1326 - id11 * z 7 * z 48 * z 60 - id11 * z 8 * z 48 * z 63);
  SZ 3232 (z 3231 + z 544 * z 2997 + z 547 * z 2996 + z 911 * z 1335 + z 928 * z 1584 + z 934 * z 1648 - z 915 * z 1507 - z 920 * z 1554);
  SZ 3233 ((z 494 * z 536 * z 3221 + z 494 * z 1583 * z 664 + z 536 * z 1334 * z 664) / (PowN (z 494) 2));
  SZ 3234 (z 931 * z 1584 + z 937 * z 1648 - z 923 * z 1554);
  SZ 3235 ((z 1334 * (z 526 * z 568 + z 532 * z 628 - z 512 * z 553 - z 527 * z 620 - z 537 * z 664) + z 494 * (z 526 * z 3142 + z 532 * z 3229 + z 1644 * z 628 + z 1645 * z 553 - z 512 * z 3186 - z 527 * z 3185 - z 537 * z 3221 - z 1646 * z 620 - z 1647 * z 664)) / (PowN (z 494) 2));
  SZ 3236 (z 909 * z 1335 + z 911 * z 1584 - z 910 * z 1507 - z 912 * z 1554);
  SZ 3237 ((z 1334 * (z 519 * z 568 + z 487 * z 496 * z 620 - z 504 * z 553 - z 533 * z 664 - z 487 * z 528 * z 628) - z 494 * (z 504 * z 3186 + z 533 * z 3221 + z 1333 * z 664 + z 487 * z 528 * z 3229 + z 2 * z 3 * z 496 * z 1329 * z 620 - z 519 * z 3142 - z 1330 * z 553 - z 487 * z 496 * z 3185 - z 2 * z 3 * z 528 * z 1329 * z 628)) / (PowN (z 494) 2));
  SZ 3238 (z 910 * z 1335 + z 915 * z 1584 - z 914 * z 1507 - z 916 * z 1554);
  SZ 3239 ((z 1334 * (z 523 * z 568 + z 482 * z 496 * z 620 - z 509 * z 553 - z 534 * z 664 - z 482 * z 528 * z 628) - z 494 * (z 509 * z 3186 + z 534 * z 3221 + z 1505 * z 664 + z 482 * z 528 * z 3229 + z 1 * z 3 * z 496 * z 1329 * z 620 - z 523 * z 3142 - z 1503 * z 553 - z 482 * z 496 * z 3185 - z 1 * z 3 * z 528 * z 1329 * z 628)) / (PowN (z 494) 2));
  SZ 3240 (z 3129 + z 940 * z 3230 + z 941 * z 3233 + z 944 * z 3235 + z 946 * z 3237 + z 3131 * z 667 + z 3232 * z 668 + z 3234 * z 669 + z 3236 * z 665 - z 947 * z 3239 - z 3238 * z 666);
  SZ 3241 (z 78 * z 1584 - z 52 * z 1554);
  SZ 3242 (z 48 * z 1584 - z 52 * z 1554);
  SZ 3243 (z 182 * z 1335 + z 210 * z 1584 - z 183 * z 1507 - z 211 * z 1554);
  SZ 3244 (z 187 * z 1335 + z 213 * z 1584 - z 188 * z 1507 - z 214 * z 1554);
  SZ 3245 (z 192 * z 1335 + z 216 * z 1584 - z 193 * z 1507 - z 217 * z 1554);
  SZ 3246 (z 128 * z 1584 - z 121 * z 1335 - z 124 * z 1507 - z 130 * z 1554);
  SZ 3247 (z 122 * z 1335 - z 125 * z 1507 - z 132 * z 1584 - z 138 * z 1554);
  SZ 3248 (z 120 * z 1335 + z 135 * z 1584 - z 123 * z 1507 - z 137 * z 1554);
  SZ 3249 (z 111 * z 1584 - z 110 * z 1554);
  SZ 3250 (z 120 * z 1335 + z 126 * z 1554 - z 123 * z 1507);
  SZ 3251 (z 143 * z 1584 - z 121 * z 1335 - z 124 * z 1507 - z 145 * z 1554);
  SZ 3252 (z 122 * z 1335 - z 125 * z 1507 - z 141 * z 1584 - z 146 * z 1554);
  SZ 3253 (z 169 * z 1554 - z 167 * z 1584);
  SZ 3254 (z 164 * z 1584 - z 166 * z 1554);
  SZ 3255 (z 160 * z 1584 - z 159 * z 1554);
  SZ 3256 (z 157 * z 1554 - z 155 * z 1584);
  SZ 3257 (z 152 * z 1584 - z 154 * z 1554);
  SZ 3258 (z 149 * z 1584 - z 148 * z 1554)].
(* [_mooreriderlean2012.py:6831-7477] *)
Definition chunk14 : list stmt := [
  SZ 3259 (T7 * z 3241 + T4 * z 6 * z 3242 + T4 * z 5 * z 50 * z 1554 + z 406 * (z 106 * z 3243 + z 107 * z 3244 + z 108 * z 3245) + z 402 * (z 4 * z 3246 + z 32 * z 3247 - z 42 * z 3248) + z 3249 * z 408 + z 14 * z 3242 * z 409 + z 13 * z 50 * z 1554 * z 409 - T7 * z 3242 - z 404 * (z 42 * z 3250 - z 4 * z 3251 - z 32 * z 3252 - z 32 * z 3253 - z 733 * z 3254 - z 734 * z 3255) - z 405 * (z 42 * z 3250 - z 4 * z 3251 - z 32 * z 3252 - z 32 * z 3256 - z 733 * z 3257 - z 734 * z 3258));
  SZ 3260 (z 929 * z 1584 - z 921 * z 1554);
  SZ 3261 (z 3260 + z 542 * z 3238 + z 944 * z 1650 + z 946 * z 1336 - z 539 * z 3236 - z 545 * z 3131 - z 550 * z 3234 - z 940 * z 1555 - z 947 * z 1504);
  SZ 3262 (z 906 * z 1335 + z 932 * z 1584 - z 907 * z 1507 - z 924 * z 1554);
  SZ 3263 (z 950 * z 2986 + z 960 * z 3261 - z 945 * z 2984 - z 964 * z 3262);
  SZ 3264 (z 930 * z 1584 - z 899 * z 1335 - z 900 * z 1507 - z 922 * z 1554);
  SZ 3265 (z 3264 + z 543 * z 3238 + z 548 * z 3232 + z 551 * z 3234 + z 941 * z 1585 + z 944 * z 1649 + z 947 * z 1506 - z 540 * z 3236 - z 546 * z 3131 - z 940 * z 1556 - z 946 * z 1337);
  SZ 3266 (z 950 * z 3002 + z 965 * z 3261 - z 951 * z 2984 - z 964 * z 3265);
  SZ 3267 (z 951 * z 2986 + z 960 * z 3265 - z 945 * z 3002 - z 965 * z 3262);
  SZ 3268 (z 983 * z 3263 + z 997 * z 2978 - z 905 * z 3266 - z 982 * z 3267 - z 999 * z 3004);
  SZ 3269 (z 75 * z 3053 + z 79 * z 3062 + z 93 * z 3069 + z 96 * z 3075 + ie11 * z 75 * z 3042 + ie31 * z 75 * z 3048 + ie31 * z 79 * z 3042 + ie33 * z 79 * z 3048 + if11 * z 93 * z 3067 + if11 * z 96 * z 3074 + me * z 161 * (z 3117 + z 9 * z 3115 - z 10 * z 3114) + mf * z 150 * (z 3121 + z 9 * z 3115 - z 10 * z 3114));
  SZ 3270 (z 3269 + z 543 * z 3128 + z 548 * z 3126 + z 551 * z 3127 + z 1506 * z 917 + z 1585 * z 933 + z 1649 * z 938 - z 540 * z 3124 - z 546 * z 3125 - z 1337 * z 913 - z 1556 * z 925);
  SZ 3271 (z 3270 + z 967 * z 3233 + z 970 * z 3230 + z 971 * z 3237 + z 975 * z 3235 + z 2989 * z 665 + z 2991 * z 667 + z 2992 * z 669 + z 2998 * z 668 - z 972 * z 3239 - z 2988 * z 666);
  SZ 3272 (z 78 * z 1585 - z 52 * z 1556);
  SZ 3273 (z 48 * z 1585 - z 52 * z 1556);
  SZ 3274 (z 183 * z 1506 + z 210 * z 1585 - z 182 * z 1337 - z 211 * z 1556);
  SZ 3275 (z 188 * z 1506 + z 213 * z 1585 - z 187 * z 1337 - z 214 * z 1556);
  SZ 3276 (z 193 * z 1506 + z 216 * z 1585 - z 192 * z 1337 - z 217 * z 1556);
  SZ 3277 (z 121 * z 1337 + z 124 * z 1506 + z 128 * z 1585 - z 130 * z 1556);
  SZ 3278 (z 125 * z 1506 - z 122 * z 1337 - z 132 * z 1585 - z 138 * z 1556);
  SZ 3279 (z 123 * z 1506 + z 135 * z 1585 - z 120 * z 1337 - z 137 * z 1556);
  SZ 3280 (z 111 * z 1585 - z 110 * z 1556);
  SZ 3281 (z 123 * z 1506 + z 126 * z 1556 - z 120 * z 1337);
  SZ 3282 (z 121 * z 1337 + z 124 * z 1506 + z 143 * z 1585 - z 145 * z 1556);
  SZ 3283 (z 125 * z 1506 - z 122 * z 1337 - z 141 * z 1585 - z 146 * z 1556);
  SZ 3284 (z 169 * z 1556 - z 167 * z 1585);
  SZ 3285 (z 160 * z 1585 - z 159 * z 1556);
  SZ 3286 (z 164 * z 1585 - z 166 * z 1556);
  SZ 3287 (z 157 * z 1556 - z 155 * z 1585);
  SZ 3288 (z 152 * z 1585 - z 154 * z 1556);
  SZ 3289 (z 149 * z 1585 - z 148 * z 1556);
  SZ 3290 (T7 * z 3272 + T4 * z 6 * z 3273 + T4 * z 5 * z 50 * z 1556 + z 406 * (z 106 * z 3274 + z 107 * z 3275 + z 108 * z 3276) + z 402 * (z 4 * z 3277 + z 32 * z 3278 - z 42 * z 3279) + z 3280 * z 408 + z 14 * z 3273 * z 409 + z 13 * z 50 * z 1556 * z 409 - T7 * z 3273 - z 404 * (z 42 * z 3281 - z 4 * z 3282 - z 32 * z 3283 - z 32 * z 3284 - z 733 * z 3286 - z 734 * z 3285) - z 405 * (z 42 * z 3281 - z 4 * z 3282 - z 32 * z 3283 - z 32 * z 3287 - z 733 * z 3288 - z 734 * z 3289));
  SZ 3291 (z 950 * z 2985 + z 973 * z 3261 - z 945 * z 2993 - z 978 * z 3262);
  SZ 3292 (z 950 * z 2999 + z 979 * z 3261 - z 951 * z 2993 - z 978 * z 3265);
  SZ 3293 (z 951 * z 2985 + z 973 * z 3265 - z 945 * z 2999 - z 979 * z 3262);
  SZ 3294 (z 983 * z 3291 + z 1013 * z 2978 - z 905 * z 3292 - z 982 * z 3293 - z 1014 * z 3004);
  SZ 3295 (z 53 * (z 3022 + id22 * z 3017));
  SZ 3296 (z 3295 + z 542 * z 3128 + z 1336 * z 913 + z 1650 * z 938 - z 539 * z 3124 - z 545 * z 3125 - z 550 * z 3127 - z 1504 * z 917 - z 1555 * z 925);
  SZ 3297 (z 3296 + z 954 * z 3233 + z 955 * z 3230 + z 957 * z 3237 + z 961 * z 3235 + z 2980 * z 665 + z 2982 * z 667 + z 2983 * z 669 + z 3001 * z 668 - z 958 * z 3239 - z 2979 * z 666);
  SZ 3298 (z 182 * z 1336 - z 183 * z 1504 - z 211 * z 1555);
  SZ 3299 (z 187 * z 1336 - z 188 * z 1504 - z 214 * z 1555);
  SZ 3300 (z 192 * z 1336 - z 193 * z 1504 - z 217 * z 1555);
  SZ 3301 ((- z 121) * z 1336 - z 124 * z 1504 - z 130 * z 1555);
  SZ 3302 (z 122 * z 1336 - z 125 * z 1504 - z 138 * z 1555);
  SZ 3303 (z 120 * z 1336 - z 123 * z 1504 - z 137 * z 1555);
  SZ 3304 ((- z 121) * z 1336 - z 124 * z 1504 - z 145 * z 1555);
  SZ 3305 (z 122 * z 1336 - z 125 * z 1504 - z 146 * z 1555);
  SZ 3306 (z 120 * z 1336 + z 126 * z 1555 - z 123 * z 1504);
  SZ 3307 (T4 * z 5 * z 50 * z 1555 + z 406 * (z 106 * z 3298 + z 107 * z 3299 + z 108 * z 3300) + z 402 * (z 4 * z 3301 + z 32 * z 3302 - z 42 * z 3303) + z 404 * (z 4 * z 3304 + z 32 * z 3305 + z 32 * z 169 * z 1555 - z 42 * z 3306 - z 159 * z 734 * z 1555 - z 166 * z 733 * z 1555) + z 405 * (z 4 * z 3304 + z 32 * z 3305 + z 32 * z 157 * z 1555 - z 42 * z 3306 - z 148 * z 734 * z 1555 - z 154 * z 733 * z 1555) + z 13 * z 50 * z 1555 * z 409 - T4 * z 6 * z 52 * z 1555 - z 110 * z 1555 * z 408 - z 14 * z 52 * z 1555 * z 409);
  SZ 3308 (z 979 * z 3263 + z 997 * z 2999 - z 973 * z 3266 - z 978 * z 3267 - z 995 * z 2985 - z 999 * z 2993);
  SZ 3309 (z 98 * z 3086 + z 99 * z 3091 + ig11 * z 98 * z 3078 + ig22 * z 99 * z 3089 + ig31 * z 98 * z 3081 - mg * (z 200 * z 3105 + z 201 * z 3107 - z 205 * z 3100));
  SZ 3310 (z 3309 + z 902 * z 3230 + z 903 * z 3233 + z 906 * z 3237 - z 907 * z 3239);
  SZ 3311 (z 60 * z 793 + z 784 * z 1326 + id11 * z 60 * z 63 + id11 * z 60 * z 1326);
  SZ 3312 (id11 * z 60 * z 64 + id11 * z 61 * z 1326 + z 43 * z 58 * z 793 + z 43 * z 784 * z 1328);
  SZ 3313 (id11 * z 60 * z 65 - id11 * z 62 * z 1326 - z 7 * z 48 * z 784 - z 8 * z 48 * z 793);
  SZ 3314 (z 3311 + z 544 * z 3312 + z 547 * z 3313 + z 887 * z 1335 + z 926 * z 1584 + z 935 * z 1648 - z 888 * z 1507 - z 918 * z 1554);
  SZ 3315 (z 3314 + z 538 * z 3236 + z 544 * z 3131 + z 547 * z 3232 + z 549 * z 3234 + z 941 * z 1584 + z 944 * z 1648 + z 946 * z 1335 - z 541 * z 3238 - z 940 * z 1554 - z 947 * z 1507);
  SZ 3316 (z 887 * z 1336 + z 935 * z 1650 - z 545 * z 3312 - z 888 * z 1504 - z 918 * z 1555);
  SZ 3317 (z 3316 + z 538 * z 2980 + z 544 * z 2982 + z 547 * z 3001 + z 549 * z 2983 + z 954 * z 1584 + z 957 * z 1335 + z 961 * z 1648 - z 541 * z 2979 - z 955 * z 1554 - z 958 * z 1507);
  SZ 3318 (z 949 * z 2984 + z 964 * z 3315 - z 950 * z 3317 - z 963 * z 3261);
  SZ 3319 (z 905 * z 2999 - z 973 * z 2978 - z 983 * z 2985);
  SZ 3320 (z 949 * z 2986 + z 960 * z 3315 - z 945 * z 3317 - z 963 * z 3262);
  SZ 3321 (z 978 * z 2978 + z 983 * z 2993 - z 979 * z 3004 - z 982 * z 2999);
  SZ 3322 (z 548 * z 3313 + z 888 * z 1506 + z 926 * z 1585 + z 935 * z 1649 - z 546 * z 3312 - z 887 * z 1337 - z 918 * z 1556);
  SZ 3323 (z 3322 + z 538 * z 2989 + z 544 * z 2991 + z 547 * z 2998 + z 549 * z 2992 + z 967 * z 1584 + z 971 * z 1335 + z 975 * z 1648 - z 541 * z 2988 - z 970 * z 1554 - z 972 * z 1507);
  SZ 3324 (z 903 * z 1584 + z 906 * z 1335 - z 902 * z 1554 - z 907 * z 1507);
  SZ 3325 (z 905 * z 3323 - z 973 * z 3324 - z 981 * z 2985);
  SZ 3326 (z 977 * z 3004 + z 982 * z 3323 - z 978 * z 3324 - z 981 * z 2993);
  SZ 3327 (z 949 * z 3002 + z 965 * z 3315 - z 951 * z 3317 - z 963 * z 3265);
  SZ 3328 (z 905 * z 2993 - z 973 * z 3004 - z 982 * z 2985);
  SZ 3329 (z 977 * z 2978 + z 983 * z 3323 - z 979 * z 3324 - z 981 * z 2999);
  SZ 3330 (z 989 * z 3319 + z 990 * z 3318 + z 993 * z 3321 + z 994 * z 3320 + z 995 * z 3325 + z 996 * z 3266 + z 999 * z 3326 + z 1000 * z 3267 - z 991 * z 3328 - z 992 * z 3327 - z 997 * z 3329 - z 998 * z 3263);
  SZ 3331 ((z 3330 * (z 1005 * z 985 + z 1022 * z 987 - z 1015 * z 986 - z 1026 * z 988) - z 1001 * (z 3006 * z 985 + z 3268 * z 987 + z 1015 * (z 3307 - z 3297) - z 1026 * z 3310 - z 3294 * z 986 - z 3308 * z 988 - z 1005 * (z 3259 - z 3240) - z 1022 * (z 3290 - z 3271))) / (PowN (z 1001) 2));
  SZ 3332 (z 902 * z 1565 + z 906 * z 1450 - z 903 * z 1589 - z 907 * z 1514);
  SZ 3333 (z 163 * z 43 * z 1348);
  SZ 3334 ((- me) * (z 9 * z 123 * z 159 + z 9 * z 124 * z 3333 + z 10 * z 123 * z 166 + z 10 * z 124 * z 159 + z 158 * z 43 * z 125 * z 1340 - z 9 * z 124 * z 166 - z 10 * z 123 * z 3333 - z 163 * z 9 * z 43 * z 123 * z 1340 - z 163 * z 10 * z 43 * z 124 * z 1340) - mf * (z 9 * z 123 * z 148 + z 10 * z 123 * z 154 + z 10 * z 124 * z 148 + d3 * z 43 * z 125 * z 1340 + d2 * z 9 * z 43 * z 124 * z 1348 - z 9 * z 124 * z 154 - d2 * z 9 * z 43 * z 123 * z 1340 - d2 * z 10 * z 43 * z 123 * z 1348 - d2 * z 10 * z 43 * z 124 * z 1340));
  SZ 3335 (z 914 * z 1512 - z 545 * z 3334 - z 910 * z 1439 - z 916 * z 1564);
  SZ 3336 (me * (z 9 * z 121 * z 3333 + z 10 * z 120 * z 3333 + z 10 * z 121 * z 159 + z 163 * z 9 * z 43 * z 120 * z 1340 - z 9 * z 120 * z 159 - z 9 * z 121 * z 166 - z 10 * z 120 * z 166 - z 158 * z 43 * z 122 * z 1340 - z 163 * z 10 * z 43 * z 121 * z 1340) + mf * (z 10 * z 121 * z 148 + d2 * z 9 * z 43 * z 120 * z 1340 + d2 * z 9 * z 43 * z 121 * z 1348 + d2 * z 10 * z 43 * z 120 * z 1348 - z 9 * z 120 * z 148 - z 9 * z 121 * z 154 - z 10 * z 120 * z 154 - d3 * z 43 * z 122 * z 1340 - d2 * z 10 * z 43 * z 121 * z 1340));
  SZ 3337 (z 910 * z 1512 - z 545 * z 3336 - z 909 * z 1439 - z 912 * z 1564);
  SZ 3338 (if11 * z 11 * z 43 * z 1348);
  SZ 3339 (if11 * z 12 * z 43 * z 1348);
  SZ 3340 (z 90 * z 3338 + z 94 * z 3339 + z 43 * z 806 * z 1348 + z 43 * z 815 * z 1340 + z 43 * z 817 * z 1348 + z 43 * z 840 * z 1340 + ie11 * z 43 * z 81 * z 1348 + ie22 * z 43 * z 82 * z 1340 + ie31 * z 43 * z 52 * z 1348 + if22 * z 43 * z 82 * z 1340 + z 11 * z 43 * z 833 * z 1348 + z 12 * z 43 * z 843 * z 1348 - (Lit 2 1) * me * (z 159 * z 3333 + z 9 * z 145 * z 3333 + z 10 * z 126 * z 3333 + z 10 * z 145 * z 159 + z 158 * z 43 * z 146 * z 1340 + z 163 * z 9 * z 43 * z 126 * z 1340 - z 9 * z 126 * z 159 - z 9 * z 145 * z 166 - z 10 * z 126 * z 166 - z 158 * z 43 * z 169 * z 1340 - z 163 * z 43 * z 166 * z 1340 - z 163 * z 10 * z 43 * z 145 * z 1340) - (Lit 2 1) * mf * (z 10 * z 145 * z 148 + d2 * z 43 * z 148 * z 1348 + d3 * z 43 * z 146 * z 1340 + d2 * z 9 * z 43 * z 126 * z 1340 + d2 * z 9 * z 43 * z 145 * z 1348 + d2 * z 10 * z 43 * z 126 * z 1348 - z 9 * z 126 * z 148 - z 9 * z 145 * z 154 - z 10 * z 126 * z 154 - d2 * z 43 * z 154 * z 1340 - d3 * z 43 * z 157 * z 1340 - d2 * z 10 * z 43 * z 145 * z 1340));
  SZ 3341 (if22 * z 43 * z 83 * z 1340);
  SZ 3342 (z 542 * z 3334 + z 916 * z 1512 - z 539 * z 3336 - z 545 * z 3340 - z 550 * z 3341 - z 912 * z 1439 - z 919 * z 1564 - z 936 * z 1668);
  SZ 3343 ((- z 923) * z 1564 - z 937 * z 1668 - z 43 * z 545 * z 841 * z 1340);
  SZ 3344 (z 542 * z 3335 + z 958 * z 1512 - z 539 * z 3337 - z 545 * z 3342 - z 550 * z 3343 - z 921 * z 1564 - z 955 * z 1564 - z 957 * z 1439 - z 961 * z 1668);
  SZ 3345 (z 906 * z 1450 + z 924 * z 1565 - z 907 * z 1514 - z 932 * z 1589);
  SZ 3346 (z 907 * z 1512 - z 906 * z 1439 - z 924 * z 1564);
  SZ 3347 (z 921 * z 1565 - z 929 * z 1589);
  SZ 3348 (z 158 * z 1441 - d2 * z 1443 - l4 * z 1443);
  SZ 3349 ((me * z 3348 + mf * z 1444) * (z 9 * z 124 - z 10 * z 123) - (me * z 161 + mf * z 150) * (z 9 * z 123 + z 10 * z 124));
  SZ 3350 (z 158 * z 1418 - d2 * z 1419 - l4 * z 1419);
  SZ 3351 ((- me) * (z 158 * z 125 * z 1414 + z 9 * z 123 * z 160 + z 10 * z 123 * z 164 + z 10 * z 123 * z 3350 + z 10 * z 124 * z 160 - z 9 * z 124 * z 164 - z 9 * z 124 * z 3350 - z 163 * z 9 * z 123 * z 1414 - z 163 * z 10 * z 124 * z 1414) - mf * (d3 * z 125 * z 1414 + z 9 * z 123 * z 149 + z 10 * z 123 * z 152 + z 10 * z 123 * z 1420 + z 10 * z 124 * z 149 - z 9 * z 124 * z 152 - z 9 * z 124 * z 1420 - d2 * z 9 * z 123 * z 1414 - d2 * z 10 * z 124 * z 1414));
  SZ 3352 (z 3349 + z 548 * z 3351 + z 910 * z 1450 + z 916 * z 1565 - z 546 * z 3334 - z 914 * z 1514 - z 915 * z 1589);
  SZ 3353 (me * (z 10 * z 121 * z 160 + z 163 * z 9 * z 120 * z 1414 - z 158 * z 122 * z 1414 - z 9 * z 120 * z 160 - z 9 * z 121 * z 164 - z 9 * z 121 * z 3350 - z 10 * z 120 * z 164 - z 10 * z 120 * z 3350 - z 163 * z 10 * z 121 * z 1414) + mf * (z 10 * z 121 * z 149 + d2 * z 9 * z 120 * z 1414 - d3 * z 122 * z 1414 - z 9 * z 120 * z 149 - z 9 * z 121 * z 152 - z 9 * z 121 * z 1420 - z 10 * z 120 * z 152 - z 10 * z 120 * z 1420 - d2 * z 10 * z 121 * z 1414));
  SZ 3354 ((me * z 3348 + mf * z 1444) * (z 9 * z 121 + z 10 * z 120) + (me * z 161 + mf * z 150) * (z 9 * z 120 - z 10 * z 121));
  SZ 3355 (z 548 * z 3353 + z 909 * z 1450 + z 912 * z 1565 - z 3354 - z 546 * z 3336 - z 910 * z 1514 - z 911 * z 1589);
  SZ 3356 (z 93 * z 3338 + z 96 * z 3339 + z 806 * z 1443 + z 811 * z 1441 + z 817 * z 1443 + z 822 * z 1441 + z 833 * z 1446 + z 843 * z 1445 + ie11 * z 43 * z 75 * z 1348 + ie31 * z 43 * z 79 * z 1348 + me * z 3348 * (z 159 + z 9 * z 145 + z 10 * z 126) + mf * z 1444 * (z 148 + z 9 * z 145 + z 10 * z 126) + me * z 161 * (z 9 * z 126 - z 3333 - z 10 * z 145) + mf * z 150 * (z 9 * z 126 - z 10 * z 145 - d2 * z 43 * z 1348));
  SZ 3357 (z 91 * z 3338 + z 95 * z 3339 + z 806 * z 1419 + z 811 * z 1418 + z 815 * z 1414 + z 817 * z 1419 + z 822 * z 1418 + z 833 * z 1422 + z 840 * z 1414 + z 843 * z 1421 + ie11 * z 43 * z 73 * z 1348 + ie22 * z 43 * z 76 * z 1340 + ie31 * z 43 * z 78 * z 1348 + if22 * z 43 * z 76 * z 1340 - me * (z 160 * z 3333 + z 158 * z 146 * z 1414 + z 9 * z 143 * z 3333 + z 10 * z 143 * z 159 + z 10 * z 145 * z 160 + z 163 * z 9 * z 126 * z 1414 - z 159 * z 3350 - z 158 * z 169 * z 1414 - z 163 * z 166 * z 1414 - z 9 * z 126 * z 160 - z 9 * z 143 * z 166 - z 9 * z 145 * z 164 - z 9 * z 145 * z 3350 - z 10 * z 126 * z 164 - z 10 * z 126 * z 3350 - z 158 * z 43 * z 141 * z 1340 - z 158 * z 43 * z 167 * z 1340 - z 163 * z 10 * z 145 * z 1414 - z 163 * z 43 * z 164 * z 1340 - z 163 * z 10 * z 43 * z 143 * z 1340) - mf * (d3 * z 146 * z 1414 + z 10 * z 143 * z 148 + z 10 * z 145 * z 149 + d2 * z 9 * z 126 * z 1414 + d2 * z 43 * z 149 * z 1348 + d2 * z 9 * z 43 * z 143 * z 1348 - z 148 * z 1420 - d2 * z 154 * z 1414 - d3 * z 157 * z 1414 - z 9 * z 126 * z 149 - z 9 * z 143 * z 154 - z 9 * z 145 * z 152 - z 9 * z 145 * z 1420 - z 10 * z 126 * z 152 - z 10 * z 126 * z 1420 - d2 * z 10 * z 145 * z 1414 - d2 * z 43 * z 152 * z 1340 - d3 * z 43 * z 141 * z 1340 - d3 * z 43 * z 155 * z 1340 - d2 * z 10 * z 43 * z 143 * z 1340));
  SZ 3358 (z 3356 + z 543 * z 3334 + z 548 * z 3357 + z 551 * z 3341 + z 912 * z 1450 + z 919 * z 1565 - z 540 * z 3336 - z 546 * z 3340 - z 916 * z 1514 - z 927 * z 1589 - z 936 * z 1667);
  SZ 3359 (z 923 * z 1565 + z 548 * z 841 * z 1414 - z 931 * z 1589 - z 937 * z 1667 - z 43 * z 546 * z 841 * z 1340);
  SZ 3360 (z 3347 + z 542 * z 3352 + z 972 * z 1512 - z 539 * z 3355 - z 545 * z 3358 - z 550 * z 3359 - z 970 * z 1564 - z 971 * z 1439 - z 975 * z 1668);
  SZ 3361 (z 964 * z 3345 + z 973 * z 3344 - z 960 * z 3360 - z 978 * z 3346);
  SZ 3362 (z 805 * z 1443 + z 810 * z 1441 + z 819 * z 1443 + z 824 * z 1441 + z 836 * z 1446 + z 845 * z 1445 + ie11 * z 75 * z 1443 + ie31 * z 75 * z 1441 + ie31 * z 79 * z 1443 + ie33 * z 79 * z 1441 + if11 * z 93 * z 1446 + if11 * z 96 * z 1445 + (Lit 2 1) * me * z 161 * z 3348 + (Lit 2 1) * mf * z 150 * z 1444);
  SZ 3363 (z 805 * z 1419 + z 810 * z 1418 + z 819 * z 1419 + z 824 * z 1418 + z 836 * z 1422 + z 845 * z 1421 + ie11 * z 73 * z 1443 + ie31 * z 73 * z 1441 + ie31 * z 78 * z 1443 + ie33 * z 78 * z 1441 + if11 * z 91 * z 1446 + if11 * z 95 * z 1445 + me * z 3348 * (z 160 + z 9 * z 143) + mf * z 1444 * (z 149 + z 9 * z 143) + me * z 161 * (z 3350 - z 10 * z 143) + mf * z 150 * (z 1420 - z 10 * z 143));
  SZ 3364 (ie11 * z 81 * z 1443 + ie31 * z 52 * z 1443 + ie31 * z 81 * z 1441 + ie33 * z 52 * z 1441 + if11 * z 90 * z 1446 + if11 * z 94 * z 1445 + z 43 * z 805 * z 1348 + z 43 * z 819 * z 1348 + z 11 * z 43 * z 836 * z 1348 + z 12 * z 43 * z 845 * z 1348 + me * z 3348 * (z 159 + z 9 * z 145 + z 10 * z 126) + mf * z 1444 * (z 148 + z 9 * z 145 + z 10 * z 126) + me * z 161 * (z 9 * z 126 - z 3333 - z 10 * z 145) + mf * z 150 * (z 9 * z 126 - z 10 * z 145 - d2 * z 43 * z 1348));
  SZ 3365 (z 3362 + z 540 * z 3354 + z 543 * z 3349 + z 548 * z 3363 + z 922 * z 1565 - z 546 * z 3364 - z 899 * z 1450 - z 900 * z 1514 - z 930 * z 1589);
  SZ 3366 (z 803 * z 1443 + z 808 * z 1441 + z 818 * z 1443 + z 823 * z 1441 + z 834 * z 1446 + z 844 * z 1445 + ie11 * z 75 * z 1419 + ie31 * z 75 * z 1418 + ie31 * z 79 * z 1419 + ie33 * z 79 * z 1418 + if11 * z 93 * z 1422 + if11 * z 96 * z 1421 + me * z 3348 * (z 160 + z 9 * z 143) + mf * z 1444 * (z 149 + z 9 * z 143) + me * z 161 * (z 3350 - z 10 * z 143) + mf * z 150 * (z 1420 - z 10 * z 143));
  SZ 3367 (z 803 * z 1419 + z 808 * z 1418 + z 813 * z 1414 + z 818 * z 1419 + z 823 * z 1418 + z 834 * z 1422 + z 838 * z 1414 + z 844 * z 1421 + ie11 * z 73 * z 1419 + ie22 * z 76 * z 1414 + ie31 * z 73 * z 1418 + ie31 * z 78 * z 1419 + ie33 * z 78 * z 1418 + if11 * z 91 * z 1422 + if11 * z 95 * z 1421 + if22 * z 76 * z 1414 - (Lit 2 1) * me * (z 10 * z 143 * z 160 - z 160 * z 3350 - z 158 * z 141 * z 1414 - z 158 * z 167 * z 1414 - z 163 * z 164 * z 1414 - z 9 * z 143 * z 164 - z 9 * z 143 * z 3350 - z 163 * z 10 * z 143 * z 1414) - (Lit 2 1) * mf * (z 10 * z 143 * z 149 - z 149 * z 1420 - d2 * z 152 * z 1414 - d3 * z 141 * z 1414 - d3 * z 155 * z 1414 - z 9 * z 143 * z 152 - z 9 * z 143 * z 1420 - d2 * z 10 * z 143 * z 1414));
  SZ 3368 (ie11 * z 81 * z 1419 + ie22 * z 82 * z 1414 + ie31 * z 52 * z 1419 + ie31 * z 81 * z 1418 + ie33 * z 52 * z 1418 + if11 * z 90 * z 1422 + if11 * z 94 * z 1421 + if22 * z 82 * z 1414 + z 43 * z 803 * z 1348 + z 43 * z 813 * z 1340 + z 43 * z 818 * z 1348 + z 43 * z 838 * z 1340 + z 11 * z 43 * z 834 * z 1348 + z 12 * z 43 * z 844 * z 1348 - me * (z 160 * z 3333 + z 158 * z 146 * z 1414 + z 9 * z 143 * z 3333 + z 10 * z 143 * z 159 + z 10 * z 145 * z 160 + z 163 * z 9 * z 126 * z 1414 - z 159 * z 3350 - z 158 * z 169 * z 1414 - z 163 * z 166 * z 1414 - z 9 * z 126 * z 160 - z 9 * z 143 * z 166 - z 9 * z 145 * z 164 - z 9 * z 145 * z 3350 - z 10 * z 126 * z 164 - z 10 * z 126 * z 3350 - z 158 * z 43 * z 141 * z 1340 - z 158 * z 43 * z 167 * z 1340 - z 163 * z 10 * z 145 * z 1414 - z 163 * z 43 * z 164 * z 1340 - z 163 * z 10 * z 43 * z 143 * z 1340) - mf * (d3 * z 146 * z 1414 + z 10 * z 143 * z 148 + z 10 * z 145 * z 149 + d2 * z 9 * z 126 * z 1414 + d2 * z 43 * z 149 * z 1348 + d2 * z 9 * z 43 * z 143 * z 1348 - z 148 * z 1420 - d2 * z 154 * z 1414 - d3 * z 157 * z 1414 - z 9 * z 126 * z 149 - z 9 * z 143 * z 154 - z 9 * z 145 * z 152 - z 9 * z 145 * z 1420 - z 10 * z 126 * z 152 - z 10 * z 126 * z 1420 - d2 * z 10 * z 145 * z 1414 - d2 * z 43 * z 152 * z 1340 - d3 * z 43 * z 141 * z 1340 - d3 * z 43 * z 155 * z 1340 - d2 * z 10 * z 43 * z 143 * z 1340));
  SZ 3369 (z 3366 + z 543 * z 3351 + z 548 * z 3367 + z 911 * z 1450 + z 920 * z 1565 + if22 * z 83 * z 551 * z 1414 - z 540 * z 3353 - z 546 * z 3368 - z 915 * z 1514 - z 928 * z 1589 - z 934 * z 1667);
  SZ 3370 (z 3365 + z 543 * z 3352 + z 548 * z 3369 + z 551 * z 3359 + z 970 * z 1565 + z 971 * z 1450 - z 540 * z 3355 - z 546 * z 3358 - z 967 * z 1589 - z 972 * z 1514 - z 975 * z 1667);
  SZ 3371 (z 539 * z 3354 + z 542 * z 3349 + z 899 * z 1439 + z 900 * z 1512 - z 545 * z 3364 - z 922 * z 1564);
  SZ 3372 (z 542 * z 3351 + z 915 * z 1512 - z 539 * z 3353 - z 545 * z 3368 - z 911 * z 1439 - z 920 * z 1564 - z 934 * z 1668 - if22 * z 83 * z 550 * z 1414);
  SZ 3373 (z 3371 + z 543 * z 3335 + z 548 * z 3372 + z 551 * z 3343 + z 955 * z 1565 + z 957 * z 1450 - z 540 * z 3337 - z 546 * z 3342 - z 954 * z 1589 - z 958 * z 1514 - z 961 * z 1667);
  SZ 3374 (z 964 * z 3370 + z 979 * z 3344 - z 965 * z 3360 - z 978 * z 3373);
  SZ 3375 (z 907 * z 1512 - z 902 * z 1564 - z 906 * z 1439);
  SZ 3376 (z 965 * z 3345 + z 973 * z 3373 - z 960 * z 3370 - z 979 * z 3346);
  SZ 3377 (z 983 * z 3361 + z 1003 * z 3332 - z 905 * z 3374 - z 982 * z 3376 - z 1004 * z 3375);
  SZ 3378 (z 6 * ((PowN (z 3) 2) + (PowN (z 4) 2)) * z 1590);
  SZ 3379 ((- z 3378) * q4p - z 3 * z 5 * z 43 * z 1590 * q3p - z 43 * z 1566 * z 271);
  SZ 3380 (z 5 * ((PowN (z 3) 2) + (PowN (z 4) 2)) * z 1590);
  SZ 3381 (z 3380 * q4p + z 1590 * z 278 + z 43 * z 1566 * z 268 - z 3 * z 6 * z 43 * z 1590 * q3p);
  SZ 3382 (z 47 * z 1590 + z 51 * z 1566);
  SZ 3383 (z 48 * z 1590 + z 52 * z 1566);
  SZ 3384 (ic33 * z 3383 - ic31 * z 50 * z 1566);
  SZ 3385 (z 3382 * z 758 + z 3384 * z 266 - z 3383 * z 759 - ic22 * z 3382 * z 267);
  SZ 3386 ((z 3 * z 5 * z 31 + z 3 * z 6 * z 41 - z 4 * z 5 * z 32 - z 4 * z 6 * z 42) * z 1590);
  SZ 3387 (z 5 * (z 6 - z 3 * z 42 - z 4 * z 41) * z 1590);
  SZ 3388 (z 3386 * q4p + z 1566 * z 276 + z 1590 * z 275 - (Lit 2 1) * z 3387 * q5p);
  SZ 3389 (ic31 * z 3383 - ic11 * z 50 * z 1566);
  SZ 3390 (z 3383 * z 757 + z 3389 * z 267 + z 50 * z 1566 * z 758 - z 3384 * z 265);
  SZ 3391 (z 64 * z 1566 + z 65 * z 1590);
  SZ 3392 (z 61 * z 1566 - z 62 * z 1590);
  SZ 3393 (z 3391 * z 781 + id11 * z 3392 * z 283 - z 3392 * z 783 - id11 * z 3391 * z 281);
  SZ 3394 (ic22 * z 3382 * z 265 - z 3382 * z 757 - z 3389 * z 266 - z 50 * z 1566 * z 759);
  SZ 3395 ((- z 7) * z 3378 - z 8 * z 3380);
  SZ 3396 (z 3 * (z 5 * z 7 - z 6 * z 8) * z 1590);
  SZ 3397 (z 3395 * q4p + z 43 * z 1566 * z 285 - z 43 * z 3396 * q3p - z 1590 * z 286);
  SZ 3398 (z 3382 * z 783 + id11 * z 3391 * z 282 - z 3391 * z 782 - id22 * z 3382 * z 283);
  SZ 3399 (z 7 * z 3380 - z 8 * z 3378);
  SZ 3400 (z 3 * (z 5 * z 8 + z 6 * z 7) * z 1590);
  SZ 3401 (z 3399 * q4p + z 1590 * z 290 + z 43 * z 1566 * z 289 - z 43 * z 3400 * q3p);
  SZ 3402 (z 3392 * z 782 + id22 * z 3382 * z 281 - z 3382 * z 781 - id11 * z 3392 * z 282);
  SZ 3403 (z 5 * z 10 * z 1590 + z 5 * z 9 * q5p - z 6 * z 10 * q7p);
  SZ 3404 (z 4 * z 10 * q4p - z 3 * z 9 * q7p - z 3 * z 6 * z 9 * q4p - z 4 * z 3403);
  SZ 3405 (z 3 * z 10 * q4p + z 4 * z 9 * q7p + z 4 * z 6 * z 9 * q4p - z 3 * z 3403);
  SZ 3406 (z 4 * z 6 * z 69 * z 1590 + z 32 * z 3404 + z 1342 * z 268 - z 3 * z 6 * z 29 * z 1590 - z 31 * z 3405 - z 1403 * z 269);
  SZ 3407 ((- z 6) * z 10 * z 1590 - z 5 * z 10 * q7p - z 6 * z 9 * q5p);
  SZ 3408 (z 3 * z 5 * z 9 * q4p + z 4 * z 3407);
  SZ 3409 (z 3 * z 3407 - z 4 * z 5 * z 9 * q4p);
  SZ 3410 (z 5 * z 26 * z 1590 + z 5 * z 6 * z 9 * q5p + z 6 * z 3403 + z 31 * z 3408 + z 32 * z 3409 + z 3 * z 5 * z 9 * z 268 + z 4 * z 5 * z 9 * z 269 - z 3 * z 6 * z 72 * z 1590 - z 4 * z 6 * z 71 * z 1590);
  SZ 3411 (z 5 * z 9 * z 1590 - z 5 * z 10 * q5p - z 6 * z 9 * q7p);
  SZ 3412 (z 4 * z 10 * q7p + z 4 * z 6 * z 10 * q4p + z 3 * z 3411 - z 3 * z 9 * q4p);
  SZ 3413 (z 6 * z 10 * q5p - z 6 * z 9 * z 1590 - z 5 * z 9 * q7p);
  SZ 3414 (z 3 * z 10 * q7p + z 4 * z 9 * q4p + z 3 * z 6 * z 10 * q4p - z 4 * z 3411);
  SZ 3415 (z 4 * z 6 * z 70 * z 1590 + z 10 * (PowN (z 5) 2) * q5p + z 32 * z 3412 + z 1401 * z 268 - z 5 * z 23 * z 1590 - z 3 * z 6 * z 66 * z 1590 - z 6 * z 3413 - z 31 * z 3414 - z 1442 * z 269);
  SZ 3416 (z 3 * z 9 * q4p - z 4 * z 10 * q7p - z 4 * z 6 * z 10 * q4p - z 3 * z 3411);
  SZ 3417 (z 1590 * z 299 + q4p * z 3406 + q5p * z 3410 + q7p * z 3415 + z 43 * z 1566 * z 308 + z 43 * q3p * z 3416);
  SZ 3418 (z 3 * z 3403 - z 3 * z 10 * q4p - z 4 * z 9 * q7p - z 4 * z 6 * z 9 * q4p);
  SZ 3419 (z 4 * z 3411 - z 3 * z 10 * q7p - z 4 * z 9 * q4p - z 3 * z 6 * z 10 * q4p);
  SZ 3420 (z 27 * z 3418 + z 29 * z 3412 + z 30 * z 3419 + z 66 * z 3404 + z 1339 * z 313 + z 1340 * z 310 + z 1342 * z 304 + z 1401 * z 300);
  SZ 3421 (z 4 * z 3413 - z 3 * z 5 * z 10 * q4p);
  SZ 3422 (z 4 * z 5 * z 10 * q4p + z 3 * z 3413);
  SZ 3423 (z 24 * z 3407 + z 25 * z 3411 + z 29 * z 3421 + z 67 * z 3404 + z 1342 * z 315 + z 5 * z 9 * z 303 + z 3 * z 5 * z 10 * z 313 - z 30 * z 3422 - z 68 * z 3418 - z 1340 * z 316 - z 6 * z 10 * z 296 - z 4 * z 5 * z 10 * z 300);
  SZ 3424 ((Lit 2 1) * z 25 * z 3407 + (Lit 2 1) * z 29 * z 3404 + (Lit 2 1) * z 30 * z 3418 + (Lit 2 1) * z 1340 * z 313 + (Lit 2 1) * z 1342 * z 300 + (Lit 2 1) * z 5 * z 9 * z 296);
  SZ 3425 (z 1590 * z 317 + q4p * z 3420 + q5p * z 3423 + q7p * z 3424 + z 43 * z 1566 * z 268 - z 3 * z 6 * z 43 * z 1590 * q3p);
  SZ 3426 (z 76 * z 1590 + z 82 * z 1566 + z 1397 * q4p + z 1414 * q5p + z 43 * z 1340 * q3p);
  SZ 3427 (z 73 * z 1590 + z 81 * z 1566 + z 1404 * q4p + z 1419 * q5p + z 1443 * q7p + z 43 * z 1348 * q3p);
  SZ 3428 (z 52 * z 1566 + z 78 * z 1590 + z 1402 * q4p + z 1418 * q5p + z 1441 * q7p);
  SZ 3429 (ie31 * z 3427 + ie33 * z 3428);
  SZ 3430 (z 293 * z 3429 + z 801 * z 3426 - z 802 * z 3428 - ie22 * z 294 * z 3426);
  SZ 3431 (z 3 * z 6 * z 27 * z 1590 + z 4 * z 6 * z 28 * z 1590 - z 31 * z 3416 - z 32 * z 3419 - z 1339 * z 268 - z 1348 * z 269);
  SZ 3432 (z 4 * z 5 * z 27 * z 1590 + z 5 * z 6 * z 10 * q5p + z 5 * z 3413 + z 41 * z 3419 + z 1339 * z 273 - z 6 * z 23 * z 1590 - z 3 * z 5 * z 28 * z 1590 - z 42 * z 3416 - z 1348 * z 271);
  SZ 3433 (z 1590 * z 311 + q4p * z 3431 + q5p * z 3432 + z 43 * z 1566 * z 313 + z 43 * q3p * z 3418);
  SZ 3434 (ie11 * z 3427 + ie31 * z 3428);
  SZ 3435 (z 294 * z 3434 + z 800 * z 3428 - z 292 * z 3429 - z 801 * z 3427);
  SZ 3436 (z 94 * z 1566 + z 95 * z 1590 + z 1406 * q4p + z 1421 * q5p + z 1445 * q7p + z 12 * z 43 * z 1348 * q3p);
  SZ 3437 (z 90 * z 1566 + z 91 * z 1590 + z 1407 * q4p + z 1422 * q5p + z 1446 * q7p + z 11 * z 43 * z 1348 * q3p);
  SZ 3438 (z 830 * z 3436 + if11 * z 323 * z 3437 - z 832 * z 3437 - if11 * z 321 * z 3436);
  SZ 3439 (z 802 * z 3427 + ie22 * z 292 * z 3426 - z 293 * z 3434 - z 800 * z 3426);
  SZ 3440 (z 11 * z 3406 - z 11 * z 80 * z 1669 - z 12 * z 74 * z 1669 - z 11 * z 1402 * q8p - z 12 * z 1404 * q8p - z 12 * z 3420);
  SZ 3441 (z 11 * z 3410 - z 11 * z 78 * z 1669 - z 12 * z 73 * z 1669 - z 11 * z 1418 * q8p - z 12 * z 1419 * q8p - z 12 * z 3423);
  SZ 3442 (z 11 * z 3415 - z 11 * z 79 * z 1669 - z 12 * z 75 * z 1669 - z 11 * z 1441 * q8p - z 12 * z 1443 * q8p - z 12 * z 3424);
  SZ 3443 (z 3 * z 6 * z 12 * z 1590 + z 11 * z 3416 - z 11 * z 32 * z 1669 - z 12 * z 28 * z 1669 - z 12 * z 1348 * q8p);
  SZ 3444 (z 1590 * z 325 + q4p * z 3440 + q5p * z 3441 + q7p * z 3442 + z 43 * z 1566 * z 324 + z 43 * q3p * z 3443);
  SZ 3445 (z 76 * z 1590 + z 82 * z 1566 + z 83 * z 1669 + z 1397 * q4p + z 1414 * q5p + z 43 * z 1340 * q3p);
  SZ 3446 (z 832 * z 3445 + if11 * z 322 * z 3436 - z 831 * z 3436 - if22 * z 323 * z 3445);
  SZ 3447 (z 11 * z 74 * z 1669 + z 11 * z 1404 * q8p + z 11 * z 3420 + z 12 * z 3406 - z 12 * z 80 * z 1669 - z 12 * z 1402 * q8p);
  SZ 3448 (z 11 * z 73 * z 1669 + z 11 * z 1419 * q8p + z 11 * z 3423 + z 12 * z 3410 - z 12 * z 78 * z 1669 - z 12 * z 1418 * q8p);
  SZ 3449 (z 11 * z 75 * z 1669 + z 11 * z 1443 * q8p + z 11 * z 3424 + z 12 * z 3415 - z 12 * z 79 * z 1669 - z 12 * z 1441 * q8p);
  SZ 3450 (z 11 * z 28 * z 1669 + z 11 * z 1348 * q8p + z 12 * z 3416 - z 12 * z 32 * z 1669 - z 3 * z 6 * z 11 * z 1590);
  SZ 3451 (z 1590 * z 330 + q4p * z 3447 + q5p * z 3448 + q7p * z 3449 + z 43 * z 1566 * z 329 + z 43 * q3p * z 3450);
  SZ 3452 (z 831 * z 3437 + if22 * z 321 * z 3445 - z 830 * z 3445 - if11 * z 322 * z 3437);
  SZ 3453 (z 14 * z 3380 - z 13 * z 3378);
  SZ 3454 (z 3 * (z 13 * z 5 + z 14 * z 6) * z 1590);
  SZ 3455 (z 3453 * q4p + z 14 * z 1590 * z 278 + z 43 * z 1566 * z 341 - z 43 * z 3454 * q3p);
  SZ 3456 (z 18 * z 3378 + z 20 * z 3380 - z 15 * z 3386);
  SZ 3457 (z 3 * (z 5 * z 18 - z 6 * z 20) * z 1590);
  SZ 3458 (z 3456 * q4p + z 43 * z 3457 * q3p + (Lit 2 1) * z 15 * z 3387 * q5p + z 1590 * z 349 + z 43 * z 1566 * z 348);
  SZ 3459 (z 112 * z 1566 + z 114 * z 1590);
  SZ 3460 (z 110 * z 1566 + z 111 * z 1590);
  SZ 3461 (z 115 * z 1566 + z 116 * z 1590);
  SZ 3462 (ig31 * z 3460 + ig33 * z 3461);
  SZ 3463 (z 3459 * z 852 + z 3462 * z 335 - z 3461 * z 853 - ig22 * z 3459 * z 336);
  SZ 3464 (z 16 * z 3378 + z 17 * z 3386 + z 19 * z 3380);
  SZ 3465 (z 3 * (z 5 * z 16 - z 6 * z 19) * z 1590);
  SZ 3466 (z 3464 * q4p + z 43 * z 3465 * q3p + z 1590 * z 346 + z 43 * z 1566 * z 344 - (Lit 2 1) * z 17 * z 3387 * q5p);
  SZ 3467 (ig11 * z 3460 + ig31 * z 3461);
  SZ 3468 (z 3461 * z 851 + z 3467 * z 336 - z 3460 * z 852 - z 3462 * z 334);
  SZ 3469 (z 3460 * z 853 + ig22 * z 3459 * z 334 - z 3459 * z 851 - z 3467 * z 335);
  SZ 3470 (z 1566 * (z 354 + z 3 * z 43 * z 353));
  SZ 3471 (z 1566 * (z 43 * z 352 + z 118 * z 356));
  SZ 3472 ((- z 5) * z 3470 - z 41 * z 3471);
  SZ 3473 (z 3382 * (z 173 * q4p + z 174 * q5p + z 175 * q3p) + z 3472 + z 22 * z 3388 + (z 174 * z 1590 + z 175 * z 1566) * z 266 - z 3383 * (z 170 * q4p + z 171 * q3p - z 172 * q5p) - (z 171 * z 1566 - z 172 * z 1590) * z 267);
  SZ 3474 (z 31 * z 3471 - z 6 * z 3470);
  SZ 3475 (z 3474 + z 21 * z 3388 + (z 171 * z 1566 - z 172 * z 1590) * z 265 - z 3382 * (z 176 * q4p + z 177 * q5p + z 178 * q3p) - z 50 * z 1566 * (z 170 * q4p + z 171 * q3p - z 172 * q5p) - (z 177 * z 1590 + z 178 * z 1566) * z 266);
  SZ 3476 (z 13 * z 3473 + z 14 * z 3475);
  SZ 3477 (z 3476 + l6 * z 3466 - z 3459 * (z 201 * q9p + z 202 * q3p + z 203 * q4p + z 204 * q5p) - z 3461 * (z 197 * q3p + z 198 * q5p + z 199 * q4p - z 200 * q9p) - (z 197 * z 1566 + z 198 * z 1590) * z 336 - (z 202 * z 1566 + z 204 * z 1590) * z 335);
  SZ 3478 ((- z 21) * z 3381 - z 22 * z 3379);
  SZ 3479 (z 3383 * (z 176 * q4p + z 177 * q5p + z 178 * q3p) + z 50 * z 1566 * (z 173 * q4p + z 174 * q5p + z 175 * q3p) + z 3478 + (z 177 * z 1590 + z 178 * z 1566) * z 267 - z 3 * z 3471 - (z 174 * z 1590 + z 175 * z 1566) * z 265);
  SZ 3480 (z 17 * z 3479 + z 19 * z 3475 - z 16 * z 3473);
  SZ 3481 (l5 * z 3458 - l6 * z 3455);
  SZ 3482 (z 3460 * (z 201 * q9p + z 202 * q3p + z 203 * q4p + z 204 * q5p) + z 3461 * (z 205 * q9p + z 206 * q3p + z 207 * q4p + z 208 * q5p) + z 3480 + z 3481 + (z 202 * z 1566 + z 204 * z 1590) * z 334 + (z 206 * z 1566 + z 208 * z 1590) * z 336);
  SZ 3483 (z 20 * z 3475 - z 15 * z 3479 - z 18 * z 3473);
  SZ 3484 (z 3460 * (z 197 * q3p + z 198 * q5p + z 199 * q4p - z 200 * q9p) + z 3483 + (z 197 * z 1566 + z 198 * z 1590) * z 334 - z 3459 * (z 205 * q9p + z 206 * q3p + z 207 * q4p + z 208 * q5p) - l5 * z 3466 - (z 206 * z 1566 + z 208 * z 1590) * z 335);
  SZ 3485 (z 3474 + (z 128 * z 1590 + z 130 * z 1566) * z 265 - z 3382 * (z 134 * q4p + z 135 * q5p + z 136 * q3p) - z 50 * z 1566 * (z 128 * q5p + z 129 * q4p + z 130 * q3p) - l1 * z 3388 - (z 135 * z 1590 + z 136 * z 1566) * z 266);
  SZ 3486 (z 3472 + l2 * z 3388 - z 3382 * (z 131 * q4p + z 132 * q5p + z 133 * q3p) - z 3383 * (z 128 * q5p + z 129 * q4p + z 130 * q3p) - (z 128 * z 1590 + z 130 * z 1566) * z 267 - (z 132 * z 1590 + z 133 * z 1566) * z 266);
  SZ 3487 (l1 * z 3381 - l2 * z 3379);
  SZ 3488 (z 3383 * (z 134 * q4p + z 135 * q5p + z 136 * q3p) + z 3487 + (z 132 * z 1590 + z 133 * z 1566) * z 265 + (z 135 * z 1590 + z 136 * z 1566) * z 267 - z 50 * z 1566 * (z 131 * q4p + z 132 * q5p + z 133 * q3p) - z 3 * z 3471);
  SZ 3489 (z 3474 + (z 143 * z 1590 + z 145 * z 1566) * z 265 - z 50 * z 1566 * (z 143 * q5p + z 144 * q4p + z 145 * q3p) - d1 * z 3388);
  SZ 3490 (z 158 * z 1402 - d2 * z 1404 - l4 * z 1404);
  SZ 3491 ((z 159 * q3p + z 160 * q5p + z 161 * q7p + z 162 * q4p) * z 3427 - z 158 * z 3433 - (z 164 * q5p + z 165 * q4p + z 166 * q3p) * z 3426 - (z 164 * z 1590 + z 166 * z 1566 + z 163 * z 1397 * q4p + z 163 * z 1414 * q5p + z 163 * z 43 * z 1340 * q3p) * z 293 - (z 3333 * q3p - z 159 * z 1566 - z 160 * z 1590 - z 3348 * q7p - z 3350 * q5p - z 3490 * q4p) * z 292);
  SZ 3492 (z 3472 - z 3382 * (z 140 * q4p + z 141 * q5p + z 142 * q3p) - z 3383 * (z 143 * q5p + z 144 * q4p + z 145 * q3p) - (z 141 * z 1590 + z 142 * z 1566) * z 266 - (z 143 * z 1590 + z 145 * z 1566) * z 267);
  SZ 3493 (d1 * z 3381 + (z 141 * z 1590 + z 142 * z 1566) * z 265 - z 50 * z 1566 * (z 140 * q4p + z 141 * q5p + z 142 * q3p) - z 3 * z 3471);
  SZ 3494 (z 158 * z 3425 - d2 * z 3417 - l4 * z 3417);
  SZ 3495 (z 3494 + (z 164 * q5p + z 165 * q4p + z 166 * q3p) * z 3428 + (z 167 * q5p + z 168 * q4p + z 169 * q3p) * z 3427 + (z 164 * z 1590 + z 166 * z 1566 + z 163 * z 1397 * q4p + z 163 * z 1414 * q5p + z 163 * z 43 * z 1340 * q3p) * z 294 + (z 167 * z 1590 + z 169 * z 1566 + z 158 * z 1397 * q4p + z 158 * z 1414 * q5p + z 158 * z 43 * z 1340 * q3p) * z 292);
  SZ 3496 (z 163 * z 3433 + (z 3333 * q3p - z 159 * z 1566 - z 160 * z 1590 - z 3348 * q7p - z 3350 * q5p - z 3490 * q4p) * z 294 - (z 167 * q5p + z 168 * q4p + z 169 * q3p) * z 3426 - (z 159 * q3p + z 160 * q5p + z 161 * q7p + z 162 * q4p) * z 3428 - (z 167 * z 1590 + z 169 * z 1566 + z 158 * z 1397 * q4p + z 158 * z 1414 * q5p + z 158 * z 43 * z 1340 * q3p) * z 293);
  SZ 3497 ((z 148 * q3p + z 149 * q5p + z 150 * q7p + z 151 * q4p) * z 3427 + (z 148 * z 1566 + z 149 * z 1590 + z 1405 * q4p + z 1420 * q5p + z 1444 * q7p - d2 * z 43 * z 1348 * q3p) * z 292 - d3 * z 3433 - (z 152 * q5p + z 153 * q4p + z 154 * q3p) * z 3426 - (z 152 * z 1590 + z 154 * z 1566 + d2 * z 1397 * q4p + d2 * z 1414 * q5p + d2 * z 43 * z 1340 * q3p) * z 293);
  SZ 3498 (d3 * z 3425 - d2 * z 3417);
  SZ 3499 (z 3498 + (z 152 * q5p + z 153 * q4p + z 154 * q3p) * z 3428 + (z 155 * q5p + z 156 * q4p + z 157 * q3p) * z 3427 + (z 152 * z 1590 + z 154 * z 1566 + d2 * z 1397 * q4p + d2 * z 1414 * q5p + d2 * z 43 * z 1340 * q3p) * z 294 + (z 155 * z 1590 + z 157 * z 1566 + d3 * z 1397 * q4p + d3 * z 1414 * q5p + d3 * z 43 * z 1340 * q3p) * z 292);
  SZ 3500 (d2 * z 3433 - (z 155 * q5p + z 156 * q4p + z 157 * q3p) * z 3426 - (z 148 * q3p + z 149 * q5p + z 150 * q7p + z 151 * q4p) * z 3428 - (z 155 * z 1590 + z 157 * z 1566 + d3 * z 1397 * q4p + d3 * z 1414 * q5p + d3 * z 43 * z 1340 * q3p) * z 293 - (z 148 * z 1566 + z 149 * z 1590 + z 1405 * q4p + z 1420 * q5p + z 1444 * q7p - d2 * z 43 * z 1348 * q3p) * z 294);
  SZ 3501 (z 45 * z 3385 + z 46 * z 3390 + z 46 * z 3393 + z 49 * z 3394 + z 60 * z 3398 + z 63 * z 3402 + z 74 * z 3430 + z 77 * z 3435 + z 77 * z 3438 + z 80 * z 3439 + z 92 * z 3446 + z 97 * z 3452 + z 109 * z 3463 + z 113 * z 3468 + z 117 * z 3469 + z 1397 * z 816 + z 1397 * z 827 + z 1397 * z 842 + z 1397 * z 849 + z 1402 * z 812 + z 1402 * z 826 + z 1402 * z 828 + z 1404 * z 807 + z 1404 * z 821 + z 1404 * z 829 + z 1406 * z 847 + z 1406 * z 848 + z 1407 * z 837 + z 1407 * z 850 + ic11 * z 45 * z 3379 + ic22 * z 46 * z 3388 + ic31 * z 45 * z 3381 + ic31 * z 49 * z 3379 + ic33 * z 49 * z 3381 + id11 * z 60 * z 3397 + id11 * z 63 * z 3401 + id22 * z 46 * z 3388 + ie11 * z 74 * z 3417 + ie22 * z 77 * z 3433 + ie31 * z 74 * z 3425 + ie31 * z 80 * z 3417 + ie33 * z 80 * z 3425 + if11 * z 92 * z 3444 + if11 * z 97 * z 3451 + if22 * z 77 * z 3433 + ig11 * z 109 * z 3455 + ig22 * z 113 * z 3466 + ig31 * z 109 * z 3458 + ig31 * z 117 * z 3455 + ig33 * z 117 * z 3458 + mg * (z 209 * z 3477 + z 212 * z 3482 + z 215 * z 3484) - md * z 3 * z 119 * z 3471 - mc * (z 131 * z 3485 - z 134 * z 3486 - z 139 * z 3488) - me * (z 140 * z 3489 + z 140 * z 3491 + z 168 * z 3489 + z 168 * z 3491 + z 158 * z 1397 * z 374 + z 158 * z 1397 * z 386 + z 9 * z 162 * z 372 + z 10 * z 147 * z 384 + z 10 * z 162 * z 373 + z 10 * z 162 * z 3492 + z 10 * z 165 * z 372 + z 10 * z 3490 * z 372 - z 147 * z 3493 - z 162 * z 3495 - z 165 * z 3496 - z 3490 * z 384 - z 163 * z 1397 * z 385 - z 9 * z 147 * z 385 - z 9 * z 147 * z 3495 - z 9 * z 162 * z 3493 - z 9 * z 165 * z 373 - z 9 * z 165 * z 3492 - z 9 * z 3490 * z 373 - z 10 * z 147 * z 3496 - z 10 * z 165 * z 3493 - z 163 * z 9 * z 1397 * z 372 - z 163 * z 10 * z 1397 * z 373) - mf * (z 140 * z 3489 + z 140 * z 3497 + z 156 * z 3489 + z 156 * z 3497 + d3 * z 1397 * z 374 + d3 * z 1397 * z 380 + z 9 * z 151 * z 372 + z 10 * z 147 * z 378 + z 10 * z 151 * z 373 + z 10 * z 151 * z 3492 + z 10 * z 153 * z 372 + z 10 * z 1405 * z 372 - z 147 * z 3493 - z 151 * z 3499 - z 153 * z 3500 - z 1405 * z 378 - d2 * z 1397 * z 379 - z 9 * z 147 * z 379 - z 9 * z 147 * z 3499 - z 9 * z 151 * z 3493 - z 9 * z 153 * z 373 - z 9 * z 153 * z 3492 - z 9 * z 1405 * z 373 - z 10 * z 147 * z 3500 - z 10 * z 153 * z 3493 - d2 * z 9 * z 1397 * z 372 - d2 * z 10 * z 1397 * z 373));
  SZ 3502 (mg * (z 182 * z 3477 + z 187 * z 3482 + z 192 * z 3484) + me * (z 120 * z 3492 + z 122 * z 3489 + z 122 * z 3491 + z 9 * z 120 * z 3496 + z 10 * z 121 * z 384 - z 121 * z 3493 - z 9 * z 120 * z 384 - z 9 * z 121 * z 385 - z 9 * z 121 * z 3495 - z 10 * z 120 * z 385 - z 10 * z 120 * z 3495 - z 10 * z 121 * z 3496) + mf * (z 120 * z 3492 + z 122 * z 3489 + z 122 * z 3497 + z 9 * z 120 * z 3500 + z 10 * z 121 * z 378 - z 121 * z 3493 - z 9 * z 120 * z 378 - z 9 * z 121 * z 379 - z 9 * z 121 * z 3499 - z 10 * z 120 * z 379 - z 10 * z 120 * z 3499 - z 10 * z 121 * z 3500) - md * (z 1 * z 3470 - z 2 * z 3471) - mc * (z 121 * z 3488 - z 120 * z 3486 - z 122 * z 3485));
  SZ 3503 (z 51 * z 3390 + z 51 * z 3393 + z 52 * z 3394 + z 52 * z 3439 + z 61 * z 3398 + z 64 * z 3402 + z 81 * z 3430 + z 82 * z 3435 + z 82 * z 3438 + z 90 * z 3446 + z 94 * z 3452 + z 110 * z 3463 + z 112 * z 3468 + z 115 * z 3469 + ic22 * z 51 * z 3388 + ic31 * z 52 * z 3379 + ic33 * z 52 * z 3381 + id11 * z 61 * z 3397 + id11 * z 64 * z 3401 + id22 * z 51 * z 3388 + ie11 * z 81 * z 3417 + ie22 * z 82 * z 3433 + ie31 * z 52 * z 3417 + ie31 * z 81 * z 3425 + ie33 * z 52 * z 3425 + if11 * z 90 * z 3444 + if11 * z 94 * z 3451 + if22 * z 82 * z 3433 + ig11 * z 110 * z 3455 + ig22 * z 112 * z 3466 + ig31 * z 110 * z 3458 + ig31 * z 115 * z 3455 + ig33 * z 115 * z 3458 + md * z 118 * z 3470 + z 43 * z 1340 * z 816 + z 43 * z 1340 * z 827 + z 43 * z 1340 * z 842 + z 43 * z 1340 * z 849 + z 43 * z 1348 * z 807 + z 43 * z 1348 * z 821 + z 43 * z 1348 * z 829 + z 11 * z 43 * z 1348 * z 837 + z 11 * z 43 * z 1348 * z 850 + z 12 * z 43 * z 1348 * z 847 + z 12 * z 43 * z 1348 * z 848 + mc * (z 130 * z 3488 + z 137 * z 3486 + z 138 * z 3485) + mg * (z 211 * z 3477 + z 214 * z 3482 + z 217 * z 3484) - z 50 * z 3385 - ic11 * z 50 * z 3379 - ic31 * z 50 * z 3381 - me * (z 126 * z 3492 + z 169 * z 3489 + z 169 * z 3491 + z 3333 * z 384 + z 9 * z 126 * z 3496 + z 9 * z 159 * z 372 + z 9 * z 3333 * z 373 + z 10 * z 145 * z 384 + z 10 * z 159 * z 373 + z 10 * z 159 * z 3492 + z 10 * z 166 * z 372 + z 158 * z 43 * z 1340 * z 374 + z 158 * z 43 * z 1340 * z 386 - z 145 * z 3493 - z 146 * z 3489 - z 146 * z 3491 - z 159 * z 3495 - z 166 * z 3496 - z 9 * z 126 * z 384 - z 9 * z 145 * z 385 - z 9 * z 145 * z 3495 - z 9 * z 159 * z 3493 - z 9 * z 166 * z 373 - z 9 * z 166 * z 3492 - z 10 * z 126 * z 385 - z 10 * z 126 * z 3495 - z 10 * z 145 * z 3496 - z 10 * z 166 * z 3493 - z 10 * z 3333 * z 372 - z 163 * z 43 * z 1340 * z 385 - z 163 * z 9 * z 43 * z 1340 * z 372 - z 163 * z 10 * z 43 * z 1340 * z 373) - mf * (z 126 * z 3492 + z 157 * z 3489 + z 157 * z 3497 + z 9 * z 126 * z 3500 + z 9 * z 148 * z 372 + z 10 * z 145 * z 378 + z 10 * z 148 * z 373 + z 10 * z 148 * z 3492 + z 10 * z 154 * z 372 + d2 * z 43 * z 1348 * z 378 + d3 * z 43 * z 1340 * z 374 + d3 * z 43 * z 1340 * z 380 + d2 * z 9 * z 43 * z 1348 * z 373 - z 145 * z 3493 - z 146 * z 3489 - z 146 * z 3497 - z 148 * z 3499 - z 154 * z 3500 - z 9 * z 126 * z 378 - z 9 * z 145 * z 379 - z 9 * z 145 * z 3499 - z 9 * z 148 * z 3493 - z 9 * z 154 * z 373 - z 9 * z 154 * z 3492 - z 10 * z 126 * z 379 - z 10 * z 126 * z 3499 - z 10 * z 145 * z 3500 - z 10 * z 154 * z 3493 - d2 * z 43 * z 1340 * z 379 - d2 * z 9 * z 43 * z 1340 * z 372 - d2 * z 10 * z 43 * z 1340 * z 373 - d2 * z 10 * z 43 * z 1348 * z 372));
  SZ 3504 (z 47 * z 3390 + z 47 * z 3393 + z 48 * z 3394 + z 65 * z 3402 + z 73 * z 3430 + z 76 * z 3435 + z 76 * z 3438 + z 78 * z 3439 + z 91 * z 3446 + z 95 * z 3452 + z 111 * z 3463 + z 114 * z 3468 + z 116 * z 3469 + z 1414 * z 816 + z 1414 * z 827 + z 1414 * z 842 + z 1414 * z 849 + z 1418 * z 812 + z 1418 * z 826 + z 1418 * z 828 + z 1419 * z 807 + z 1419 * z 821 + z 1419 * z 829 + z 1421 * z 847 + z 1421 * z 848 + z 1422 * z 837 + z 1422 * z 850 + ic22 * z 47 * z 3388 + ic31 * z 48 * z 3379 + ic33 * z 48 * z 3381 + id11 * z 65 * z 3401 + id22 * z 47 * z 3388 + ie11 * z 73 * z 3417 + ie22 * z 76 * z 3433 + ie31 * z 73 * z 3425 + ie31 * z 78 * z 3417 + ie33 * z 78 * z 3425 + if11 * z 91 * z 3444 + if11 * z 95 * z 3451 + if22 * z 76 * z 3433 + ig11 * z 111 * z 3455 + ig22 * z 114 * z 3466 + ig31 * z 111 * z 3458 + ig31 * z 116 * z 3455 + ig33 * z 116 * z 3458 + mg * (z 210 * z 3477 + z 213 * z 3482 + z 216 * z 3484) - z 62 * z 3398 - id11 * z 62 * z 3397 - mc * (z 132 * z 3485 - z 128 * z 3488 - z 135 * z 3486) - me * (z 141 * z 3489 + z 141 * z 3491 + z 167 * z 3489 + z 167 * z 3491 + z 158 * z 1414 * z 374 + z 158 * z 1414 * z 386 + z 9 * z 160 * z 372 + z 10 * z 143 * z 384 + z 10 * z 160 * z 373 + z 10 * z 160 * z 3492 + z 10 * z 164 * z 372 + z 10 * z 3350 * z 372 - z 143 * z 3493 - z 160 * z 3495 - z 164 * z 3496 - z 3350 * z 384 - z 163 * z 1414 * z 385 - z 9 * z 143 * z 385 - z 9 * z 143 * z 3495 - z 9 * z 160 * z 3493 - z 9 * z 164 * z 373 - z 9 * z 164 * z 3492 - z 9 * z 3350 * z 373 - z 10 * z 143 * z 3496 - z 10 * z 164 * z 3493 - z 163 * z 9 * z 1414 * z 372 - z 163 * z 10 * z 1414 * z 373) - mf * (z 141 * z 3489 + z 141 * z 3497 + z 155 * z 3489 + z 155 * z 3497 + d3 * z 1414 * z 374 + d3 * z 1414 * z 380 + z 9 * z 149 * z 372 + z 10 * z 143 * z 378 + z 10 * z 149 * z 373 + z 10 * z 149 * z 3492 + z 10 * z 152 * z 372 + z 10 * z 1420 * z 372 - z 143 * z 3493 - z 149 * z 3499 - z 152 * z 3500 - z 1420 * z 378 - d2 * z 1414 * z 379 - z 9 * z 143 * z 379 - z 9 * z 143 * z 3499 - z 9 * z 149 * z 3493 - z 9 * z 152 * z 373 - z 9 * z 152 * z 3492 - z 9 * z 1420 * z 373 - z 10 * z 143 * z 3500 - z 10 * z 152 * z 3493 - d2 * z 9 * z 1414 * z 372 - d2 * z 10 * z 1414 * z 373));
  SZ 3505 (z 83 * (z 3438 + if22 * z 3433));
  SZ 3506 (mc * (z 123 * z 3486 + z 124 * z 3488 + z 125 * z 3485) + mg * (z 183 * z 3477 + z 188 * z 3482 + z 193 * z 3484) - md * (z 1 * z 3471 + z 2 * z 3470) - me * (z 9 * z 123 * z 384 + z 10 * z 123 * z 385 + z 10 * z 123 * z 3495 + z 10 * z 124 * z 384 - z 123 * z 3492 - z 124 * z 3493 - z 125 * z 3489 - z 125 * z 3491 - z 9 * z 123 * z 3496 - z 9 * z 124 * z 385 - z 9 * z 124 * z 3495 - z 10 * z 124 * z 3496) - mf * (z 9 * z 123 * z 378 + z 10 * z 123 * z 379 + z 10 * z 123 * z 3499 + z 10 * z 124 * z 378 - z 123 * z 3492 - z 124 * z 3493 - z 125 * z 3489 - z 125 * z 3497 - z 9 * z 123 * z 3500 - z 9 * z 124 * z 379 - z 9 * z 124 * z 3499 - z 10 * z 124 * z 3500));
  SZ 3507 (z 3501 + z 538 * z 3502 + z 544 * z 3503 + z 547 * z 3504 + z 549 * z 3505 + z 1517 * z 917 - z 541 * z 3506 - z 1438 * z 913 - z 1563 * z 925 - z 1588 * z 933 - z 1666 * z 938);
  SZ 3508 (z 92 * z 3338 + z 97 * z 3339 + z 806 * z 1404 + z 811 * z 1402 + z 815 * z 1397 + z 817 * z 1404 + z 822 * z 1402 + z 833 * z 1407 + z 840 * z 1397 + z 843 * z 1406 + ie11 * z 43 * z 74 * z 1348 + ie22 * z 43 * z 77 * z 1340 + ie31 * z 43 * z 80 * z 1348 + if22 * z 43 * z 77 * z 1340 - me * (z 162 * z 3333 + z 158 * z 146 * z 1397 + z 9 * z 147 * z 3333 + z 10 * z 145 * z 162 + z 10 * z 147 * z 159 + z 163 * z 9 * z 126 * z 1397 - z 159 * z 3490 - z 158 * z 169 * z 1397 - z 163 * z 166 * z 1397 - z 9 * z 126 * z 162 - z 9 * z 145 * z 165 - z 9 * z 145 * z 3490 - z 9 * z 147 * z 166 - z 10 * z 126 * z 165 - z 10 * z 126 * z 3490 - z 158 * z 43 * z 140 * z 1340 - z 158 * z 43 * z 168 * z 1340 - z 163 * z 10 * z 145 * z 1397 - z 163 * z 43 * z 165 * z 1340 - z 163 * z 10 * z 43 * z 147 * z 1340) - mf * (d3 * z 146 * z 1397 + z 10 * z 145 * z 151 + z 10 * z 147 * z 148 + d2 * z 9 * z 126 * z 1397 + d2 * z 43 * z 151 * z 1348 + d2 * z 9 * z 43 * z 147 * z 1348 - z 148 * z 1405 - d2 * z 154 * z 1397 - d3 * z 157 * z 1397 - z 9 * z 126 * z 151 - z 9 * z 145 * z 153 - z 9 * z 145 * z 1405 - z 9 * z 147 * z 154 - z 10 * z 126 * z 153 - z 10 * z 126 * z 1405 - d2 * z 10 * z 145 * z 1397 - d2 * z 43 * z 153 * z 1340 - d3 * z 43 * z 140 * z 1340 - d3 * z 43 * z 156 * z 1340 - d2 * z 10 * z 43 * z 147 * z 1340))].
(* [_mooreriderlean2012.py:7478-8145] *)
Definition chunk15 : list stmt := [
  SZ 3509 (z 3508 + z 538 * z 3336 + z 544 * z 3340 + z 547 * z 3357 + z 549 * z 3341 + z 916 * z 1517 - z 541 * z 3334 - z 912 * z 1438 - z 919 * z 1563 - z 927 * z 1588 - z 936 * z 1666);
  SZ 3510 (z 1 * ((PowN (z 3) 2) + (PowN (z 4) 2)) * z 1566);
  SZ 3511 (z 2 * ((PowN (z 3) 2) + (PowN (z 4) 2)) * z 1566);
  SZ 3512 ((z 5 * z 8 + z 6 * z 7) * z 1590);
  SZ 3513 ((z 5 * z 7 - z 6 * z 8) * z 1590);
  SZ 3514 (rr * (z 60 * z 3512 - z 54 * z 3395 - z 55 * z 3399 - z 63 * z 3513));
  SZ 3515 (rr * (z 62 * z 3512 + z 65 * z 3513));
  SZ 3516 (rr * (z 64 * z 3513 - z 61 * z 3512 - z 43 * z 54 * z 3396 - z 43 * z 55 * z 3400));
  SZ 3517 (z 3 * u4 * z 3514 + z 1451 * z 556 + z 1518 * z 559 + z 1590 * z 565 - u1 * z 3510 - u2 * z 3511 - z 3 * u3 * z 3516 - z 3 * u5 * z 3515 - z 1566 * z 563);
  SZ 3518 (z 1 * z 5 * z 1590 + z 1 * z 31 * z 1566 - z 2 * z 6 * z 1566 - z 2 * z 4 * z 6 * z 1590);
  SZ 3519 ((- z 1) * z 6 * z 1590 - z 1 * z 41 * z 1566 - z 2 * z 5 * z 1566 - z 2 * z 4 * z 5 * z 1590);
  SZ 3520 (z 9 * z 3519 + z 10 * z 121 * q7p - z 1 * z 3 * z 10 * z 1566 - z 9 * z 120 * q7p - z 9 * z 554 - z 10 * z 570);
  SZ 3521 (z 9 * z 121 * q7p + z 10 * z 120 * q7p + z 10 * z 554 - z 10 * z 3519 - z 1 * z 3 * z 9 * z 1566 - z 9 * z 570);
  SZ 3522 (z 6 * z 3518 + z 5 * z 122 * z 1590 + z 23 * z 3520 + z 233 * z 3413 + z 238 * z 305 - z 25 * z 3521 - z 238 * z 3407 - z 1433 * z 296 - z 5 * z 9 * z 572 - z 5 * z 10 * z 571);
  SZ 3523 (z 1 * z 6 * z 1566 + z 2 * z 5 * z 1590 + z 2 * z 31 * z 1566 + z 1 * z 4 * z 6 * z 1590);
  SZ 3524 (z 1 * z 5 * z 1566 + z 1 * z 4 * z 5 * z 1590 - z 2 * z 6 * z 1590 - z 2 * z 41 * z 1566);
  SZ 3525 (z 9 * z 3524 + z 9 * z 557 - z 2 * z 3 * z 10 * z 1566 - z 9 * z 123 * q7p - z 10 * z 124 * q7p - z 10 * z 575);
  SZ 3526 (z 10 * z 123 * q7p - z 10 * z 3524 - z 2 * z 3 * z 9 * z 1566 - z 9 * z 124 * q7p - z 9 * z 575 - z 10 * z 557);
  SZ 3527 (z 6 * z 3523 + z 5 * z 125 * z 1590 + z 23 * z 3525 + z 234 * z 3413 + z 239 * z 305 - z 25 * z 3526 - z 239 * z 3407 - z 1391 * z 296 - z 5 * z 9 * z 577 - z 5 * z 10 * z 576);
  SZ 3528 (z 31 * z 3407 + z 5 * z 9 * z 269 - z 5 * z 29 * z 1590 - z 4 * z 6 * z 25 * z 1590 - z 5 * z 1342 * q5p - z 6 * z 3404);
  SZ 3529 (z 23 * z 3404 + z 25 * z 3419 + z 27 * z 3407 + z 29 * z 3413 + z 1339 * z 296 + z 1342 * z 305 + z 5 * z 9 * z 310 - z 5 * z 10 * z 300);
  SZ 3530 ((Lit 2 1) * z 33 * z 3528 + (Lit 2 1) * z 34 * z 3529 + (Lit 2 1) * z 1343 * z 579 + (Lit 2 1) * z 1344 * z 580);
  SZ 3531 (((Lit 2 1) * z 33 * z 1345 * z 581 / z 35 + z 36 * ((Lit 4 1) * z 36 * z 3528 + (z 33 * z 1345 * z 581 - (Lit 2 1) * z 33 * z 35 * z 3530 - (Lit 2 1) * z 35 * z 1344 * z 581 - (Lit 2 1) * z 35 * z 1345 * z 580) / (PowH (z 35) 1))) / (PowN (z 36) 3));
  SZ 3532 (z 39 * z 43 * z 3418 + (Lit 1 4) * rf * z 82 * z 3531 + (Lit 1 2) * rf * z 43 * z 1340 * z 584 + (Lit 1 2) * rf * z 43 * z 1350 * z 313);
  SZ 3533 ((- z 5) * z 118 * z 1590 - z 3532 - d3 * z 43 * z 3418);
  SZ 3534 (d1 * z 3 * z 6 * z 43 * z 1590);
  SZ 3535 (z 6 * z 9 * z 118 * z 1590 + z 9 * z 126 * q7p + z 9 * z 609 + z 10 * z 610 + d2 * z 43 * z 3418 - z 10 * z 3534 - z 10 * z 145 * q7p);
  SZ 3536 (((Lit 2 1) * z 34 * z 1345 * z 581 / z 35 + z 36 * ((Lit 4 1) * z 36 * z 3529 + (z 34 * z 1345 * z 581 - (Lit 2 1) * z 34 * z 35 * z 3530 - (Lit 2 1) * z 35 * z 1343 * z 581 - (Lit 2 1) * z 35 * z 1345 * z 579) / (PowH (z 35) 1))) / (PowN (z 36) 3));
  SZ 3537 (z 40 * z 43 * z 3418 + (Lit 1 4) * rf * z 82 * z 3536 + (Lit 1 2) * rf * z 43 * z 1340 * z 582 + (Lit 1 2) * rf * z 43 * z 1346 * z 313);
  SZ 3538 (z 43 * (d3 * z 3 * z 6 * z 1590 + d2 * z 3416));
  SZ 3539 (z 9 * z 610 - z 9 * z 3534 - z 6 * z 10 * z 118 * z 1590 - z 9 * z 145 * q7p - z 10 * z 126 * q7p - z 3538 - z 10 * z 609);
  SZ 3540 (z 12 * z 40 * z 90 * z 1669 + (Lit 1 2) * rf * z 12 * z 90 * z 1346 * q8p + z 11 * z 39 * z 43 * z 3450 + (Lit 1 4) * rf * z 11 * z 94 * z 3531 + (Lit 1 2) * rf * z 11 * z 43 * z 1350 * z 329 - z 11 * z 39 * z 90 * z 1669 - z 11 * z 40 * z 94 * z 1669 - z 12 * z 39 * z 94 * z 1669 - (Lit 1 2) * rf * z 11 * z 90 * z 1350 * q8p - (Lit 1 2) * rf * z 11 * z 94 * z 1346 * q8p - (Lit 1 2) * rf * z 12 * z 94 * z 1350 * q8p - z 39 * z 43 * z 1348 * (PowN (z 11) 2) * q8p - z 39 * z 43 * z 1348 * (PowN (z 12) 2) * q8p - z 11 * z 40 * z 43 * z 3443 - z 12 * z 39 * z 43 * z 3443 - z 12 * z 40 * z 43 * z 3450 - (Lit 1 4) * rf * z 11 * z 90 * z 3536 - (Lit 1 4) * rf * z 12 * z 90 * z 3531 - (Lit 1 4) * rf * z 12 * z 94 * z 3536 - (Lit 1 2) * rf * z 11 * z 43 * z 1346 * z 324 - (Lit 1 2) * rf * z 12 * z 43 * z 1346 * z 329 - (Lit 1 2) * rf * z 12 * z 43 * z 1350 * z 324 - (Lit 1 2) * rf * z 43 * z 1348 * (PowN (z 11) 2) * z 582 - (Lit 1 2) * rf * z 43 * z 1348 * (PowN (z 12) 2) * z 582);
  SZ 3541 (z 5 * z 262 * z 1590 + z 5 * z 1353 * q5p + z 6 * z 3533 + z 257 * z 3413 + (z 1341 + z 1347) * z 305 + z 23 * (z 3535 + z 3537) - z 259 * z 3407 - (z 1349 + z 1351) * z 296 - z 25 * (z 3539 + z 3540) - z 5 * z 9 * (z 614 + z 615) - z 5 * z 10 * (z 611 + z 612));
  SZ 3542 (d1 * z 10 * z 3380 + d2 * z 3431 + d1 * z 9 * z 279 - z 10 * z 147 * q7p);
  SZ 3543 (z 40 * z 3431 + (Lit 1 4) * rf * z 77 * z 3536 + (Lit 1 2) * rf * z 1346 * z 312 + (Lit 1 2) * rf * z 1397 * z 582);
  SZ 3544 ((- d1) * z 3386 - d3 * z 3431);
  SZ 3545 (z 39 * z 3431 + (Lit 1 4) * rf * z 77 * z 3531 + (Lit 1 2) * rf * z 1350 * z 312 + (Lit 1 2) * rf * z 1397 * z 584);
  SZ 3546 (d3 * z 3420 - d2 * z 3406);
  SZ 3547 (d1 * z 9 * z 3380 + z 3546 - z 9 * z 147 * q7p - d1 * z 10 * z 279);
  SZ 3548 (z 12 * z 40 * z 92 * z 1669 + z 12 * z 40 * z 1407 * q8p + (Lit 1 2) * rf * z 12 * z 92 * z 1346 * q8p + z 11 * z 39 * z 3447 + (Lit 1 4) * rf * z 11 * z 97 * z 3531 + (Lit 1 2) * rf * z 11 * z 1350 * z 332 + (Lit 1 2) * rf * z 11 * z 1406 * z 584 - z 11 * z 39 * z 92 * z 1669 - z 11 * z 40 * z 97 * z 1669 - z 12 * z 39 * z 97 * z 1669 - z 11 * z 39 * z 1407 * q8p - z 11 * z 40 * z 1406 * q8p - z 12 * z 39 * z 1406 * q8p - (Lit 1 2) * rf * z 11 * z 92 * z 1350 * q8p - (Lit 1 2) * rf * z 11 * z 97 * z 1346 * q8p - (Lit 1 2) * rf * z 12 * z 97 * z 1350 * q8p - z 11 * z 40 * z 3440 - z 12 * z 39 * z 3440 - z 12 * z 40 * z 3447 - (Lit 1 2) * rf * z 11 * z 1346 * z 326 - (Lit 1 2) * rf * z 11 * z 1407 * z 582 - (Lit 1 2) * rf * z 12 * z 1346 * z 332 - (Lit 1 2) * rf * z 12 * z 1350 * z 326 - (Lit 1 2) * rf * z 12 * z 1406 * z 582 - (Lit 1 2) * rf * z 12 * z 1407 * z 584 - (Lit 1 4) * rf * z 11 * z 92 * z 3536 - (Lit 1 4) * rf * z 12 * z 92 * z 3531 - (Lit 1 4) * rf * z 12 * z 97 * z 3536);
  SZ 3549 (z 5 * z 263 * z 1590 + z 256 * z 3413 + (z 1399 + z 1400) * z 305 + z 23 * (z 3542 + z 3543) + z 6 * (z 3544 - z 3545) - z 5 * (z 1398 + d3 * z 1397) * q5p - z 261 * z 3407 - z 1409 * z 296 - z 25 * (z 3547 + z 3548) - z 5 * z 9 * (z 600 + z 601) - z 5 * z 10 * (z 597 + z 598));
  SZ 3550 (d2 * z 3432 + d1 * z 9 * z 278 - z 10 * z 143 * q7p);
  SZ 3551 (z 40 * z 3432 + (Lit 1 4) * rf * z 76 * z 3536 + (Lit 1 2) * rf * z 1346 * z 311 + (Lit 1 2) * rf * z 1414 * z 582);
  SZ 3552 ((Lit 2 1) * d1 * z 3387 - d3 * z 3432);
  SZ 3553 (z 39 * z 3432 + (Lit 1 4) * rf * z 76 * z 3531 + (Lit 1 2) * rf * z 1350 * z 311 + (Lit 1 2) * rf * z 1414 * z 584);
  SZ 3554 (d3 * z 3423 - d2 * z 3410);
  SZ 3555 (z 3554 - z 9 * z 143 * q7p - d1 * z 10 * z 278);
  SZ 3556 (z 12 * z 40 * z 91 * z 1669 + z 12 * z 40 * z 1422 * q8p + (Lit 1 2) * rf * z 12 * z 91 * z 1346 * q8p + z 11 * z 39 * z 3448 + (Lit 1 4) * rf * z 11 * z 95 * z 3531 + (Lit 1 2) * rf * z 11 * z 1350 * z 330 + (Lit 1 2) * rf * z 11 * z 1421 * z 584 - z 11 * z 39 * z 91 * z 1669 - z 11 * z 40 * z 95 * z 1669 - z 12 * z 39 * z 95 * z 1669 - z 11 * z 39 * z 1422 * q8p - z 11 * z 40 * z 1421 * q8p - z 12 * z 39 * z 1421 * q8p - (Lit 1 2) * rf * z 11 * z 91 * z 1350 * q8p - (Lit 1 2) * rf * z 11 * z 95 * z 1346 * q8p - (Lit 1 2) * rf * z 12 * z 95 * z 1350 * q8p - z 11 * z 40 * z 3441 - z 12 * z 39 * z 3441 - z 12 * z 40 * z 3448 - (Lit 1 2) * rf * z 11 * z 1346 * z 325 - (Lit 1 2) * rf * z 11 * z 1422 * z 582 - (Lit 1 2) * rf * z 12 * z 1346 * z 330 - (Lit 1 2) * rf * z 12 * z 1350 * z 325 - (Lit 1 2) * rf * z 12 * z 1421 * z 582 - (Lit 1 2) * rf * z 12 * z 1422 * z 584 - (Lit 1 4) * rf * z 11 * z 91 * z 3536 - (Lit 1 4) * rf * z 12 * z 91 * z 3531 - (Lit 1 4) * rf * z 12 * z 95 * z 3536);
  SZ 3557 (z 5 * z 264 * z 1590 + z 255 * z 3413 + (z 1416 + z 1417) * z 305 + z 23 * (z 3550 + z 3551) + z 6 * (z 3552 - z 3553) - z 5 * (z 1415 + d3 * z 1414) * q5p - z 260 * z 3407 - z 1424 * z 296 - z 25 * (z 3555 + z 3556) - z 5 * z 9 * (z 592 + z 593) - z 5 * z 10 * (z 589 + z 590));
  SZ 3558 (z 254 * z 3413 + (Lit 1 4) * rf * z 23 * z 83 * z 3536 + (Lit 1 2) * rf * z 83 * z 1346 * z 305 - z 5 * z 250 * z 1590 - (Lit 1 2) * rf * z 5 * z 83 * z 1350 * q5p - (Lit 1 2) * z 5 * z 10 * z 583 - (Lit 1 4) * rf * z 6 * z 83 * z 3531);
  SZ 3559 (d3 * z 3424 - d2 * z 3415);
  SZ 3560 (z 12 * z 40 * z 93 * z 1669 + z 12 * z 40 * z 1446 * q8p + (Lit 1 2) * rf * z 12 * z 93 * z 1346 * q8p + z 11 * z 39 * z 3449 + (Lit 1 4) * rf * z 11 * z 96 * z 3531 + (Lit 1 2) * rf * z 11 * z 1350 * z 331 + (Lit 1 2) * rf * z 11 * z 1445 * z 584 - z 11 * z 39 * z 93 * z 1669 - z 11 * z 40 * z 96 * z 1669 - z 12 * z 39 * z 96 * z 1669 - z 11 * z 39 * z 1446 * q8p - z 11 * z 40 * z 1445 * q8p - z 12 * z 39 * z 1445 * q8p - (Lit 1 2) * rf * z 11 * z 93 * z 1350 * q8p - (Lit 1 2) * rf * z 11 * z 96 * z 1346 * q8p - (Lit 1 2) * rf * z 12 * z 96 * z 1350 * q8p - z 11 * z 40 * z 3442 - z 12 * z 39 * z 3442 - z 12 * z 40 * z 3449 - (Lit 1 2) * rf * z 11 * z 1346 * z 327 - (Lit 1 2) * rf * z 11 * z 1446 * z 582 - (Lit 1 2) * rf * z 12 * z 1346 * z 331 - (Lit 1 2) * rf * z 12 * z 1350 * z 327 - (Lit 1 2) * rf * z 12 * z 1445 * z 582 - (Lit 1 2) * rf * z 12 * z 1446 * z 584 - (Lit 1 4) * rf * z 11 * z 93 * z 3536 - (Lit 1 4) * rf * z 12 * z 93 * z 3531 - (Lit 1 4) * rf * z 12 * z 96 * z 3536);
  SZ 3561 (z 258 * z 3407 + (z 1444 + z 1447) * z 296 + z 25 * (z 3559 + z 3560) + z 5 * z 9 * (z 617 + z 618));
  SZ 3562 (u1 * z 3522 + u2 * z 3527 + u3 * z 3541 + u4 * z 3549 + u5 * z 3557 + u8 * z 3558 + z 1451 * z 573 + z 1518 * z 578 + z 1566 * z 616 + z 1590 * z 594 + z 1669 * z 586 - u7 * z 3561);
  SZ 3563 (rr * u4 * z 3386 + z 1 * u2 * z 1566 + z 1 * z 1518 * q3p + z 1566 * z 552 + rr * z 1590 * z 275 - (Lit 2 1) * rr * u5 * z 3387 - z 2 * u1 * z 1566 - z 2 * z 1451 * q3p);
  SZ 3564 (z 25 * z 3528 + z 33 * z 3407 + z 1344 * z 296 + z 5 * z 9 * z 580);
  SZ 3565 (((Lit 3 2) * z 416 * z 1345 * z 581 + z 35 * ((Lit 2 1) * z 35 * z 3564 - z 416 * z 3530 - z 1345 * z 630 - z 1365 * z 581)) / (PowH (z 35) 2));
  SZ 3566 (((Lit 2 1) * z 1345 * (z 36 * (z 33 * z 631 + (Lit 2 1) * z 420 * z 580) + (z 25 * z 36 - (Lit 3 1) * z 33 * z 420) * z 581 / (PowH (z 35) 0)) / (PowH (z 35) 0) + z 36 * ((Lit 2 1) * z 36 * ((Lit 2 1) * z 36 * z 3407 - (Lit 2 1) * z 420 * z 3528 - z 33 * z 3565 - z 1344 * z 631 - z 1366 * z 580 - z 1345 * z 296 / (PowH (z 35) 0)) - ((Lit 2 1) * z 35 * (z 25 * z 36 - (Lit 2 1) * z 33 * z 420) * z 3530 - z 1345 * (z 25 * z 36 - (Lit 2 1) * z 33 * z 420) * z 581 - (Lit 2 1) * z 35 * (z 33 * z 1366 + (Lit 2 1) * z 420 * z 1344 - z 5 * z 9 * z 36) * z 581) / (PowH (z 35) 1))) / (PowN (z 36) 4));
  SZ 3567 (((Lit 3 1) * z 34 * z 420 * z 1345 * z 581 / z 35 + z 36 * (z 34 * z 36 * z 3565 + z 36 * z 1343 * z 631 + z 36 * z 1366 * z 579 + (Lit 2 1) * z 36 * z 420 * z 3529 + (z 34 * z 420 * z 1345 * z 581 - (Lit 2 1) * z 34 * z 35 * z 420 * z 3530 - (Lit 2 1) * z 35 * z 420 * z 1343 * z 581 - (Lit 2 1) * z 35 * z 420 * z 1345 * z 579 - z 34 * z 35 * z 1345 * z 631 - z 34 * z 35 * z 1366 * z 581) / (PowH (z 35) 1))) / (PowN (z 36) 4));
  SZ 3568 (z 3 * z 6 * z 434 * z 1590 + z 443 * z 3416 + (Lit 1 4) * rf * z 28 * z 3566 - (Lit 1 2) * rf * z 32 * z 3567 - (Lit 1 2) * rf * z 1348 * z 632 - (Lit 1 2) * rf * z 1367 * z 308 - (Lit 1 2) * rf * z 1368 * z 268);
  SZ 3569 (z 25 * z 3529 + z 34 * z 3407 + z 1343 * z 296 + z 5 * z 9 * z 579);
  SZ 3570 (((Lit 3 2) * z 412 * z 1345 * z 581 + z 35 * ((Lit 2 1) * z 35 * z 3569 - z 412 * z 3530 - z 1345 * z 635 - z 1360 * z 581)) / (PowH (z 35) 2));
  SZ 3571 (((Lit 3 1) * z 33 * z 418 * z 1345 * z 581 / z 35 + z 36 * (z 33 * z 36 * z 3570 + z 36 * z 1344 * z 636 + z 36 * z 1361 * z 580 + (Lit 2 1) * z 36 * z 418 * z 3528 + (z 33 * z 418 * z 1345 * z 581 - (Lit 2 1) * z 33 * z 35 * z 418 * z 3530 - (Lit 2 1) * z 35 * z 418 * z 1344 * z 581 - (Lit 2 1) * z 35 * z 418 * z 1345 * z 580 - z 33 * z 35 * z 1345 * z 636 - z 33 * z 35 * z 1361 * z 581) / (PowH (z 35) 1))) / (PowN (z 36) 4));
  SZ 3572 (((Lit 2 1) * z 1345 * (z 36 * (z 34 * z 636 + (Lit 2 1) * z 418 * z 579) + (z 25 * z 36 - (Lit 3 1) * z 34 * z 418) * z 581 / (PowH (z 35) 0)) / (PowH (z 35) 0) + z 36 * ((Lit 2 1) * z 36 * ((Lit 2 1) * z 36 * z 3407 - (Lit 2 1) * z 418 * z 3529 - z 34 * z 3570 - z 1343 * z 636 - z 1361 * z 579 - z 1345 * z 296 / (PowH (z 35) 0)) - ((Lit 2 1) * z 35 * (z 25 * z 36 - (Lit 2 1) * z 34 * z 418) * z 3530 - z 1345 * (z 25 * z 36 - (Lit 2 1) * z 34 * z 418) * z 581 - (Lit 2 1) * z 35 * (z 34 * z 1361 + (Lit 2 1) * z 418 * z 1343 - z 5 * z 9 * z 36) * z 581) / (PowH (z 35) 1))) / (PowN (z 36) 4));
  SZ 3573 ((Lit 1 4) * rf * z 32 * z 3572 - z 3 * z 6 * z 432 * z 1590 - z 444 * z 3416 - (Lit 1 2) * rf * z 28 * z 3571 - (Lit 1 2) * rf * z 1348 * z 638 - (Lit 1 2) * rf * z 1362 * z 268 - (Lit 1 2) * rf * z 1363 * z 308);
  SZ 3574 ((Lit 2 1) * z 23 * z 3529 + (Lit 2 1) * z 34 * z 3413 + (Lit 2 1) * z 1343 * z 305 - (Lit 2 1) * z 5 * z 33 * z 1590 - (Lit 2 1) * z 5 * z 1344 * q5p - (Lit 2 1) * z 6 * z 3528 - (Lit 2 1) * z 5 * z 10 * z 579);
  SZ 3575 (((Lit 3 2) * z 411 * z 1345 * z 581 + z 35 * ((Lit 2 1) * z 35 * z 3574 - z 411 * z 3530 - z 1345 * z 640 - z 1380 * z 581)) / (PowH (z 35) 2));
  SZ 3576 ((z 1345 * ((Lit 3 1) * z 33 * z 421 * z 581 / (PowH (z 35) 0) - z 36 * ((Lit 2 1) * z 5 * z 36 * q5p + z 33 * z 641 + (Lit 2 1) * z 421 * z 580 - (Lit 2 1) * z 6 * z 581 / (PowH (z 35) 0))) / (PowH (z 35) 0) + z 36 * ((z 33 * z 421 * z 1345 * z 581 - (Lit 2 1) * z 33 * z 35 * z 421 * z 3530 - (Lit 2 1) * z 35 * z 421 * z 1344 * z 581 - z 33 * z 35 * z 1381 * z 581) / (PowH (z 35) 1) + z 36 * ((Lit 4 1) * z 5 * z 36 * z 1590 + z 33 * z 3575 + z 1344 * z 641 + z 1381 * z 580 + (Lit 2 1) * z 421 * z 3528 - z 6 * ((Lit 2 1) * z 35 * z 3530 - z 1345 * z 581) / (PowH (z 35) 1)))) / (PowN (z 36) 4));
  SZ 3577 ((z 1345 * (z 36 * (z 34 * z 641 + (Lit 2 1) * z 421 * z 579) + (Lit 2 1) * (z 23 * z 36 - (Lit 3 2) * z 34 * z 421) * z 581 / (PowH (z 35) 0)) / (PowH (z 35) 0) + z 36 * (z 36 * ((Lit 4 1) * z 36 * z 3413 - (Lit 2 1) * z 421 * z 3529 - z 34 * z 3575 - z 1343 * z 641 - z 1381 * z 579 - (Lit 2 1) * z 1345 * z 305 / (PowH (z 35) 0)) - ((Lit 2 1) * z 35 * (z 23 * z 36 - z 34 * z 421) * z 3530 - z 1345 * (z 23 * z 36 - z 34 * z 421) * z 581 - z 35 * (z 34 * z 1381 + (Lit 2 1) * z 421 * z 1343 + (Lit 2 1) * z 5 * z 10 * z 36) * z 581) / (PowH (z 35) 1))) / (PowN (z 36) 4));
  SZ 3578 ((Lit 1 4) * rf * z 32 * z 3577 + (Lit 1 4) * rf * z 1348 * z 643 + (Lit 1 4) * rf * z 1382 * z 268 + (Lit 1 4) * rf * z 1383 * z 308 - (Lit 1 2) * z 3 * z 6 * z 430 * z 1590 - (Lit 1 2) * z 446 * z 3416 - (Lit 1 4) * rf * z 28 * z 3576);
  SZ 3579 (d1 * z 4 * z 5 * z 1590 + z 4 * z 6 * z 448 * z 1590 + (Lit 1 2) * rf * z 4 * z 6 * z 1346 * q5p + z 3 * z 5 * z 3568 + (z 3 * z 24 - z 4 * z 10) * z 3573 + (z 4 * z 10 - z 3 * z 6 * z 9) * z 644 + (Lit 1 4) * rf * (z 3 * z 10 + z 4 * z 24) * z 3531 + (Lit 1 2) * rf * (z 3 * z 9 - z 4 * z 6 * z 10) * z 584 + z 451 * (z 3 * z 10 * q4p + z 4 * z 9 * q7p + z 4 * z 6 * z 9 * q4p - z 3 * z 3403) + z 1384 * (z 4 * z 10 * q7p + z 4 * z 26 * q4p - z 3 * z 9 * q4p - z 3 * z 295) - z 3 * z 6 * z 455 * z 1590 - z 3 * z 6 * z 1369 * q5p - z 4 * z 5 * z 1369 * q4p - (Lit 1 2) * rf * z 3 * z 5 * z 1346 * q4p - (Lit 1 4) * rf * z 4 * z 5 * z 3536 - (z 3 * z 26 + z 4 * z 9) * z 3578 - (z 4 * z 9 + z 3 * z 6 * z 10) * z 639 - z 1364 * (z 3 * z 10 * q4p + z 4 * z 9 * q7p + z 4 * z 24 * q4p - z 3 * z 303) - z 449 * (z 3 * z 10 * q7p + z 4 * z 9 * q4p + z 3 * z 6 * z 10 * q4p - z 4 * z 3411) - z 453 * (z 3 * z 9 * q4p - z 4 * z 10 * q7p - z 4 * z 6 * z 10 * q4p - z 3 * z 3411) - (Lit 1 2) * rf * z 1350 * (z 4 * z 10 * q4p - z 3 * z 9 * q7p - z 3 * z 24 * q4p - z 4 * z 303));
  SZ 3580 (z 5 * z 3404 - z 6 * z 29 * z 1590 - z 6 * z 1342 * q5p);
  SZ 3581 (z 33 * z 3580 + z 410 * z 3528 + z 1344 * z 646 + z 5 * z 1342 * z 580);
  SZ 3582 (((Lit 3 2) * z 415 * z 1345 * z 581 + z 35 * ((Lit 2 1) * z 35 * z 3581 - z 415 * z 3530 - z 1345 * z 647 - z 1355 * z 581)) / (PowH (z 35) 2));
  SZ 3583 (((Lit 3 1) * z 34 * z 417 * z 1345 * z 581 / z 35 + z 36 * (z 34 * z 36 * z 3582 + z 36 * z 1343 * z 648 + z 36 * z 1356 * z 579 + (Lit 2 1) * z 36 * z 417 * z 3529 + (z 34 * z 417 * z 1345 * z 581 - (Lit 2 1) * z 34 * z 35 * z 417 * z 3530 - (Lit 2 1) * z 35 * z 417 * z 1343 * z 581 - (Lit 2 1) * z 35 * z 417 * z 1345 * z 579 - z 34 * z 35 * z 1345 * z 648 - z 34 * z 35 * z 1356 * z 581) / (PowH (z 35) 1))) / (PowN (z 36) 4));
  SZ 3584 (((Lit 2 1) * z 1345 * ((Lit 3 1) * z 33 * z 417 * z 581 / (PowH (z 35) 0) + z 36 * (z 36 * z 646 - (Lit 2 1) * z 417 * z 580 - z 410 * z 581 / (PowH (z 35) 0))) / (PowH (z 35) 0) + z 36 * ((Lit 2 1) * (z 33 * z 417 * z 1345 * z 581 - (Lit 2 1) * z 33 * z 35 * z 417 * z 3530 - (Lit 2 1) * z 35 * z 417 * z 1344 * z 581 - z 33 * z 35 * z 1345 * z 648 - z 33 * z 35 * z 1356 * z 581) / (PowH (z 35) 1) + z 36 * ((Lit 2 1) * z 33 * z 3582 + (Lit 2 1) * z 1344 * z 648 + (Lit 2 1) * z 1356 * z 580 + (Lit 4 1) * z 417 * z 3528 - (Lit 4 1) * z 36 * z 3580 - (z 410 * z 1345 * z 581 - (Lit 2 1) * z 35 * z 410 * z 3530 - (Lit 2 1) * z 5 * z 35 * z 1342 * z 581) / (PowH (z 35) 1)))) / (PowN (z 36) 4));
  SZ 3585 (z 441 * z 3416 + (Lit 1 4) * rf * z 28 * z 3584 + (Lit 1 2) * rf * z 32 * z 3583 + (Lit 1 2) * rf * z 1358 * z 268 - z 3 * z 6 * z 429 * z 1590 - (Lit 1 2) * rf * z 1348 * z 649 - (Lit 1 2) * rf * z 1357 * z 308);
  SZ 3586 (z 29 * z 3529 + z 34 * z 3404 + z 1342 * z 579 + z 1343 * z 300);
  SZ 3587 (((Lit 3 2) * z 414 * z 1345 * z 581 + z 35 * ((Lit 2 1) * z 35 * z 3586 - z 414 * z 3530 - z 1345 * z 652 - z 1370 * z 581)) / (PowH (z 35) 2));
  SZ 3588 (((Lit 3 1) * z 33 * z 419 * z 1345 * z 581 / z 35 + z 36 * (z 33 * z 36 * z 3587 + z 36 * z 1344 * z 653 + z 36 * z 1371 * z 580 + (Lit 2 1) * z 36 * z 419 * z 3528 + (z 33 * z 419 * z 1345 * z 581 - (Lit 2 1) * z 33 * z 35 * z 419 * z 3530 - (Lit 2 1) * z 35 * z 419 * z 1344 * z 581 - (Lit 2 1) * z 35 * z 419 * z 1345 * z 580 - z 33 * z 35 * z 1345 * z 653 - z 33 * z 35 * z 1371 * z 581) / (PowH (z 35) 1))) / (PowN (z 36) 4));
  SZ 3589 (((Lit 2 1) * z 1345 * (z 36 * (z 34 * z 653 + (Lit 2 1) * z 419 * z 579) + (z 29 * z 36 - (Lit 3 1) * z 34 * z 419) * z 581 / (PowH (z 35) 0)) / (PowH (z 35) 0) + z 36 * ((Lit 2 1) * z 36 * ((Lit 2 1) * z 36 * z 3404 - (Lit 2 1) * z 419 * z 3529 - z 34 * z 3587 - z 1343 * z 653 - z 1371 * z 579 - z 1345 * z 300 / (PowH (z 35) 0)) + (z 1345 * (z 29 * z 36 - (Lit 2 1) * z 34 * z 419) * z 581 - (Lit 2 1) * z 35 * (z 29 * z 36 - (Lit 2 1) * z 34 * z 419) * z 3530 - (Lit 2 1) * z 35 * (z 36 * z 1342 - (Lit 2 1) * z 419 * z 1343 - z 34 * z 1371) * z 581) / (PowH (z 35) 1))) / (PowN (z 36) 4));
  SZ 3590 ((Lit 1 4) * rf * z 32 * z 3589 - z 3 * z 6 * z 433 * z 1590 - z 445 * z 3416 - (Lit 1 2) * rf * z 28 * z 3588 - (Lit 1 2) * rf * z 1348 * z 655 - (Lit 1 2) * rf * z 1372 * z 268 - (Lit 1 2) * rf * z 1373 * z 308);
  SZ 3591 ((Lit 2 1) * z 27 * z 3529 + (Lit 2 1) * z 31 * z 3528 + (Lit 2 1) * z 34 * z 3419 + (Lit 2 1) * z 1339 * z 579 + (Lit 2 1) * z 1343 * z 310 + (Lit 2 1) * z 1344 * z 269 - (Lit 2 1) * z 4 * z 6 * z 33 * z 1590);
  SZ 3592 (((Lit 3 2) * z 413 * z 1345 * z 581 + z 35 * ((Lit 2 1) * z 35 * z 3591 - z 413 * z 3530 - z 1345 * z 657 - z 1375 * z 581)) / (PowH (z 35) 2));
  SZ 3593 (((Lit 3 1) * z 33 * z 422 * z 1345 * z 581 / z 35 + z 36 * (z 36 * ((Lit 4 1) * z 4 * z 6 * z 36 * z 1590 + z 33 * z 3592 + z 1344 * z 658 + z 1376 * z 580 + (Lit 2 1) * z 422 * z 3528 + (Lit 2 1) * z 1345 * z 269 / (PowH (z 35) 0)) + ((Lit 2 1) * z 35 * (z 31 * z 36 - z 33 * z 422) * z 3530 - z 35 * z 1345 * (z 33 * z 658 + (Lit 2 1) * z 422 * z 580) - z 1345 * (z 31 * z 36 - z 33 * z 422) * z 581 - z 35 * (z 33 * z 1376 + (Lit 2 1) * z 422 * z 1344 + (Lit 2 1) * z 31 * z 1345 / (PowH (z 35) 0)) * z 581) / (PowH (z 35) 1))) / (PowN (z 36) 4));
  SZ 3594 ((z 1345 * (z 36 * (z 34 * z 658 + (Lit 2 1) * z 422 * z 579) + (Lit 2 1) * (z 27 * z 36 - (Lit 3 2) * z 34 * z 422) * z 581 / (PowH (z 35) 0)) / (PowH (z 35) 0) + z 36 * (z 36 * ((Lit 4 1) * z 36 * z 3419 - (Lit 2 1) * z 422 * z 3529 - z 34 * z 3592 - z 1343 * z 658 - z 1376 * z 579 - (Lit 2 1) * z 1345 * z 310 / (PowH (z 35) 0)) + (z 1345 * (z 27 * z 36 - z 34 * z 422) * z 581 - (Lit 2 1) * z 35 * (z 27 * z 36 - z 34 * z 422) * z 3530 - z 35 * ((Lit 2 1) * z 36 * z 1339 - (Lit 2 1) * z 422 * z 1343 - z 34 * z 1376) * z 581) / (PowH (z 35) 1))) / (PowN (z 36) 4));
  SZ 3595 ((Lit 1 2) * z 442 * z 3416 + (Lit 1 4) * rf * z 32 * z 3594 - (Lit 1 2) * z 3 * z 6 * z 431 * z 1590 - (Lit 1 4) * rf * z 28 * z 3593 - (Lit 1 4) * rf * z 1348 * z 659 - (Lit 1 4) * rf * z 1377 * z 308 - (Lit 1 4) * rf * z 1378 * z 268);
  SZ 3596 (d1 * z 3 * z 6 * z 1590 + z 3 * z 6 * z 9 * z 449 * z 1590 + z 4 * z 6 * z 10 * z 451 * z 1590 + z 5 * z 10 * z 454 * q5p + z 6 * z 9 * z 454 * q7p + z 6 * z 10 * z 452 * q7p + z 6 * z 10 * z 1374 * q7p + z 3 * z 5 * z 9 * z 449 * q7p + z 3 * z 5 * z 9 * z 1364 * q4p + z 4 * z 5 * z 10 * z 451 * q7p + z 4 * z 6 * z 9 * z 451 * q5p + z 4 * z 6 * z 10 * z 453 * q5p + z 4 * z 6 * z 10 * z 1384 * q5p + (Lit 1 2) * rf * z 4 * z 6 * z 1346 * q4p + (Lit 1 2) * rf * z 3 * z 5 * z 10 * z 1350 * q7p + (Lit 1 2) * rf * z 3 * z 6 * z 9 * z 1350 * q5p + (Lit 1 2) * rf * z 4 * z 5 * z 9 * z 1350 * q4p + z 3585 + z 6 * z 10 * z 656 + z 4 * z 5 * z 9 * z 3573 + (Lit 1 2) * rf * z 3 * z 5 * z 10 * z 584 - z 3 * z 5 * z 448 * z 1590 - z 4 * z 5 * z 455 * z 1590 - z 5 * z 9 * z 454 * z 1590 - z 5 * z 10 * z 452 * z 1590 - z 4 * z 6 * z 9 * z 453 * z 1590 - z 3 * z 6 * z 1369 * q4p - z 4 * z 5 * z 1369 * q5p - z 5 * z 9 * z 452 * q5p - z 5 * z 9 * z 1374 * q5p - z 5 * z 10 * z 1379 * q5p - z 6 * z 9 * z 1379 * q7p - z 3 * z 5 * z 9 * z 451 * q4p - z 3 * z 5 * z 10 * z 453 * q4p - z 3 * z 5 * z 10 * z 1384 * q4p - z 3 * z 6 * z 10 * z 449 * q5p - z 4 * z 5 * z 9 * z 453 * q7p - z 4 * z 5 * z 9 * z 1384 * q7p - z 4 * z 5 * z 10 * z 449 * q4p - z 4 * z 5 * z 10 * z 1364 * q7p - z 4 * z 6 * z 9 * z 1364 * q5p - (Lit 1 2) * rf * z 3 * z 5 * z 1346 * q5p - z 4 * z 6 * z 3568 - z 6 * z 9 * z 661 - z 6 * z 9 * z 3590 - z 6 * z 10 * z 3595 - z 4 * z 5 * z 9 * z 644 - z 4 * z 5 * z 10 * z 639 - z 4 * z 5 * z 10 * z 3578 - (Lit 1 4) * rf * z 3 * z 6 * z 3536 - (Lit 1 4) * rf * z 3 * z 5 * z 9 * z 3531);
  SZ 3597 (z 6 * z 10 * z 454 * z 1590 + z 5 * z 10 * z 454 * q7p + z 6 * z 9 * z 454 * q5p + z 6 * z 10 * z 452 * q5p + z 6 * z 10 * z 1374 * q5p + (Lit 1 2) * rf * z 1350 * (z 3 * z 9 * q4p + z 3 * z 5 * z 10 * q5p + z 3 * z 6 * z 9 * q7p - z 4 * z 10 * q7p - z 4 * z 6 * z 10 * q4p) + z 449 * (z 3 * z 5 * z 10 * z 1590 + z 3 * z 5 * z 9 * q5p - z 3 * z 10 * q4p - z 4 * z 9 * q7p - z 3 * z 6 * z 10 * q7p - z 4 * z 6 * z 9 * q4p) + z 5 * z 9 * z 3595 + (z 3 * z 9 - z 4 * z 6 * z 10) * z 3573 + (Lit 1 4) * rf * (z 4 * z 9 + z 3 * z 6 * z 10) * z 3531 - z 6 * z 9 * z 452 * z 1590 - z 5 * z 9 * z 452 * q7p - z 5 * z 9 * z 1374 * q7p - z 5 * z 10 * z 1379 * q7p - z 6 * z 9 * z 1379 * q5p - z 1364 * (z 3 * z 10 * q7p + z 4 * z 9 * q4p + z 3 * z 6 * z 10 * q4p + z 4 * z 5 * z 10 * q5p + z 4 * z 6 * z 9 * q7p) - z 1384 * (z 3 * z 9 * q7p + z 3 * z 6 * z 9 * q4p + z 4 * z 5 * z 9 * q5p - z 4 * z 10 * q4p - z 4 * z 6 * z 10 * q7p) - z 453 * (z 4 * z 5 * z 10 * z 1590 + z 3 * z 9 * q7p + z 3 * z 6 * z 9 * q4p + z 4 * z 5 * z 9 * q5p - z 4 * z 10 * q4p - z 4 * z 6 * z 10 * q7p) - z 451 * (z 4 * z 5 * z 9 * z 1590 - z 3 * z 10 * q7p - z 4 * z 9 * q4p - z 3 * z 6 * z 10 * q4p - z 4 * z 5 * z 10 * q5p - z 4 * z 6 * z 9 * q7p) - z 5 * z 9 * z 656 - z 5 * z 10 * z 661 - z 5 * z 10 * z 3590 - (z 3 * z 10 + z 4 * z 6 * z 9) * z 639 - (z 3 * z 10 + z 4 * z 6 * z 9) * z 3578 - (z 3 * z 9 - z 4 * z 6 * z 10) * z 644 - (Lit 1 2) * rf * (z 4 * z 10 - z 3 * z 6 * z 9) * z 584);
  SZ 3598 (u4 * z 3579 + u5 * z 3596 + u7 * z 3597 + z 1590 * z 662);
  SZ 3599 (z 4 * z 6 * z 122 * z 1590 + z 27 * z 3520 + z 29 * z 3521 + z 233 * z 3419 + z 238 * z 310 + z 238 * z 3404 + z 1339 * z 571 + z 1342 * z 572 + z 1433 * z 300 - z 31 * z 3518);
  SZ 3600 (z 4 * z 6 * z 125 * z 1590 + z 27 * z 3525 + z 29 * z 3526 + z 234 * z 3419 + z 239 * z 310 + z 239 * z 3404 + z 1339 * z 576 + z 1342 * z 577 + z 1391 * z 300 - z 31 * z 3523);
  SZ 3601 (z 4 * z 6 * z 262 * z 1590 + z 257 * z 3419 + z 259 * z 3404 + (z 1341 + z 1347) * z 310 + (z 1349 + z 1351) * z 300 + z 27 * (z 3535 + z 3537) + z 29 * (z 3539 + z 3540) + z 1339 * (z 611 + z 612) + z 1342 * (z 614 + z 615) - z 31 * z 3533 - z 1353 * z 269);
  SZ 3602 (z 4 * z 6 * z 263 * z 1590 + z 256 * z 3419 + z 261 * z 3404 + z 1409 * z 300 + (z 1399 + z 1400) * z 310 + z 27 * (z 3542 + z 3543) + z 29 * (z 3547 + z 3548) + z 1339 * (z 597 + z 598) + z 1342 * (z 600 + z 601) + (z 1398 + d3 * z 1397) * z 269 - z 31 * (z 3544 - z 3545));
  SZ 3603 (z 4 * z 6 * z 264 * z 1590 + z 255 * z 3419 + z 260 * z 3404 + z 1424 * z 300 + (z 1416 + z 1417) * z 310 + z 27 * (z 3550 + z 3551) + z 29 * (z 3555 + z 3556) + z 1339 * (z 589 + z 590) + z 1342 * (z 592 + z 593) + (z 1415 + d3 * z 1414) * z 269 - z 31 * (z 3552 - z 3553));
  SZ 3604 (z 258 * z 3404 + (z 1444 + z 1447) * z 300 + z 29 * (z 3559 + z 3560) + z 1342 * (z 617 + z 618));
  SZ 3605 (z 254 * z 3419 + (Lit 1 2) * z 1339 * z 583 + (Lit 1 4) * rf * z 27 * z 83 * z 3536 + (Lit 1 4) * rf * z 31 * z 83 * z 3531 + (Lit 1 2) * rf * z 83 * z 1346 * z 310 + (Lit 1 2) * rf * z 83 * z 1350 * z 269 - z 4 * z 6 * z 250 * z 1590);
  SZ 3606 (u1 * z 3599 + u2 * z 3600 + u3 * z 3601 + u4 * z 3602 + u5 * z 3603 + u7 * z 3604 + u8 * z 3605 + z 1451 * z 621 + z 1518 * z 622 + z 1566 * z 626 + z 1590 * z 624 + z 1669 * z 623);
  SZ 3607 ((z 1437 * (z 525 * z 568 + z 478 * z 496 * z 620 - z 511 * z 553 - z 535 * z 664 - z 478 * z 528 * z 628) - z 494 * (z 525 * z 3517 + z 1559 * z 568 + z 478 * z 496 * z 3562 + z 478 * z 1389 * z 620 - z 511 * z 3563 - z 535 * z 3598 - z 1561 * z 553 - z 1562 * z 664 - z 478 * z 528 * z 3606 - z 478 * z 1432 * z 628)) / (PowN (z 494) 2));
  SZ 3608 (z 803 * z 1404 + z 808 * z 1402 + z 813 * z 1397 + z 818 * z 1404 + z 823 * z 1402 + z 834 * z 1407 + z 838 * z 1397 + z 844 * z 1406 + ie11 * z 74 * z 1419 + ie22 * z 77 * z 1414 + ie31 * z 74 * z 1418 + ie31 * z 80 * z 1419 + ie33 * z 80 * z 1418 + if11 * z 92 * z 1422 + if11 * z 97 * z 1421 + if22 * z 77 * z 1414 - me * (z 10 * z 143 * z 162 + z 10 * z 147 * z 160 - z 160 * z 3490 - z 162 * z 3350 - z 158 * z 140 * z 1414 - z 158 * z 141 * z 1397 - z 158 * z 167 * z 1397 - z 158 * z 168 * z 1414 - z 163 * z 164 * z 1397 - z 163 * z 165 * z 1414 - z 9 * z 143 * z 165 - z 9 * z 143 * z 3490 - z 9 * z 147 * z 164 - z 9 * z 147 * z 3350 - z 163 * z 10 * z 143 * z 1397 - z 163 * z 10 * z 147 * z 1414) - mf * (z 10 * z 143 * z 151 + z 10 * z 147 * z 149 - z 149 * z 1405 - z 151 * z 1420 - d2 * z 152 * z 1397 - d2 * z 153 * z 1414 - d3 * z 140 * z 1414 - d3 * z 141 * z 1397 - d3 * z 155 * z 1397 - d3 * z 156 * z 1414 - z 9 * z 143 * z 153 - z 9 * z 143 * z 1405 - z 9 * z 147 * z 152 - z 9 * z 147 * z 1420 - d2 * z 10 * z 143 * z 1397 - d2 * z 10 * z 147 * z 1414));
  SZ 3609 (z 3608 + z 538 * z 3353 + z 544 * z 3368 + z 547 * z 3367 + z 915 * z 1517 + if22 * z 83 * z 549 * z 1414 - z 541 * z 3351 - z 911 * z 1438 - z 920 * z 1563 - z 928 * z 1588 - z 934 * z 1666);
  SZ 3610 ((z 494 * z 536 * z 3598 + z 494 * z 1587 * z 664 - z 536 * z 1437 * z 664) / (PowN (z 494) 2));
  SZ 3611 (z 841 * z 1397 + z 547 * z 841 * z 1414 + z 43 * z 544 * z 841 * z 1340 - z 923 * z 1563 - z 931 * z 1588 - z 937 * z 1666);
  SZ 3612 ((z 1437 * (z 526 * z 568 + z 532 * z 628 - z 512 * z 553 - z 527 * z 620 - z 537 * z 664) - z 494 * (z 526 * z 3517 + z 532 * z 3606 + z 1652 * z 568 + z 1656 * z 628 - z 512 * z 3563 - z 527 * z 3562 - z 537 * z 3598 - z 1657 * z 553 - z 1658 * z 620 - z 1665 * z 664)) / (PowN (z 494) 2));
  SZ 3613 (me * (z 10 * z 121 * z 162 + z 163 * z 9 * z 120 * z 1397 - z 158 * z 122 * z 1397 - z 9 * z 120 * z 162 - z 9 * z 121 * z 165 - z 9 * z 121 * z 3490 - z 10 * z 120 * z 165 - z 10 * z 120 * z 3490 - z 163 * z 10 * z 121 * z 1397) + mf * (z 10 * z 121 * z 151 + d2 * z 9 * z 120 * z 1397 - d3 * z 122 * z 1397 - z 9 * z 120 * z 151 - z 9 * z 121 * z 153 - z 9 * z 121 * z 1405 - z 10 * z 120 * z 153 - z 10 * z 120 * z 1405 - d2 * z 10 * z 121 * z 1397));
  SZ 3614 (z 3613 + z 544 * z 3336 + z 547 * z 3353 + z 910 * z 1517 - z 909 * z 1438 - z 911 * z 1588 - z 912 * z 1563);
  SZ 3615 ((z 1437 * (z 519 * z 568 + z 487 * z 496 * z 620 - z 504 * z 553 - z 533 * z 664 - z 487 * z 528 * z 628) - z 494 * (z 519 * z 3517 + z 1396 * z 568 + z 487 * z 496 * z 3562 + z 487 * z 1389 * z 620 - z 504 * z 3563 - z 533 * z 3598 - z 1412 * z 553 - z 1430 * z 664 - z 487 * z 528 * z 3606 - z 487 * z 1432 * z 628)) / (PowN (z 494) 2));
  SZ 3616 ((- me) * (z 158 * z 125 * z 1397 + z 9 * z 123 * z 162 + z 10 * z 123 * z 165 + z 10 * z 123 * z 3490 + z 10 * z 124 * z 162 - z 9 * z 124 * z 165 - z 9 * z 124 * z 3490 - z 163 * z 9 * z 123 * z 1397 - z 163 * z 10 * z 124 * z 1397) - mf * (d3 * z 125 * z 1397 + z 9 * z 123 * z 151 + z 10 * z 123 * z 153 + z 10 * z 123 * z 1405 + z 10 * z 124 * z 151 - z 9 * z 124 * z 153 - z 9 * z 124 * z 1405 - d2 * z 9 * z 123 * z 1397 - d2 * z 10 * z 124 * z 1397));
  SZ 3617 (z 3616 + z 544 * z 3334 + z 547 * z 3351 + z 914 * z 1517 - z 910 * z 1438 - z 915 * z 1588 - z 916 * z 1563);
  SZ 3618 ((z 1437 * (z 523 * z 568 + z 482 * z 496 * z 620 - z 509 * z 553 - z 534 * z 664 - z 482 * z 528 * z 628) - z 494 * (z 523 * z 3517 + z 1516 * z 568 + z 482 * z 496 * z 3562 + z 482 * z 1389 * z 620 - z 509 * z 3563 - z 534 * z 3598 - z 1511 * z 553 - z 1513 * z 664 - z 482 * z 528 * z 3606 - z 482 * z 1432 * z 628)) / (PowN (z 494) 2));
  SZ 3619 (z 3507 + z 941 * z 3610 + z 947 * z 3618 + z 3509 * z 667 + z 3609 * z 668 + z 3611 * z 669 + z 3614 * z 665 - z 940 * z 3607 - z 944 * z 3612 - z 946 * z 3615 - z 3617 * z 666);
  SZ 3620 (z 1402 + z 547 * z 1418 - z 52 * z 1563 - z 78 * z 1588);
  SZ 3621 ((- z 48) * z 1588 - z 52 * z 1563);
  SZ 3622 (z 183 * z 1517 - z 182 * z 1438 - z 210 * z 1588 - z 211 * z 1563);
  SZ 3623 (z 188 * z 1517 - z 187 * z 1438 - z 213 * z 1588 - z 214 * z 1563);
  SZ 3624 (z 193 * z 1517 - z 192 * z 1438 - z 216 * z 1588 - z 217 * z 1563);
  SZ 3625 (z 121 * z 1438 + z 124 * z 1517 - z 128 * z 1588 - z 130 * z 1563);
  SZ 3626 (z 125 * z 1517 + z 132 * z 1588 - z 122 * z 1438 - z 138 * z 1563);
  SZ 3627 (z 123 * z 1517 - z 120 * z 1438 - z 135 * z 1588 - z 137 * z 1563);
  SZ 3628 ((- z 110) * z 1563 - z 111 * z 1588);
  SZ 3629 (z 123 * z 1517 + z 126 * z 1563 - z 120 * z 1438);
  SZ 3630 (z 121 * z 1438 + z 124 * z 1517 - z 143 * z 1588 - z 145 * z 1563);
  SZ 3631 (z 125 * z 1517 + z 141 * z 1588 - z 122 * z 1438 - z 146 * z 1563);
  SZ 3632 (z 167 * z 1588 + z 169 * z 1563 - z 158 * z 1397 - z 158 * z 547 * z 1414 - z 158 * z 43 * z 544 * z 1340);
  SZ 3633 (z 163 * z 1397 + z 163 * z 547 * z 1414 + z 163 * z 43 * z 544 * z 1340 - z 164 * z 1588 - z 166 * z 1563);
  SZ 3634 (z 3490 + z 547 * z 3350 - z 159 * z 1563 - z 160 * z 1588 - z 544 * z 3333);
  SZ 3635 (z 9 * z 42 - z 4 * z 10);
  SZ 3636 (z 155 * z 1588 + z 157 * z 1563 - d3 * z 1397 - d3 * z 547 * z 1414 - d3 * z 43 * z 544 * z 1340);
  SZ 3637 (d2 * z 1397 + d2 * z 547 * z 1414 + d2 * z 43 * z 544 * z 1340 - z 152 * z 1588 - z 154 * z 1563);
  SZ 3638 (z 1405 + z 547 * z 1420 - z 148 * z 1563 - z 149 * z 1588 - d2 * z 43 * z 544 * z 1348);
  SZ 3639 (T7 * z 3620 + T4 * z 6 * z 3621 + T4 * z 5 * z 50 * z 1563 + z 406 * (z 106 * z 3622 + z 107 * z 3623 + z 108 * z 3624) + z 402 * (z 4 * z 3625 + z 32 * z 3626 - z 42 * z 3627) + z 3628 * z 408 + z 14 * z 3621 * z 409 + z 13 * z 50 * z 1563 * z 409 - T7 * z 3621 - z 404 * (z 42 * z 3629 - z 4 * z 3630 - z 32 * z 3631 - z 32 * z 3632 - z 717 * z 734 - z 718 * z 3635 - z 733 * z 3633 - z 734 * z 3634) - z 405 * (z 42 * z 3629 - z 4 * z 3630 - z 32 * z 3631 - z 32 * z 3636 - z 733 * z 3637 - z 734 * z 735 - z 734 * z 3638 - z 736 * z 3635));
  SZ 3640 ((- z 921) * z 1563 - z 929 * z 1588);
  SZ 3641 (z 3640 + z 542 * z 3617 + z 947 * z 1512 - z 539 * z 3614 - z 545 * z 3509 - z 550 * z 3611 - z 940 * z 1564 - z 944 * z 1668 - z 946 * z 1439);
  SZ 3642 (z 907 * z 1517 - z 906 * z 1438 - z 924 * z 1563 - z 932 * z 1588);
  SZ 3643 (z 950 * z 3346 + z 960 * z 3641 - z 945 * z 3344 - z 964 * z 3642);
  SZ 3644 (z 805 * z 1404 + z 810 * z 1402 + z 819 * z 1404 + z 824 * z 1402 + z 836 * z 1407 + z 845 * z 1406 + ie11 * z 74 * z 1443 + ie31 * z 74 * z 1441 + ie31 * z 80 * z 1443 + ie33 * z 80 * z 1441 + if11 * z 92 * z 1446 + if11 * z 97 * z 1445 + me * z 3348 * (z 162 + z 9 * z 147) + mf * z 1444 * (z 151 + z 9 * z 147) + me * z 161 * (z 3490 - z 10 * z 147) + mf * z 150 * (z 1405 - z 10 * z 147));
  SZ 3645 (z 3644 + z 544 * z 3364 + z 547 * z 3363 + z 899 * z 1438 + z 900 * z 1517 - z 538 * z 3354 - z 541 * z 3349 - z 922 * z 1563 - z 930 * z 1588);
  SZ 3646 (z 3645 + z 543 * z 3617 + z 548 * z 3609 + z 551 * z 3611 + z 940 * z 1565 + z 946 * z 1450 - z 540 * z 3614 - z 546 * z 3509 - z 941 * z 1589 - z 944 * z 1667 - z 947 * z 1514);
  SZ 3647 (z 950 * z 3373 + z 965 * z 3641 - z 951 * z 3344 - z 964 * z 3646);
  SZ 3648 (z 951 * z 3346 + z 960 * z 3646 - z 945 * z 3373 - z 965 * z 3642);
  SZ 3649 (z 983 * z 3643 + z 997 * z 3332 - z 905 * z 3647 - z 982 * z 3648 - z 999 * z 3375);
  SZ 3650 (z 75 * z 3430 + z 79 * z 3439 + z 93 * z 3446 + z 96 * z 3452 + z 1441 * z 812 + z 1441 * z 826 + z 1441 * z 828 + z 1443 * z 807 + z 1443 * z 821 + z 1443 * z 829 + z 1445 * z 847 + z 1445 * z 848 + z 1446 * z 837 + z 1446 * z 850 + ie11 * z 75 * z 3417 + ie31 * z 75 * z 3425 + ie31 * z 79 * z 3417 + ie33 * z 79 * z 3425 + if11 * z 93 * z 3444 + if11 * z 96 * z 3451 + me * z 3348 * (z 384 + z 9 * z 373 - z 10 * z 372) + mf * z 1444 * (z 378 + z 9 * z 373 - z 10 * z 372) + me * z 161 * (z 3495 + z 9 * z 3493 - z 9 * z 372 - z 10 * z 373 - z 10 * z 3492) + mf * z 150 * (z 3499 + z 9 * z 3493 - z 9 * z 372 - z 10 * z 373 - z 10 * z 3492));
  SZ 3651 (z 3650 + z 543 * z 3506 + z 548 * z 3504 + z 551 * z 3505 + z 1450 * z 913 + z 1565 * z 925 - z 540 * z 3502 - z 546 * z 3503 - z 1514 * z 917 - z 1589 * z 933 - z 1667 * z 938);
  SZ 3652 (z 3651 + z 967 * z 3610 + z 972 * z 3618 + z 3355 * z 665 + z 3358 * z 667 + z 3359 * z 669 + z 3369 * z 668 - z 970 * z 3607 - z 971 * z 3615 - z 975 * z 3612 - z 3352 * z 666);
  SZ 3653 (z 1441 + z 52 * z 1565 + z 548 * z 1418 - z 78 * z 1589);
  SZ 3654 (z 52 * z 1565 - z 48 * z 1589);
  SZ 3655 (z 182 * z 1450 + z 211 * z 1565 - z 183 * z 1514 - z 210 * z 1589);
  SZ 3656 (z 187 * z 1450 + z 214 * z 1565 - z 188 * z 1514 - z 213 * z 1589);
  SZ 3657 (z 192 * z 1450 + z 217 * z 1565 - z 193 * z 1514 - z 216 * z 1589);
  SZ 3658 (z 130 * z 1565 - z 121 * z 1450 - z 124 * z 1514 - z 128 * z 1589);
  SZ 3659 (z 122 * z 1450 + z 132 * z 1589 + z 138 * z 1565 - z 125 * z 1514);
  SZ 3660 (z 120 * z 1450 + z 137 * z 1565 - z 123 * z 1514 - z 135 * z 1589);
  SZ 3661 (z 110 * z 1565 - z 111 * z 1589);
  SZ 3662 (z 120 * z 1450 - z 123 * z 1514 - z 126 * z 1565);
  SZ 3663 (z 145 * z 1565 - z 121 * z 1450 - z 124 * z 1514 - z 143 * z 1589);
  SZ 3664 (z 122 * z 1450 + z 141 * z 1589 + z 146 * z 1565 - z 125 * z 1514);
  SZ 3665 (z 167 * z 1589 + z 158 * z 43 * z 546 * z 1340 - z 169 * z 1565 - z 158 * z 548 * z 1414);
  SZ 3666 (z 3348 + z 159 * z 1565 + z 546 * z 3333 + z 548 * z 3350 - z 160 * z 1589);
  SZ 3667 (z 166 * z 1565 + z 163 * z 548 * z 1414 - z 164 * z 1589 - z 163 * z 43 * z 546 * z 1340);
  SZ 3668 (z 155 * z 1589 + d3 * z 43 * z 546 * z 1340 - z 157 * z 1565 - d3 * z 548 * z 1414);
  SZ 3669 (z 154 * z 1565 + d2 * z 548 * z 1414 - z 152 * z 1589 - d2 * z 43 * z 546 * z 1340);
  SZ 3670 (z 1444 + z 148 * z 1565 + z 548 * z 1420 + d2 * z 43 * z 546 * z 1348 - z 149 * z 1589);
  SZ 3671 (T7 * z 3653 + T4 * z 6 * z 3654 + z 406 * (z 106 * z 3655 + z 107 * z 3656 + z 108 * z 3657) + z 402 * (z 4 * z 3658 + z 32 * z 3659 - z 42 * z 3660) + z 3661 * z 408 + z 14 * z 3654 * z 409 - T7 * z 3654 - T4 * z 5 * z 50 * z 1565 - z 404 * (z 42 * z 3662 - z 4 * z 3663 - z 32 * z 3664 - z 32 * z 3665 - z 727 * z 3635 - z 731 * z 734 - z 733 * z 3667 - z 734 * z 3666) - z 405 * (z 42 * z 3662 - z 4 * z 3663 - z 32 * z 3664 - z 32 * z 3668 - z 733 * z 3669 - z 734 * z 742 - z 734 * z 3670 - z 741 * z 3635) - z 13 * z 50 * z 1565 * z 409);
  SZ 3672 (z 950 * z 3345 + z 973 * z 3641 - z 945 * z 3360 - z 978 * z 3642);
  SZ 3673 (z 950 * z 3370 + z 979 * z 3641 - z 951 * z 3360 - z 978 * z 3646);
  SZ 3674 (z 951 * z 3345 + z 973 * z 3646 - z 945 * z 3370 - z 979 * z 3642);
  SZ 3675 (z 983 * z 3672 + z 1013 * z 3332 - z 905 * z 3673 - z 982 * z 3674 - z 1014 * z 3375);
  SZ 3676 (z 53 * (z 3393 + id22 * z 3388));
  SZ 3677 (z 3676 + z 542 * z 3506 + z 1512 * z 917 - z 539 * z 3502 - z 545 * z 3503 - z 550 * z 3505 - z 1439 * z 913 - z 1564 * z 925 - z 1668 * z 938);
  SZ 3678 (z 3677 + z 954 * z 3610 + z 958 * z 3618 + z 3337 * z 665 + z 3342 * z 667 + z 3343 * z 669 + z 3372 * z 668 - z 955 * z 3607 - z 957 * z 3615 - z 961 * z 3612 - z 3335 * z 666);
  SZ 3679 (z 183 * z 1512 - z 182 * z 1439 - z 211 * z 1564);
  SZ 3680 (z 188 * z 1512 - z 187 * z 1439 - z 214 * z 1564);
  SZ 3681 (z 193 * z 1512 - z 192 * z 1439 - z 217 * z 1564);
  SZ 3682 (z 121 * z 1439 + z 124 * z 1512 - z 130 * z 1564);
  SZ 3683 (z 125 * z 1512 - z 122 * z 1439 - z 138 * z 1564);
  SZ 3684 (z 123 * z 1512 - z 120 * z 1439 - z 137 * z 1564);
  SZ 3685 (z 121 * z 1439 + z 124 * z 1512 - z 145 * z 1564);
  SZ 3686 (z 125 * z 1512 - z 122 * z 1439 - z 146 * z 1564);
  SZ 3687 (z 169 * z 1564 + z 158 * z 43 * z 545 * z 1340);
  SZ 3688 (z 123 * z 1512 + z 126 * z 1564 - z 120 * z 1439);
  SZ 3689 (z 166 * z 1564 + z 163 * z 43 * z 545 * z 1340);
  SZ 3690 (z 159 * z 1564 - z 545 * z 3333);
  SZ 3691 (z 157 * z 1564 + d3 * z 43 * z 545 * z 1340);
  SZ 3692 (z 154 * z 1564 + d2 * z 43 * z 545 * z 1340);
  SZ 3693 (z 148 * z 1564 - d2 * z 43 * z 545 * z 1348);
  SZ 3694 (T4 * z 5 * z 50 * z 1564 + z 406 * (z 106 * z 3679 + z 107 * z 3680 + z 108 * z 3681) + z 402 * (z 4 * z 3682 + z 32 * z 3683 - z 42 * z 3684) + z 404 * (z 4 * z 3685 + z 32 * z 3686 + z 32 * z 3687 - z 42 * z 3688 - z 724 * z 734 - z 725 * z 3635 - z 733 * z 3689 - z 734 * z 3690) + z 405 * (z 4 * z 3685 + z 32 * z 3686 + z 32 * z 3691 - z 42 * z 3688 - z 733 * z 3692 - z 734 * z 738 - z 734 * z 3693 - z 739 * z 3635) + z 13 * z 50 * z 1564 * z 409 - T4 * z 6 * z 52 * z 1564 - z 110 * z 1564 * z 408 - z 14 * z 52 * z 1564 * z 409);
  SZ 3695 (z 979 * z 3643 + z 997 * z 3370 - z 973 * z 3647 - z 978 * z 3648 - z 995 * z 3345 - z 999 * z 3360);
  SZ 3696 (z 98 * z 3463 + z 99 * z 3468 + ig11 * z 98 * z 3455 + ig22 * z 99 * z 3466 + ig31 * z 98 * z 3458 - mg * (z 200 * z 3482 + z 201 * z 3484 - z 205 * z 3477));
  SZ 3697 (z 3696 + z 903 * z 3610 + z 907 * z 3618 - z 902 * z 3607 - z 906 * z 3615);
  SZ 3698 (z 804 * z 1404 + z 809 * z 1402 + z 814 * z 1397 + z 820 * z 1404 + z 825 * z 1402 + z 835 * z 1407 + z 839 * z 1397 + z 846 * z 1406 + ie11 * z 74 * z 1404 + ie22 * z 77 * z 1397 + ie31 * z 74 * z 1402 + ie31 * z 80 * z 1404 + ie33 * z 80 * z 1402 + if11 * z 92 * z 1407 + if11 * z 97 * z 1406 + if22 * z 77 * z 1397 - (Lit 2 1) * me * (z 10 * z 147 * z 162 - z 162 * z 3490 - z 158 * z 140 * z 1397 - z 158 * z 168 * z 1397 - z 163 * z 165 * z 1397 - z 9 * z 147 * z 165 - z 9 * z 147 * z 3490 - z 163 * z 10 * z 147 * z 1397) - (Lit 2 1) * mf * (z 10 * z 147 * z 151 - z 151 * z 1405 - d2 * z 153 * z 1397 - d3 * z 140 * z 1397 - d3 * z 156 * z 1397 - z 9 * z 147 * z 153 - z 9 * z 147 * z 1405 - d2 * z 10 * z 147 * z 1397));
  SZ 3699 (ie11 * z 81 * z 1404 + ie22 * z 82 * z 1397 + ie31 * z 52 * z 1404 + ie31 * z 81 * z 1402 + ie33 * z 52 * z 1402 + if11 * z 90 * z 1407 + if11 * z 94 * z 1406 + if22 * z 82 * z 1397 + z 43 * z 804 * z 1348 + z 43 * z 814 * z 1340 + z 43 * z 820 * z 1348 + z 43 * z 839 * z 1340 + z 11 * z 43 * z 835 * z 1348 + z 12 * z 43 * z 846 * z 1348 - me * (z 162 * z 3333 + z 158 * z 146 * z 1397 + z 9 * z 147 * z 3333 + z 10 * z 145 * z 162 + z 10 * z 147 * z 159 + z 163 * z 9 * z 126 * z 1397 - z 159 * z 3490 - z 158 * z 169 * z 1397 - z 163 * z 166 * z 1397 - z 9 * z 126 * z 162 - z 9 * z 145 * z 165 - z 9 * z 145 * z 3490 - z 9 * z 147 * z 166 - z 10 * z 126 * z 165 - z 10 * z 126 * z 3490 - z 158 * z 43 * z 140 * z 1340 - z 158 * z 43 * z 168 * z 1340 - z 163 * z 10 * z 145 * z 1397 - z 163 * z 43 * z 165 * z 1340 - z 163 * z 10 * z 43 * z 147 * z 1340) - mf * (d3 * z 146 * z 1397 + z 10 * z 145 * z 151 + z 10 * z 147 * z 148 + d2 * z 9 * z 126 * z 1397 + d2 * z 43 * z 151 * z 1348 + d2 * z 9 * z 43 * z 147 * z 1348 - z 148 * z 1405 - d2 * z 154 * z 1397 - d3 * z 157 * z 1397 - z 9 * z 126 * z 151 - z 9 * z 145 * z 153 - z 9 * z 145 * z 1405 - z 9 * z 147 * z 154 - z 10 * z 126 * z 153 - z 10 * z 126 * z 1405 - d2 * z 10 * z 145 * z 1397 - d2 * z 43 * z 153 * z 1340 - d3 * z 43 * z 140 * z 1340 - d3 * z 43 * z 156 * z 1340 - d2 * z 10 * z 43 * z 147 * z 1340));
  SZ 3700 (z 804 * z 1419 + z 809 * z 1418 + z 814 * z 1414 + z 820 * z 1419 + z 825 * z 1418 + z 835 * z 1422 + z 839 * z 1414 + z 846 * z 1421 + ie11 * z 73 * z 1404 + ie22 * z 76 * z 1397 + ie31 * z 73 * z 1402 + ie31 * z 78 * z 1404 + ie33 * z 78 * z 1402 + if11 * z 91 * z 1407 + if11 * z 95 * z 1406 + if22 * z 76 * z 1397 - me * (z 10 * z 143 * z 162 + z 10 * z 147 * z 160 - z 160 * z 3490 - z 162 * z 3350 - z 158 * z 140 * z 1414 - z 158 * z 141 * z 1397 - z 158 * z 167 * z 1397 - z 158 * z 168 * z 1414 - z 163 * z 164 * z 1397 - z 163 * z 165 * z 1414 - z 9 * z 143 * z 165 - z 9 * z 143 * z 3490 - z 9 * z 147 * z 164 - z 9 * z 147 * z 3350 - z 163 * z 10 * z 143 * z 1397 - z 163 * z 10 * z 147 * z 1414) - mf * (z 10 * z 143 * z 151 + z 10 * z 147 * z 149 - z 149 * z 1405 - z 151 * z 1420 - d2 * z 152 * z 1397 - d2 * z 153 * z 1414 - d3 * z 140 * z 1414 - d3 * z 141 * z 1397 - d3 * z 155 * z 1397 - d3 * z 156 * z 1414 - z 9 * z 143 * z 153 - z 9 * z 143 * z 1405 - z 9 * z 147 * z 152 - z 9 * z 147 * z 1420 - d2 * z 10 * z 143 * z 1397 - d2 * z 10 * z 147 * z 1414));
  SZ 3701 (z 3698 + z 538 * z 3613 + z 544 * z 3699 + z 547 * z 3700 + z 888 * z 1517 + if22 * z 83 * z 549 * z 1397 - z 541 * z 3616 - z 887 * z 1438 - z 918 * z 1563 - z 926 * z 1588 - z 935 * z 1666);
  SZ 3702 (z 3701 + z 538 * z 3614 + z 544 * z 3509 + z 547 * z 3609 + z 549 * z 3611 + z 947 * z 1517 - z 541 * z 3617 - z 940 * z 1563 - z 941 * z 1588 - z 944 * z 1666 - z 946 * z 1438);
  SZ 3703 (z 542 * z 3616 + z 888 * z 1512 - z 539 * z 3613 - z 545 * z 3699 - z 887 * z 1439 - z 918 * z 1564 - z 935 * z 1668 - if22 * z 83 * z 550 * z 1397);
  SZ 3704 (z 3703 + z 538 * z 3337 + z 544 * z 3342 + z 547 * z 3372 + z 549 * z 3343 + z 958 * z 1517 - z 541 * z 3335 - z 954 * z 1588 - z 955 * z 1563 - z 957 * z 1438 - z 961 * z 1666);
  SZ 3705 (z 949 * z 3344 + z 964 * z 3702 - z 950 * z 3704 - z 963 * z 3641);
  SZ 3706 (z 905 * z 3370 - z 973 * z 3332 - z 983 * z 3345);
  SZ 3707 (z 949 * z 3346 + z 960 * z 3702 - z 945 * z 3704 - z 963 * z 3642);
  SZ 3708 (z 978 * z 3332 + z 983 * z 3360 - z 979 * z 3375 - z 982 * z 3370);
  SZ 3709 (z 804 * z 1443 + z 809 * z 1441 + z 820 * z 1443 + z 825 * z 1441 + z 835 * z 1446 + z 846 * z 1445 + ie11 * z 75 * z 1404 + ie31 * z 75 * z 1402 + ie31 * z 79 * z 1404 + ie33 * z 79 * z 1402 + if11 * z 93 * z 1407 + if11 * z 96 * z 1406 + me * z 3348 * (z 162 + z 9 * z 147) + mf * z 1444 * (z 151 + z 9 * z 147) + me * z 161 * (z 3490 - z 10 * z 147) + mf * z 150 * (z 1405 - z 10 * z 147));
  SZ 3710 (z 3709 + z 543 * z 3616 + z 548 * z 3700 + z 887 * z 1450 + z 918 * z 1565 + if22 * z 83 * z 551 * z 1397 - z 540 * z 3613 - z 546 * z 3699 - z 888 * z 1514 - z 926 * z 1589 - z 935 * z 1667);
  SZ 3711 (z 3710 + z 538 * z 3355 + z 544 * z 3358 + z 547 * z 3369 + z 549 * z 3359 + z 972 * z 1517 - z 541 * z 3352 - z 967 * z 1588 - z 970 * z 1563 - z 971 * z 1438 - z 975 * z 1666);
  SZ 3712 (z 907 * z 1517 - z 902 * z 1563 - z 903 * z 1588 - z 906 * z 1438);
  SZ 3713 (z 905 * z 3711 - z 973 * z 3712 - z 981 * z 3345);
  SZ 3714 (z 977 * z 3375 + z 982 * z 3711 - z 978 * z 3712 - z 981 * z 3360);
  SZ 3715 (z 949 * z 3373 + z 965 * z 3702 - z 951 * z 3704 - z 963 * z 3646);
  SZ 3716 (z 905 * z 3360 - z 973 * z 3375 - z 982 * z 3345);
  SZ 3717 (z 977 * z 3332 + z 983 * z 3711 - z 979 * z 3712 - z 981 * z 3370);
  SZ 3718 (z 989 * z 3706 + z 990 * z 3705 + z 993 * z 3708 + z 994 * z 3707 + z 995 * z 3713 + z 996 * z 3647 + z 999 * z 3714 + z 1000 * z 3648 - z 991 * z 3716 - z 992 * z 3715 - z 997 * z 3717 - z 998 * z 3643);
  SZ 3719 ((z 3718 * (z 1005 * z 985 + z 1022 * z 987 - z 1015 * z 986 - z 1026 * z 988) - z 1001 * (z 3377 * z 985 + z 3649 * z 987 + z 1015 * (z 3694 - z 3678) - z 1026 * z 3697 - z 3675 * z 986 - z 3695 * z 988 - z 1005 * (z 3639 - z 3619) - z 1022 * (z 3671 - z 3652))) / (PowN (z 1001) 2));
  SZ 3720 (z 902 * z 1569 + z 906 * z 1467 - z 903 * z 1592 - z 907 * z 1522);
  SZ 3721 (z 914 * z 1520 + z 916 * z 1568 - z 910 * z 1464);
  SZ 3722 (z 910 * z 1520 + z 912 * z 1568 - z 909 * z 1464);
  SZ 3723 (z 43 * (z 88 * z 843 + z 833 * z 1452 + if11 * z 88 * z 94 + if11 * z 90 * z 1452));
  SZ 3724 (z 916 * z 1520 + z 919 * z 1568 + z 936 * z 1682 - z 545 * z 3723 - z 912 * z 1464);
  SZ 3725 (z 923 * z 1568 + z 937 * z 1682);
  SZ 3726 (z 542 * z 3721 + z 921 * z 1568 + z 955 * z 1568 + z 958 * z 1520 + z 961 * z 1682 - z 539 * z 3722 - z 545 * z 3724 - z 550 * z 3725 - z 957 * z 1464);
  SZ 3727 (z 906 * z 1467 + z 924 * z 1569 - z 907 * z 1522 - z 932 * z 1592);
  SZ 3728 (z 907 * z 1520 + z 924 * z 1568 - z 906 * z 1464);
  SZ 3729 (z 921 * z 1569 - z 929 * z 1592);
  SZ 3730 (z 910 * z 1467 + z 916 * z 1569 - z 914 * z 1522 - z 915 * z 1592);
  SZ 3731 (z 909 * z 1467 + z 912 * z 1569 - z 910 * z 1522 - z 911 * z 1592);
  SZ 3732 (z 93 * z 843 + z 833 * z 1465 + if11 * z 43 * z 88 * z 96 + if11 * z 43 * z 93 * z 1452);
  SZ 3733 (z 91 * z 843 + z 833 * z 1458 + if11 * z 43 * z 88 * z 95 + if11 * z 43 * z 91 * z 1452);
  SZ 3734 (z 3732 + z 548 * z 3733 + z 912 * z 1467 + z 919 * z 1569 - z 546 * z 3723 - z 916 * z 1522 - z 927 * z 1592 - z 936 * z 1681);
  SZ 3735 (z 923 * z 1569 - z 931 * z 1592 - z 937 * z 1681);
  SZ 3736 (z 3729 + z 542 * z 3730 + z 970 * z 1568 + z 972 * z 1520 + z 975 * z 1682 - z 539 * z 3731 - z 545 * z 3734 - z 550 * z 3735 - z 971 * z 1464);
  SZ 3737 (z 964 * z 3727 + z 973 * z 3726 - z 960 * z 3736 - z 978 * z 3728);
  SZ 3738 (z 93 * z 845 + z 836 * z 1465 + if11 * z 93 * z 96 + if11 * z 93 * z 1465);
  SZ 3739 (z 91 * z 845 + z 836 * z 1458 + if11 * z 91 * z 1465 + if11 * z 93 * z 95);
  SZ 3740 (if11 * z 90 * z 1465 + if11 * z 93 * z 94 + z 43 * z 88 * z 845 + z 43 * z 836 * z 1452);
  SZ 3741 (z 3738 + z 548 * z 3739 + z 922 * z 1569 - z 546 * z 3740 - z 899 * z 1467 - z 900 * z 1522 - z 930 * z 1592);
  SZ 3742 (z 93 * z 844 + z 834 * z 1465 + if11 * z 91 * z 96 + if11 * z 93 * z 1458);
  SZ 3743 (z 91 * z 844 + z 834 * z 1458 + if11 * z 91 * z 95 + if11 * z 91 * z 1458);
  SZ 3744 (if11 * z 90 * z 1458 + if11 * z 91 * z 94 + z 43 * z 88 * z 844 + z 43 * z 834 * z 1452);
  SZ 3745 (z 3742 + z 548 * z 3743 + z 911 * z 1467 + z 920 * z 1569 - z 546 * z 3744 - z 915 * z 1522 - z 928 * z 1592 - z 934 * z 1681);
  SZ 3746 (z 3741 + z 543 * z 3730 + z 548 * z 3745 + z 551 * z 3735 + z 970 * z 1569 + z 971 * z 1467 - z 540 * z 3731 - z 546 * z 3734 - z 967 * z 1592 - z 972 * z 1522 - z 975 * z 1681);
  SZ 3747 (z 899 * z 1464 + z 900 * z 1520 + z 922 * z 1568 - z 545 * z 3740);
  SZ 3748 (z 915 * z 1520 + z 920 * z 1568 + z 934 * z 1682 - z 545 * z 3744 - z 911 * z 1464);
  SZ 3749 (z 3747 + z 543 * z 3721 + z 548 * z 3748 + z 551 * z 3725 + z 955 * z 1569 + z 957 * z 1467 - z 540 * z 3722 - z 546 * z 3724 - z 954 * z 1592 - z 958 * z 1522 - z 961 * z 1681);
  SZ 3750 (z 964 * z 3746 + z 979 * z 3726 - z 965 * z 3736 - z 978 * z 3749);
  SZ 3751 (z 902 * z 1568 + z 907 * z 1520 - z 906 * z 1464);
  SZ 3752 (z 965 * z 3727 + z 973 * z 3749 - z 960 * z 3746 - z 979 * z 3728);
  SZ 3753 (z 983 * z 3737 + z 1003 * z 3720 - z 905 * z 3750 - z 982 * z 3752 - z 1004 * z 3751);
  SZ 3754 (z 6 * ((PowN (z 3) 2) + (PowN (z 4) 2)) * z 1593);
  SZ 3755 ((- z 3754) * q4p - z 3 * z 5 * z 43 * z 1593 * q3p - z 43 * z 1570 * z 271);
  SZ 3756 (z 5 * ((PowN (z 3) 2) + (PowN (z 4) 2)) * z 1593);
  SZ 3757 (z 3756 * q4p + z 1593 * z 278 + z 43 * z 1570 * z 268 - z 3 * z 6 * z 43 * z 1593 * q3p);
  SZ 3758 (z 47 * z 1593 + z 51 * z 1570)].
(* [_mooreriderlean2012.py:8146-8677] *)
Definition chunk16 : list stmt := [
  SZ 3759 (z 48 * z 1593 + z 52 * z 1570);
  SZ 3760 (ic33 * z 3759 - ic31 * z 50 * z 1570);
  SZ 3761 (z 3758 * z 758 + z 3760 * z 266 - z 3759 * z 759 - ic22 * z 3758 * z 267);
  SZ 3762 ((z 3 * z 5 * z 31 + z 3 * z 6 * z 41 - z 4 * z 5 * z 32 - z 4 * z 6 * z 42) * z 1593);
  SZ 3763 (z 5 * (z 6 - z 3 * z 42 - z 4 * z 41) * z 1593);
  SZ 3764 (z 3762 * q4p + z 1570 * z 276 + z 1593 * z 275 - (Lit 2 1) * z 3763 * q5p);
  SZ 3765 (ic31 * z 3759 - ic11 * z 50 * z 1570);
  SZ 3766 (z 3759 * z 757 + z 3765 * z 267 + z 50 * z 1570 * z 758 - z 3760 * z 265);
  SZ 3767 (z 64 * z 1570 + z 65 * z 1593);
  SZ 3768 (z 61 * z 1570 - z 62 * z 1593);
  SZ 3769 (z 3767 * z 781 + id11 * z 3768 * z 283 - z 3768 * z 783 - id11 * z 3767 * z 281);
  SZ 3770 (ic22 * z 3758 * z 265 - z 3758 * z 757 - z 3765 * z 266 - z 50 * z 1570 * z 759);
  SZ 3771 ((- z 7) * z 3754 - z 8 * z 3756);
  SZ 3772 (z 3 * (z 5 * z 7 - z 6 * z 8) * z 1593);
  SZ 3773 (z 3771 * q4p + z 43 * z 1570 * z 285 - z 43 * z 3772 * q3p - z 1593 * z 286);
  SZ 3774 (z 3758 * z 783 + id11 * z 3767 * z 282 - z 3767 * z 782 - id22 * z 3758 * z 283);
  SZ 3775 (z 7 * z 3756 - z 8 * z 3754);
  SZ 3776 (z 3 * (z 5 * z 8 + z 6 * z 7) * z 1593);
  SZ 3777 (z 3775 * q4p + z 1593 * z 290 + z 43 * z 1570 * z 289 - z 43 * z 3776 * q3p);
  SZ 3778 (z 3768 * z 782 + id22 * z 3758 * z 281 - z 3758 * z 781 - id11 * z 3768 * z 282);
  SZ 3779 (z 4 * z 5 * z 10 * z 1593);
  SZ 3780 (z 3 * z 5 * z 10 * z 1593);
  SZ 3781 (z 31 * z 3780 + z 4 * z 6 * z 69 * z 1593 - z 32 * z 3779 - z 3 * z 6 * z 29 * z 1593);
  SZ 3782 (z 4 * z 6 * z 10 * z 1593);
  SZ 3783 (z 3 * z 6 * z 10 * z 1593);
  SZ 3784 (z 5 * z 26 * z 1593 + z 5 * z 6 * z 10 * z 1593 - z 31 * z 3782 - z 32 * z 3783 - z 3 * z 6 * z 72 * z 1593 - z 4 * z 6 * z 71 * z 1593);
  SZ 3785 (z 3 * z 5 * z 9 * z 1593);
  SZ 3786 (z 4 * z 5 * z 9 * z 1593);
  SZ 3787 (z 31 * z 3786 + z 32 * z 3785 + z 4 * z 6 * z 70 * z 1593 + z 9 * (PowN (z 6) 2) * z 1593 - z 5 * z 23 * z 1593 - z 3 * z 6 * z 66 * z 1593);
  SZ 3788 (z 3781 * q4p + z 3784 * q5p + z 3787 * q7p + z 1593 * z 299 + z 43 * z 1570 * z 308 - z 43 * z 3785 * q3p);
  SZ 3789 (z 27 * z 3780 + z 29 * z 3785 + z 30 * z 3786 - z 66 * z 3779);
  SZ 3790 (z 4 * z 6 * z 9 * z 1593);
  SZ 3791 (z 3 * z 6 * z 9 * z 1593);
  SZ 3792 (z 30 * z 3791 + z 5 * z 9 * z 25 * z 1593 - z 29 * z 3790 - z 67 * z 3779 - z 68 * z 3780 - z 6 * z 10 * z 24 * z 1593);
  SZ 3793 ((Lit 2 1) * z 30 * z 3780 - (Lit 2 1) * z 29 * z 3779 - (Lit 2 1) * z 6 * z 10 * z 25 * z 1593);
  SZ 3794 (z 3789 * q4p + z 3792 * q5p + z 3793 * q7p + z 1593 * z 317 + z 43 * z 1570 * z 268 - z 3 * z 6 * z 43 * z 1593 * q3p);
  SZ 3795 (z 76 * z 1593 + z 82 * z 1570);
  SZ 3796 (z 73 * z 1593 + z 81 * z 1570);
  SZ 3797 (z 52 * z 1570 + z 78 * z 1593);
  SZ 3798 (ie31 * z 3796 + ie33 * z 3797);
  SZ 3799 (z 3795 * z 801 + z 3798 * z 293 - z 3797 * z 802 - ie22 * z 3795 * z 294);
  SZ 3800 (z 31 * z 3785 + z 3 * z 6 * z 27 * z 1593 + z 4 * z 6 * z 28 * z 1593 - z 32 * z 3786);
  SZ 3801 (z 41 * z 3786 + z 42 * z 3785 + z 4 * z 5 * z 27 * z 1593 - z 6 * z 23 * z 1593 - z 3 * z 5 * z 28 * z 1593 - z 5 * z 6 * z 9 * z 1593);
  SZ 3802 (z 3800 * q4p + z 3801 * q5p + z 43 * z 3780 * q3p + z 1593 * z 311 + z 43 * z 1570 * z 313);
  SZ 3803 (ie11 * z 3796 + ie31 * z 3797);
  SZ 3804 (z 3797 * z 800 + z 3803 * z 294 - z 3796 * z 801 - z 3798 * z 292);
  SZ 3805 (z 94 * z 1570 + z 95 * z 1593 + z 91 * q5p + z 92 * q4p + z 93 * q7p + z 43 * z 88 * q3p);
  SZ 3806 (z 90 * z 1570 + z 91 * z 1593 + z 1455 * q4p + z 1458 * q5p + z 1465 * q7p + z 43 * z 1452 * q3p);
  SZ 3807 (z 830 * z 3805 + if11 * z 323 * z 3806 - z 832 * z 3806 - if11 * z 321 * z 3805);
  SZ 3808 (z 3796 * z 802 + ie22 * z 3795 * z 292 - z 3795 * z 800 - z 3803 * z 293);
  SZ 3809 (z 11 * z 3781 + z 12 * z 80 * q8p - z 12 * z 3789 - z 11 * z 80 * z 1683 - z 12 * z 74 * z 1683 - z 11 * z 74 * q8p - z 11 * z 319 - z 12 * z 302);
  SZ 3810 (z 11 * z 3784 + z 12 * z 78 * q8p - z 12 * z 3792 - z 11 * z 78 * z 1683 - z 12 * z 73 * z 1683 - z 11 * z 73 * q8p - z 11 * z 317 - z 12 * z 299);
  SZ 3811 (z 11 * z 3787 + z 12 * z 79 * q8p - z 12 * z 3793 - z 11 * z 79 * z 1683 - z 12 * z 75 * z 1683 - z 11 * z 75 * q8p - z 11 * z 318 - z 12 * z 307);
  SZ 3812 (z 3 * z 6 * z 12 * z 1593 + z 12 * z 32 * q8p - z 11 * z 3785 - z 11 * z 32 * z 1683 - z 12 * z 28 * z 1683 - z 11 * z 28 * q8p - z 11 * z 268 - z 12 * z 308);
  SZ 3813 (z 1593 * z 325 + q4p * z 3809 + q5p * z 3810 + q7p * z 3811 + z 43 * z 1570 * z 324 + z 43 * q3p * z 3812);
  SZ 3814 (z 76 * z 1593 + z 82 * z 1570 + z 83 * z 1683);
  SZ 3815 (z 3814 * z 832 + if11 * z 322 * z 3805 - z 831 * z 3805 - if22 * z 3814 * z 323);
  SZ 3816 (z 11 * z 3789 + z 12 * z 3781 + z 11 * z 74 * z 1683 + z 11 * z 302 - z 12 * z 80 * z 1683 - z 11 * z 80 * q8p - z 12 * z 74 * q8p - z 12 * z 319);
  SZ 3817 (z 11 * z 3792 + z 12 * z 3784 + z 11 * z 73 * z 1683 + z 11 * z 299 - z 12 * z 78 * z 1683 - z 11 * z 78 * q8p - z 12 * z 73 * q8p - z 12 * z 317);
  SZ 3818 (z 11 * z 3793 + z 12 * z 3787 + z 11 * z 75 * z 1683 + z 11 * z 307 - z 12 * z 79 * z 1683 - z 11 * z 79 * q8p - z 12 * z 75 * q8p - z 12 * z 318);
  SZ 3819 (z 11 * z 28 * z 1683 + z 11 * z 308 - z 12 * z 3785 - z 12 * z 32 * z 1683 - z 3 * z 6 * z 11 * z 1593 - z 11 * z 32 * q8p - z 12 * z 28 * q8p - z 12 * z 268);
  SZ 3820 (z 1593 * z 330 + q4p * z 3816 + q5p * z 3817 + q7p * z 3818 + z 43 * z 1570 * z 329 + z 43 * q3p * z 3819);
  SZ 3821 (z 831 * z 3806 + if22 * z 3814 * z 321 - z 3814 * z 830 - if11 * z 322 * z 3806);
  SZ 3822 (z 14 * z 3756 - z 13 * z 3754);
  SZ 3823 (z 3 * (z 13 * z 5 + z 14 * z 6) * z 1593);
  SZ 3824 (z 3822 * q4p + z 14 * z 1593 * z 278 + z 43 * z 1570 * z 341 - z 43 * z 3823 * q3p);
  SZ 3825 (z 18 * z 3754 + z 20 * z 3756 - z 15 * z 3762);
  SZ 3826 (z 3 * (z 5 * z 18 - z 6 * z 20) * z 1593);
  SZ 3827 (z 3825 * q4p + z 43 * z 3826 * q3p + (Lit 2 1) * z 15 * z 3763 * q5p + z 1593 * z 349 + z 43 * z 1570 * z 348);
  SZ 3828 (z 112 * z 1570 + z 114 * z 1593);
  SZ 3829 (z 110 * z 1570 + z 111 * z 1593);
  SZ 3830 (z 115 * z 1570 + z 116 * z 1593);
  SZ 3831 (ig31 * z 3829 + ig33 * z 3830);
  SZ 3832 (z 3828 * z 852 + z 3831 * z 335 - z 3830 * z 853 - ig22 * z 3828 * z 336);
  SZ 3833 (z 16 * z 3754 + z 17 * z 3762 + z 19 * z 3756);
  SZ 3834 (z 3 * (z 5 * z 16 - z 6 * z 19) * z 1593);
  SZ 3835 (z 3833 * q4p + z 43 * z 3834 * q3p + z 1593 * z 346 + z 43 * z 1570 * z 344 - (Lit 2 1) * z 17 * z 3763 * q5p);
  SZ 3836 (ig11 * z 3829 + ig31 * z 3830);
  SZ 3837 (z 3830 * z 851 + z 3836 * z 336 - z 3829 * z 852 - z 3831 * z 334);
  SZ 3838 (z 3829 * z 853 + ig22 * z 3828 * z 334 - z 3828 * z 851 - z 3836 * z 335);
  SZ 3839 (z 1570 * (z 354 + z 3 * z 43 * z 353));
  SZ 3840 (z 1570 * (z 43 * z 352 + z 118 * z 356));
  SZ 3841 ((- z 5) * z 3839 - z 41 * z 3840);
  SZ 3842 (z 3758 * (z 173 * q4p + z 174 * q5p + z 175 * q3p) + z 3841 + z 22 * z 3764 + (z 174 * z 1593 + z 175 * z 1570) * z 266 - z 3759 * (z 170 * q4p + z 171 * q3p - z 172 * q5p) - (z 171 * z 1570 - z 172 * z 1593) * z 267);
  SZ 3843 (z 31 * z 3840 - z 6 * z 3839);
  SZ 3844 (z 3843 + z 21 * z 3764 + (z 171 * z 1570 - z 172 * z 1593) * z 265 - z 3758 * (z 176 * q4p + z 177 * q5p + z 178 * q3p) - z 50 * z 1570 * (z 170 * q4p + z 171 * q3p - z 172 * q5p) - (z 177 * z 1593 + z 178 * z 1570) * z 266);
  SZ 3845 (z 13 * z 3842 + z 14 * z 3844);
  SZ 3846 (z 3845 + l6 * z 3835 - z 3828 * (z 201 * q9p + z 202 * q3p + z 203 * q4p + z 204 * q5p) - z 3830 * (z 197 * q3p + z 198 * q5p + z 199 * q4p - z 200 * q9p) - (z 197 * z 1570 + z 198 * z 1593) * z 336 - (z 202 * z 1570 + z 204 * z 1593) * z 335);
  SZ 3847 ((- z 21) * z 3757 - z 22 * z 3755);
  SZ 3848 (z 3759 * (z 176 * q4p + z 177 * q5p + z 178 * q3p) + z 50 * z 1570 * (z 173 * q4p + z 174 * q5p + z 175 * q3p) + z 3847 + (z 177 * z 1593 + z 178 * z 1570) * z 267 - z 3 * z 3840 - (z 174 * z 1593 + z 175 * z 1570) * z 265);
  SZ 3849 (z 17 * z 3848 + z 19 * z 3844 - z 16 * z 3842);
  SZ 3850 (l5 * z 3827 - l6 * z 3824);
  SZ 3851 (z 3829 * (z 201 * q9p + z 202 * q3p + z 203 * q4p + z 204 * q5p) + z 3830 * (z 205 * q9p + z 206 * q3p + z 207 * q4p + z 208 * q5p) + z 3849 + z 3850 + (z 202 * z 1570 + z 204 * z 1593) * z 334 + (z 206 * z 1570 + z 208 * z 1593) * z 336);
  SZ 3852 (z 20 * z 3844 - z 15 * z 3848 - z 18 * z 3842);
  SZ 3853 (z 3829 * (z 197 * q3p + z 198 * q5p + z 199 * q4p - z 200 * q9p) + z 3852 + (z 197 * z 1570 + z 198 * z 1593) * z 334 - z 3828 * (z 205 * q9p + z 206 * q3p + z 207 * q4p + z 208 * q5p) - l5 * z 3835 - (z 206 * z 1570 + z 208 * z 1593) * z 335);
  SZ 3854 (z 3843 + (z 128 * z 1593 + z 130 * z 1570) * z 265 - z 3758 * (z 134 * q4p + z 135 * q5p + z 136 * q3p) - z 50 * z 1570 * (z 128 * q5p + z 129 * q4p + z 130 * q3p) - l1 * z 3764 - (z 135 * z 1593 + z 136 * z 1570) * z 266);
  SZ 3855 (z 3841 + l2 * z 3764 - z 3758 * (z 131 * q4p + z 132 * q5p + z 133 * q3p) - z 3759 * (z 128 * q5p + z 129 * q4p + z 130 * q3p) - (z 128 * z 1593 + z 130 * z 1570) * z 267 - (z 132 * z 1593 + z 133 * z 1570) * z 266);
  SZ 3856 (l1 * z 3757 - l2 * z 3755);
  SZ 3857 (z 3759 * (z 134 * q4p + z 135 * q5p + z 136 * q3p) + z 3856 + (z 132 * z 1593 + z 133 * z 1570) * z 265 + (z 135 * z 1593 + z 136 * z 1570) * z 267 - z 50 * z 1570 * (z 131 * q4p + z 132 * q5p + z 133 * q3p) - z 3 * z 3840);
  SZ 3858 (z 3843 + (z 143 * z 1593 + z 145 * z 1570) * z 265 - z 50 * z 1570 * (z 143 * q5p + z 144 * q4p + z 145 * q3p) - d1 * z 3764);
  SZ 3859 (z 3796 * (z 159 * q3p + z 160 * q5p + z 161 * q7p + z 162 * q4p) + (z 159 * z 1570 + z 160 * z 1593) * z 292 - z 3795 * (z 164 * q5p + z 165 * q4p + z 166 * q3p) - z 158 * z 3802 - (z 164 * z 1593 + z 166 * z 1570) * z 293);
  SZ 3860 (z 3841 - z 3758 * (z 140 * q4p + z 141 * q5p + z 142 * q3p) - z 3759 * (z 143 * q5p + z 144 * q4p + z 145 * q3p) - (z 141 * z 1593 + z 142 * z 1570) * z 266 - (z 143 * z 1593 + z 145 * z 1570) * z 267);
  SZ 3861 (d1 * z 3757 + (z 141 * z 1593 + z 142 * z 1570) * z 265 - z 50 * z 1570 * (z 140 * q4p + z 141 * q5p + z 142 * q3p) - z 3 * z 3840);
  SZ 3862 (z 158 * z 3794 - d2 * z 3788 - l4 * z 3788);
  SZ 3863 (z 3796 * (z 167 * q5p + z 168 * q4p + z 169 * q3p) + z 3797 * (z 164 * q5p + z 165 * q4p + z 166 * q3p) + z 3862 + (z 164 * z 1593 + z 166 * z 1570) * z 294 + (z 167 * z 1593 + z 169 * z 1570) * z 292);
  SZ 3864 (z 163 * z 3802 - z 3795 * (z 167 * q5p + z 168 * q4p + z 169 * q3p) - z 3797 * (z 159 * q3p + z 160 * q5p + z 161 * q7p + z 162 * q4p) - (z 159 * z 1570 + z 160 * z 1593) * z 294 - (z 167 * z 1593 + z 169 * z 1570) * z 293);
  SZ 3865 (z 3796 * (z 148 * q3p + z 149 * q5p + z 150 * q7p + z 151 * q4p) + (z 148 * z 1570 + z 149 * z 1593) * z 292 - z 3795 * (z 152 * q5p + z 153 * q4p + z 154 * q3p) - d3 * z 3802 - (z 152 * z 1593 + z 154 * z 1570) * z 293);
  SZ 3866 (d3 * z 3794 - d2 * z 3788);
  SZ 3867 (z 3796 * (z 155 * q5p + z 156 * q4p + z 157 * q3p) + z 3797 * (z 152 * q5p + z 153 * q4p + z 154 * q3p) + z 3866 + (z 152 * z 1593 + z 154 * z 1570) * z 294 + (z 155 * z 1593 + z 157 * z 1570) * z 292);
  SZ 3868 (d2 * z 3802 - z 3795 * (z 155 * q5p + z 156 * q4p + z 157 * q3p) - z 3797 * (z 148 * q3p + z 149 * q5p + z 150 * q7p + z 151 * q4p) - (z 148 * z 1570 + z 149 * z 1593) * z 294 - (z 155 * z 1593 + z 157 * z 1570) * z 293);
  SZ 3869 (z 45 * z 3761 + z 46 * z 3766 + z 46 * z 3769 + z 49 * z 3770 + z 60 * z 3774 + z 63 * z 3778 + z 74 * z 3799 + z 77 * z 3804 + z 77 * z 3807 + z 80 * z 3808 + z 92 * z 847 + z 92 * z 848 + z 92 * z 3815 + z 97 * z 3821 + z 109 * z 3832 + z 113 * z 3837 + z 117 * z 3838 + z 1455 * z 837 + z 1455 * z 850 + ic11 * z 45 * z 3755 + ic22 * z 46 * z 3764 + ic31 * z 45 * z 3757 + ic31 * z 49 * z 3755 + ic33 * z 49 * z 3757 + id11 * z 60 * z 3773 + id11 * z 63 * z 3777 + id22 * z 46 * z 3764 + ie11 * z 74 * z 3788 + ie22 * z 77 * z 3802 + ie31 * z 74 * z 3794 + ie31 * z 80 * z 3788 + ie33 * z 80 * z 3794 + if11 * z 92 * z 3813 + if11 * z 97 * z 3820 + if22 * z 77 * z 3802 + ig11 * z 109 * z 3824 + ig22 * z 113 * z 3835 + ig31 * z 109 * z 3827 + ig31 * z 117 * z 3824 + ig33 * z 117 * z 3827 + mg * (z 209 * z 3846 + z 212 * z 3851 + z 215 * z 3853) - md * z 3 * z 119 * z 3840 - mc * (z 131 * z 3854 - z 134 * z 3855 - z 139 * z 3857) - me * (z 140 * z 3858 + z 140 * z 3859 + z 168 * z 3858 + z 168 * z 3859 + z 10 * z 162 * z 3860 - z 147 * z 3861 - z 162 * z 3863 - z 165 * z 3864 - z 9 * z 147 * z 3863 - z 9 * z 162 * z 3861 - z 9 * z 165 * z 3860 - z 10 * z 147 * z 3864 - z 10 * z 165 * z 3861) - mf * (z 140 * z 3858 + z 140 * z 3865 + z 156 * z 3858 + z 156 * z 3865 + z 10 * z 151 * z 3860 - z 147 * z 3861 - z 151 * z 3867 - z 153 * z 3868 - z 9 * z 147 * z 3867 - z 9 * z 151 * z 3861 - z 9 * z 153 * z 3860 - z 10 * z 147 * z 3868 - z 10 * z 153 * z 3861));
  SZ 3870 (mg * (z 182 * z 3846 + z 187 * z 3851 + z 192 * z 3853) + me * (z 120 * z 3860 + z 122 * z 3858 + z 122 * z 3859 + z 9 * z 120 * z 3864 - z 121 * z 3861 - z 9 * z 121 * z 3863 - z 10 * z 120 * z 3863 - z 10 * z 121 * z 3864) + mf * (z 120 * z 3860 + z 122 * z 3858 + z 122 * z 3865 + z 9 * z 120 * z 3868 - z 121 * z 3861 - z 9 * z 121 * z 3867 - z 10 * z 120 * z 3867 - z 10 * z 121 * z 3868) - md * (z 1 * z 3839 - z 2 * z 3840) - mc * (z 121 * z 3857 - z 120 * z 3855 - z 122 * z 3854));
  SZ 3871 (z 51 * z 3766 + z 51 * z 3769 + z 52 * z 3770 + z 52 * z 3808 + z 61 * z 3774 + z 64 * z 3778 + z 81 * z 3799 + z 82 * z 3804 + z 82 * z 3807 + z 90 * z 3815 + z 94 * z 3821 + z 110 * z 3832 + z 112 * z 3837 + z 115 * z 3838 + ic22 * z 51 * z 3764 + ic31 * z 52 * z 3755 + ic33 * z 52 * z 3757 + id11 * z 61 * z 3773 + id11 * z 64 * z 3777 + id22 * z 51 * z 3764 + ie11 * z 81 * z 3788 + ie22 * z 82 * z 3802 + ie31 * z 52 * z 3788 + ie31 * z 81 * z 3794 + ie33 * z 52 * z 3794 + if11 * z 90 * z 3813 + if11 * z 94 * z 3820 + if22 * z 82 * z 3802 + ig11 * z 110 * z 3824 + ig22 * z 112 * z 3835 + ig31 * z 110 * z 3827 + ig31 * z 115 * z 3824 + ig33 * z 115 * z 3827 + md * z 118 * z 3839 + z 43 * z 88 * z 847 + z 43 * z 88 * z 848 + z 43 * z 1452 * z 837 + z 43 * z 1452 * z 850 + mc * (z 130 * z 3857 + z 137 * z 3855 + z 138 * z 3854) + mg * (z 211 * z 3846 + z 214 * z 3851 + z 217 * z 3853) - z 50 * z 3761 - ic11 * z 50 * z 3755 - ic31 * z 50 * z 3757 - me * (z 126 * z 3860 + z 169 * z 3858 + z 169 * z 3859 + z 9 * z 126 * z 3864 + z 10 * z 159 * z 3860 - z 145 * z 3861 - z 146 * z 3858 - z 146 * z 3859 - z 159 * z 3863 - z 166 * z 3864 - z 9 * z 145 * z 3863 - z 9 * z 159 * z 3861 - z 9 * z 166 * z 3860 - z 10 * z 126 * z 3863 - z 10 * z 145 * z 3864 - z 10 * z 166 * z 3861) - mf * (z 126 * z 3860 + z 157 * z 3858 + z 157 * z 3865 + z 9 * z 126 * z 3868 + z 10 * z 148 * z 3860 - z 145 * z 3861 - z 146 * z 3858 - z 146 * z 3865 - z 148 * z 3867 - z 154 * z 3868 - z 9 * z 145 * z 3867 - z 9 * z 148 * z 3861 - z 9 * z 154 * z 3860 - z 10 * z 126 * z 3867 - z 10 * z 145 * z 3868 - z 10 * z 154 * z 3861));
  SZ 3872 (z 47 * z 3766 + z 47 * z 3769 + z 48 * z 3770 + z 65 * z 3778 + z 73 * z 3799 + z 76 * z 3804 + z 76 * z 3807 + z 78 * z 3808 + z 91 * z 847 + z 91 * z 848 + z 91 * z 3815 + z 95 * z 3821 + z 111 * z 3832 + z 114 * z 3837 + z 116 * z 3838 + z 1458 * z 837 + z 1458 * z 850 + ic22 * z 47 * z 3764 + ic31 * z 48 * z 3755 + ic33 * z 48 * z 3757 + id11 * z 65 * z 3777 + id22 * z 47 * z 3764 + ie11 * z 73 * z 3788 + ie22 * z 76 * z 3802 + ie31 * z 73 * z 3794 + ie31 * z 78 * z 3788 + ie33 * z 78 * z 3794 + if11 * z 91 * z 3813 + if11 * z 95 * z 3820 + if22 * z 76 * z 3802 + ig11 * z 111 * z 3824 + ig22 * z 114 * z 3835 + ig31 * z 111 * z 3827 + ig31 * z 116 * z 3824 + ig33 * z 116 * z 3827 + mg * (z 210 * z 3846 + z 213 * z 3851 + z 216 * z 3853) - z 62 * z 3774 - id11 * z 62 * z 3773 - mc * (z 132 * z 3854 - z 128 * z 3857 - z 135 * z 3855) - me * (z 141 * z 3858 + z 141 * z 3859 + z 167 * z 3858 + z 167 * z 3859 + z 10 * z 160 * z 3860 - z 143 * z 3861 - z 160 * z 3863 - z 164 * z 3864 - z 9 * z 143 * z 3863 - z 9 * z 160 * z 3861 - z 9 * z 164 * z 3860 - z 10 * z 143 * z 3864 - z 10 * z 164 * z 3861) - mf * (z 141 * z 3858 + z 141 * z 3865 + z 155 * z 3858 + z 155 * z 3865 + z 10 * z 149 * z 3860 - z 143 * z 3861 - z 149 * z 3867 - z 152 * z 3868 - z 9 * z 143 * z 3867 - z 9 * z 149 * z 3861 - z 9 * z 152 * z 3860 - z 10 * z 143 * z 3868 - z 10 * z 152 * z 3861));
  SZ 3873 (z 83 * (z 3807 + if22 * z 3802));
  SZ 3874 (mc * (z 123 * z 3855 + z 124 * z 3857 + z 125 * z 3854) + mg * (z 183 * z 3846 + z 188 * z 3851 + z 193 * z 3853) - md * (z 1 * z 3840 + z 2 * z 3839) - me * (z 10 * z 123 * z 3863 - z 123 * z 3860 - z 124 * z 3861 - z 125 * z 3858 - z 125 * z 3859 - z 9 * z 123 * z 3864 - z 9 * z 124 * z 3863 - z 10 * z 124 * z 3864) - mf * (z 10 * z 123 * z 3867 - z 123 * z 3860 - z 124 * z 3861 - z 125 * z 3858 - z 125 * z 3865 - z 9 * z 123 * z 3868 - z 9 * z 124 * z 3867 - z 10 * z 124 * z 3868));
  SZ 3875 (z 3869 + z 538 * z 3870 + z 544 * z 3871 + z 547 * z 3872 + z 549 * z 3873 + z 1524 * z 917 + z 1567 * z 925 - z 541 * z 3874 - z 1463 * z 913 - z 1591 * z 933 - z 1680 * z 938);
  SZ 3876 (z 92 * z 843 + z 833 * z 1455 + if11 * z 43 * z 88 * z 97 + if11 * z 43 * z 92 * z 1452);
  SZ 3877 (z 3876 + z 544 * z 3723 + z 547 * z 3733 + z 916 * z 1524 + z 919 * z 1567 - z 912 * z 1463 - z 927 * z 1591 - z 936 * z 1680);
  SZ 3878 (z 1 * ((PowN (z 3) 2) + (PowN (z 4) 2)) * z 1570);
  SZ 3879 (z 2 * ((PowN (z 3) 2) + (PowN (z 4) 2)) * z 1570);
  SZ 3880 ((z 5 * z 8 + z 6 * z 7) * z 1593);
  SZ 3881 ((z 5 * z 7 - z 6 * z 8) * z 1593);
  SZ 3882 (rr * (z 60 * z 3880 - z 54 * z 3771 - z 55 * z 3775 - z 63 * z 3881));
  SZ 3883 (rr * (z 62 * z 3880 + z 65 * z 3881));
  SZ 3884 (rr * (z 64 * z 3881 - z 61 * z 3880 - z 43 * z 54 * z 3772 - z 43 * z 55 * z 3776));
  SZ 3885 (z 3 * u4 * z 3882 + z 1468 * z 556 + z 1525 * z 559 + z 1593 * z 565 - u1 * z 3878 - u2 * z 3879 - z 3 * u3 * z 3884 - z 3 * u5 * z 3883 - z 1570 * z 563);
  SZ 3886 (z 1 * z 5 * z 1593 + z 1 * z 31 * z 1570 - z 2 * z 6 * z 1570 - z 2 * z 4 * z 6 * z 1593);
  SZ 3887 ((- z 1) * z 6 * z 1593 - z 1 * z 41 * z 1570 - z 2 * z 5 * z 1570 - z 2 * z 4 * z 5 * z 1593);
  SZ 3888 (z 9 * z 3887 - z 1 * z 3 * z 10 * z 1570);
  SZ 3889 ((- z 10) * z 3887 - z 1 * z 3 * z 9 * z 1570);
  SZ 3890 (z 6 * z 3886 + z 23 * z 3888 + z 5 * z 122 * z 1593 + z 6 * z 10 * z 238 * z 1593 - z 25 * z 3889 - z 6 * z 9 * z 233 * z 1593);
  SZ 3891 (z 1 * z 6 * z 1570 + z 2 * z 5 * z 1593 + z 2 * z 31 * z 1570 + z 1 * z 4 * z 6 * z 1593);
  SZ 3892 (z 1 * z 5 * z 1570 + z 1 * z 4 * z 5 * z 1593 - z 2 * z 6 * z 1593 - z 2 * z 41 * z 1570);
  SZ 3893 (z 9 * z 3892 - z 2 * z 3 * z 10 * z 1570);
  SZ 3894 ((- z 10) * z 3892 - z 2 * z 3 * z 9 * z 1570);
  SZ 3895 (z 6 * z 3891 + z 23 * z 3893 + z 5 * z 125 * z 1593 + z 6 * z 10 * z 239 * z 1593 - z 25 * z 3894 - z 6 * z 9 * z 234 * z 1593);
  SZ 3896 (z 6 * z 3779 - z 5 * z 29 * z 1593 - z 4 * z 6 * z 25 * z 1593 - z 6 * z 10 * z 31 * z 1593);
  SZ 3897 (z 25 * z 3786 - z 23 * z 3779 - z 6 * z 9 * z 29 * z 1593 - z 6 * z 10 * z 27 * z 1593);
  SZ 3898 ((Lit 2 1) * z 33 * z 3896 + (Lit 2 1) * z 34 * z 3897);
  SZ 3899 (((Lit 2 1) * z 36 * z 3896 - z 33 * z 3898 / (PowH (z 35) 0)) / (PowN (z 36) 2));
  SZ 3900 (z 39 * z 43 * z 3780 + (Lit 1 2) * rf * z 82 * z 3899);
  SZ 3901 ((- z 3900) - d3 * z 43 * z 3780 - z 5 * z 118 * z 1593);
  SZ 3902 (d1 * z 3 * z 6 * z 43 * z 1593);
  SZ 3903 (d2 * z 43 * z 3780 + z 6 * z 9 * z 118 * z 1593 - z 10 * z 3902);
  SZ 3904 (((Lit 2 1) * z 36 * z 3897 - z 34 * z 3898 / (PowH (z 35) 0)) / (PowN (z 36) 2));
  SZ 3905 (z 40 * z 43 * z 3780 + (Lit 1 2) * rf * z 82 * z 3904);
  SZ 3906 (z 43 * (d2 * z 3785 - d3 * z 3 * z 6 * z 1593));
  SZ 3907 (z 3906 - z 9 * z 3902 - z 6 * z 10 * z 118 * z 1593);
  SZ 3908 (z 12 * z 40 * z 90 * z 1683 + (Lit 1 2) * rf * z 11 * z 94 * z 3899 + z 11 * z 40 * z 90 * q8p + z 12 * z 39 * z 90 * q8p + z 12 * z 40 * z 94 * q8p + z 12 * z 40 * z 43 * z 1452 * q8p + z 11 * z 39 * z 43 * z 3819 + z 12 * z 40 * z 43 * z 324 + (Lit 1 2) * rf * z 12 * z 90 * z 582 + (Lit 1 2) * rf * z 11 * z 43 * z 88 * z 584 - z 11 * z 39 * z 90 * z 1683 - z 11 * z 40 * z 94 * z 1683 - z 12 * z 39 * z 94 * z 1683 - (Lit 1 2) * rf * z 11 * z 90 * z 3904 - (Lit 1 2) * rf * z 12 * z 90 * z 3899 - (Lit 1 2) * rf * z 12 * z 94 * z 3904 - z 11 * z 39 * z 94 * q8p - z 11 * z 39 * z 43 * z 1452 * q8p - z 11 * z 40 * z 43 * z 88 * q8p - z 12 * z 39 * z 43 * z 88 * q8p - z 11 * z 39 * z 43 * z 324 - z 11 * z 40 * z 43 * z 329 - z 11 * z 40 * z 43 * z 3812 - z 12 * z 39 * z 43 * z 329 - z 12 * z 39 * z 43 * z 3812 - z 12 * z 40 * z 43 * z 3819 - (Lit 1 2) * rf * z 11 * z 90 * z 584 - (Lit 1 2) * rf * z 11 * z 94 * z 582 - (Lit 1 2) * rf * z 12 * z 94 * z 584 - (Lit 1 2) * rf * z 11 * z 43 * z 1452 * z 582 - (Lit 1 2) * rf * z 12 * z 43 * z 88 * z 582 - (Lit 1 2) * rf * z 12 * z 43 * z 1452 * z 584);
  SZ 3909 (z 6 * z 3901 + z 5 * z 262 * z 1593 + z 6 * z 10 * z 259 * z 1593 + z 23 * (z 3903 + z 3905) - z 6 * z 9 * z 257 * z 1593 - z 1453 * z 296 - z 25 * (z 3907 + z 3908));
  SZ 3910 (d2 * z 3800 + d1 * z 10 * z 3756);
  SZ 3911 (z 40 * z 3800 + (Lit 1 2) * rf * z 77 * z 3904);
  SZ 3912 ((- d1) * z 3762 - d3 * z 3800);
  SZ 3913 (z 39 * z 3800 + (Lit 1 2) * rf * z 77 * z 3899);
  SZ 3914 (d3 * z 3789 - d2 * z 3781);
  SZ 3915 (z 3914 + d1 * z 9 * z 3756);
  SZ 3916 (z 12 * z 40 * z 92 * z 1683 + (Lit 1 2) * rf * z 11 * z 97 * z 3899 + z 12 * z 40 * z 97 * q8p + z 12 * z 40 * z 1455 * q8p + z 11 * z 39 * z 3816 + z 12 * z 40 * z 326 - z 11 * z 39 * z 92 * z 1683 - z 11 * z 40 * z 97 * z 1683 - z 12 * z 39 * z 97 * z 1683 - (Lit 1 2) * rf * z 11 * z 92 * z 3904 - (Lit 1 2) * rf * z 12 * z 92 * z 3899 - (Lit 1 2) * rf * z 12 * z 97 * z 3904 - z 11 * z 39 * z 97 * q8p - z 11 * z 39 * z 1455 * q8p - z 11 * z 39 * z 326 - z 11 * z 40 * z 332 - z 11 * z 40 * z 3809 - z 12 * z 39 * z 332 - z 12 * z 39 * z 3809 - z 12 * z 40 * z 3816 - (Lit 1 2) * rf * z 11 * z 97 * z 582 - (Lit 1 2) * rf * z 11 * z 1455 * z 582 - (Lit 1 2) * rf * z 12 * z 97 * z 584 - (Lit 1 2) * rf * z 12 * z 1455 * z 584);
  SZ 3917 (z 5 * z 263 * z 1593 + z 6 * z 10 * z 261 * z 1593 + z 23 * (z 3910 + z 3911) + z 6 * (z 3912 - z 3913) - z 6 * z 9 * z 256 * z 1593 - z 1456 * z 296 - z 25 * (z 3915 + z 3916));
  SZ 3918 (z 40 * z 3801 + (Lit 1 2) * rf * z 76 * z 3904);
  SZ 3919 ((Lit 2 1) * d1 * z 3763 - d3 * z 3801);
  SZ 3920 (z 39 * z 3801 + (Lit 1 2) * rf * z 76 * z 3899);
  SZ 3921 (d3 * z 3792 - d2 * z 3784);
  SZ 3922 (z 12 * z 40 * z 91 * z 1683 + (Lit 1 2) * rf * z 11 * z 95 * z 3899 + z 12 * z 40 * z 95 * q8p + z 12 * z 40 * z 1458 * q8p + z 11 * z 39 * z 3817 + z 12 * z 40 * z 325 - z 11 * z 39 * z 91 * z 1683 - z 11 * z 40 * z 95 * z 1683 - z 12 * z 39 * z 95 * z 1683 - (Lit 1 2) * rf * z 11 * z 91 * z 3904 - (Lit 1 2) * rf * z 12 * z 91 * z 3899 - (Lit 1 2) * rf * z 12 * z 95 * z 3904 - z 11 * z 39 * z 95 * q8p - z 11 * z 39 * z 1458 * q8p - z 11 * z 39 * z 325 - z 11 * z 40 * z 330 - z 11 * z 40 * z 3810 - z 12 * z 39 * z 330 - z 12 * z 39 * z 3810 - z 12 * z 40 * z 3817 - (Lit 1 2) * rf * z 11 * z 95 * z 582 - (Lit 1 2) * rf * z 11 * z 1458 * z 582 - (Lit 1 2) * rf * z 12 * z 95 * z 584 - (Lit 1 2) * rf * z 12 * z 1458 * z 584);
  SZ 3923 (z 5 * z 264 * z 1593 + z 6 * z 10 * z 260 * z 1593 + z 6 * (z 3919 - z 3920) + z 23 * (z 3918 + d2 * z 3801) - z 6 * z 9 * z 255 * z 1593 - z 1459 * z 296 - z 25 * (z 3921 + z 3922));
  SZ 3924 ((Lit 1 2) * rf * z 23 * z 83 * z 3904 - z 5 * z 250 * z 1593 - z 6 * z 9 * z 254 * z 1593 - (Lit 1 2) * rf * z 6 * z 83 * z 3899);
  SZ 3925 (d3 * z 3793 - d2 * z 3787);
  SZ 3926 (z 12 * z 40 * z 93 * z 1683 + (Lit 1 2) * rf * z 11 * z 96 * z 3899 + z 12 * z 40 * z 96 * q8p + z 12 * z 40 * z 1465 * q8p + z 11 * z 39 * z 3818 + z 12 * z 40 * z 327 - z 11 * z 39 * z 93 * z 1683 - z 11 * z 40 * z 96 * z 1683 - z 12 * z 39 * z 96 * z 1683 - (Lit 1 2) * rf * z 11 * z 93 * z 3904 - (Lit 1 2) * rf * z 12 * z 93 * z 3899 - (Lit 1 2) * rf * z 12 * z 96 * z 3904 - z 11 * z 39 * z 96 * q8p - z 11 * z 39 * z 1465 * q8p - z 11 * z 39 * z 327 - z 11 * z 40 * z 331 - z 11 * z 40 * z 3811 - z 12 * z 39 * z 331 - z 12 * z 39 * z 3811 - z 12 * z 40 * z 3818 - (Lit 1 2) * rf * z 11 * z 96 * z 582 - (Lit 1 2) * rf * z 11 * z 1465 * z 582 - (Lit 1 2) * rf * z 12 * z 96 * z 584 - (Lit 1 2) * rf * z 12 * z 1465 * z 584);
  SZ 3927 (z 1466 * z 296 + z 25 * (z 3925 + z 3926) - z 6 * z 10 * z 258 * z 1593);
  SZ 3928 (u1 * z 3890 + u2 * z 3895 + u8 * z 3924 + u3 * z 3909 + u4 * z 3917 + u5 * z 3923 + z 1468 * z 573 + z 1525 * z 578 + z 1570 * z 616 + z 1593 * z 594 + z 1683 * z 586 - u7 * z 3927);
  SZ 3929 (rr * u4 * z 3762 + z 1 * u2 * z 1570 + z 1 * z 1525 * q3p + z 1570 * z 552 + rr * z 1593 * z 275 - (Lit 2 1) * rr * u5 * z 3763 - z 2 * u1 * z 1570 - z 2 * z 1468 * q3p);
  SZ 3930 (z 25 * z 3896 - z 6 * z 10 * z 33 * z 1593);
  SZ 3931 (((Lit 2 1) * z 35 * z 3930 - z 416 * z 3898) / (PowH (z 35) 1));
  SZ 3932 (((z 25 * z 36 - (Lit 2 1) * z 33 * z 420) * z 3898 / (PowH (z 35) 0) + z 36 * (z 33 * z 3931 + (Lit 2 1) * z 420 * z 3896 + (Lit 2 1) * z 6 * z 10 * z 36 * z 1593)) / (PowN (z 36) 3));
  SZ 3933 ((z 34 * z 36 * z 3931 + (Lit 2 1) * z 36 * z 420 * z 3897 - (Lit 2 1) * z 34 * z 420 * z 3898 / (PowH (z 35) 0)) / (PowN (z 36) 3));
  SZ 3934 (z 3 * z 6 * z 434 * z 1593 - z 443 * z 3785 - (Lit 1 2) * rf * z 28 * z 3932 - (Lit 1 2) * rf * z 32 * z 3933);
  SZ 3935 (z 25 * z 3897 - z 6 * z 10 * z 34 * z 1593);
  SZ 3936 (((Lit 2 1) * z 35 * z 3935 - z 412 * z 3898) / (PowH (z 35) 1));
  SZ 3937 ((z 33 * z 36 * z 3936 + (Lit 2 1) * z 36 * z 418 * z 3896 - (Lit 2 1) * z 33 * z 418 * z 3898 / (PowH (z 35) 0)) / (PowN (z 36) 3));
  SZ 3938 (((z 25 * z 36 - (Lit 2 1) * z 34 * z 418) * z 3898 / (PowH (z 35) 0) + z 36 * (z 34 * z 3936 + (Lit 2 1) * z 418 * z 3897 + (Lit 2 1) * z 6 * z 10 * z 36 * z 1593)) / (PowN (z 36) 3));
  SZ 3939 (z 444 * z 3785 - (Lit 1 2) * rf * z 28 * z 3937 - (Lit 1 2) * rf * z 32 * z 3938 - z 3 * z 6 * z 432 * z 1593);
  SZ 3940 ((Lit 2 1) * z 23 * z 3897 - (Lit 2 1) * z 6 * z 3896 - (Lit 2 1) * z 5 * z 33 * z 1593 - (Lit 2 1) * z 6 * z 9 * z 34 * z 1593);
  SZ 3941 (((Lit 2 1) * z 35 * z 3940 - z 411 * z 3898) / (PowH (z 35) 1));
  SZ 3942 (((Lit 2 1) * z 33 * z 421 * z 3898 / (PowH (z 35) 0) - z 36 * (z 33 * z 3941 + (Lit 2 1) * z 421 * z 3896 + (Lit 4 1) * z 5 * z 36 * z 1593 - (Lit 2 1) * z 6 * z 3898 / (PowH (z 35) 0))) / (PowN (z 36) 3));
  SZ 3943 (((Lit 2 1) * (z 23 * z 36 - z 34 * z 421) * z 3898 / (PowH (z 35) 0) + z 36 * (z 34 * z 3941 + (Lit 2 1) * z 421 * z 3897 + (Lit 4 1) * z 6 * z 9 * z 36 * z 1593)) / (PowN (z 36) 3));
  SZ 3944 ((Lit 1 2) * z 446 * z 3785 + (Lit 1 4) * rf * z 28 * z 3942 - (Lit 1 4) * rf * z 32 * z 3943 - (Lit 1 2) * z 3 * z 6 * z 430 * z 1593);
  SZ 3945 (z 3 * z 5 * z 3934 + d1 * z 4 * z 5 * z 1593 + z 4 * z 6 * z 448 * z 1593 + z 3 * z 5 * z 9 * z 453 * z 1593 + z 4 * z 5 * z 9 * z 449 * z 1593 + (z 3 * z 24 - z 4 * z 10) * z 3939 + (Lit 1 2) * rf * (z 3 * z 10 + z 4 * z 24) * z 3899 - z 3 * z 6 * z 455 * z 1593 - (Lit 1 2) * rf * z 4 * z 5 * z 3904 - z 3 * z 5 * z 10 * z 451 * z 1593 - (z 3 * z 26 + z 4 * z 9) * z 3944);
  SZ 3946 ((- z 5) * z 3779 - z 6 * z 29 * z 1593);
  SZ 3947 (z 33 * z 3946 + z 410 * z 3896);
  SZ 3948 (((Lit 2 1) * z 35 * z 3947 - z 415 * z 3898) / (PowH (z 35) 1));
  SZ 3949 ((z 34 * z 36 * z 3948 + (Lit 2 1) * z 36 * z 417 * z 3897 - (Lit 2 1) * z 34 * z 417 * z 3898 / (PowH (z 35) 0)) / (PowN (z 36) 3));
  SZ 3950 (((Lit 2 1) * z 33 * z 417 * z 3898 / (PowH (z 35) 0) + z 36 * ((Lit 2 1) * z 36 * z 3946 - (Lit 2 1) * z 417 * z 3896 - z 33 * z 3948 - z 410 * z 3898 / (PowH (z 35) 0))) / (PowN (z 36) 3));
  SZ 3951 ((Lit 1 2) * rf * z 32 * z 3949 - z 441 * z 3785 - (Lit 1 2) * rf * z 28 * z 3950 - z 3 * z 6 * z 429 * z 1593);
  SZ 3952 (z 29 * z 3897 - z 34 * z 3779);
  SZ 3953 (((Lit 2 1) * z 35 * z 3952 - z 414 * z 3898) / (PowH (z 35) 1));
  SZ 3954 ((z 33 * z 36 * z 3953 + (Lit 2 1) * z 36 * z 419 * z 3896 - (Lit 2 1) * z 33 * z 419 * z 3898 / (PowH (z 35) 0)) / (PowN (z 36) 3));
  SZ 3955 (((z 29 * z 36 - (Lit 2 1) * z 34 * z 419) * z 3898 / (PowH (z 35) 0) + z 36 * (z 34 * z 3953 + (Lit 2 1) * z 36 * z 3779 + (Lit 2 1) * z 419 * z 3897)) / (PowN (z 36) 3));
  SZ 3956 (z 445 * z 3785 - (Lit 1 2) * rf * z 28 * z 3954 - (Lit 1 2) * rf * z 32 * z 3955 - z 3 * z 6 * z 433 * z 1593);
  SZ 3957 ((Lit 2 1) * z 27 * z 3897 + (Lit 2 1) * z 31 * z 3896 + (Lit 2 1) * z 34 * z 3786 - (Lit 2 1) * z 4 * z 6 * z 33 * z 1593);
  SZ 3958 (((Lit 2 1) * z 35 * z 3957 - z 413 * z 3898) / (PowH (z 35) 1));
  SZ 3959 (((Lit 2 1) * (z 31 * z 36 - z 33 * z 422) * z 3898 / (PowH (z 35) 0) + z 36 * (z 33 * z 3958 + (Lit 2 1) * z 422 * z 3896 + (Lit 4 1) * z 4 * z 6 * z 36 * z 1593)) / (PowN (z 36) 3));
  SZ 3960 (((Lit 2 1) * (z 27 * z 36 - z 34 * z 422) * z 3898 / (PowH (z 35) 0) - z 36 * ((Lit 4 1) * z 36 * z 3786 - (Lit 2 1) * z 422 * z 3897 - z 34 * z 3958)) / (PowN (z 36) 3));
  SZ 3961 ((- (Lit 1 2)) * z 442 * z 3785 - (Lit 1 4) * rf * z 28 * z 3959 - (Lit 1 4) * rf * z 32 * z 3960 - (Lit 1 2) * z 3 * z 6 * z 431 * z 1593);
  SZ 3962 (z 3951 + d1 * z 3 * z 6 * z 1593 + z 4 * z 5 * z 9 * z 3939 + z 3 * z 6 * z 9 * z 449 * z 1593 + z 4 * z 6 * z 10 * z 451 * z 1593 - z 4 * z 6 * z 3934 - z 6 * z 9 * z 3956 - z 6 * z 10 * z 3961 - z 3 * z 5 * z 448 * z 1593 - z 4 * z 5 * z 10 * z 3944 - z 4 * z 5 * z 455 * z 1593 - z 5 * z 9 * z 454 * z 1593 - z 5 * z 10 * z 452 * z 1593 - (Lit 1 2) * rf * z 3 * z 6 * z 3904 - z 4 * z 6 * z 9 * z 453 * z 1593 - (Lit 1 2) * rf * z 3 * z 5 * z 9 * z 3899);
  SZ 3963 (z 5 * z 9 * z 3961 + z 6 * z 10 * z 454 * z 1593 + z 3 * z 5 * z 10 * z 449 * z 1593 + (z 3 * z 9 - z 4 * z 6 * z 10) * z 3939 + (Lit 1 2) * rf * (z 4 * z 9 + z 3 * z 6 * z 10) * z 3899 - z 5 * z 10 * z 3956 - z 6 * z 9 * z 452 * z 1593 - z 4 * z 5 * z 9 * z 451 * z 1593 - z 4 * z 5 * z 10 * z 453 * z 1593 - (z 3 * z 10 + z 4 * z 6 * z 9) * z 3944);
  SZ 3964 (u4 * z 3945 + u5 * z 3962 + u7 * z 3963 + z 1593 * z 662);
  SZ 3965 (z 27 * z 3888 + z 29 * z 3889 + z 233 * z 3786 + z 4 * z 6 * z 122 * z 1593 - z 31 * z 3886 - z 238 * z 3779);
  SZ 3966 (z 27 * z 3893 + z 29 * z 3894 + z 234 * z 3786 + z 4 * z 6 * z 125 * z 1593 - z 31 * z 3891 - z 239 * z 3779);
  SZ 3967 (z 257 * z 3786 + z 4 * z 6 * z 262 * z 1593 + z 27 * (z 3903 + z 3905) + z 1453 * z 300 + z 29 * (z 3907 + z 3908) - z 31 * z 3901 - z 259 * z 3779);
  SZ 3968 (z 256 * z 3786 + z 4 * z 6 * z 263 * z 1593 + z 27 * (z 3910 + z 3911) + z 1456 * z 300 + z 29 * (z 3915 + z 3916) - z 261 * z 3779 - z 31 * (z 3912 - z 3913));
  SZ 3969 (z 255 * z 3786 + z 4 * z 6 * z 264 * z 1593 + z 27 * (z 3918 + d2 * z 3801) + z 1459 * z 300 + z 29 * (z 3921 + z 3922) - z 260 * z 3779 - z 31 * (z 3919 - z 3920));
  SZ 3970 (z 1466 * z 300 + z 29 * (z 3925 + z 3926) - z 258 * z 3779);
  SZ 3971 (z 254 * z 3786 + (Lit 1 2) * rf * z 27 * z 83 * z 3904 + (Lit 1 2) * rf * z 31 * z 83 * z 3899 - z 4 * z 6 * z 250 * z 1593);
  SZ 3972 (u1 * z 3965 + u2 * z 3966 + u8 * z 3971 + u3 * z 3967 + u4 * z 3968 + u5 * z 3969 + u7 * z 3970 + z 1468 * z 621 + z 1525 * z 622 + z 1570 * z 626 + z 1593 * z 624 + z 1683 * z 623);
  SZ 3973 ((z 476 * z 478 * z 1461 * (z 525 * z 568 + z 478 * z 496 * z 620 - z 511 * z 553 - z 535 * z 664 - z 478 * z 528 * z 628) + z 494 * (z 511 * z 3929 + z 535 * z 3964 + z 478 * z 528 * z 3972 - z 525 * z 3885 - z 478 * z 496 * z 3928 - z 478 * z 1460 * z 664)) / (PowN (z 494) 2));
  SZ 3974 (z 92 * z 844 + z 834 * z 1455 + if11 * z 91 * z 97 + if11 * z 92 * z 1458);
  SZ 3975 (z 3974 + z 544 * z 3744 + z 547 * z 3743 + z 915 * z 1524 + z 920 * z 1567 - z 911 * z 1463 - z 928 * z 1591 - z 934 * z 1680);
  SZ 3976 ((z 494 * z 536 * z 3964 - z 478 * z 494 * z 1461 * z 664 - z 476 * z 478 * z 536 * z 1461 * z 664) / (PowN (z 494) 2));
  SZ 3977 (z 923 * z 1567 - z 931 * z 1591 - z 937 * z 1680);
  SZ 3978 ((z 476 * z 478 * z 1461 * (z 526 * z 568 + z 532 * z 628 - z 512 * z 553 - z 527 * z 620 - z 537 * z 664) - z 494 * (z 526 * z 3885 + z 532 * z 3972 + z 1672 * z 553 - z 512 * z 3929 - z 527 * z 3928 - z 537 * z 3964 - z 1670 * z 568 - z 1671 * z 628 - z 1673 * z 620 - z 1679 * z 664)) / (PowN (z 494) 2));
  SZ 3979 (z 910 * z 1524 + z 912 * z 1567 - z 909 * z 1463 - z 911 * z 1591);
  SZ 3980 ((z 476 * z 478 * z 1461 * (z 519 * z 568 + z 487 * z 496 * z 620 - z 504 * z 553 - z 533 * z 664 - z 487 * z 528 * z 628) - z 494 * (z 519 * z 3885 + z 1454 * z 568 + z 487 * z 496 * z 3928 - z 504 * z 3929 - z 533 * z 3964 - z 1457 * z 553 - z 1462 * z 664 - z 487 * z 528 * z 3972)) / (PowN (z 494) 2));
  SZ 3981 (z 914 * z 1524 + z 916 * z 1567 - z 910 * z 1463 - z 915 * z 1591);
  SZ 3982 ((z 476 * z 478 * z 1461 * (z 523 * z 568 + z 482 * z 496 * z 620 - z 509 * z 553 - z 534 * z 664 - z 482 * z 528 * z 628) - z 494 * (z 523 * z 3885 + z 1523 * z 568 + z 482 * z 496 * z 3928 - z 509 * z 3929 - z 534 * z 3964 - z 1519 * z 553 - z 1521 * z 664 - z 482 * z 528 * z 3972)) / (PowN (z 494) 2));
  SZ 3983 (z 3875 + z 941 * z 3976 + z 947 * z 3982 + z 3877 * z 667 + z 3975 * z 668 + z 3977 * z 669 + z 3979 * z 665 - z 940 * z 3973 - z 944 * z 3978 - z 946 * z 3980 - z 3981 * z 666);
  SZ 3984 (z 52 * z 1567 - z 78 * z 1591);
  SZ 3985 (z 52 * z 1567 - z 48 * z 1591);
  SZ 3986 (z 183 * z 1524 + z 211 * z 1567 - z 182 * z 1463 - z 210 * z 1591);
  SZ 3987 (z 188 * z 1524 + z 214 * z 1567 - z 187 * z 1463 - z 213 * z 1591);
  SZ 3988 (z 193 * z 1524 + z 217 * z 1567 - z 192 * z 1463 - z 216 * z 1591);
  SZ 3989 (z 121 * z 1463 + z 124 * z 1524 + z 130 * z 1567 - z 128 * z 1591);
  SZ 3990 (z 125 * z 1524 + z 132 * z 1591 + z 138 * z 1567 - z 122 * z 1463);
  SZ 3991 (z 123 * z 1524 + z 137 * z 1567 - z 120 * z 1463 - z 135 * z 1591);
  SZ 3992 (z 110 * z 1567 - z 111 * z 1591);
  SZ 3993 (z 123 * z 1524 - z 120 * z 1463 - z 126 * z 1567);
  SZ 3994 (z 121 * z 1463 + z 124 * z 1524 + z 145 * z 1567 - z 143 * z 1591);
  SZ 3995 (z 125 * z 1524 + z 141 * z 1591 + z 146 * z 1567 - z 122 * z 1463);
  SZ 3996 (z 167 * z 1591 - z 169 * z 1567);
  SZ 3997 (z 166 * z 1567 - z 164 * z 1591);
  SZ 3998 (z 159 * z 1567 - z 160 * z 1591);
  SZ 3999 (z 155 * z 1591 - z 157 * z 1567);
  SZ 4000 (z 154 * z 1567 - z 152 * z 1591);
  SZ 4001 (z 148 * z 1567 - z 149 * z 1591);
  SZ 4002 (T7 * z 3984 + T4 * z 6 * z 3985 + z 406 * (z 106 * z 3986 + z 107 * z 3987 + z 108 * z 3988) + z 402 * (z 4 * z 3989 + z 32 * z 3990 - z 42 * z 3991) + z 3992 * z 408 + z 14 * z 3985 * z 409 - T7 * z 3985 - T4 * z 5 * z 50 * z 1567 - z 404 * (z 42 * z 3993 - z 4 * z 3994 - z 32 * z 3995 - z 32 * z 3996 - z 733 * z 3997 - z 734 * z 3998) - z 405 * (z 42 * z 3993 - z 4 * z 3994 - z 32 * z 3995 - z 32 * z 3999 - z 733 * z 4000 - z 734 * z 4001) - z 13 * z 50 * z 1567 * z 409);
  SZ 4003 (z 921 * z 1567 - z 929 * z 1591);
  SZ 4004 (z 4003 + z 542 * z 3981 + z 940 * z 1568 + z 944 * z 1682 + z 947 * z 1520 - z 539 * z 3979 - z 545 * z 3877 - z 550 * z 3977 - z 946 * z 1464);
  SZ 4005 (z 907 * z 1524 + z 924 * z 1567 - z 906 * z 1463 - z 932 * z 1591);
  SZ 4006 (z 950 * z 3728 + z 960 * z 4004 - z 945 * z 3726 - z 964 * z 4005);
  SZ 4007 (z 92 * z 845 + z 836 * z 1455 + if11 * z 92 * z 1465 + if11 * z 93 * z 97);
  SZ 4008 (z 4007 + z 544 * z 3740 + z 547 * z 3739 + z 899 * z 1463 + z 900 * z 1524 + z 922 * z 1567 - z 930 * z 1591)].
(* [_mooreriderlean2012.py:8678-9105] *)
Definition chunk17 : list stmt := [
  SZ 4009 (z 4008 + z 543 * z 3981 + z 548 * z 3975 + z 551 * z 3977 + z 940 * z 1569 + z 946 * z 1467 - z 540 * z 3979 - z 546 * z 3877 - z 941 * z 1592 - z 944 * z 1681 - z 947 * z 1522);
  SZ 4010 (z 950 * z 3749 + z 965 * z 4004 - z 951 * z 3726 - z 964 * z 4009);
  SZ 4011 (z 951 * z 3728 + z 960 * z 4009 - z 945 * z 3749 - z 965 * z 4005);
  SZ 4012 (z 983 * z 4006 + z 997 * z 3720 - z 905 * z 4010 - z 982 * z 4011 - z 999 * z 3751);
  SZ 4013 (z 75 * z 3799 + z 79 * z 3808 + z 93 * z 847 + z 93 * z 848 + z 93 * z 3815 + z 96 * z 3821 + z 1465 * z 837 + z 1465 * z 850 + ie11 * z 75 * z 3788 + ie31 * z 75 * z 3794 + ie31 * z 79 * z 3788 + ie33 * z 79 * z 3794 + if11 * z 93 * z 3813 + if11 * z 96 * z 3820 + me * z 161 * (z 3863 + z 9 * z 3861 - z 10 * z 3860) + mf * z 150 * (z 3867 + z 9 * z 3861 - z 10 * z 3860));
  SZ 4014 (z 4013 + z 543 * z 3874 + z 548 * z 3872 + z 551 * z 3873 + z 1467 * z 913 + z 1569 * z 925 - z 540 * z 3870 - z 546 * z 3871 - z 1522 * z 917 - z 1592 * z 933 - z 1681 * z 938);
  SZ 4015 (z 4014 + z 967 * z 3976 + z 972 * z 3982 + z 3731 * z 665 + z 3734 * z 667 + z 3735 * z 669 + z 3745 * z 668 - z 970 * z 3973 - z 971 * z 3980 - z 975 * z 3978 - z 3730 * z 666);
  SZ 4016 (z 52 * z 1569 - z 78 * z 1592);
  SZ 4017 (z 52 * z 1569 - z 48 * z 1592);
  SZ 4018 (z 182 * z 1467 + z 211 * z 1569 - z 183 * z 1522 - z 210 * z 1592);
  SZ 4019 (z 187 * z 1467 + z 214 * z 1569 - z 188 * z 1522 - z 213 * z 1592);
  SZ 4020 (z 192 * z 1467 + z 217 * z 1569 - z 193 * z 1522 - z 216 * z 1592);
  SZ 4021 (z 130 * z 1569 - z 121 * z 1467 - z 124 * z 1522 - z 128 * z 1592);
  SZ 4022 (z 122 * z 1467 + z 132 * z 1592 + z 138 * z 1569 - z 125 * z 1522);
  SZ 4023 (z 120 * z 1467 + z 137 * z 1569 - z 123 * z 1522 - z 135 * z 1592);
  SZ 4024 (z 110 * z 1569 - z 111 * z 1592);
  SZ 4025 (z 120 * z 1467 - z 123 * z 1522 - z 126 * z 1569);
  SZ 4026 (z 145 * z 1569 - z 121 * z 1467 - z 124 * z 1522 - z 143 * z 1592);
  SZ 4027 (z 122 * z 1467 + z 141 * z 1592 + z 146 * z 1569 - z 125 * z 1522);
  SZ 4028 (z 167 * z 1592 - z 169 * z 1569);
  SZ 4029 (z 159 * z 1569 - z 160 * z 1592);
  SZ 4030 (z 166 * z 1569 - z 164 * z 1592);
  SZ 4031 (z 155 * z 1592 - z 157 * z 1569);
  SZ 4032 (z 154 * z 1569 - z 152 * z 1592);
  SZ 4033 (z 148 * z 1569 - z 149 * z 1592);
  SZ 4034 (T7 * z 4016 + T4 * z 6 * z 4017 + z 406 * (z 106 * z 4018 + z 107 * z 4019 + z 108 * z 4020) + z 402 * (z 4 * z 4021 + z 32 * z 4022 - z 42 * z 4023) + z 4024 * z 408 + z 14 * z 4017 * z 409 - T7 * z 4017 - T4 * z 5 * z 50 * z 1569 - z 404 * (z 42 * z 4025 - z 4 * z 4026 - z 32 * z 4027 - z 32 * z 4028 - z 733 * z 4030 - z 734 * z 4029) - z 405 * (z 42 * z 4025 - z 4 * z 4026 - z 32 * z 4027 - z 32 * z 4031 - z 733 * z 4032 - z 734 * z 4033) - z 13 * z 50 * z 1569 * z 409);
  SZ 4035 (z 950 * z 3727 + z 973 * z 4004 - z 945 * z 3736 - z 978 * z 4005);
  SZ 4036 (z 950 * z 3746 + z 979 * z 4004 - z 951 * z 3736 - z 978 * z 4009);
  SZ 4037 (z 951 * z 3727 + z 973 * z 4009 - z 945 * z 3746 - z 979 * z 4005);
  SZ 4038 (z 983 * z 4035 + z 1013 * z 3720 - z 905 * z 4036 - z 982 * z 4037 - z 1014 * z 3751);
  SZ 4039 (z 53 * (z 3769 + id22 * z 3764));
  SZ 4040 (z 4039 + z 542 * z 3874 + z 1520 * z 917 + z 1568 * z 925 + z 1682 * z 938 - z 539 * z 3870 - z 545 * z 3871 - z 550 * z 3873 - z 1464 * z 913);
  SZ 4041 (z 4040 + z 954 * z 3976 + z 958 * z 3982 + z 3722 * z 665 + z 3724 * z 667 + z 3725 * z 669 + z 3748 * z 668 - z 955 * z 3973 - z 957 * z 3980 - z 961 * z 3978 - z 3721 * z 666);
  SZ 4042 (z 183 * z 1520 + z 211 * z 1568 - z 182 * z 1464);
  SZ 4043 (z 188 * z 1520 + z 214 * z 1568 - z 187 * z 1464);
  SZ 4044 (z 193 * z 1520 + z 217 * z 1568 - z 192 * z 1464);
  SZ 4045 (z 121 * z 1464 + z 124 * z 1520 + z 130 * z 1568);
  SZ 4046 (z 125 * z 1520 + z 138 * z 1568 - z 122 * z 1464);
  SZ 4047 (z 123 * z 1520 + z 137 * z 1568 - z 120 * z 1464);
  SZ 4048 (z 121 * z 1464 + z 124 * z 1520 + z 145 * z 1568);
  SZ 4049 (z 125 * z 1520 + z 146 * z 1568 - z 122 * z 1464);
  SZ 4050 (z 123 * z 1520 - z 120 * z 1464 - z 126 * z 1568);
  SZ 4051 (T4 * z 6 * z 52 * z 1568 + z 406 * (z 106 * z 4042 + z 107 * z 4043 + z 108 * z 4044) + z 402 * (z 4 * z 4045 + z 32 * z 4046 - z 42 * z 4047) + z 110 * z 1568 * z 408 + z 14 * z 52 * z 1568 * z 409 - T4 * z 5 * z 50 * z 1568 - z 404 * (z 42 * z 4050 + z 32 * z 169 * z 1568 - z 4 * z 4048 - z 32 * z 4049 - z 159 * z 734 * z 1568 - z 166 * z 733 * z 1568) - z 405 * (z 42 * z 4050 + z 32 * z 157 * z 1568 - z 4 * z 4048 - z 32 * z 4049 - z 148 * z 734 * z 1568 - z 154 * z 733 * z 1568) - z 13 * z 50 * z 1568 * z 409);
  SZ 4052 (z 979 * z 4006 + z 997 * z 3746 - z 973 * z 4010 - z 978 * z 4011 - z 995 * z 3727 - z 999 * z 3736);
  SZ 4053 (z 98 * z 3832 + z 99 * z 3837 + ig11 * z 98 * z 3824 + ig22 * z 99 * z 3835 + ig31 * z 98 * z 3827 - mg * (z 200 * z 3851 + z 201 * z 3853 - z 205 * z 3846));
  SZ 4054 (z 4053 + z 903 * z 3976 + z 907 * z 3982 - z 902 * z 3973 - z 906 * z 3980);
  SZ 4055 (z 92 * z 846 + z 835 * z 1455 + if11 * z 92 * z 97 + if11 * z 92 * z 1455);
  SZ 4056 (if11 * z 90 * z 1455 + if11 * z 92 * z 94 + z 43 * z 88 * z 846 + z 43 * z 835 * z 1452);
  SZ 4057 (z 91 * z 846 + z 835 * z 1458 + if11 * z 91 * z 1455 + if11 * z 92 * z 95);
  SZ 4058 (z 4055 + z 544 * z 4056 + z 547 * z 4057 + z 888 * z 1524 + z 918 * z 1567 - z 887 * z 1463 - z 926 * z 1591 - z 935 * z 1680);
  SZ 4059 (z 4058 + z 538 * z 3979 + z 544 * z 3877 + z 547 * z 3975 + z 549 * z 3977 + z 940 * z 1567 + z 947 * z 1524 - z 541 * z 3981 - z 941 * z 1591 - z 944 * z 1680 - z 946 * z 1463);
  SZ 4060 (z 888 * z 1520 + z 918 * z 1568 + z 935 * z 1682 - z 545 * z 4056 - z 887 * z 1464);
  SZ 4061 (z 4060 + z 538 * z 3722 + z 544 * z 3724 + z 547 * z 3748 + z 549 * z 3725 + z 955 * z 1567 + z 958 * z 1524 - z 541 * z 3721 - z 954 * z 1591 - z 957 * z 1463 - z 961 * z 1680);
  SZ 4062 (z 949 * z 3726 + z 964 * z 4059 - z 950 * z 4061 - z 963 * z 4004);
  SZ 4063 (z 905 * z 3746 - z 973 * z 3720 - z 983 * z 3727);
  SZ 4064 (z 949 * z 3728 + z 960 * z 4059 - z 945 * z 4061 - z 963 * z 4005);
  SZ 4065 (z 978 * z 3720 + z 983 * z 3736 - z 979 * z 3751 - z 982 * z 3746);
  SZ 4066 (z 93 * z 846 + z 835 * z 1465 + if11 * z 92 * z 96 + if11 * z 93 * z 1455);
  SZ 4067 (z 4066 + z 548 * z 4057 + z 887 * z 1467 + z 918 * z 1569 - z 546 * z 4056 - z 888 * z 1522 - z 926 * z 1592 - z 935 * z 1681);
  SZ 4068 (z 4067 + z 538 * z 3731 + z 544 * z 3734 + z 547 * z 3745 + z 549 * z 3735 + z 970 * z 1567 + z 972 * z 1524 - z 541 * z 3730 - z 967 * z 1591 - z 971 * z 1463 - z 975 * z 1680);
  SZ 4069 (z 902 * z 1567 + z 907 * z 1524 - z 903 * z 1591 - z 906 * z 1463);
  SZ 4070 (z 905 * z 4068 - z 973 * z 4069 - z 981 * z 3727);
  SZ 4071 (z 977 * z 3751 + z 982 * z 4068 - z 978 * z 4069 - z 981 * z 3736);
  SZ 4072 (z 949 * z 3749 + z 965 * z 4059 - z 951 * z 4061 - z 963 * z 4009);
  SZ 4073 (z 905 * z 3736 - z 973 * z 3751 - z 982 * z 3727);
  SZ 4074 (z 977 * z 3720 + z 983 * z 4068 - z 979 * z 4069 - z 981 * z 3746);
  SZ 4075 (z 989 * z 4063 + z 990 * z 4062 + z 993 * z 4065 + z 994 * z 4064 + z 995 * z 4070 + z 996 * z 4010 + z 999 * z 4071 + z 1000 * z 4011 - z 991 * z 4073 - z 992 * z 4072 - z 997 * z 4074 - z 998 * z 4006);
  SZ 4076 ((z 4075 * (z 1005 * z 985 + z 1022 * z 987 - z 1015 * z 986 - z 1026 * z 988) - z 1001 * (z 3753 * z 985 + z 4012 * z 987 + z 1015 * (z 4051 - z 4041) - z 1026 * z 4054 - z 4038 * z 986 - z 4052 * z 988 - z 1005 * (z 4002 - z 3983) - z 1022 * (z 4034 - z 4015))) / (PowN (z 1001) 2));
  SZ 4077 (z 13 * z 17 * z 125 - z 15 * z 124 - z 14 * z 17 * z 123);
  SZ 4078 (z 15 * (z 17 - z 13 * z 20 - z 14 * z 18));
  SZ 4079 (z 14 * z 15 * z 123 - z 17 * z 124 - z 13 * z 15 * z 125);
  SZ 4080 (mg * (z 200 * z 4077 + z 201 * z 4079 + (Lit 2 1) * l6 * z 188 * z 4078));
  SZ 4081 ((- z 17) * z 47 - z 13 * z 15 * z 48);
  SZ 4082 (z 13 * z 17 * z 48 - z 15 * z 47);
  SZ 4083 (z 15 * z 172 + z 13 * z 17 * z 174 - z 14 * z 17 * z 177);
  SZ 4084 (z 17 * z 172 + z 14 * z 15 * z 177 - z 13 * z 15 * z 174);
  SZ 4085 ((Lit 2 1) * z 857 * z 4078 + (Lit 2 1) * z 870 * z 4078 + ig22 * z 99 * z 4082 + ig31 * z 98 * z 4081 + mg * (l6 * z 205 * z 4082 - (Lit 2 1) * l6 * z 213 * z 4078 - z 200 * (z 4083 + l5 * z 4081) - z 201 * (z 4084 - l5 * z 4082)));
  SZ 4086 (z 15 * z 121 + z 13 * z 17 * z 122 - z 14 * z 17 * z 120);
  SZ 4087 (z 17 * z 121 + z 14 * z 15 * z 120 - z 13 * z 15 * z 122);
  SZ 4088 (mg * (z 200 * z 4086 + z 201 * z 4087 + (Lit 2 1) * l6 * z 187 * z 4078));
  SZ 4089 ((- z 4) * z 17 - z 13 * z 15 * z 32 - z 14 * z 15 * z 42);
  SZ 4090 (z 13 * z 17 * z 32 + z 14 * z 17 * z 42 - z 4 * z 15);
  SZ 4091 (z 13 * z 17 * z 180 - z 15 * z 171 - z 14 * z 17 * z 179);
  SZ 4092 (z 4091 + l5 * z 43 * z 4089);
  SZ 4093 (z 14 * z 15 * z 179 - z 17 * z 171 - z 13 * z 15 * z 180);
  SZ 4094 (z 4093 - l5 * z 43 * z 4090);
  SZ 4095 ((Lit 2 1) * z 856 * z 4078 + (Lit 2 1) * z 869 * z 4078 + ig22 * z 43 * z 99 * z 4090 + ig31 * z 43 * z 98 * z 4089 - mg * (z 200 * z 4092 + z 201 * z 4094 + (Lit 2 1) * l6 * z 214 * z 4078 - l6 * z 43 * z 205 * z 4090));
  SZ 4096 (z 540 * z 4088 + z 548 * z 4085 - z 543 * z 4080 - z 546 * z 4095);
  SZ 4097 (mg * (z 188 * z 4077 + z 193 * z 4079));
  SZ 4098 (mg * (z 187 * z 4077 + z 188 * z 4086 + z 192 * z 4079 + z 193 * z 4087));
  SZ 4099 (mg * (z 188 * z 4092 + z 193 * z 4094 + z 214 * z 4077 + z 217 * z 4079 + l6 * z 43 * z 183 * z 4090));
  SZ 4100 ((Lit 2 1) * z 542 * z 4097 - z 539 * z 4098 - z 545 * z 4099);
  SZ 4101 (mg * (z 187 * z 4086 + z 192 * z 4087));
  SZ 4102 (mg * (z 187 * z 4092 + z 192 * z 4094 + z 214 * z 4086 + z 217 * z 4087 + l6 * z 43 * z 182 * z 4090));
  SZ 4103 (z 542 * z 4098 - (Lit 2 1) * z 539 * z 4101 - z 545 * z 4102);
  SZ 4104 (z 43 * z 861 * z 4089 + z 43 * z 865 * z 4090 + z 43 * z 873 * z 4089 + ig22 * z 43 * z 112 * z 4090 + ig31 * z 43 * z 110 * z 4089 + ig33 * z 43 * z 115 * z 4089 + (Lit 2 1) * mg * (z 214 * z 4092 + z 217 * z 4094 + l6 * z 43 * z 211 * z 4090));
  SZ 4105 (z 542 * z 4099 - z 539 * z 4102 - z 545 * z 4104);
  SZ 4106 (z 542 * z 4100 - z 539 * z 4103 - z 545 * z 4105);
  SZ 4107 (z 859 * z 4081 + z 864 * z 4082 + (Lit 2 1) * ig11 * z 111 * z 4078 + (Lit 2 1) * ig31 * z 116 * z 4078 + mg * (l6 * z 205 * z 4082 - (Lit 2 1) * l6 * z 213 * z 4078 - z 200 * (z 4083 + l5 * z 4081) - z 201 * (z 4084 - l5 * z 4082)));
  SZ 4108 (z 43 * z 859 * z 4089 + z 43 * z 864 * z 4090 + (Lit 2 1) * ig11 * z 110 * z 4078 + (Lit 2 1) * ig31 * z 115 * z 4078 - mg * (z 200 * z 4092 + z 201 * z 4094 + (Lit 2 1) * l6 * z 214 * z 4078 - l6 * z 43 * z 205 * z 4090));
  SZ 4109 (z 540 * z 4088 + z 548 * z 4107 - z 543 * z 4080 - z 546 * z 4108);
  SZ 4110 (z 539 * z 4088 - z 542 * z 4080 - z 545 * z 4108);
  SZ 4111 (mg * (z 213 * z 4077 + z 216 * z 4079 + l6 * z 183 * z 4082 + z 188 * (z 4083 + l5 * z 4081) + z 193 * (z 4084 - l5 * z 4082)));
  SZ 4112 (z 548 * z 4111 + (Lit 2 1) * z 543 * z 4097 - z 540 * z 4098 - z 546 * z 4099);
  SZ 4113 (mg * (z 213 * z 4086 + z 216 * z 4087 + l6 * z 182 * z 4082 + z 187 * (z 4083 + l5 * z 4081) + z 192 * (z 4084 - l5 * z 4082)));
  SZ 4114 (z 543 * z 4098 + z 548 * z 4113 - (Lit 2 1) * z 540 * z 4101 - z 546 * z 4102);
  SZ 4115 (z 861 * z 4081 + z 865 * z 4082 + z 873 * z 4081 + ig22 * z 43 * z 114 * z 4090 + ig31 * z 43 * z 111 * z 4089 + ig33 * z 43 * z 116 * z 4089 + mg * (z 213 * z 4092 + z 216 * z 4094 + l6 * z 211 * z 4082 + l6 * z 43 * z 210 * z 4090 + z 214 * (z 4083 + l5 * z 4081) + z 217 * (z 4084 - l5 * z 4082)));
  SZ 4116 (z 543 * z 4099 + z 548 * z 4115 - z 540 * z 4102 - z 546 * z 4104);
  SZ 4117 (z 542 * z 4112 - z 539 * z 4114 - z 545 * z 4116);
  SZ 4118 (z 964 * z 4109 + z 973 * z 4106 - z 960 * z 4117 - z 978 * z 4110);
  SZ 4120 (z 4078 * (z 854 + ig11 * z 98 + (Lit 2 1) * z 4119 * z 200));
  SZ 4121 (z 862 * z 4081 + z 867 * z 4082 + z 874 * z 4081 + ig22 * z 114 * z 4082 + ig31 * z 111 * z 4081 + ig33 * z 116 * z 4081 + (Lit 2 1) * mg * (l6 * z 210 * z 4082 + z 213 * (z 4083 + l5 * z 4081) + z 216 * (z 4084 - l5 * z 4082)));
  SZ 4122 (ig22 * z 112 * z 4082 + ig31 * z 110 * z 4081 + ig33 * z 115 * z 4081 + z 43 * z 862 * z 4089 + z 43 * z 867 * z 4090 + z 43 * z 874 * z 4089 + mg * (z 213 * z 4092 + z 216 * z 4094 + l6 * z 211 * z 4082 + l6 * z 43 * z 210 * z 4090 + z 214 * (z 4083 + l5 * z 4081) + z 217 * (z 4084 - l5 * z 4082)));
  SZ 4123 (z 543 * z 4111 + z 548 * z 4121 - z 540 * z 4113 - z 546 * z 4122);
  SZ 4124 (z 543 * z 4112 + z 548 * z 4123 - z 540 * z 4114 - z 546 * z 4116);
  SZ 4125 (z 542 * z 4111 - z 539 * z 4113 - z 545 * z 4122);
  SZ 4126 (z 543 * z 4100 + z 548 * z 4125 - z 540 * z 4103 - z 546 * z 4105);
  SZ 4127 (z 964 * z 4124 + z 979 * z 4106 - z 965 * z 4117 - z 978 * z 4126);
  SZ 4128 (z 539 * z 4088 - z 542 * z 4080 - z 545 * z 4095);
  SZ 4129 (z 965 * z 4109 + z 973 * z 4126 - z 960 * z 4124 - z 979 * z 4110);
  SZ 4130 (z 983 * z 4118 + z 1003 * z 4096 - (Lit 2 1) * z 1002 * z 4120 - z 905 * z 4127 - z 982 * z 4129 - z 1004 * z 4128);
  SZ 4131 ((Lit 2 1) * (PowN (z 17) 2) * q9p + (Lit 2 1) * z 13 * z 15 * z 338 + (Lit 2 1) * z 14 * z 15 * z 337 - (Lit 2 1) * (PowN (z 15) 2) * q9p - (Lit 2 1) * z 13 * z 17 * z 20 * q9p - (Lit 2 1) * z 14 * z 17 * z 18 * q9p);
  SZ 4132 (z 15 * z 46 * q9p + z 14 * z 17 * z 45 * q9p + z 14 * z 15 * z 270 - z 13 * z 17 * z 49 * q9p - z 17 * z 274 - z 13 * z 15 * z 279);
  SZ 4133 (z 15 * z 47 * q9p - z 13 * z 17 * z 48 * q9p - z 17 * z 275 - z 13 * z 15 * z 278);
  SZ 4134 (z 4 * z 15 * q9p - z 3 * z 17 * q4p - z 13 * z 17 * z 32 * q9p - z 14 * z 17 * z 42 * q9p - z 13 * z 15 * z 268 - z 14 * z 15 * z 271);
  SZ 4135 (q4p * z 4132 + q5p * z 4133 + z 43 * q3p * z 4134);
  SZ 4136 (z 13 * z 17 * z 49 - z 15 * z 46 - z 14 * z 17 * z 45);
  SZ 4137 (z 4082 * q5p + z 4136 * q4p + z 43 * z 4090 * q3p);
  SZ 4138 (z 14 * z 15 * z 45 - z 17 * z 46 - z 13 * z 15 * z 49);
  SZ 4139 (z 4081 * q5p + z 4138 * q4p + z 43 * z 4089 * q3p);
  SZ 4140 ((Lit 2 1) * ig31 * z 4078 * q9p + ig33 * z 4139);
  SZ 4141 (z 335 * z 4140 + z 852 * z 4137 - z 853 * z 4139 - ig22 * z 336 * z 4137);
  SZ 4142 (z 14 * z 15 * z 45 * q9p + z 13 * z 17 * z 279 - z 17 * z 46 * q9p - z 13 * z 15 * z 49 * q9p - z 15 * z 274 - z 14 * z 17 * z 270);
  SZ 4143 (z 13 * z 17 * z 278 - z 17 * z 47 * q9p - z 13 * z 15 * z 48 * q9p - z 15 * z 275);
  SZ 4144 (z 13 * z 17 * z 268 + z 14 * z 17 * z 271 - z 3 * z 15 * q4p - z 4 * z 17 * q9p - z 13 * z 15 * z 32 * q9p - z 14 * z 15 * z 42 * q9p);
  SZ 4145 (q4p * z 4142 + q5p * z 4143 + z 43 * q3p * z 4144);
  SZ 4146 ((Lit 2 1) * ig11 * z 4078 * q9p + ig31 * z 4139);
  SZ 4147 (z 336 * z 4146 + z 851 * z 4139 - z 334 * z 4140 - (Lit 2 1) * z 4078 * q9p * z 852);
  SZ 4148 (ig22 * z 334 * z 4137 + (Lit 2 1) * z 4078 * q9p * z 853 - z 335 * z 4146 - z 851 * z 4137);
  SZ 4149 (l6 * z 4145 + ((Lit 2 1) * l6 * z 4078 * q9p - l5 * z 4081 * q5p - l5 * z 4138 * q4p - l5 * z 43 * z 4089 * q3p) * z 336 - (z 201 * q9p + z 202 * q3p + z 203 * q4p + z 204 * q5p) * z 4137 - l5 * (z 4082 * q5p + z 4136 * q4p + z 43 * z 4090 * q3p) * z 335 - (z 197 * q3p + z 198 * q5p + z 199 * q4p - z 200 * q9p) * z 4139);
  SZ 4150 (z 13 * z 17 * z 173 - z 15 * z 181 - z 14 * z 17 * z 176);
  SZ 4151 (z 13 * z 17 * z 392 - z 15 * z 391 - z 14 * z 17 * z 390);
  SZ 4152 (l5 * z 4135 - l6 * q9p * z 4131);
  SZ 4153 ((Lit 2 1) * z 4078 * q9p * (z 201 * q9p + z 202 * q3p + z 203 * q4p + z 204 * q5p) + z 4151 + z 4152 + (z 205 * q9p + z 206 * q3p + z 207 * q4p + z 208 * q5p) * z 4139 + l5 * (z 4082 * q5p + z 4136 * q4p + z 43 * z 4090 * q3p) * z 334 + l6 * (z 4082 * q5p + z 4136 * q4p + z 43 * z 4090 * q3p) * z 336);
  SZ 4154 (z 14 * z 15 * z 176 - z 17 * z 181 - z 13 * z 15 * z 173);
  SZ 4155 (z 14 * z 15 * z 390 - z 17 * z 391 - z 13 * z 15 * z 392);
  SZ 4156 ((Lit 2 1) * z 4078 * q9p * (z 197 * q3p + z 198 * q5p + z 199 * q4p - z 200 * q9p) + z 4155 - l5 * z 4145 - (z 205 * q9p + z 206 * q3p + z 207 * q4p + z 208 * q5p) * z 4137 - l6 * (z 4082 * q5p + z 4136 * q4p + z 43 * z 4090 * q3p) * z 335 - ((Lit 2 1) * l6 * z 4078 * q9p - l5 * z 4081 * q5p - l5 * z 4138 * q4p - l5 * z 43 * z 4089 * q3p) * z 334);
  SZ 4157 (z 109 * z 4141 + z 113 * z 4147 + z 117 * z 4148 + z 4136 * z 868 + z 4136 * z 877 + z 4138 * z 863 + z 4138 * z 876 + z 4138 * z 878 + ig22 * z 113 * z 4145 + ig31 * z 109 * z 4135 + ig33 * z 117 * z 4135 + ig11 * z 109 * q9p * z 4131 + ig31 * z 117 * q9p * z 4131 + mg * (z 209 * z 4149 + z 212 * z 4153 + z 215 * z 4156 + l6 * z 4136 * z 399 + (z 4150 + l5 * z 4138) * z 400 + (z 4154 - l5 * z 4136) * z 401));
  SZ 4158 (mg * (z 182 * z 4149 + z 187 * z 4153 + z 192 * z 4156 + z 4086 * z 400 + z 4087 * z 401));
  SZ 4159 (z 110 * z 4141 + z 112 * z 4147 + z 115 * z 4148 + ig22 * z 112 * z 4145 + ig31 * z 110 * z 4135 + ig33 * z 115 * z 4135 + z 43 * z 4089 * z 863 + z 43 * z 4089 * z 876 + z 43 * z 4089 * z 878 + z 43 * z 4090 * z 868 + z 43 * z 4090 * z 877 + ig11 * z 110 * q9p * z 4131 + ig31 * z 115 * q9p * z 4131 + mg * (z 211 * z 4149 + z 214 * z 4153 + z 217 * z 4156 + z 4092 * z 400 + z 4094 * z 401 + l6 * z 43 * z 4090 * z 399));
  SZ 4160 (z 111 * z 4141 + z 114 * z 4147 + z 116 * z 4148 + z 4081 * z 863 + z 4081 * z 876 + z 4081 * z 878 + z 4082 * z 868 + z 4082 * z 877 + ig22 * z 114 * z 4145 + ig31 * z 111 * z 4135 + ig33 * z 116 * z 4135 + ig11 * z 111 * q9p * z 4131 + ig31 * z 116 * q9p * z 4131 + mg * (z 210 * z 4149 + z 213 * z 4153 + z 216 * z 4156 + l6 * z 4082 * z 399 + (z 4083 + l5 * z 4081) * z 400 + (z 4084 - l5 * z 4082) * z 401));
  SZ 4161 (mg * (z 183 * z 4149 + z 188 * z 4153 + z 193 * z 4156 + z 4077 * z 400 + z 4079 * z 401));
  SZ 4162 (z 4157 + z 538 * z 4158 + z 544 * z 4159 + z 547 * z 4160 - z 541 * z 4161);
  SZ 4163 (z 861 * z 4138 + z 865 * z 4136 + z 873 * z 4138 + ig22 * z 43 * z 113 * z 4090 + ig31 * z 43 * z 109 * z 4089 + ig33 * z 43 * z 117 * z 4089 + mg * (z 212 * z 4092 + z 215 * z 4094 + l6 * z 211 * z 4136 + l6 * z 43 * z 209 * z 4090 + z 214 * (z 4150 + l5 * z 4138) + z 217 * (z 4154 - l5 * z 4136)));
  SZ 4164 (z 4163 + z 538 * z 4102 + z 544 * z 4104 + z 547 * z 4115 - z 541 * z 4099);
  SZ 4165 (z 862 * z 4138 + z 867 * z 4136 + z 874 * z 4138 + ig22 * z 113 * z 4082 + ig31 * z 109 * z 4081 + ig33 * z 117 * z 4081 + mg * (l6 * z 209 * z 4082 + l6 * z 210 * z 4136 + z 212 * (z 4083 + l5 * z 4081) + z 213 * (z 4150 + l5 * z 4138) + z 215 * (z 4084 - l5 * z 4082) + z 216 * (z 4154 - l5 * z 4136)));
  SZ 4166 (z 4165 + z 538 * z 4113 + z 544 * z 4122 + z 547 * z 4121 - z 541 * z 4111);
  SZ 4167 (mg * (z 212 * z 4086 + z 215 * z 4087 + l6 * z 182 * z 4136 + z 187 * (z 4150 + l5 * z 4138) + z 192 * (z 4154 - l5 * z 4136)));
  SZ 4168 (z 4167 + z 544 * z 4102 + z 547 * z 4113 + (Lit 2 1) * z 538 * z 4101 - z 541 * z 4098);
  SZ 4169 (mg * (z 212 * z 4077 + z 215 * z 4079 + l6 * z 183 * z 4136 + z 188 * (z 4150 + l5 * z 4138) + z 193 * (z 4154 - l5 * z 4136)));
  SZ 4170 (z 4169 + z 538 * z 4098 + z 544 * z 4099 + z 547 * z 4111 - (Lit 2 1) * z 541 * z 4097);
  SZ 4171 (z 4162 + z 4164 * z 667 + z 4166 * z 668 + z 4168 * z 665 - z 4170 * z 666);
  SZ 4172 (l6 * (z 4136 + z 547 * z 4082 + z 43 * z 544 * z 4090));
  SZ 4173 (z 4150 + l5 * z 4138 + z 538 * z 4086 + z 544 * z 4092 + z 547 * (z 4083 + l5 * z 4081) - z 541 * z 4077);
  SZ 4174 (z 4154 + z 538 * z 4087 + z 544 * z 4094 + z 547 * (z 4084 - l5 * z 4082) - l5 * z 4136 - z 541 * z 4079);
  SZ 4177 (z 4175 * z 670 + z 4176 * z 672 + z 406 * (z 106 * z 4172 + z 107 * z 4173 + z 108 * z 4174 + z 745 * z 4090 + z 746 * z 4089) - k9 * z 694);
  SZ 4178 (z 542 * z 4170 - z 539 * z 4168 - z 545 * z 4164);
  SZ 4179 (z 859 * z 4138 + z 864 * z 4136 + (Lit 2 1) * ig11 * z 109 * z 4078 + (Lit 2 1) * ig31 * z 117 * z 4078 + mg * (l6 * z 205 * z 4136 - (Lit 2 1) * l6 * z 212 * z 4078 - z 200 * (z 4150 + l5 * z 4138) - z 201 * (z 4154 - l5 * z 4136)));
  SZ 4180 (z 4179 + z 541 * z 4080 + z 544 * z 4108 + z 547 * z 4107 - z 538 * z 4088);
  SZ 4181 (z 950 * z 4110 + z 960 * z 4178 - z 945 * z 4106 - z 964 * z 4180);
  SZ 4182 (z 543 * z 4170 + z 548 * z 4166 - z 540 * z 4168 - z 546 * z 4164);
  SZ 4183 (z 950 * z 4126 + z 965 * z 4178 - z 951 * z 4106 - z 964 * z 4182);
  SZ 4184 (z 951 * z 4110 + z 960 * z 4182 - z 945 * z 4126 - z 965 * z 4180);
  SZ 4185 (z 983 * z 4181 + z 997 * z 4096 - (Lit 2 1) * z 995 * z 4120 - z 905 * z 4183 - z 982 * z 4184 - z 999 * z 4128);
  SZ 4186 (z 543 * z 4161 + z 548 * z 4160 - z 540 * z 4158 - z 546 * z 4159);
  SZ 4187 (z 4186 + z 4114 * z 665 + z 4116 * z 667 + z 4123 * z 668 - z 4112 * z 666);
  SZ 4188 (l6 * (z 548 * z 4082 - z 43 * z 546 * z 4090));
  SZ 4189 (z 543 * z 4077 + z 548 * (z 4083 + l5 * z 4081) - z 540 * z 4086 - z 546 * z 4092);
  SZ 4190 (z 543 * z 4079 + z 548 * (z 4084 - l5 * z 4082) - z 540 * z 4087 - z 546 * z 4094);
  SZ 4191 (z 4175 * z 676 + z 4176 * z 678 + z 406 * (z 106 * z 4188 + z 107 * z 4189 + z 108 * z 4190 + z 751 * z 4090 + z 752 * z 4089) - k9 * z 700);
  SZ 4192 (z 950 * z 4109 + z 973 * z 4178 - z 945 * z 4117 - z 978 * z 4180);
  SZ 4193 (z 950 * z 4124 + z 979 * z 4178 - z 951 * z 4117 - z 978 * z 4182);
  SZ 4194 (z 951 * z 4109 + z 973 * z 4182 - z 945 * z 4124 - z 979 * z 4180);
  SZ 4195 (z 983 * z 4192 + z 1013 * z 4096 - (Lit 2 1) * z 1012 * z 4120 - z 905 * z 4193 - z 982 * z 4194 - z 1014 * z 4128);
  SZ 4196 (z 542 * z 4161 - z 539 * z 4158 - z 545 * z 4159);
  SZ 4197 (z 4196 + z 4103 * z 665 + z 4105 * z 667 + z 4125 * z 668 - z 4100 * z 666);
  SZ 4198 (l6 * z 43 * z 545 * z 4090);
  SZ 4199 (z 542 * z 4077 - z 539 * z 4086 - z 545 * z 4092);
  SZ 4200 (z 542 * z 4079 - z 539 * z 4087 - z 545 * z 4094);
  SZ 4201 (k9 * z 697 + z 4175 * z 673 - z 4176 * z 675 - z 406 * (z 106 * z 4198 - z 107 * z 4199 - z 108 * z 4200 - z 748 * z 4090 - z 749 * z 4089));
  SZ 4202 (z 979 * z 4181 + z 997 * z 4124 - z 973 * z 4183 - z 978 * z 4184 - z 995 * z 4109 - z 999 * z 4117);
  SZ 4203 (z 98 * z 4141 + z 99 * z 4147 + (Lit 2 1) * z 4078 * z 858 + (Lit 2 1) * z 4078 * z 872 + (Lit 2 1) * z 4078 * z 879 + ig22 * z 99 * z 4145 + ig31 * z 98 * z 4135 + ig11 * z 98 * q9p * z 4131 + mg * (z 205 * z 4149 - z 200 * z 4153 - z 201 * z 4156 - (Lit 2 1) * l6 * z 4078 * z 400));
  SZ 4204 (z 4203 + z 4080 * z 666 + z 4085 * z 668 + z 4095 * z 667 - z 4088 * z 665);
  SZ 4205 ((Lit 2 1) * z 4078 * z 408 - k9 * z 98 - z 406 * (z 200 * z 4090 + z 201 * z 4089 + (Lit 2 1) * l6 * z 107 * z 4078));
  SZ 4206 (z 860 * z 4138 + z 866 * z 4136 + z 875 * z 4138 + ig22 * z 113 * z 4136 + ig31 * z 109 * z 4138 + ig33 * z 117 * z 4138 + (Lit 2 1) * mg * (l6 * z 209 * z 4136 + z 212 * (z 4150 + l5 * z 4138) + z 215 * (z 4154 - l5 * z 4136)));
  SZ 4207 (ig22 * z 112 * z 4136 + ig31 * z 110 * z 4138 + ig33 * z 115 * z 4138 + z 43 * z 860 * z 4089 + z 43 * z 866 * z 4090 + z 43 * z 875 * z 4089 + mg * (z 212 * z 4092 + z 215 * z 4094 + l6 * z 211 * z 4136 + l6 * z 43 * z 209 * z 4090 + z 214 * (z 4150 + l5 * z 4138) + z 217 * (z 4154 - l5 * z 4136)));
  SZ 4208 (z 860 * z 4081 + z 866 * z 4082 + z 875 * z 4081 + ig22 * z 114 * z 4136 + ig31 * z 111 * z 4138 + ig33 * z 116 * z 4138 + mg * (l6 * z 209 * z 4082 + l6 * z 210 * z 4136 + z 212 * (z 4083 + l5 * z 4081) + z 213 * (z 4150 + l5 * z 4138) + z 215 * (z 4084 - l5 * z 4082) + z 216 * (z 4154 - l5 * z 4136)));
  SZ 4209 (z 4206 + z 538 * z 4167 + z 544 * z 4207 + z 547 * z 4208 - z 541 * z 4169);
  SZ 4210 (z 4209 + z 538 * z 4168 + z 544 * z 4164 + z 547 * z 4166 - z 541 * z 4170);
  SZ 4211 (z 542 * z 4169 - z 539 * z 4167 - z 545 * z 4207);
  SZ 4212 (z 4211 + z 538 * z 4103 + z 544 * z 4105 + z 547 * z 4125 - z 541 * z 4100);
  SZ 4213 (z 949 * z 4106 + z 964 * z 4210 - z 950 * z 4212 - z 963 * z 4178);
  SZ 4214 (z 905 * z 4124 + (Lit 2 1) * z 979 * z 4120 - z 973 * z 4096 - z 983 * z 4109);
  SZ 4215 (z 949 * z 4110 + z 960 * z 4210 - z 945 * z 4212 - z 963 * z 4180);
  SZ 4216 (z 978 * z 4096 + z 983 * z 4117 - z 979 * z 4128 - z 982 * z 4124);
  SZ 4217 (z 543 * z 4169 + z 548 * z 4208 - z 540 * z 4167 - z 546 * z 4207);
  SZ 4218 (z 4217 + z 538 * z 4114 + z 544 * z 4116 + z 547 * z 4123 - z 541 * z 4112);
  SZ 4219 ((Lit 2 1) * z 855 * z 4078 + (Lit 2 1) * z 871 * z 4078 + ig22 * z 99 * z 4136 + ig31 * z 98 * z 4138 + mg * (l6 * z 205 * z 4136 - (Lit 2 1) * l6 * z 212 * z 4078 - z 200 * (z 4150 + l5 * z 4138) - z 201 * (z 4154 - l5 * z 4136)));
  SZ 4220 (z 4219 + z 541 * z 4080 + z 544 * z 4095 + z 547 * z 4085 - z 538 * z 4088);
  SZ 4221 (z 905 * z 4218 + (Lit 2 1) * z 977 * z 4120 - z 973 * z 4220 - z 981 * z 4109);
  SZ 4222 (z 977 * z 4128 + z 982 * z 4218 - z 978 * z 4220 - z 981 * z 4117);
  SZ 4223 (z 949 * z 4126 + z 965 * z 4210 - z 951 * z 4212 - z 963 * z 4182);
  SZ 4224 (z 905 * z 4117 + (Lit 2 1) * z 978 * z 4120 - z 973 * z 4128 - z 982 * z 4109);
  SZ 4225 (z 977 * z 4096 + z 983 * z 4218 - z 979 * z 4220 - z 981 * z 4124);
  SZ 4226 (z 989 * z 4214 + z 990 * z 4213 + z 993 * z 4216 + z 994 * z 4215 + z 995 * z 4221 + z 996 * z 4183 + z 999 * z 4222 + z 1000 * z 4184 - z 991 * z 4224 - z 992 * z 4223 - z 997 * z 4225 - z 998 * z 4181);
  SZ 4227 ((z 4226 * (z 1005 * z 985 + z 1022 * z 987 - z 1015 * z 986 - z 1026 * z 988) + z 1001 * (z 4195 * z 986 + z 4202 * z 988 + z 1005 * (z 4177 - z 4171) + z 1022 * (z 4191 - z 4187) - z 4130 * z 985 - z 4185 * z 987 - z 1015 * (z 4201 - z 4197) - z 1026 * (z 4205 - z 4204))) / (PowN (z 1001) 2));
  SZ 4228 ((- z 4) * z 5 - z 3 * z 6 * z 547);
  SZ 4229 (z 3 * z 5 - z 4 * z 6 * z 547);
  SZ 4230 (z 3 * z 31 + z 3 * z 4228 + z 4 * z 4229 - z 4 * z 32);
  SZ 4231 (z 3 * z 5 * z 547 - z 4 * z 6);
  SZ 4232 (z 4230 * q4p + z 270 - z 43 * z 4231 * q3p - z 43 * z 544 * z 271);
  SZ 4233 (z 3 * z 6 + z 4 * z 5 * z 547);
  SZ 4234 (z 3 * z 41 + z 3 * z 4231 + z 4 * z 4233 - z 4 * z 42);
  SZ 4235 (z 3 * z 4229 - z 3 * z 32 - z 4 * z 31 - z 4 * z 4228);
  SZ 4236 (z 4234 * q4p + z 4235 * q5p + z 43 * z 4228 * q3p + z 279 + z 547 * z 278 + z 43 * z 544 * z 268);
  SZ 4237 (ic33 * z 672 + ic31 * (z 45 - z 50 * z 544));
  SZ 4238 (z 671 * z 758 + z 4237 * z 266 - z 672 * z 759 - ic22 * z 671 * z 267);
  SZ 4239 (z 31 * z 4231 + z 42 * z 4229 - z 32 * z 4233 - z 41 * z 4228);
  SZ 4240 ((Lit 2 1) * z 41 * z 4233 + (Lit 2 1) * z 42 * z 4231 - (Lit 2 1) * z 5 * z 6 * z 547);
  SZ 4241 (z 4239 * q4p + z 4240 * q5p + z 3 * z 43 * q3p + z 274 + z 544 * z 276 + z 547 * z 275);
  SZ 4242 (ic31 * z 672 + ic11 * (z 45 - z 50 * z 544));
  SZ 4243 (z 672 * z 757 + z 4242 * z 267 - z 4237 * z 265 - (z 45 - z 50 * z 544) * z 758);
  SZ 4244 (z 680 * z 781 + id11 * z 679 * z 283 - z 679 * z 783 - id11 * z 680 * z 281);
  SZ 4245 (ic22 * z 671 * z 265 + (z 45 - z 50 * z 544) * z 759 - z 671 * z 757 - z 4242 * z 266);
  SZ 4246 (z 7 * z 4230 - z 8 * z 4234);
  SZ 4247 ((- z 7) * z 4231 - z 8 * z 4228);
  SZ 4248 (z 4246 * q4p + z 43 * z 4247 * q3p + z 284 + z 43 * z 544 * z 285 - z 8 * z 4235 * q5p - z 547 * z 286);
  SZ 4249 (z 671 * z 783 + id11 * z 680 * z 282 - z 680 * z 782 - id22 * z 671 * z 283);
  SZ 4250 (z 7 * z 4234 + z 8 * z 4230);
  SZ 4251 (z 7 * z 4228 - z 8 * z 4231);
  SZ 4252 (z 4250 * q4p + z 7 * z 4235 * q5p + z 43 * z 4251 * q3p + z 288 + z 547 * z 290 + z 43 * z 544 * z 289);
  SZ 4253 (z 679 * z 782 + id22 * z 671 * z 281 - z 671 * z 781 - id11 * z 679 * z 282);
  SZ 4254 ((- z 3) * z 26 - z 4 * z 9 - z 4 * z 5 * z 10 * z 547);
  SZ 4255 (z 4 * z 26 - z 3 * z 9 - z 3 * z 5 * z 10 * z 547);
  SZ 4256 (z 29 * z 4228 + z 32 * z 4254 - z 31 * z 4255 - z 69 * z 4229);
  SZ 4257 (z 3 * z 25 - z 4 * z 6 * z 10 * z 547);
  SZ 4258 ((- z 4) * z 25 - z 3 * z 6 * z 10 * z 547);
  SZ 4259 (z 31 * z 4257 + z 32 * z 4258 + z 71 * z 4229 + z 72 * z 4228 + z 5 * z 26 * z 547 + z 5 * z 6 * z 10 * z 547);
  SZ 4260 (z 3 * z 5 * z 9 * z 547 - z 3 * z 10 - z 4 * z 24);
  SZ 4261 (z 4 * z 10 - z 3 * z 24 - z 4 * z 5 * z 9 * z 547)].
(* [_mooreriderlean2012.py:9106-9601] *)
Definition chunk18 : list stmt := [
  SZ 4262 (z 32 * z 4260 + z 66 * z 4228 + z 9 * z 547 * (PowN (z 6) 2) - z 31 * z 4261 - z 70 * z 4229 - z 5 * z 23 * z 547);
  SZ 4263 (z 3 * z 10 + z 4 * z 24 - z 3 * z 5 * z 9 * z 547);
  SZ 4264 (z 4256 * q4p + z 4259 * q5p + z 4262 * q7p + z 43 * z 4263 * q3p + z 302 + z 547 * z 299 + z 43 * z 544 * z 308);
  SZ 4265 (z 3 * z 9 + z 3 * z 5 * z 10 * z 547 - z 4 * z 26);
  SZ 4266 (z 3 * z 24 + z 4 * z 5 * z 9 * z 547 - z 4 * z 10);
  SZ 4267 (z 27 * z 4265 + z 29 * z 4260 + z 30 * z 4266 + z 66 * z 4254);
  SZ 4268 (z 3 * z 23 - z 4 * z 6 * z 9 * z 547);
  SZ 4269 ((- z 4) * z 23 - z 3 * z 6 * z 9 * z 547);
  SZ 4270 (z 29 * z 4268 + z 67 * z 4254 + z 5 * z 9 * z 25 * z 547 - z 30 * z 4269 - z 68 * z 4265 - z 6 * z 10 * z 24 * z 547);
  SZ 4271 ((Lit 2 1) * z 29 * z 4254 + (Lit 2 1) * z 30 * z 4265 - (Lit 2 1) * z 6 * z 10 * z 25 * z 547);
  SZ 4272 (z 4267 * q4p + z 4270 * q5p + z 4271 * q7p + z 43 * z 4228 * q3p + z 319 + z 547 * z 317 + z 43 * z 544 * z 268);
  SZ 4273 (ie31 * z 686 + ie33 * z 688);
  SZ 4274 (z 687 * z 801 + z 4273 * z 293 - z 688 * z 802 - ie22 * z 687 * z 294);
  SZ 4275 ((- z 27) * z 4228 - z 28 * z 4229 - z 31 * z 4263 - z 32 * z 4266);
  SZ 4276 (z 27 * z 4233 + z 41 * z 4266 - z 28 * z 4231 - z 42 * z 4263 - z 6 * z 23 * z 547 - z 5 * z 6 * z 9 * z 547);
  SZ 4277 (z 4275 * q4p + z 4276 * q5p + z 43 * z 4265 * q3p + z 312 + z 547 * z 311 + z 43 * z 544 * z 313);
  SZ 4278 (ie11 * z 686 + ie31 * z 688);
  SZ 4279 (z 688 * z 800 + z 4278 * z 294 - z 686 * z 801 - z 4273 * z 292);
  SZ 4280 (z 97 + z 94 * z 544 + z 95 * z 547);
  SZ 4281 (z 92 + z 90 * z 544 + z 91 * z 547);
  SZ 4282 (z 4280 * z 830 + if11 * z 4281 * z 323 - z 4281 * z 832 - if11 * z 4280 * z 321);
  SZ 4283 (z 686 * z 802 + ie22 * z 687 * z 292 - z 687 * z 800 - z 4278 * z 293);
  SZ 4284 (z 11 * z 4256 - z 12 * z 4267 - z 11 * z 80 * z 549 - z 12 * z 74 * z 549);
  SZ 4285 (z 11 * z 4259 - z 12 * z 4270 - z 11 * z 78 * z 549 - z 12 * z 73 * z 549);
  SZ 4286 (z 11 * z 4262 - z 12 * z 4271 - z 11 * z 79 * z 549 - z 12 * z 75 * z 549);
  SZ 4287 (z 11 * z 4263 - z 12 * z 4228 - z 11 * z 32 * z 549 - z 12 * z 28 * z 549);
  SZ 4288 (z 4284 * q4p + z 4285 * q5p + z 4286 * q7p + z 43 * z 4287 * q3p + z 326 + z 547 * z 325 + z 43 * z 544 * z 324);
  SZ 4289 (z 77 + z 76 * z 547 + z 82 * z 544 + z 83 * z 549);
  SZ 4290 (z 4289 * z 832 + if11 * z 4280 * z 322 - z 4280 * z 831 - if22 * z 4289 * z 323);
  SZ 4291 (z 11 * z 4267 + z 12 * z 4256 + z 11 * z 74 * z 549 - z 12 * z 80 * z 549);
  SZ 4292 (z 11 * z 4270 + z 12 * z 4259 + z 11 * z 73 * z 549 - z 12 * z 78 * z 549);
  SZ 4293 (z 11 * z 4271 + z 12 * z 4262 + z 11 * z 75 * z 549 - z 12 * z 79 * z 549);
  SZ 4294 (z 11 * z 4228 + z 12 * z 4263 + z 11 * z 28 * z 549 - z 12 * z 32 * z 549);
  SZ 4295 (z 4291 * q4p + z 4292 * q5p + z 4293 * q7p + z 43 * z 4294 * q3p + z 332 + z 547 * z 330 + z 43 * z 544 * z 329);
  SZ 4296 (z 4281 * z 831 + if22 * z 4289 * z 321 - z 4289 * z 830 - if11 * z 4281 * z 322);
  SZ 4297 (z 13 * z 4230 + z 14 * z 4234);
  SZ 4298 (z 14 * z 4228 - z 13 * z 4231);
  SZ 4299 (z 4297 * q4p + z 14 * z 4235 * q5p + z 43 * z 4298 * q3p + z 340 + z 14 * z 547 * z 278 + z 43 * z 544 * z 341);
  SZ 4300 (z 20 * z 4234 - z 15 * z 4239 - z 18 * z 4230);
  SZ 4301 (z 20 * z 4235 - z 15 * z 4240);
  SZ 4302 (z 18 * z 4231 + z 20 * z 4228 - z 3 * z 15);
  SZ 4303 (z 4300 * q4p + z 4301 * q5p + z 43 * z 4302 * q3p + z 350 + z 547 * z 349 + z 43 * z 544 * z 348);
  SZ 4304 (ig31 * z 694 + ig33 * z 696);
  SZ 4305 (z 695 * z 852 + z 4304 * z 335 - z 696 * z 853 - ig22 * z 695 * z 336);
  SZ 4306 (z 17 * z 4239 + z 19 * z 4234 - z 16 * z 4230);
  SZ 4307 (z 17 * z 4240 + z 19 * z 4235);
  SZ 4308 (z 3 * z 17 + z 16 * z 4231 + z 19 * z 4228);
  SZ 4309 (z 4306 * q4p + z 4307 * q5p + z 43 * z 4308 * q3p + z 345 + z 547 * z 346 + z 43 * z 544 * z 344);
  SZ 4310 (ig11 * z 694 + ig31 * z 696);
  SZ 4311 (z 696 * z 851 + z 4310 * z 336 - z 694 * z 852 - z 4304 * z 334);
  SZ 4312 (z 694 * z 853 + ig22 * z 695 * z 334 - z 695 * z 851 - z 4310 * z 335);
  SZ 4313 (rr * z 3 * z 43 * q3p + z 544 * z 354);
  SZ 4314 ((- z 4313) - z 3 * z 119 * z 356 - z 3 * z 43 * z 544 * z 353);
  SZ 4315 (z 44 * z 353 + z 119 * z 357);
  SZ 4316 (z 544 * (z 43 * z 352 + z 118 * z 356));
  SZ 4317 (z 5 * z 4314 - z 6 * z 4315 - z 41 * z 4316);
  SZ 4318 (z 671 * (z 173 * q4p + z 174 * q5p + z 175 * q3p) + z 4317 + z 22 * z 4241 + (z 173 + z 174 * z 547 + z 175 * z 544) * z 266 - z 672 * (z 170 * q4p + z 171 * q3p - z 172 * q5p) - (z 170 + z 171 * z 544 - z 172 * z 547) * z 267);
  SZ 4319 (z 5 * z 4315 + z 6 * z 4314 + z 31 * z 4316);
  SZ 4320 ((z 45 - z 50 * z 544) * (z 170 * q4p + z 171 * q3p - z 172 * q5p) + z 4319 + z 21 * z 4241 + (z 170 + z 171 * z 544 - z 172 * z 547) * z 265 - z 671 * (z 176 * q4p + z 177 * q5p + z 178 * q3p) - (z 176 + z 177 * z 547 + z 178 * z 544) * z 266);
  SZ 4321 (z 13 * z 4318 + z 14 * z 4320);
  SZ 4322 (z 4321 + l6 * z 4309 - z 695 * (z 201 * q9p + z 202 * q3p + z 203 * q4p + z 204 * q5p) - z 696 * (z 197 * q3p + z 198 * q5p + z 199 * q4p - z 200 * q9p) - (z 199 + z 197 * z 544 + z 198 * z 547) * z 336 - (z 203 + z 202 * z 544 + z 204 * z 547) * z 335);
  SZ 4323 ((- z 21) * z 4236 - z 22 * z 4232);
  SZ 4324 (z 672 * (z 176 * q4p + z 177 * q5p + z 178 * q3p) + z 4323 + (z 176 + z 177 * z 547 + z 178 * z 544) * z 267 - (z 45 - z 50 * z 544) * (z 173 * q4p + z 174 * q5p + z 175 * q3p) - z 3 * z 4316 - (z 173 + z 174 * z 547 + z 175 * z 544) * z 265);
  SZ 4325 (z 17 * z 4324 + z 19 * z 4320 - z 16 * z 4318);
  SZ 4326 (l5 * z 4303 - l6 * z 4299);
  SZ 4327 (z 694 * (z 201 * q9p + z 202 * q3p + z 203 * q4p + z 204 * q5p) + z 696 * (z 205 * q9p + z 206 * q3p + z 207 * q4p + z 208 * q5p) + z 4325 + z 4326 + (z 203 + z 202 * z 544 + z 204 * z 547) * z 334 + (z 207 + z 206 * z 544 + z 208 * z 547) * z 336);
  SZ 4328 (z 20 * z 4320 - z 15 * z 4324 - z 18 * z 4318);
  SZ 4329 (z 694 * (z 197 * q3p + z 198 * q5p + z 199 * q4p - z 200 * q9p) + z 4328 + (z 199 + z 197 * z 544 + z 198 * z 547) * z 334 - z 695 * (z 205 * q9p + z 206 * q3p + z 207 * q4p + z 208 * q5p) - l5 * z 4309 - (z 207 + z 206 * z 544 + z 208 * z 547) * z 335);
  SZ 4330 ((z 45 - z 50 * z 544) * (z 128 * q5p + z 129 * q4p + z 130 * q3p) + z 4319 + (z 129 + z 128 * z 547 + z 130 * z 544) * z 265 - z 671 * (z 134 * q4p + z 135 * q5p + z 136 * q3p) - l1 * z 4241 - (z 134 + z 135 * z 547 + z 136 * z 544) * z 266);
  SZ 4331 (z 4317 + l2 * z 4241 - z 671 * (z 131 * q4p + z 132 * q5p + z 133 * q3p) - z 672 * (z 128 * q5p + z 129 * q4p + z 130 * q3p) - (z 129 + z 128 * z 547 + z 130 * z 544) * z 267 - (z 131 + z 132 * z 547 + z 133 * z 544) * z 266);
  SZ 4332 (l1 * z 4236 - l2 * z 4232);
  SZ 4333 (z 672 * (z 134 * q4p + z 135 * q5p + z 136 * q3p) + (z 45 - z 50 * z 544) * (z 131 * q4p + z 132 * q5p + z 133 * q3p) + z 4332 + (z 131 + z 132 * z 547 + z 133 * z 544) * z 265 + (z 134 + z 135 * z 547 + z 136 * z 544) * z 267 - z 3 * z 4316);
  SZ 4334 ((z 45 - z 50 * z 544) * (z 143 * q5p + z 144 * q4p + z 145 * q3p) + z 4319 + (z 144 + z 143 * z 547 + z 145 * z 544) * z 265 - d1 * z 4241);
  SZ 4335 (z 686 * (z 159 * q3p + z 160 * q5p + z 161 * q7p + z 162 * q4p) + (z 162 + z 159 * z 544 + z 160 * z 547) * z 292 - z 687 * (z 164 * q5p + z 165 * q4p + z 166 * q3p) - z 158 * z 4277 - (z 165 + z 164 * z 547 + z 166 * z 544) * z 293);
  SZ 4336 (z 4317 - z 671 * (z 140 * q4p + z 141 * q5p + z 142 * q3p) - z 672 * (z 143 * q5p + z 144 * q4p + z 145 * q3p) - (z 140 + z 141 * z 547 + z 142 * z 544) * z 266 - (z 144 + z 143 * z 547 + z 145 * z 544) * z 267);
  SZ 4337 ((z 45 - z 50 * z 544) * (z 140 * q4p + z 141 * q5p + z 142 * q3p) + d1 * z 4236 + (z 140 + z 141 * z 547 + z 142 * z 544) * z 265 - z 3 * z 4316);
  SZ 4338 (z 158 * z 4272 - d2 * z 4264 - l4 * z 4264);
  SZ 4339 (z 686 * (z 167 * q5p + z 168 * q4p + z 169 * q3p) + z 688 * (z 164 * q5p + z 165 * q4p + z 166 * q3p) + z 4338 + (z 165 + z 164 * z 547 + z 166 * z 544) * z 294 + (z 168 + z 167 * z 547 + z 169 * z 544) * z 292);
  SZ 4340 (z 163 * z 4277 - z 687 * (z 167 * q5p + z 168 * q4p + z 169 * q3p) - z 688 * (z 159 * q3p + z 160 * q5p + z 161 * q7p + z 162 * q4p) - (z 162 + z 159 * z 544 + z 160 * z 547) * z 294 - (z 168 + z 167 * z 547 + z 169 * z 544) * z 293);
  SZ 4341 (z 686 * (z 148 * q3p + z 149 * q5p + z 150 * q7p + z 151 * q4p) + (z 151 + z 148 * z 544 + z 149 * z 547) * z 292 - z 687 * (z 152 * q5p + z 153 * q4p + z 154 * q3p) - d3 * z 4277 - (z 153 + z 152 * z 547 + z 154 * z 544) * z 293);
  SZ 4342 (d3 * z 4272 - d2 * z 4264);
  SZ 4343 (z 686 * (z 155 * q5p + z 156 * q4p + z 157 * q3p) + z 688 * (z 152 * q5p + z 153 * q4p + z 154 * q3p) + z 4342 + (z 153 + z 152 * z 547 + z 154 * z 544) * z 294 + (z 156 + z 155 * z 547 + z 157 * z 544) * z 292);
  SZ 4344 (d2 * z 4277 - z 687 * (z 155 * q5p + z 156 * q4p + z 157 * q3p) - z 688 * (z 148 * q3p + z 149 * q5p + z 150 * q7p + z 151 * q4p) - (z 151 + z 148 * z 544 + z 149 * z 547) * z 294 - (z 156 + z 155 * z 547 + z 157 * z 544) * z 293);
  SZ 4345 (z 45 * z 4238 + z 46 * z 4243 + z 46 * z 4244 + z 49 * z 4245 + z 60 * z 4249 + z 63 * z 4253 + z 74 * z 4274 + z 77 * z 4279 + z 77 * z 4282 + z 80 * z 4283 + z 92 * z 4290 + z 97 * z 4296 + z 109 * z 4305 + z 113 * z 4311 + z 117 * z 4312 + ic11 * z 45 * z 4232 + ic22 * z 46 * z 4241 + ic31 * z 45 * z 4236 + ic31 * z 49 * z 4232 + ic33 * z 49 * z 4236 + id11 * z 60 * z 4248 + id11 * z 63 * z 4252 + id22 * z 46 * z 4241 + ie11 * z 74 * z 4264 + ie22 * z 77 * z 4277 + ie31 * z 74 * z 4272 + ie31 * z 80 * z 4264 + ie33 * z 80 * z 4272 + if11 * z 92 * z 4288 + if11 * z 97 * z 4295 + if22 * z 77 * z 4277 + ig11 * z 109 * z 4299 + ig22 * z 113 * z 4309 + ig31 * z 109 * z 4303 + ig31 * z 117 * z 4299 + ig33 * z 117 * z 4303 + mg * (z 209 * z 4322 + z 212 * z 4327 + z 215 * z 4329) - md * z 3 * z 119 * z 4316 - mc * (z 131 * z 4330 - z 134 * z 4331 - z 139 * z 4333) - me * (z 140 * z 4334 + z 140 * z 4335 + z 168 * z 4334 + z 168 * z 4335 + z 10 * z 162 * z 4336 - z 147 * z 4337 - z 162 * z 4339 - z 165 * z 4340 - z 9 * z 147 * z 4339 - z 9 * z 162 * z 4337 - z 9 * z 165 * z 4336 - z 10 * z 147 * z 4340 - z 10 * z 165 * z 4337) - mf * (z 140 * z 4334 + z 140 * z 4341 + z 156 * z 4334 + z 156 * z 4341 + z 10 * z 151 * z 4336 - z 147 * z 4337 - z 151 * z 4343 - z 153 * z 4344 - z 9 * z 147 * z 4343 - z 9 * z 151 * z 4337 - z 9 * z 153 * z 4336 - z 10 * z 147 * z 4344 - z 10 * z 153 * z 4337));
  SZ 4346 (md * (z 1 * z 4314 + z 2 * z 4316 + z 218 * z 4315) + mg * (z 182 * z 4322 + z 187 * z 4327 + z 192 * z 4329) + me * (z 120 * z 4336 + z 122 * z 4334 + z 122 * z 4335 + z 9 * z 120 * z 4340 - z 121 * z 4337 - z 9 * z 121 * z 4339 - z 10 * z 120 * z 4339 - z 10 * z 121 * z 4340) + mf * (z 120 * z 4336 + z 122 * z 4334 + z 122 * z 4341 + z 9 * z 120 * z 4344 - z 121 * z 4337 - z 9 * z 121 * z 4343 - z 10 * z 120 * z 4343 - z 10 * z 121 * z 4344) - mc * (z 121 * z 4333 - z 120 * z 4331 - z 122 * z 4330));
  SZ 4347 (z 51 * z 4243 + z 51 * z 4244 + z 52 * z 4245 + z 52 * z 4283 + z 61 * z 4249 + z 64 * z 4253 + z 81 * z 4274 + z 82 * z 4279 + z 82 * z 4282 + z 90 * z 4290 + z 94 * z 4296 + z 110 * z 4305 + z 112 * z 4311 + z 115 * z 4312 + ic22 * z 51 * z 4241 + ic31 * z 52 * z 4232 + ic33 * z 52 * z 4236 + id11 * z 61 * z 4248 + id11 * z 64 * z 4252 + id22 * z 51 * z 4241 + ie11 * z 81 * z 4264 + ie22 * z 82 * z 4277 + ie31 * z 52 * z 4264 + ie31 * z 81 * z 4272 + ie33 * z 52 * z 4272 + if11 * z 90 * z 4288 + if11 * z 94 * z 4295 + if22 * z 82 * z 4277 + ig11 * z 110 * z 4299 + ig22 * z 112 * z 4309 + ig31 * z 110 * z 4303 + ig31 * z 115 * z 4299 + ig33 * z 115 * z 4303 + mc * (z 130 * z 4333 + z 137 * z 4331 + z 138 * z 4330) + mg * (z 211 * z 4322 + z 214 * z 4327 + z 217 * z 4329) - z 50 * z 4238 - ic11 * z 50 * z 4232 - ic31 * z 50 * z 4236 - md * z 118 * z 4314 - me * (z 126 * z 4336 + z 169 * z 4334 + z 169 * z 4335 + z 9 * z 126 * z 4340 + z 10 * z 159 * z 4336 - z 145 * z 4337 - z 146 * z 4334 - z 146 * z 4335 - z 159 * z 4339 - z 166 * z 4340 - z 9 * z 145 * z 4339 - z 9 * z 159 * z 4337 - z 9 * z 166 * z 4336 - z 10 * z 126 * z 4339 - z 10 * z 145 * z 4340 - z 10 * z 166 * z 4337) - mf * (z 126 * z 4336 + z 157 * z 4334 + z 157 * z 4341 + z 9 * z 126 * z 4344 + z 10 * z 148 * z 4336 - z 145 * z 4337 - z 146 * z 4334 - z 146 * z 4341 - z 148 * z 4343 - z 154 * z 4344 - z 9 * z 145 * z 4343 - z 9 * z 148 * z 4337 - z 9 * z 154 * z 4336 - z 10 * z 126 * z 4343 - z 10 * z 145 * z 4344 - z 10 * z 154 * z 4337));
  SZ 4348 (z 47 * z 4243 + z 47 * z 4244 + z 48 * z 4245 + z 65 * z 4253 + z 73 * z 4274 + z 76 * z 4279 + z 76 * z 4282 + z 78 * z 4283 + z 91 * z 4290 + z 95 * z 4296 + z 111 * z 4305 + z 114 * z 4311 + z 116 * z 4312 + ic22 * z 47 * z 4241 + ic31 * z 48 * z 4232 + ic33 * z 48 * z 4236 + id11 * z 65 * z 4252 + id22 * z 47 * z 4241 + ie11 * z 73 * z 4264 + ie22 * z 76 * z 4277 + ie31 * z 73 * z 4272 + ie31 * z 78 * z 4264 + ie33 * z 78 * z 4272 + if11 * z 91 * z 4288 + if11 * z 95 * z 4295 + if22 * z 76 * z 4277 + ig11 * z 111 * z 4299 + ig22 * z 114 * z 4309 + ig31 * z 111 * z 4303 + ig31 * z 116 * z 4299 + ig33 * z 116 * z 4303 + mg * (z 210 * z 4322 + z 213 * z 4327 + z 216 * z 4329) - z 62 * z 4249 - id11 * z 62 * z 4248 - mc * (z 132 * z 4330 - z 128 * z 4333 - z 135 * z 4331) - me * (z 141 * z 4334 + z 141 * z 4335 + z 167 * z 4334 + z 167 * z 4335 + z 10 * z 160 * z 4336 - z 143 * z 4337 - z 160 * z 4339 - z 164 * z 4340 - z 9 * z 143 * z 4339 - z 9 * z 160 * z 4337 - z 9 * z 164 * z 4336 - z 10 * z 143 * z 4340 - z 10 * z 164 * z 4337) - mf * (z 141 * z 4334 + z 141 * z 4341 + z 155 * z 4334 + z 155 * z 4341 + z 10 * z 149 * z 4336 - z 143 * z 4337 - z 149 * z 4343 - z 152 * z 4344 - z 9 * z 143 * z 4343 - z 9 * z 149 * z 4337 - z 9 * z 152 * z 4336 - z 10 * z 143 * z 4344 - z 10 * z 152 * z 4337));
  SZ 4349 (z 83 * (z 4282 + if22 * z 4277));
  SZ 4350 (mc * (z 123 * z 4331 + z 124 * z 4333 + z 125 * z 4330) + mg * (z 183 * z 4322 + z 188 * z 4327 + z 193 * z 4329) + md * (z 2 * z 4314 - z 1 * z 4316 - z 219 * z 4315) - me * (z 10 * z 123 * z 4339 - z 123 * z 4336 - z 124 * z 4337 - z 125 * z 4334 - z 125 * z 4335 - z 9 * z 123 * z 4340 - z 9 * z 124 * z 4339 - z 10 * z 124 * z 4340) - mf * (z 10 * z 123 * z 4343 - z 123 * z 4336 - z 124 * z 4337 - z 125 * z 4334 - z 125 * z 4341 - z 9 * z 123 * z 4344 - z 9 * z 124 * z 4343 - z 10 * z 124 * z 4344));
  SZ 4351 (z 4345 + z 538 * z 4346 + z 544 * z 4347 + z 547 * z 4348 + z 549 * z 4349 - z 541 * z 4350);
  SZ 4352 (z 1 * z 3 * z 544 - z 2 * z 4);
  SZ 4353 (z 2 * z 3 + z 1 * z 4 * z 544);
  SZ 4354 (z 4 * z 121 - z 3 * z 218 - z 3 * z 4352 - z 4 * z 4353);
  SZ 4355 ((- z 1) * z 4 - z 2 * z 3 * z 544);
  SZ 4356 (z 1 * z 3 - z 2 * z 4 * z 544);
  SZ 4357 (z 3 * z 219 + z 3 * z 4355 + z 4 * z 4356 - z 4 * z 124);
  SZ 4358 (z 547 * (z 5 * z 8 + z 6 * z 7));
  SZ 4359 (z 547 * (z 5 * z 7 - z 6 * z 8));
  SZ 4360 (rr * (z 60 * z 4358 - z 54 * z 4246 - z 55 * z 4250 - z 63 * z 4359));
  SZ 4361 (z 3 * z 4360 - z 4 * z 229);
  SZ 4362 (rr * (z 62 * z 4358 + z 65 * z 4359 + z 7 * z 55 * z 4235 - z 8 * z 54 * z 4235));
  SZ 4363 ((- z 3) * z 4362 - z 4 * z 223);
  SZ 4364 (rr * (z 61 * z 4358 - z 64 * z 4359 - z 43 * z 54 * z 4247 - z 43 * z 55 * z 4251));
  SZ 4365 ((- z 3) * z 4364 - z 4 * z 222);
  SZ 4366 (z 4354 * u1 + z 4357 * u2 + z 4361 * u4 + z 4363 * u5 + z 567 + z 538 * z 556 + z 547 * z 565 - z 4365 * u3 - z 541 * z 559 - z 544 * z 563);
  SZ 4367 (z 2 * z 4229 + z 1 * z 5 * z 547 + z 1 * z 31 * z 544 - z 2 * z 6 * z 544);
  SZ 4368 ((- z 2) * z 4233 - z 1 * z 6 * z 547 - z 1 * z 41 * z 544 - z 2 * z 5 * z 544);
  SZ 4369 (z 9 * z 4368 - z 10 * z 4352);
  SZ 4370 ((- z 9) * z 4352 - z 10 * z 4368);
  SZ 4371 (z 6 * z 4367 + z 23 * z 4369 + z 5 * z 122 * z 547 + z 6 * z 10 * z 238 * z 547 - z 25 * z 4370 - z 6 * z 9 * z 233 * z 547);
  SZ 4372 (z 1 * z 6 * z 544 + z 2 * z 5 * z 547 + z 2 * z 31 * z 544 - z 1 * z 4229);
  SZ 4373 (z 1 * z 4233 + z 1 * z 5 * z 544 - z 2 * z 6 * z 547 - z 2 * z 41 * z 544);
  SZ 4374 (z 9 * z 4373 + z 10 * z 4355);
  SZ 4375 (z 9 * z 4355 - z 10 * z 4373);
  SZ 4376 (z 6 * z 4372 + z 23 * z 4374 + z 5 * z 125 * z 547 + z 6 * z 10 * z 239 * z 547 - z 25 * z 4375 - z 6 * z 9 * z 234 * z 547);
  SZ 4377 (z 5 * z 118 * z 547 + rr * z 3 * z 6 * z 43);
  SZ 4378 ((- z 4377) - d1 * z 3 * z 43);
  SZ 4379 (z 25 * z 4229 - z 6 * z 4254 - z 5 * z 29 * z 547 - z 6 * z 10 * z 31 * z 547);
  SZ 4380 (z 23 * z 4254 + z 25 * z 4266 - z 6 * z 9 * z 29 * z 547 - z 6 * z 10 * z 27 * z 547);
  SZ 4381 ((Lit 2 1) * z 33 * z 4379 + (Lit 2 1) * z 34 * z 4380);
  SZ 4382 (((Lit 2 1) * z 36 * z 4379 - z 33 * z 4381 / (PowH (z 35) 0)) / (PowN (z 36) 2));
  SZ 4383 (z 39 * z 43 * z 4265 + (Lit 1 2) * rf * z 82 * z 4382);
  SZ 4384 (z 4378 - z 4383 - d3 * z 43 * z 4265);
  SZ 4385 (rr * z 3 * z 5 * z 43 - z 6 * z 118 * z 547);
  SZ 4386 (d2 * z 43 * z 4265 + d1 * z 10 * z 43 * z 4228 - z 9 * z 4385);
  SZ 4387 (((Lit 2 1) * z 36 * z 4380 - z 34 * z 4381 / (PowH (z 35) 0)) / (PowN (z 36) 2));
  SZ 4388 (z 40 * z 43 * z 4265 + (Lit 1 2) * rf * z 82 * z 4387);
  SZ 4389 (z 43 * (d2 * z 4263 - d3 * z 4228));
  SZ 4390 (z 10 * z 4385 + d1 * z 9 * z 43 * z 4228 - z 4389);
  SZ 4391 (z 11 * z 39 * z 43 * z 4294 + z 12 * z 40 * z 90 * z 549 + (Lit 1 2) * rf * z 11 * z 94 * z 4382 - z 11 * z 39 * z 90 * z 549 - z 11 * z 40 * z 43 * z 4287 - z 11 * z 40 * z 94 * z 549 - z 12 * z 39 * z 43 * z 4287 - z 12 * z 39 * z 94 * z 549 - z 12 * z 40 * z 43 * z 4294 - (Lit 1 2) * rf * z 11 * z 90 * z 4387 - (Lit 1 2) * rf * z 12 * z 90 * z 4382 - (Lit 1 2) * rf * z 12 * z 94 * z 4387);
  SZ 4392 (z 6 * z 4384 + z 5 * z 262 * z 547 + z 6 * z 10 * z 259 * z 547 + z 23 * (z 4386 + z 4388) - z 6 * z 9 * z 257 * z 547 - z 25 * (z 4390 + z 4391));
  SZ 4393 (d2 * z 4275 + d1 * z 10 * z 4234);
  SZ 4394 (z 40 * z 4275 + (Lit 1 2) * rf * z 77 * z 4387);
  SZ 4395 ((- d1) * z 4239 - d3 * z 4275);
  SZ 4396 (z 39 * z 4275 + (Lit 1 2) * rf * z 77 * z 4382);
  SZ 4397 (d3 * z 4267 - d2 * z 4256);
  SZ 4398 (z 4397 + d1 * z 9 * z 4234);
  SZ 4399 (z 11 * z 39 * z 4291 + z 12 * z 40 * z 92 * z 549 + (Lit 1 2) * rf * z 11 * z 97 * z 4382 - z 11 * z 40 * z 4284 - z 12 * z 39 * z 4284 - z 12 * z 40 * z 4291 - z 11 * z 39 * z 92 * z 549 - z 11 * z 40 * z 97 * z 549 - z 12 * z 39 * z 97 * z 549 - (Lit 1 2) * rf * z 11 * z 92 * z 4387 - (Lit 1 2) * rf * z 12 * z 92 * z 4382 - (Lit 1 2) * rf * z 12 * z 97 * z 4387);
  SZ 4400 (z 5 * z 263 * z 547 + z 6 * z 10 * z 261 * z 547 + z 23 * (z 4393 + z 4394) + z 6 * (z 4395 - z 4396) - z 6 * z 9 * z 256 * z 547 - z 25 * (z 4398 + z 4399));
  SZ 4401 (d2 * z 4276 + d1 * z 10 * z 4235);
  SZ 4402 (z 40 * z 4276 + (Lit 1 2) * rf * z 76 * z 4387);
  SZ 4403 ((- d1) * z 4240 - d3 * z 4276);
  SZ 4404 (z 39 * z 4276 + (Lit 1 2) * rf * z 76 * z 4382);
  SZ 4405 (d3 * z 4270 - d2 * z 4259);
  SZ 4406 (z 4405 + d1 * z 9 * z 4235);
  SZ 4407 (z 11 * z 39 * z 4292 + z 12 * z 40 * z 91 * z 549 + (Lit 1 2) * rf * z 11 * z 95 * z 4382 - z 11 * z 40 * z 4285 - z 12 * z 39 * z 4285 - z 12 * z 40 * z 4292 - z 11 * z 39 * z 91 * z 549 - z 11 * z 40 * z 95 * z 549 - z 12 * z 39 * z 95 * z 549 - (Lit 1 2) * rf * z 11 * z 91 * z 4387 - (Lit 1 2) * rf * z 12 * z 91 * z 4382 - (Lit 1 2) * rf * z 12 * z 95 * z 4387);
  SZ 4408 (z 5 * z 264 * z 547 + z 6 * z 10 * z 260 * z 547 + z 23 * (z 4401 + z 4402) + z 6 * (z 4403 - z 4404) - z 6 * z 9 * z 255 * z 547 - z 25 * (z 4406 + z 4407));
  SZ 4409 ((Lit 1 2) * rf * z 23 * z 83 * z 4387 - z 5 * z 250 * z 547 - z 6 * z 9 * z 254 * z 547 - (Lit 1 2) * rf * z 6 * z 83 * z 4382);
  SZ 4410 (d3 * z 4271 - d2 * z 4262);
  SZ 4411 (z 11 * z 39 * z 4293 + z 12 * z 40 * z 93 * z 549 + (Lit 1 2) * rf * z 11 * z 96 * z 4382 - z 11 * z 40 * z 4286 - z 12 * z 39 * z 4286 - z 12 * z 40 * z 4293 - z 11 * z 39 * z 93 * z 549 - z 11 * z 40 * z 96 * z 549 - z 12 * z 39 * z 96 * z 549 - (Lit 1 2) * rf * z 11 * z 93 * z 4387 - (Lit 1 2) * rf * z 12 * z 93 * z 4382 - (Lit 1 2) * rf * z 12 * z 96 * z 4387);
  SZ 4412 (z 25 * (z 4410 + z 4411) - z 6 * z 10 * z 258 * z 547);
  SZ 4413 (z 4371 * u1 + z 4376 * u2 + z 4392 * u3 + z 4400 * u4 + z 4408 * u5 + z 4409 * u8 + z 602 + z 538 * z 573 + z 544 * z 616 + z 547 * z 594 + z 549 * z 586 - z 4412 * u7 - z 541 * z 578);
  SZ 4414 (rr * z 4239 * u4 + rr * z 4240 * u5 + z 1 * z 544 * u2 + rr * z 274 + z 544 * z 552 + rr * z 547 * z 275 - z 2 * z 544 * u1 - z 1 * z 541 * q3p - z 2 * z 538 * q3p);
  SZ 4415 (z 25 * z 4379 - z 6 * z 10 * z 33 * z 547);
  SZ 4416 (((Lit 2 1) * z 35 * z 4415 - z 416 * z 4381) / (PowH (z 35) 1));
  SZ 4417 ((z 4381 * (z 25 * z 36 - (Lit 2 1) * z 33 * z 420) / (PowH (z 35) 0) + z 36 * (z 33 * z 4416 + (Lit 2 1) * z 420 * z 4379 + (Lit 2 1) * z 6 * z 10 * z 36 * z 547)) / (PowN (z 36) 3));
  SZ 4418 ((z 34 * z 36 * z 4416 + (Lit 2 1) * z 36 * z 420 * z 4380 - (Lit 2 1) * z 34 * z 420 * z 4381 / (PowH (z 35) 0)) / (PowN (z 36) 3));
  SZ 4419 (z 443 * z 4263 - z 434 * z 4228 - (Lit 1 2) * rf * z 28 * z 4417 - (Lit 1 2) * rf * z 32 * z 4418);
  SZ 4420 (z 25 * z 4380 - z 6 * z 10 * z 34 * z 547);
  SZ 4421 (((Lit 2 1) * z 35 * z 4420 - z 412 * z 4381) / (PowH (z 35) 1));
  SZ 4422 ((z 33 * z 36 * z 4421 + (Lit 2 1) * z 36 * z 418 * z 4379 - (Lit 2 1) * z 33 * z 418 * z 4381 / (PowH (z 35) 0)) / (PowN (z 36) 3));
  SZ 4423 ((z 4381 * (z 25 * z 36 - (Lit 2 1) * z 34 * z 418) / (PowH (z 35) 0) + z 36 * (z 34 * z 4421 + (Lit 2 1) * z 418 * z 4380 + (Lit 2 1) * z 6 * z 10 * z 36 * z 547)) / (PowN (z 36) 3));
  SZ 4424 (z 432 * z 4228 - z 444 * z 4263 - (Lit 1 2) * rf * z 28 * z 4422 - (Lit 1 2) * rf * z 32 * z 4423);
  SZ 4425 ((Lit 2 1) * z 23 * z 4380 - (Lit 2 1) * z 6 * z 4379 - (Lit 2 1) * z 5 * z 33 * z 547 - (Lit 2 1) * z 6 * z 9 * z 34 * z 547);
  SZ 4426 (((Lit 2 1) * z 35 * z 4425 - z 411 * z 4381) / (PowH (z 35) 1));
  SZ 4427 (((Lit 2 1) * z 33 * z 421 * z 4381 / (PowH (z 35) 0) - z 36 * (z 33 * z 4426 + (Lit 2 1) * z 421 * z 4379 + (Lit 4 1) * z 5 * z 36 * z 547 - (Lit 2 1) * z 6 * z 4381 / (PowH (z 35) 0))) / (PowN (z 36) 3));
  SZ 4428 (((Lit 2 1) * z 4381 * (z 23 * z 36 - z 34 * z 421) / (PowH (z 35) 0) + z 36 * (z 34 * z 4426 + (Lit 2 1) * z 421 * z 4380 + (Lit 4 1) * z 6 * z 9 * z 36 * z 547)) / (PowN (z 36) 3));
  SZ 4429 ((Lit 1 2) * z 430 * z 4228 + (Lit 1 4) * rf * z 28 * z 4427 - (Lit 1 2) * z 446 * z 4263 - (Lit 1 4) * rf * z 32 * z 4428);
  SZ 4430 (rr * z 3 + d1 * z 3 * z 6 + z 3 * z 5 * z 4419 + d1 * z 4 * z 5 * z 547 + z 4 * z 6 * z 448 * z 547 + z 4424 * (z 3 * z 24 - z 4 * z 10) + (Lit 1 2) * rf * z 4382 * (z 3 * z 10 + z 4 * z 24) + z 451 * (z 4 * z 26 - z 3 * z 9 - z 3 * z 5 * z 10 * z 547) - z 3 * z 5 * z 448 - z 4 * z 5 * z 455 - z 3 * z 6 * z 455 * z 547 - (Lit 1 2) * rf * z 4 * z 5 * z 4387 - z 4429 * (z 3 * z 26 + z 4 * z 9) - z 453 * (z 3 * z 10 + z 4 * z 24 - z 3 * z 5 * z 9 * z 547) - z 449 * (z 4 * z 10 - z 3 * z 24 - z 4 * z 5 * z 9 * z 547));
  SZ 4431 (z 5 * z 4254 - z 6 * z 29 * z 547);
  SZ 4432 (z 33 * z 4431 + z 410 * z 4379);
  SZ 4433 (((Lit 2 1) * z 35 * z 4432 - z 415 * z 4381) / (PowH (z 35) 1));
  SZ 4434 ((z 34 * z 36 * z 4433 + (Lit 2 1) * z 36 * z 417 * z 4380 - (Lit 2 1) * z 34 * z 417 * z 4381 / (PowH (z 35) 0)) / (PowN (z 36) 3));
  SZ 4435 (((Lit 2 1) * z 33 * z 417 * z 4381 / (PowH (z 35) 0) + z 36 * ((Lit 2 1) * z 36 * z 4431 - (Lit 2 1) * z 417 * z 4379 - z 33 * z 4433 - z 410 * z 4381 / (PowH (z 35) 0))) / (PowN (z 36) 3));
  SZ 4436 (z 429 * z 4228 + z 441 * z 4263 + (Lit 1 2) * rf * z 32 * z 4434 - (Lit 1 2) * rf * z 28 * z 4435);
  SZ 4437 (z 29 * z 4380 + z 34 * z 4254);
  SZ 4438 (((Lit 2 1) * z 35 * z 4437 - z 414 * z 4381) / (PowH (z 35) 1));
  SZ 4439 ((z 33 * z 36 * z 4438 + (Lit 2 1) * z 36 * z 419 * z 4379 - (Lit 2 1) * z 33 * z 419 * z 4381 / (PowH (z 35) 0)) / (PowN (z 36) 3));
  SZ 4440 ((z 4381 * (z 29 * z 36 - (Lit 2 1) * z 34 * z 419) / (PowH (z 35) 0) - z 36 * ((Lit 2 1) * z 36 * z 4254 - (Lit 2 1) * z 419 * z 4380 - z 34 * z 4438)) / (PowN (z 36) 3));
  SZ 4441 (z 433 * z 4228 - z 445 * z 4263 - (Lit 1 2) * rf * z 28 * z 4439 - (Lit 1 2) * rf * z 32 * z 4440);
  SZ 4442 ((Lit 2 1) * z 27 * z 4380 + (Lit 2 1) * z 31 * z 4379 + (Lit 2 1) * z 33 * z 4229 + (Lit 2 1) * z 34 * z 4266);
  SZ 4443 (((Lit 2 1) * z 35 * z 4442 - z 413 * z 4381) / (PowH (z 35) 1));
  SZ 4444 (((Lit 2 1) * z 4381 * (z 31 * z 36 - z 33 * z 422) / (PowH (z 35) 0) - z 36 * ((Lit 4 1) * z 36 * z 4229 - (Lit 2 1) * z 422 * z 4379 - z 33 * z 4443)) / (PowN (z 36) 3));
  SZ 4445 (((Lit 2 1) * z 4381 * (z 27 * z 36 - z 34 * z 422) / (PowH (z 35) 0) - z 36 * ((Lit 4 1) * z 36 * z 4266 - (Lit 2 1) * z 422 * z 4380 - z 34 * z 4443)) / (PowN (z 36) 3));
  SZ 4446 ((Lit 1 2) * z 431 * z 4228 + (Lit 1 2) * z 442 * z 4263 - (Lit 1 4) * rf * z 28 * z 4444 - (Lit 1 4) * rf * z 32 * z 4445);
  SZ 4447 (z 4436 + d1 * z 4 * z 5 + z 4 * z 6 * z 448 + d1 * z 3 * z 6 * z 547 + z 3 * z 5 * z 9 * z 453 + z 4 * z 5 * z 9 * z 449 + z 4 * z 5 * z 9 * z 4424 + z 3 * z 6 * z 9 * z 449 * z 547 + z 4 * z 6 * z 10 * z 451 * z 547 - z 3 * z 6 * z 455 - z 4 * z 6 * z 4419 - z 6 * z 9 * z 4441 - z 6 * z 10 * z 4446 - z 3 * z 5 * z 10 * z 451 - z 3 * z 5 * z 448 * z 547 - z 4 * z 5 * z 10 * z 4429 - z 4 * z 5 * z 455 * z 547 - z 5 * z 9 * z 454 * z 547 - z 5 * z 10 * z 452 * z 547 - (Lit 1 2) * rf * z 3 * z 6 * z 4387 - z 4 * z 6 * z 9 * z 453 * z 547 - (Lit 1 2) * rf * z 3 * z 5 * z 9 * z 4382);
  SZ 4448 (z 5 * z 9 * z 4446 + z 6 * z 10 * z 454 * z 547 + z 4424 * (z 3 * z 9 - z 4 * z 6 * z 10) + (Lit 1 2) * rf * z 4382 * (z 4 * z 9 + z 3 * z 6 * z 10) + z 451 * (z 4 * z 10 - z 3 * z 6 * z 9 - z 4 * z 5 * z 9 * z 547) - z 5 * z 10 * z 4441 - z 6 * z 9 * z 452 * z 547 - z 4429 * (z 3 * z 10 + z 4 * z 6 * z 9) - z 453 * (z 4 * z 9 + z 3 * z 6 * z 10 + z 4 * z 5 * z 10 * z 547) - z 449 * (z 4 * z 6 * z 10 - z 3 * z 9 - z 3 * z 5 * z 10 * z 547));
  SZ 4449 (z 4430 * u4 + z 4447 * u5 + z 4448 * u7 + z 645 + z 547 * z 662);
  SZ 4450 (z 27 * z 4369 + z 29 * z 4370 + z 233 * z 4266 + z 238 * z 4254 - z 31 * z 4367 - z 122 * z 4229);
  SZ 4451 (z 27 * z 4374 + z 29 * z 4375 + z 234 * z 4266 + z 239 * z 4254 - z 31 * z 4372 - z 125 * z 4229);
  SZ 4452 (z 257 * z 4266 + z 259 * z 4254 + z 27 * (z 4386 + z 4388) + z 29 * (z 4390 + z 4391) - z 31 * z 4384 - z 262 * z 4229);
  SZ 4453 (z 256 * z 4266 + z 261 * z 4254 + z 27 * (z 4393 + z 4394) + z 29 * (z 4398 + z 4399) - z 263 * z 4229 - z 31 * (z 4395 - z 4396));
  SZ 4454 (z 255 * z 4266 + z 260 * z 4254 + z 27 * (z 4401 + z 4402) + z 29 * (z 4406 + z 4407) - z 264 * z 4229 - z 31 * (z 4403 - z 4404));
  SZ 4455 (z 258 * z 4254 + z 29 * (z 4410 + z 4411));
  SZ 4456 (z 250 * z 4229 + z 254 * z 4266 + (Lit 1 2) * rf * z 27 * z 83 * z 4387 + (Lit 1 2) * rf * z 31 * z 83 * z 4382);
  SZ 4457 (z 4450 * u1 + z 4451 * u2 + z 4452 * u3 + z 4453 * u4 + z 4454 * u5 + z 4455 * u7 + z 4456 * u8 + z 625 + z 538 * z 621 + z 544 * z 626 + z 547 * z 624 + z 549 * z 623 - z 541 * z 622);
  SZ 4458 ((z 525 * z 4366 + z 478 * z 496 * z 4413 - z 511 * z 4414 - z 535 * z 4449 - z 478 * z 528 * z 4457) / z 494);
  SZ 4459 ((z 526 * z 4366 + z 532 * z 4457 - z 512 * z 4414 - z 527 * z 4413 - z 537 * z 4449) / z 494);
  SZ 4460 ((z 519 * z 4366 + z 487 * z 496 * z 4413 - z 504 * z 4414 - z 533 * z 4449 - z 487 * z 528 * z 4457) / z 494);
  SZ 4461 ((z 523 * z 4366 + z 482 * z 496 * z 4413 - z 509 * z 4414 - z 534 * z 4449 - z 482 * z 528 * z 4457) / z 494);
  SZ 4462 (z 4351 + z 940 * z 4458 + z 944 * z 4459 + z 946 * z 4460 + z 536 * z 941 * z 4449 / z 494 - z 947 * z 4461);
  SZ 4463 (z 75 * z 4274 + z 79 * z 4283 + z 93 * z 4290 + z 96 * z 4296 + ie11 * z 75 * z 4264 + ie31 * z 75 * z 4272 + ie31 * z 79 * z 4264 + ie33 * z 79 * z 4272 + if11 * z 93 * z 4288 + if11 * z 96 * z 4295 + me * z 161 * (z 4339 + z 9 * z 4337 - z 10 * z 4336) + mf * z 150 * (z 4343 + z 9 * z 4337 - z 10 * z 4336));
  SZ 4464 (z 4463 + z 543 * z 4350 + z 548 * z 4348 + z 551 * z 4349 - z 540 * z 4346 - z 546 * z 4347);
  SZ 4465 (z 4464 + z 970 * z 4458 + z 971 * z 4460 + z 975 * z 4459 + z 536 * z 967 * z 4449 / z 494 - z 972 * z 4461);
  SZ 4466 (z 53 * (z 4244 + id22 * z 4241));
  SZ 4467 (z 4466 + z 542 * z 4350 - z 539 * z 4346 - z 545 * z 4347 - z 550 * z 4349);
  SZ 4468 (z 4467 + z 955 * z 4458 + z 957 * z 4460 + z 961 * z 4459 + z 536 * z 954 * z 4449 / z 494 - z 958 * z 4461);
  SZ 4469 (z 98 * z 4305 + z 99 * z 4311 + ig11 * z 98 * z 4299 + ig22 * z 99 * z 4309 + ig31 * z 98 * z 4303 - mg * (z 200 * z 4327 + z 201 * z 4329 - z 205 * z 4322));
  SZ 4470 (z 4469 + z 902 * z 4458 + z 906 * z 4460 + z 536 * z 903 * z 4449 / z 494 - z 907 * z 4461);
  SZ 4471 ((z 1005 * z 4462 + z 1022 * z 4465 - z 1015 * z 4468 - z 1026 * z 4470) / z 1001);
  SZ 4472 (ic11 * z 43 * z 545 * z 271);
  SZ 4473 (ic31 * z 43 * z 545 * z 268);
  SZ 4474 (z 545 * (ic31 * z 50 - ic33 * z 52));
  SZ 4475 (z 4474 * z 266 + z 52 * z 545 * z 759 + ic22 * z 51 * z 545 * z 267 - z 51 * z 545 * z 758);
  SZ 4476 (z 545 * (ic11 * z 50 - ic31 * z 52));
  SZ 4477 (z 4476 * z 267 - z 4474 * z 265 - z 50 * z 545 * z 758 - z 52 * z 545 * z 757);
  SZ 4478 (z 545 * (z 64 * z 781 + id11 * z 61 * z 283 - z 61 * z 783 - id11 * z 64 * z 281));
  SZ 4479 (ic31 * z 43 * z 545 * z 271);
  SZ 4480 (ic33 * z 43 * z 545 * z 268);
  SZ 4481 (z 50 * z 545 * z 759 + z 51 * z 545 * z 757 - z 4476 * z 266 - ic22 * z 51 * z 545 * z 265);
  SZ 4482 (z 1326 * q4p + z 43 * z 1328 * q3p - z 7 * z 48 * q5p - z 43 * z 545 * z 285);
  SZ 4483 (id22 * (z 53 - z 51 * z 545));
  SZ 4484 (z 64 * z 545 * z 782 + (z 53 - z 51 * z 545) * z 783 - z 4483 * z 283 - id11 * z 64 * z 545 * z 282);
  SZ 4485 (z 60 * q4p + z 43 * z 58 * q3p - z 8 * z 48 * q5p - z 43 * z 545 * z 289);
  SZ 4486 (z 4483 * z 281 + id11 * z 61 * z 545 * z 282 - z 61 * z 545 * z 782 - (z 53 - z 51 * z 545) * z 781);
  SZ 4487 (ie11 * z 43 * z 545 * z 308);
  SZ 4488 (ie31 * z 43 * z 545 * z 268);
  SZ 4489 (z 545 * (ie31 * z 81 + ie33 * z 52));
  SZ 4490 (z 52 * z 545 * z 802 + ie22 * z 82 * z 545 * z 294 - z 4489 * z 293 - z 82 * z 545 * z 801);
  SZ 4491 (ie22 * z 43 * z 545 * z 313);
  SZ 4492 (z 545 * (ie11 * z 81 + ie31 * z 52));
  SZ 4493 (z 4489 * z 292 + z 81 * z 545 * z 801 - z 4492 * z 294 - z 52 * z 545 * z 800);
  SZ 4494 (if22 * z 43 * z 545 * z 313);
  SZ 4495 (z 545 * (z 94 * z 830 + if11 * z 90 * z 323 - z 90 * z 832 - if11 * z 94 * z 321));
  SZ 4496 (ie31 * z 43 * z 545 * z 308);
  SZ 4497 (ie33 * z 43 * z 545 * z 268);
  SZ 4498 (z 4492 * z 293 + z 82 * z 545 * z 800 - z 81 * z 545 * z 802 - ie22 * z 82 * z 545 * z 292);
  SZ 4499 (z 550 * (z 11 * z 80 + z 12 * z 74));
  SZ 4500 (z 550 * (z 11 * z 78 + z 12 * z 73));
  SZ 4501 (z 550 * (z 11 * z 79 + z 12 * z 75));
  SZ 4502 (z 550 * (z 11 * z 32 + z 12 * z 28));
  SZ 4503 (z 4499 * q4p + z 4500 * q5p + z 4501 * q7p + z 43 * z 4502 * q3p - z 43 * z 545 * z 324);
  SZ 4504 ((- z 82) * z 545 - z 83 * z 550);
  SZ 4505 (z 4504 * z 832 + z 94 * z 545 * z 831 - if22 * z 4504 * z 323 - if11 * z 94 * z 545 * z 322);
  SZ 4506 (z 550 * (z 11 * z 74 - z 12 * z 80));
  SZ 4507 (z 550 * (z 11 * z 73 - z 12 * z 78));
  SZ 4508 (z 550 * (z 11 * z 75 - z 12 * z 79));
  SZ 4509 (z 550 * (z 11 * z 28 - z 12 * z 32));
  SZ 4510 ((- z 4506) * q4p - z 4507 * q5p - z 4508 * q7p - z 43 * z 4509 * q3p - z 43 * z 545 * z 329);
  SZ 4511 (if22 * z 4504 * z 321 + if11 * z 90 * z 545 * z 322 - z 4504 * z 830 - z 90 * z 545 * z 831)].
(* [_mooreriderlean2012.py:9602-10141] *)
Definition chunk19 : list stmt := [
  SZ 4512 (ig11 * z 43 * z 545 * z 341);
  SZ 4513 (ig31 * z 43 * z 545 * z 348);
  SZ 4514 (z 545 * (ig31 * z 110 + ig33 * z 115));
  SZ 4515 (z 115 * z 545 * z 853 + ig22 * z 112 * z 545 * z 336 - z 4514 * z 335 - z 112 * z 545 * z 852);
  SZ 4516 (ig22 * z 43 * z 545 * z 344);
  SZ 4517 (z 545 * (ig11 * z 110 + ig31 * z 115));
  SZ 4518 (z 4514 * z 334 + z 110 * z 545 * z 852 - z 4517 * z 336 - z 115 * z 545 * z 851);
  SZ 4519 (ig31 * z 43 * z 545 * z 341);
  SZ 4520 (ig33 * z 43 * z 545 * z 348);
  SZ 4521 (z 4517 * z 335 + z 112 * z 545 * z 851 - z 110 * z 545 * z 853 - ig22 * z 112 * z 545 * z 334);
  SZ 4522 (z 545 * (z 354 + z 3 * z 43 * z 353));
  SZ 4523 (z 545 * (z 43 * z 352 + z 118 * z 356));
  SZ 4524 (z 5 * z 4522 + z 41 * z 4523);
  SZ 4525 (z 52 * z 545 * (z 170 * q4p + z 171 * q3p - z 172 * q5p) + z 4524 + z 171 * z 545 * z 267 - z 51 * z 545 * (z 173 * q4p + z 174 * q5p + z 175 * q3p) - z 22 * z 545 * z 276 - z 175 * z 545 * z 266);
  SZ 4526 (z 6 * z 4522 - z 31 * z 4523);
  SZ 4527 (z 51 * z 545 * (z 176 * q4p + z 177 * q5p + z 178 * q3p) + z 50 * z 545 * (z 170 * q4p + z 171 * q3p - z 172 * q5p) + z 4526 + z 178 * z 545 * z 266 - z 21 * z 545 * z 276 - z 171 * z 545 * z 265);
  SZ 4528 (z 13 * z 4525 + z 14 * z 4527);
  SZ 4529 (l6 * z 43 * z 545 * z 344);
  SZ 4530 (z 112 * z 545 * (z 201 * q9p + z 202 * q3p + z 203 * q4p + z 204 * q5p) + z 115 * z 545 * (z 197 * q3p + z 198 * q5p + z 199 * q4p - z 200 * q9p) + z 4528 + z 197 * z 545 * z 336 + z 202 * z 545 * z 335 - z 4529);
  SZ 4531 (z 43 * z 545 * (z 21 * z 268 - z 22 * z 271));
  SZ 4532 (z 4531 + z 3 * z 4523 + z 175 * z 545 * z 265 - z 50 * z 545 * (z 173 * q4p + z 174 * q5p + z 175 * q3p) - z 52 * z 545 * (z 176 * q4p + z 177 * q5p + z 178 * q3p) - z 178 * z 545 * z 267);
  SZ 4533 (z 17 * z 4532 + z 19 * z 4527 - z 16 * z 4525);
  SZ 4534 (z 43 * z 545 * (l5 * z 348 - l6 * z 341));
  SZ 4535 (z 4533 - z 110 * z 545 * (z 201 * q9p + z 202 * q3p + z 203 * q4p + z 204 * q5p) - z 115 * z 545 * (z 205 * q9p + z 206 * q3p + z 207 * q4p + z 208 * q5p) - z 4534 - z 202 * z 545 * z 334 - z 206 * z 545 * z 336);
  SZ 4536 (z 20 * z 4527 - z 15 * z 4532 - z 18 * z 4525);
  SZ 4537 (l5 * z 43 * z 545 * z 344);
  SZ 4538 (z 112 * z 545 * (z 205 * q9p + z 206 * q3p + z 207 * q4p + z 208 * q5p) + z 4536 + z 4537 + z 206 * z 545 * z 335 - z 110 * z 545 * (z 197 * q3p + z 198 * q5p + z 199 * q4p - z 200 * q9p) - z 197 * z 545 * z 334);
  SZ 4539 (z 50 * z 545 * (z 128 * q5p + z 129 * q4p + z 130 * q3p) + z 51 * z 545 * (z 134 * q4p + z 135 * q5p + z 136 * q3p) + z 4526 + l1 * z 545 * z 276 + z 136 * z 545 * z 266 - z 130 * z 545 * z 265);
  SZ 4540 (z 51 * z 545 * (z 131 * q4p + z 132 * q5p + z 133 * q3p) + z 52 * z 545 * (z 128 * q5p + z 129 * q4p + z 130 * q3p) + z 4524 + z 130 * z 545 * z 267 + z 133 * z 545 * z 266 - l2 * z 545 * z 276);
  SZ 4541 (z 43 * z 545 * (l1 * z 268 + l2 * z 271));
  SZ 4542 (z 50 * z 545 * (z 131 * q4p + z 132 * q5p + z 133 * q3p) + z 3 * z 4523 - z 52 * z 545 * (z 134 * q4p + z 135 * q5p + z 136 * q3p) - z 4541 - z 133 * z 545 * z 265 - z 136 * z 545 * z 267);
  SZ 4543 (z 50 * z 545 * (z 143 * q5p + z 144 * q4p + z 145 * q3p) + z 4526 + d1 * z 545 * z 276 - z 145 * z 545 * z 265);
  SZ 4544 (z 158 * z 43 * z 545 * z 313);
  SZ 4545 (z 82 * z 545 * (z 164 * q5p + z 165 * q4p + z 166 * q3p) + z 4544 + z 166 * z 545 * z 293 - z 81 * z 545 * (z 159 * q3p + z 160 * q5p + z 161 * q7p + z 162 * q4p) - z 159 * z 545 * z 292);
  SZ 4546 (z 51 * z 545 * (z 140 * q4p + z 141 * q5p + z 142 * q3p) + z 52 * z 545 * (z 143 * q5p + z 144 * q4p + z 145 * q3p) + z 4524 + z 142 * z 545 * z 266 + z 145 * z 545 * z 267);
  SZ 4547 (d1 * z 43 * z 545 * z 268);
  SZ 4548 (z 50 * z 545 * (z 140 * q4p + z 141 * q5p + z 142 * q3p) + z 3 * z 4523 - z 4547 - z 142 * z 545 * z 265);
  SZ 4549 (z 43 * z 545 * (d2 * z 308 + l4 * z 308 - z 158 * z 268));
  SZ 4550 (z 4549 - z 52 * z 545 * (z 164 * q5p + z 165 * q4p + z 166 * q3p) - z 81 * z 545 * (z 167 * q5p + z 168 * q4p + z 169 * q3p) - z 166 * z 545 * z 294 - z 169 * z 545 * z 292);
  SZ 4551 (z 163 * z 43 * z 545 * z 313);
  SZ 4552 (z 82 * z 545 * (z 167 * q5p + z 168 * q4p + z 169 * q3p) + z 52 * z 545 * (z 159 * q3p + z 160 * q5p + z 161 * q7p + z 162 * q4p) + z 159 * z 545 * z 294 + z 169 * z 545 * z 293 - z 4551);
  SZ 4553 (d3 * z 43 * z 545 * z 313);
  SZ 4554 (z 82 * z 545 * (z 152 * q5p + z 153 * q4p + z 154 * q3p) + z 4553 + z 154 * z 545 * z 293 - z 81 * z 545 * (z 148 * q3p + z 149 * q5p + z 150 * q7p + z 151 * q4p) - z 148 * z 545 * z 292);
  SZ 4555 (z 43 * z 545 * (d2 * z 308 - d3 * z 268));
  SZ 4556 (z 4555 - z 52 * z 545 * (z 152 * q5p + z 153 * q4p + z 154 * q3p) - z 81 * z 545 * (z 155 * q5p + z 156 * q4p + z 157 * q3p) - z 154 * z 545 * z 294 - z 157 * z 545 * z 292);
  SZ 4557 (d2 * z 43 * z 545 * z 313);
  SZ 4558 (z 82 * z 545 * (z 155 * q5p + z 156 * q4p + z 157 * q3p) + z 52 * z 545 * (z 148 * q3p + z 149 * q5p + z 150 * q7p + z 151 * q4p) + z 148 * z 545 * z 294 + z 157 * z 545 * z 293 - z 4557);
  SZ 4559 (z 45 * z 4472 + z 45 * z 4475 + z 46 * z 4477 + z 49 * z 4479 + z 49 * z 4481 + z 60 * z 4484 + z 63 * z 4486 + z 74 * z 4490 + z 77 * z 4493 + z 80 * z 4498 + z 92 * z 4505 + z 97 * z 4511 + z 109 * z 4515 + z 113 * z 4518 + z 117 * z 4521 + id11 * z 60 * z 4482 + id11 * z 63 * z 4485 + if11 * z 92 * z 4503 + if11 * z 97 * z 4510 + md * z 3 * z 119 * z 4523 + mg * (z 209 * z 4530 + z 212 * z 4535 + z 215 * z 4538) - z 45 * z 4473 - z 46 * z 4478 - z 49 * z 4480 - z 74 * z 4487 - z 74 * z 4488 - z 77 * z 4491 - z 77 * z 4494 - z 77 * z 4495 - z 80 * z 4496 - z 80 * z 4497 - z 109 * z 4512 - z 109 * z 4513 - z 113 * z 4516 - z 117 * z 4519 - z 117 * z 4520 - ic22 * z 46 * z 545 * z 276 - id22 * z 46 * z 545 * z 276 - mc * (z 131 * z 4539 - z 134 * z 4540 - z 139 * z 4542) - me * (z 140 * z 4543 + z 140 * z 4545 + z 168 * z 4543 + z 168 * z 4545 + z 10 * z 162 * z 4546 - z 147 * z 4548 - z 162 * z 4550 - z 165 * z 4552 - z 9 * z 147 * z 4550 - z 9 * z 162 * z 4548 - z 9 * z 165 * z 4546 - z 10 * z 147 * z 4552 - z 10 * z 165 * z 4548) - mf * (z 140 * z 4543 + z 140 * z 4554 + z 156 * z 4543 + z 156 * z 4554 + z 10 * z 151 * z 4546 - z 147 * z 4548 - z 151 * z 4556 - z 153 * z 4558 - z 9 * z 147 * z 4556 - z 9 * z 151 * z 4548 - z 9 * z 153 * z 4546 - z 10 * z 147 * z 4558 - z 10 * z 153 * z 4548));
  SZ 4560 (md * (z 1 * z 4522 - z 2 * z 4523) + mg * (z 182 * z 4530 + z 187 * z 4535 + z 192 * z 4538) + me * (z 120 * z 4546 + z 122 * z 4543 + z 122 * z 4545 + z 9 * z 120 * z 4552 - z 121 * z 4548 - z 9 * z 121 * z 4550 - z 10 * z 120 * z 4550 - z 10 * z 121 * z 4552) + mf * (z 120 * z 4546 + z 122 * z 4543 + z 122 * z 4554 + z 9 * z 120 * z 4558 - z 121 * z 4548 - z 9 * z 121 * z 4556 - z 10 * z 120 * z 4556 - z 10 * z 121 * z 4558) - mc * (z 121 * z 4542 - z 120 * z 4540 - z 122 * z 4539));
  SZ 4561 (z 50 * z 4473 + z 51 * z 4477 + z 52 * z 4479 + z 52 * z 4481 + z 52 * z 4498 + z 61 * z 4484 + z 64 * z 4486 + z 81 * z 4490 + z 82 * z 4493 + z 90 * z 4505 + z 94 * z 4511 + z 110 * z 4515 + z 112 * z 4518 + z 115 * z 4521 + id11 * z 61 * z 4482 + id11 * z 64 * z 4485 + if11 * z 90 * z 4503 + if11 * z 94 * z 4510 + mc * (z 130 * z 4542 + z 137 * z 4540 + z 138 * z 4539) + mg * (z 211 * z 4530 + z 214 * z 4535 + z 217 * z 4538) - z 50 * z 4472 - z 50 * z 4475 - z 51 * z 4478 - z 52 * z 4480 - z 52 * z 4496 - z 52 * z 4497 - z 81 * z 4487 - z 81 * z 4488 - z 82 * z 4491 - z 82 * z 4494 - z 82 * z 4495 - z 110 * z 4512 - z 110 * z 4513 - z 112 * z 4516 - z 115 * z 4519 - z 115 * z 4520 - md * z 118 * z 4522 - ic22 * z 51 * z 545 * z 276 - id22 * z 51 * z 545 * z 276 - me * (z 126 * z 4546 + z 169 * z 4543 + z 169 * z 4545 + z 9 * z 126 * z 4552 + z 10 * z 159 * z 4546 - z 145 * z 4548 - z 146 * z 4543 - z 146 * z 4545 - z 159 * z 4550 - z 166 * z 4552 - z 9 * z 145 * z 4550 - z 9 * z 159 * z 4548 - z 9 * z 166 * z 4546 - z 10 * z 126 * z 4550 - z 10 * z 145 * z 4552 - z 10 * z 166 * z 4548) - mf * (z 126 * z 4546 + z 157 * z 4543 + z 157 * z 4554 + z 9 * z 126 * z 4558 + z 10 * z 148 * z 4546 - z 145 * z 4548 - z 146 * z 4543 - z 146 * z 4554 - z 148 * z 4556 - z 154 * z 4558 - z 9 * z 145 * z 4556 - z 9 * z 148 * z 4548 - z 9 * z 154 * z 4546 - z 10 * z 126 * z 4556 - z 10 * z 145 * z 4558 - z 10 * z 154 * z 4548));
  SZ 4562 (z 47 * z 4477 + z 48 * z 4479 + z 48 * z 4481 + z 65 * z 4486 + z 73 * z 4490 + z 76 * z 4493 + z 78 * z 4498 + z 91 * z 4505 + z 95 * z 4511 + z 111 * z 4515 + z 114 * z 4518 + z 116 * z 4521 + id11 * z 65 * z 4485 + if11 * z 91 * z 4503 + if11 * z 95 * z 4510 + mg * (z 210 * z 4530 + z 213 * z 4535 + z 216 * z 4538) - z 47 * z 4478 - z 48 * z 4480 - z 62 * z 4484 - z 73 * z 4487 - z 73 * z 4488 - z 76 * z 4491 - z 76 * z 4494 - z 76 * z 4495 - z 78 * z 4496 - z 78 * z 4497 - z 111 * z 4512 - z 111 * z 4513 - z 114 * z 4516 - z 116 * z 4519 - z 116 * z 4520 - id11 * z 62 * z 4482 - ic22 * z 47 * z 545 * z 276 - id22 * z 47 * z 545 * z 276 - mc * (z 132 * z 4539 - z 128 * z 4542 - z 135 * z 4540) - me * (z 141 * z 4543 + z 141 * z 4545 + z 167 * z 4543 + z 167 * z 4545 + z 10 * z 160 * z 4546 - z 143 * z 4548 - z 160 * z 4550 - z 164 * z 4552 - z 9 * z 143 * z 4550 - z 9 * z 160 * z 4548 - z 9 * z 164 * z 4546 - z 10 * z 143 * z 4552 - z 10 * z 164 * z 4548) - mf * (z 141 * z 4543 + z 141 * z 4554 + z 155 * z 4543 + z 155 * z 4554 + z 10 * z 149 * z 4546 - z 143 * z 4548 - z 149 * z 4556 - z 152 * z 4558 - z 9 * z 143 * z 4556 - z 9 * z 149 * z 4548 - z 9 * z 152 * z 4546 - z 10 * z 143 * z 4558 - z 10 * z 152 * z 4548));
  SZ 4563 (md * (z 1 * z 4523 + z 2 * z 4522) + mc * (z 123 * z 4540 + z 124 * z 4542 + z 125 * z 4539) + mg * (z 183 * z 4530 + z 188 * z 4535 + z 193 * z 4538) - me * (z 10 * z 123 * z 4550 - z 123 * z 4546 - z 124 * z 4548 - z 125 * z 4543 - z 125 * z 4545 - z 9 * z 123 * z 4552 - z 9 * z 124 * z 4550 - z 10 * z 124 * z 4552) - mf * (z 10 * z 123 * z 4556 - z 123 * z 4546 - z 124 * z 4548 - z 125 * z 4543 - z 125 * z 4554 - z 9 * z 123 * z 4558 - z 9 * z 124 * z 4556 - z 10 * z 124 * z 4558));
  SZ 4564 (z 4559 + z 538 * z 4560 + z 544 * z 4561 + z 547 * z 4562 - z 541 * z 4563 - z 83 * z 549 * (z 4494 + z 4495));
  SZ 4565 (z 1 * z 545 * ((PowN (z 3) 2) + (PowN (z 4) 2)));
  SZ 4566 (z 2 * z 545 * ((PowN (z 3) 2) + (PowN (z 4) 2)));
  SZ 4567 (z 4565 * u1 + z 4566 * u2 + z 542 * z 559 + z 545 * z 563 - z 3 * z 1327 * u4 - z 3 * z 1329 * u3 - z 3 * z 1331 * u5 - z 539 * z 556);
  SZ 4568 (z 545 * (z 1 * z 31 - z 2 * z 6));
  SZ 4569 (z 545 * (z 1 * z 41 + z 2 * z 5));
  SZ 4570 (z 9 * z 4569 + z 1 * z 3 * z 10 * z 545);
  SZ 4571 (z 1 * z 3 * z 9 * z 545 - z 10 * z 4569);
  SZ 4572 (z 23 * z 4570 - z 6 * z 4568 - z 25 * z 4571);
  SZ 4573 (z 545 * (z 1 * z 6 + z 2 * z 31));
  SZ 4574 (z 545 * (z 1 * z 5 - z 2 * z 41));
  SZ 4575 (z 2 * z 3 * z 10 * z 545 - z 9 * z 4574);
  SZ 4576 (z 10 * z 4574 + z 2 * z 3 * z 9 * z 545);
  SZ 4577 (z 23 * z 4575 - z 6 * z 4573 - z 25 * z 4576);
  SZ 4578 (z 11 * z 39 * z 90 * z 550 + z 11 * z 40 * z 94 * z 550 + z 12 * z 39 * z 94 * z 550 + z 12 * z 40 * z 43 * z 4509 - z 11 * z 39 * z 43 * z 4509 - z 11 * z 40 * z 43 * z 4502 - z 12 * z 39 * z 43 * z 4502 - z 12 * z 40 * z 90 * z 550);
  SZ 4579 (z 12 * z 40 * z 4506 + z 11 * z 39 * z 92 * z 550 + z 11 * z 40 * z 97 * z 550 + z 12 * z 39 * z 97 * z 550 - z 11 * z 39 * z 4506 - z 11 * z 40 * z 4499 - z 12 * z 39 * z 4499 - z 12 * z 40 * z 92 * z 550);
  SZ 4580 (z 12 * z 40 * z 4507 + z 11 * z 39 * z 91 * z 550 + z 11 * z 40 * z 95 * z 550 + z 12 * z 39 * z 95 * z 550 - z 11 * z 39 * z 4507 - z 11 * z 40 * z 4500 - z 12 * z 39 * z 4500 - z 12 * z 40 * z 91 * z 550);
  SZ 4581 (z 12 * z 40 * z 4508 + z 11 * z 39 * z 93 * z 550 + z 11 * z 40 * z 96 * z 550 + z 12 * z 39 * z 96 * z 550 - z 11 * z 39 * z 4508 - z 11 * z 40 * z 4501 - z 12 * z 39 * z 4501 - z 12 * z 40 * z 93 * z 550);
  SZ 4582 (z 4572 * u1 + z 4577 * u2 + z 542 * z 578 - z 25 * z 4578 * u3 - z 25 * z 4579 * u4 - z 25 * z 4580 * u5 - z 25 * z 4581 * u7 - z 539 * z 573 - z 545 * z 616 - z 550 * z 586);
  SZ 4583 (z 2 * z 545 * u1 + z 1 * z 542 * q3p + z 2 * z 539 * q3p - z 1 * z 545 * u2 - z 545 * z 552);
  SZ 4584 (z 27 * z 4570 + z 29 * z 4571 + z 31 * z 4568);
  SZ 4585 (z 27 * z 4575 + z 29 * z 4576 + z 31 * z 4573);
  SZ 4586 (z 4584 * u1 + z 4585 * u2 + z 29 * z 4578 * u3 + z 29 * z 4579 * u4 + z 29 * z 4580 * u5 + z 29 * z 4581 * u7 + z 542 * z 622 - z 539 * z 621 - z 545 * z 626 - z 550 * z 623);
  SZ 4587 ((z 525 * z 4567 + z 478 * z 496 * z 4582 - z 511 * z 4583 - z 478 * z 528 * z 4586) / z 494);
  SZ 4588 ((z 512 * z 4583 + z 527 * z 4582 - z 526 * z 4567 - z 532 * z 4586) / z 494);
  SZ 4589 ((z 519 * z 4567 + z 487 * z 496 * z 4582 - z 504 * z 4583 - z 487 * z 528 * z 4586) / z 494);
  SZ 4590 ((z 523 * z 4567 + z 482 * z 496 * z 4582 - z 509 * z 4583 - z 482 * z 528 * z 4586) / z 494);
  SZ 4591 (z 4564 + z 940 * z 4587 + z 946 * z 4589 - z 944 * z 4588 - z 947 * z 4590);
  SZ 4592 (z 75 * z 4490 + z 79 * z 4498 + z 93 * z 4505 + z 96 * z 4511 + if11 * z 93 * z 4503 + if11 * z 96 * z 4510 + me * z 161 * (z 4550 + z 9 * z 4548 - z 10 * z 4546) + mf * z 150 * (z 4556 + z 9 * z 4548 - z 10 * z 4546) - z 75 * z 4487 - z 75 * z 4488 - z 79 * z 4496 - z 79 * z 4497);
  SZ 4593 (z 4592 + z 543 * z 4563 + z 548 * z 4562 - z 540 * z 4560 - z 546 * z 4561 - z 83 * z 551 * (z 4494 + z 4495));
  SZ 4594 (z 4593 + z 970 * z 4587 + z 971 * z 4589 - z 972 * z 4590 - z 975 * z 4588);
  SZ 4595 (z 53 * (z 4478 + id22 * z 545 * z 276));
  SZ 4596 (z 542 * z 4563 + z 83 * z 550 * (z 4494 + z 4495) - z 4595 - z 539 * z 4560 - z 545 * z 4561);
  SZ 4597 (z 4596 + z 955 * z 4587 + z 957 * z 4589 - z 958 * z 4590 - z 961 * z 4588);
  SZ 4598 (z 98 * z 4515 + z 99 * z 4518 - z 98 * z 4512 - z 98 * z 4513 - z 99 * z 4516 - mg * (z 200 * z 4535 + z 201 * z 4538 - z 205 * z 4530));
  SZ 4599 (z 4598 + z 902 * z 4587 + z 906 * z 4589 - z 907 * z 4590);
  SZ 4600 ((z 1005 * z 4591 + z 1022 * z 4594 - z 1015 * z 4597 - z 1026 * z 4599) / z 1001);
  SZ 4601 (z 6 * z 548 * ((PowN (z 3) 2) + (PowN (z 4) 2)));
  SZ 4602 (z 43 * z 546 * z 271 - z 4601 * q4p - z 3 * z 5 * z 43 * z 548 * q3p);
  SZ 4603 (z 5 * z 548 * ((PowN (z 3) 2) + (PowN (z 4) 2)));
  SZ 4604 (z 4603 * q4p + z 548 * z 278 - z 3 * z 6 * z 43 * z 548 * q3p - z 43 * z 546 * z 268);
  SZ 4605 (ic33 * z 678 + ic31 * z 50 * z 546);
  SZ 4606 (z 677 * z 758 + z 4605 * z 266 - z 678 * z 759 - ic22 * z 677 * z 267);
  SZ 4607 (z 548 * (z 3 * z 5 * z 31 + z 3 * z 6 * z 41 - z 4 * z 5 * z 32 - z 4 * z 6 * z 42));
  SZ 4608 (z 5 * z 548 * (z 6 - z 3 * z 42 - z 4 * z 41));
  SZ 4609 (z 4607 * q4p + z 548 * z 275 - (Lit 2 1) * z 4608 * q5p - z 546 * z 276);
  SZ 4610 (ic31 * z 678 + ic11 * z 50 * z 546);
  SZ 4611 (z 678 * z 757 + z 4610 * z 267 - z 4605 * z 265 - z 50 * z 546 * z 758);
  SZ 4612 (z 685 * z 781 + id11 * z 684 * z 283 - z 684 * z 783 - id11 * z 685 * z 281);
  SZ 4613 (ic22 * z 677 * z 265 + z 50 * z 546 * z 759 - z 677 * z 757 - z 4610 * z 266);
  SZ 4614 ((- z 7) * z 4601 - z 8 * z 4603);
  SZ 4615 (z 3 * z 548 * (z 5 * z 7 - z 6 * z 8));
  SZ 4616 (z 4614 * q4p - z 43 * z 4615 * q3p - z 548 * z 286 - z 43 * z 546 * z 285);
  SZ 4617 (z 677 * z 783 + id11 * z 685 * z 282 - z 685 * z 782 - id22 * z 677 * z 283);
  SZ 4618 (z 7 * z 4603 - z 8 * z 4601);
  SZ 4619 (z 3 * z 548 * (z 5 * z 8 + z 6 * z 7));
  SZ 4620 (z 4618 * q4p + z 548 * z 290 - z 43 * z 4619 * q3p - z 43 * z 546 * z 289);
  SZ 4621 (z 684 * z 782 + id22 * z 677 * z 281 - z 677 * z 781 - id11 * z 684 * z 282);
  SZ 4622 (z 6 * z 9 + z 5 * z 10 * z 548);
  SZ 4623 ((- z 3) * z 10 - z 4 * z 4622);
  SZ 4624 (z 4 * z 10 - z 3 * z 4622);
  SZ 4625 (z 32 * z 4623 + z 4 * z 6 * z 69 * z 548 - z 31 * z 4624 - z 3 * z 6 * z 29 * z 548);
  SZ 4626 (z 5 * z 9 - z 6 * z 10 * z 548);
  SZ 4627 (z 6 * z 4622 + z 3 * z 32 * z 4626 + z 4 * z 31 * z 4626 + z 5 * z 26 * z 548 - z 3 * z 6 * z 72 * z 548 - z 4 * z 6 * z 71 * z 548);
  SZ 4628 (z 5 * z 9 * z 548 - z 6 * z 10);
  SZ 4629 (z 3 * z 4628 - z 4 * z 9);
  SZ 4630 ((- z 5) * z 10 - z 6 * z 9 * z 548);
  SZ 4631 ((- z 3) * z 9 - z 4 * z 4628);
  SZ 4632 (z 32 * z 4629 + z 4 * z 6 * z 70 * z 548 - z 6 * z 4630 - z 31 * z 4631 - z 5 * z 23 * z 548 - z 3 * z 6 * z 66 * z 548);
  SZ 4633 (z 4 * z 9 - z 3 * z 4628);
  SZ 4634 (z 4625 * q4p + z 4627 * q5p + z 4632 * q7p + z 43 * z 4633 * q3p + z 307 + z 548 * z 299 - z 43 * z 546 * z 308);
  SZ 4635 (z 3 * z 4622 - z 4 * z 10);
  SZ 4636 (z 3 * z 9 + z 4 * z 4628);
  SZ 4637 (z 27 * z 4635 + z 29 * z 4629 + z 30 * z 4636 + z 66 * z 4623);
  SZ 4638 (z 24 * z 4626 + z 25 * z 4628 + z 67 * z 4623 + z 4 * z 29 * z 4630 - z 68 * z 4635 - z 3 * z 30 * z 4630);
  SZ 4639 ((Lit 2 1) * z 25 * z 4626 + (Lit 2 1) * z 29 * z 4623 + (Lit 2 1) * z 30 * z 4635);
  SZ 4640 (z 4637 * q4p + z 4638 * q5p + z 4639 * q7p + z 318 + z 548 * z 317 - z 3 * z 6 * z 43 * z 548 * q3p - z 43 * z 546 * z 268);
  SZ 4641 (ie31 * z 691 + ie33 * z 692);
  SZ 4642 (z 693 * z 801 + z 4641 * z 293 - z 692 * z 802 - ie22 * z 693 * z 294);
  SZ 4643 (z 3 * z 6 * z 27 * z 548 + z 4 * z 6 * z 28 * z 548 - z 31 * z 4633 - z 32 * z 4636);
  SZ 4644 (z 5 * z 4630 + z 41 * z 4636 + z 4 * z 5 * z 27 * z 548 - z 42 * z 4633 - z 6 * z 23 * z 548 - z 3 * z 5 * z 28 * z 548);
  SZ 4645 (z 4643 * q4p + z 4644 * q5p + z 43 * z 4635 * q3p + z 548 * z 311 - z 43 * z 546 * z 313);
  SZ 4646 (ie11 * z 691 + ie31 * z 692);
  SZ 4647 (z 692 * z 800 + z 4646 * z 294 - z 691 * z 801 - z 4641 * z 292);
  SZ 4648 (z 96 + z 95 * z 548 - z 94 * z 546);
  SZ 4649 (z 93 + z 91 * z 548 - z 90 * z 546);
  SZ 4650 (z 4648 * z 830 + if11 * z 4649 * z 323 - z 4649 * z 832 - if11 * z 4648 * z 321);
  SZ 4651 (z 691 * z 802 + ie22 * z 693 * z 292 - z 693 * z 800 - z 4646 * z 293);
  SZ 4652 (z 11 * z 4625 - z 12 * z 4637 - z 11 * z 80 * z 551 - z 12 * z 74 * z 551);
  SZ 4653 (z 11 * z 4627 - z 12 * z 4638 - z 11 * z 78 * z 551 - z 12 * z 73 * z 551);
  SZ 4654 (z 11 * z 4632 - z 12 * z 4639 - z 11 * z 79 * z 551 - z 12 * z 75 * z 551);
  SZ 4655 (z 11 * z 4633 + z 3 * z 6 * z 12 * z 548 - z 11 * z 32 * z 551 - z 12 * z 28 * z 551);
  SZ 4656 (z 4652 * q4p + z 4653 * q5p + z 4654 * q7p + z 43 * z 4655 * q3p + z 327 + z 548 * z 325 - z 43 * z 546 * z 324);
  SZ 4657 (z 76 * z 548 + z 83 * z 551 - z 82 * z 546);
  SZ 4658 (z 4657 * z 832 + if11 * z 4648 * z 322 - z 4648 * z 831 - if22 * z 4657 * z 323);
  SZ 4659 (z 11 * z 4637 + z 12 * z 4625 + z 11 * z 74 * z 551 - z 12 * z 80 * z 551);
  SZ 4660 (z 11 * z 4638 + z 12 * z 4627 + z 11 * z 73 * z 551 - z 12 * z 78 * z 551);
  SZ 4661 (z 11 * z 4639 + z 12 * z 4632 + z 11 * z 75 * z 551 - z 12 * z 79 * z 551);
  SZ 4662 (z 12 * z 4633 + z 11 * z 28 * z 551 - z 12 * z 32 * z 551 - z 3 * z 6 * z 11 * z 548);
  SZ 4663 (z 4659 * q4p + z 4660 * q5p + z 4661 * q7p + z 43 * z 4662 * q3p + z 331 + z 548 * z 330 - z 43 * z 546 * z 329);
  SZ 4664 (z 4649 * z 831 + if22 * z 4657 * z 321 - z 4657 * z 830 - if11 * z 4649 * z 322);
  SZ 4665 (z 14 * z 4603 - z 13 * z 4601);
  SZ 4666 (z 3 * z 548 * (z 13 * z 5 + z 14 * z 6));
  SZ 4667 (z 4665 * q4p + z 14 * z 548 * z 278 - z 43 * z 4666 * q3p - z 43 * z 546 * z 341);
  SZ 4668 (z 18 * z 4601 + z 20 * z 4603 - z 15 * z 4607);
  SZ 4669 (z 3 * z 548 * (z 5 * z 18 - z 6 * z 20));
  SZ 4670 (z 4668 * q4p + z 43 * z 4669 * q3p + (Lit 2 1) * z 15 * z 4608 * q5p + z 548 * z 349 - z 43 * z 546 * z 348);
  SZ 4671 (ig31 * z 700 + ig33 * z 702);
  SZ 4672 (z 701 * z 852 + z 4671 * z 335 - z 702 * z 853 - ig22 * z 701 * z 336);
  SZ 4673 (z 16 * z 4601 + z 17 * z 4607 + z 19 * z 4603);
  SZ 4674 (z 3 * z 548 * (z 5 * z 16 - z 6 * z 19));
  SZ 4675 (z 4673 * q4p + z 43 * z 4674 * q3p + z 548 * z 346 - (Lit 2 1) * z 17 * z 4608 * q5p - z 43 * z 546 * z 344);
  SZ 4676 (ig11 * z 700 + ig31 * z 702);
  SZ 4677 (z 702 * z 851 + z 4676 * z 336 - z 700 * z 852 - z 4671 * z 334);
  SZ 4678 (z 700 * z 853 + ig22 * z 701 * z 334 - z 701 * z 851 - z 4676 * z 335);
  SZ 4679 (z 546 * (z 354 + z 3 * z 43 * z 353));
  SZ 4680 (z 546 * (z 43 * z 352 + z 118 * z 356));
  SZ 4681 (z 5 * z 4679 + z 41 * z 4680);
  SZ 4682 (z 677 * (z 173 * q4p + z 174 * q5p + z 175 * q3p) + z 4681 + z 22 * z 4609 + (z 171 * z 546 + z 172 * z 548) * z 267 + (z 174 * z 548 - z 175 * z 546) * z 266 - z 678 * (z 170 * q4p + z 171 * q3p - z 172 * q5p));
  SZ 4683 (z 6 * z 4679 - z 31 * z 4680);
  SZ 4684 (z 50 * z 546 * (z 170 * q4p + z 171 * q3p - z 172 * q5p) + z 4683 + z 21 * z 4609 - z 677 * (z 176 * q4p + z 177 * q5p + z 178 * q3p) - (z 171 * z 546 + z 172 * z 548) * z 265 - (z 177 * z 548 - z 178 * z 546) * z 266);
  SZ 4685 (z 13 * z 4682 + z 14 * z 4684);
  SZ 4686 (z 4685 + l6 * z 4675 + (z 197 * z 546 - z 198 * z 548) * z 336 + (z 202 * z 546 - z 204 * z 548) * z 335 - z 701 * (z 201 * q9p + z 202 * q3p + z 203 * q4p + z 204 * q5p) - z 702 * (z 197 * q3p + z 198 * q5p + z 199 * q4p - z 200 * q9p));
  SZ 4687 ((- z 21) * z 4604 - z 22 * z 4602);
  SZ 4688 (z 678 * (z 176 * q4p + z 177 * q5p + z 178 * q3p) + z 4687 + z 3 * z 4680 + (z 177 * z 548 - z 178 * z 546) * z 267 - z 50 * z 546 * (z 173 * q4p + z 174 * q5p + z 175 * q3p) - (z 174 * z 548 - z 175 * z 546) * z 265);
  SZ 4689 (z 17 * z 4688 + z 19 * z 4684 - z 16 * z 4682);
  SZ 4690 (l5 * z 4670 - l6 * z 4667);
  SZ 4691 (z 700 * (z 201 * q9p + z 202 * q3p + z 203 * q4p + z 204 * q5p) + z 702 * (z 205 * q9p + z 206 * q3p + z 207 * q4p + z 208 * q5p) + z 4689 + z 4690 - (z 202 * z 546 - z 204 * z 548) * z 334 - (z 206 * z 546 - z 208 * z 548) * z 336);
  SZ 4692 (z 20 * z 4684 - z 15 * z 4688 - z 18 * z 4682);
  SZ 4693 (z 700 * (z 197 * q3p + z 198 * q5p + z 199 * q4p - z 200 * q9p) + z 4692 + (z 206 * z 546 - z 208 * z 548) * z 335 - z 701 * (z 205 * q9p + z 206 * q3p + z 207 * q4p + z 208 * q5p) - l5 * z 4675 - (z 197 * z 546 - z 198 * z 548) * z 334);
  SZ 4694 (z 50 * z 546 * (z 128 * q5p + z 129 * q4p + z 130 * q3p) + z 4683 + (z 128 * z 548 - z 130 * z 546) * z 265 - z 677 * (z 134 * q4p + z 135 * q5p + z 136 * q3p) - l1 * z 4609 - (z 135 * z 548 - z 136 * z 546) * z 266);
  SZ 4695 (z 4681 + l2 * z 4609 - z 677 * (z 131 * q4p + z 132 * q5p + z 133 * q3p) - z 678 * (z 128 * q5p + z 129 * q4p + z 130 * q3p) - (z 128 * z 548 - z 130 * z 546) * z 267 - (z 132 * z 548 - z 133 * z 546) * z 266);
  SZ 4696 (l1 * z 4604 - l2 * z 4602);
  SZ 4697 (z 678 * (z 134 * q4p + z 135 * q5p + z 136 * q3p) + z 50 * z 546 * (z 131 * q4p + z 132 * q5p + z 133 * q3p) + z 4696 + z 3 * z 4680 + (z 132 * z 548 - z 133 * z 546) * z 265 + (z 135 * z 548 - z 136 * z 546) * z 267);
  SZ 4698 (z 50 * z 546 * (z 143 * q5p + z 144 * q4p + z 145 * q3p) + z 4683 + (z 143 * z 548 - z 145 * z 546) * z 265 - d1 * z 4609);
  SZ 4699 (z 691 * (z 159 * q3p + z 160 * q5p + z 161 * q7p + z 162 * q4p) - z 693 * (z 164 * q5p + z 165 * q4p + z 166 * q3p) - z 158 * z 4645 - (z 164 * z 548 - z 166 * z 546) * z 293 - (z 159 * z 546 - z 161 - z 160 * z 548) * z 292);
  SZ 4700 (z 4681 - z 677 * (z 140 * q4p + z 141 * q5p + z 142 * q3p) - z 678 * (z 143 * q5p + z 144 * q4p + z 145 * q3p) - (z 141 * z 548 - z 142 * z 546) * z 266 - (z 143 * z 548 - z 145 * z 546) * z 267);
  SZ 4701 (z 50 * z 546 * (z 140 * q4p + z 141 * q5p + z 142 * q3p) + d1 * z 4604 + z 3 * z 4680 + (z 141 * z 548 - z 142 * z 546) * z 265);
  SZ 4702 (z 158 * z 4640 - d2 * z 4634 - l4 * z 4634);
  SZ 4703 (z 691 * (z 167 * q5p + z 168 * q4p + z 169 * q3p) + z 692 * (z 164 * q5p + z 165 * q4p + z 166 * q3p) + z 4702 + (z 164 * z 548 - z 166 * z 546) * z 294 + (z 167 * z 548 - z 169 * z 546) * z 292);
  SZ 4704 (z 163 * z 4645 + (z 159 * z 546 - z 161 - z 160 * z 548) * z 294 - z 693 * (z 167 * q5p + z 168 * q4p + z 169 * q3p) - z 692 * (z 159 * q3p + z 160 * q5p + z 161 * q7p + z 162 * q4p) - (z 167 * z 548 - z 169 * z 546) * z 293);
  SZ 4705 (z 691 * (z 148 * q3p + z 149 * q5p + z 150 * q7p + z 151 * q4p) - z 693 * (z 152 * q5p + z 153 * q4p + z 154 * q3p) - d3 * z 4645 - (z 152 * z 548 - z 154 * z 546) * z 293 - (z 148 * z 546 - z 150 - z 149 * z 548) * z 292);
  SZ 4706 (d3 * z 4640 - d2 * z 4634);
  SZ 4707 (z 691 * (z 155 * q5p + z 156 * q4p + z 157 * q3p) + z 692 * (z 152 * q5p + z 153 * q4p + z 154 * q3p) + z 4706 + (z 152 * z 548 - z 154 * z 546) * z 294 + (z 155 * z 548 - z 157 * z 546) * z 292);
  SZ 4708 (d2 * z 4645 + (z 148 * z 546 - z 150 - z 149 * z 548) * z 294 - z 693 * (z 155 * q5p + z 156 * q4p + z 157 * q3p) - z 692 * (z 148 * q3p + z 149 * q5p + z 150 * q7p + z 151 * q4p) - (z 155 * z 548 - z 157 * z 546) * z 293);
  SZ 4709 (z 45 * z 4606 + z 46 * z 4611 + z 46 * z 4612 + z 49 * z 4613 + z 60 * z 4617 + z 63 * z 4621 + z 74 * z 4642 + z 77 * z 4647 + z 77 * z 4650 + z 80 * z 4651 + z 92 * z 4658 + z 97 * z 4664 + z 109 * z 4672 + z 113 * z 4677 + z 117 * z 4678 + ic11 * z 45 * z 4602 + ic22 * z 46 * z 4609 + ic31 * z 45 * z 4604 + ic31 * z 49 * z 4602 + ic33 * z 49 * z 4604 + id11 * z 60 * z 4616 + id11 * z 63 * z 4620 + id22 * z 46 * z 4609 + ie11 * z 74 * z 4634 + ie22 * z 77 * z 4645 + ie31 * z 74 * z 4640 + ie31 * z 80 * z 4634 + ie33 * z 80 * z 4640 + if11 * z 92 * z 4656 + if11 * z 97 * z 4663 + if22 * z 77 * z 4645 + ig11 * z 109 * z 4667 + ig22 * z 113 * z 4675 + ig31 * z 109 * z 4670 + ig31 * z 117 * z 4667 + ig33 * z 117 * z 4670 + md * z 3 * z 119 * z 4680 + mg * (z 209 * z 4686 + z 212 * z 4691 + z 215 * z 4693) - mc * (z 131 * z 4694 - z 134 * z 4695 - z 139 * z 4697) - me * (z 140 * z 4698 + z 140 * z 4699 + z 168 * z 4698 + z 168 * z 4699 + z 10 * z 162 * z 4700 - z 147 * z 4701 - z 162 * z 4703 - z 165 * z 4704 - z 9 * z 147 * z 4703 - z 9 * z 162 * z 4701 - z 9 * z 165 * z 4700 - z 10 * z 147 * z 4704 - z 10 * z 165 * z 4701) - mf * (z 140 * z 4698 + z 140 * z 4705 + z 156 * z 4698 + z 156 * z 4705 + z 10 * z 151 * z 4700 - z 147 * z 4701 - z 151 * z 4707 - z 153 * z 4708 - z 9 * z 147 * z 4707 - z 9 * z 151 * z 4701 - z 9 * z 153 * z 4700 - z 10 * z 147 * z 4708 - z 10 * z 153 * z 4701));
  SZ 4710 (md * (z 1 * z 4679 - z 2 * z 4680) + mg * (z 182 * z 4686 + z 187 * z 4691 + z 192 * z 4693) + me * (z 120 * z 4700 + z 122 * z 4698 + z 122 * z 4699 + z 9 * z 120 * z 4704 - z 121 * z 4701 - z 9 * z 121 * z 4703 - z 10 * z 120 * z 4703 - z 10 * z 121 * z 4704) + mf * (z 120 * z 4700 + z 122 * z 4698 + z 122 * z 4705 + z 9 * z 120 * z 4708 - z 121 * z 4701 - z 9 * z 121 * z 4707 - z 10 * z 120 * z 4707 - z 10 * z 121 * z 4708) - mc * (z 121 * z 4697 - z 120 * z 4695 - z 122 * z 4694));
  SZ 4711 (z 51 * z 4611 + z 51 * z 4612 + z 52 * z 4613 + z 52 * z 4651 + z 61 * z 4617 + z 64 * z 4621 + z 81 * z 4642 + z 82 * z 4647 + z 82 * z 4650 + z 90 * z 4658 + z 94 * z 4664 + z 110 * z 4672 + z 112 * z 4677 + z 115 * z 4678 + ic22 * z 51 * z 4609 + ic31 * z 52 * z 4602 + ic33 * z 52 * z 4604 + id11 * z 61 * z 4616 + id11 * z 64 * z 4620 + id22 * z 51 * z 4609 + ie11 * z 81 * z 4634 + ie22 * z 82 * z 4645 + ie31 * z 52 * z 4634 + ie31 * z 81 * z 4640 + ie33 * z 52 * z 4640 + if11 * z 90 * z 4656 + if11 * z 94 * z 4663 + if22 * z 82 * z 4645 + ig11 * z 110 * z 4667 + ig22 * z 112 * z 4675 + ig31 * z 110 * z 4670 + ig31 * z 115 * z 4667 + ig33 * z 115 * z 4670 + mc * (z 130 * z 4697 + z 137 * z 4695 + z 138 * z 4694) + mg * (z 211 * z 4686 + z 214 * z 4691 + z 217 * z 4693) - z 50 * z 4606 - ic11 * z 50 * z 4602 - ic31 * z 50 * z 4604 - md * z 118 * z 4679 - me * (z 126 * z 4700 + z 169 * z 4698 + z 169 * z 4699 + z 9 * z 126 * z 4704 + z 10 * z 159 * z 4700 - z 145 * z 4701 - z 146 * z 4698 - z 146 * z 4699 - z 159 * z 4703 - z 166 * z 4704 - z 9 * z 145 * z 4703 - z 9 * z 159 * z 4701 - z 9 * z 166 * z 4700 - z 10 * z 126 * z 4703 - z 10 * z 145 * z 4704 - z 10 * z 166 * z 4701) - mf * (z 126 * z 4700 + z 157 * z 4698 + z 157 * z 4705 + z 9 * z 126 * z 4708 + z 10 * z 148 * z 4700 - z 145 * z 4701 - z 146 * z 4698 - z 146 * z 4705 - z 148 * z 4707 - z 154 * z 4708 - z 9 * z 145 * z 4707 - z 9 * z 148 * z 4701 - z 9 * z 154 * z 4700 - z 10 * z 126 * z 4707 - z 10 * z 145 * z 4708 - z 10 * z 154 * z 4701));
  SZ 4712 (z 47 * z 4611 + z 47 * z 4612 + z 48 * z 4613 + z 65 * z 4621 + z 73 * z 4642 + z 76 * z 4647 + z 76 * z 4650 + z 78 * z 4651 + z 91 * z 4658 + z 95 * z 4664 + z 111 * z 4672 + z 114 * z 4677 + z 116 * z 4678 + ic22 * z 47 * z 4609 + ic31 * z 48 * z 4602 + ic33 * z 48 * z 4604 + id11 * z 65 * z 4620 + id22 * z 47 * z 4609 + ie11 * z 73 * z 4634 + ie22 * z 76 * z 4645 + ie31 * z 73 * z 4640 + ie31 * z 78 * z 4634 + ie33 * z 78 * z 4640 + if11 * z 91 * z 4656 + if11 * z 95 * z 4663 + if22 * z 76 * z 4645 + ig11 * z 111 * z 4667 + ig22 * z 114 * z 4675 + ig31 * z 111 * z 4670 + ig31 * z 116 * z 4667 + ig33 * z 116 * z 4670 + mg * (z 210 * z 4686 + z 213 * z 4691 + z 216 * z 4693) - z 62 * z 4617 - id11 * z 62 * z 4616 - mc * (z 132 * z 4694 - z 128 * z 4697 - z 135 * z 4695) - me * (z 141 * z 4698 + z 141 * z 4699 + z 167 * z 4698 + z 167 * z 4699 + z 10 * z 160 * z 4700 - z 143 * z 4701 - z 160 * z 4703 - z 164 * z 4704 - z 9 * z 143 * z 4703 - z 9 * z 160 * z 4701 - z 9 * z 164 * z 4700 - z 10 * z 143 * z 4704 - z 10 * z 164 * z 4701) - mf * (z 141 * z 4698 + z 141 * z 4705 + z 155 * z 4698 + z 155 * z 4705 + z 10 * z 149 * z 4700 - z 143 * z 4701 - z 149 * z 4707 - z 152 * z 4708 - z 9 * z 143 * z 4707 - z 9 * z 149 * z 4701 - z 9 * z 152 * z 4700 - z 10 * z 143 * z 4708 - z 10 * z 152 * z 4701));
  SZ 4713 (z 83 * (z 4650 + if22 * z 4645));
  SZ 4714 (md * (z 1 * z 4680 + z 2 * z 4679) + mc * (z 123 * z 4695 + z 124 * z 4697 + z 125 * z 4694) + mg * (z 183 * z 4686 + z 188 * z 4691 + z 193 * z 4693) - me * (z 10 * z 123 * z 4703 - z 123 * z 4700 - z 124 * z 4701 - z 125 * z 4698 - z 125 * z 4699 - z 9 * z 123 * z 4704 - z 9 * z 124 * z 4703 - z 10 * z 124 * z 4704) - mf * (z 10 * z 123 * z 4707 - z 123 * z 4700 - z 124 * z 4701 - z 125 * z 4698 - z 125 * z 4705 - z 9 * z 123 * z 4708 - z 9 * z 124 * z 4707 - z 10 * z 124 * z 4708));
  SZ 4715 (z 4709 + z 538 * z 4710 + z 544 * z 4711 + z 547 * z 4712 + z 549 * z 4713 - z 541 * z 4714);
  SZ 4716 (z 1 * z 546 * ((PowN (z 3) 2) + (PowN (z 4) 2)));
  SZ 4717 (z 2 * z 546 * ((PowN (z 3) 2) + (PowN (z 4) 2)));
  SZ 4718 (z 548 * (z 5 * z 8 + z 6 * z 7));
  SZ 4719 (z 548 * (z 5 * z 7 - z 6 * z 8));
  SZ 4720 (rr * (z 60 * z 4718 - z 54 * z 4614 - z 55 * z 4618 - z 63 * z 4719));
  SZ 4721 (rr * (z 62 * z 4718 + z 65 * z 4719));
  SZ 4722 (rr * (z 64 * z 4719 - z 61 * z 4718 - z 43 * z 54 * z 4615 - z 43 * z 55 * z 4619));
  SZ 4723 (z 4716 * u1 + z 4717 * u2 + z 3 * z 4720 * u4 + z 543 * z 559 + z 546 * z 563 + z 548 * z 565 - z 3 * z 4721 * u5 - z 3 * z 4722 * u3 - z 540 * z 556);
  SZ 4724 (z 1 * z 5 * z 548 + z 2 * z 6 * z 546 - z 1 * z 31 * z 546 - z 2 * z 4 * z 6 * z 548);
  SZ 4725 (z 1 * z 41 * z 546 + z 2 * z 5 * z 546 - z 1 * z 6 * z 548 - z 2 * z 4 * z 5 * z 548);
  SZ 4726 (z 9 * z 4725 + z 1 * z 3 * z 10 * z 546 - z 9 * z 121 - z 10 * z 120);
  SZ 4727 (z 10 * z 121 + z 1 * z 3 * z 9 * z 546 - z 9 * z 120 - z 10 * z 4725);
  SZ 4728 (z 6 * z 4724 + z 23 * z 4726 + z 233 * z 4630 + z 5 * z 122 * z 548 - z 25 * z 4727 - z 238 * z 4626);
  SZ 4729 (z 2 * z 5 * z 548 + z 1 * z 4 * z 6 * z 548 - z 1 * z 6 * z 546 - z 2 * z 31 * z 546);
  SZ 4730 (z 2 * z 41 * z 546 + z 1 * z 4 * z 5 * z 548 - z 1 * z 5 * z 546 - z 2 * z 6 * z 548);
  SZ 4731 (z 9 * z 124 + z 9 * z 4730 + z 2 * z 3 * z 10 * z 546 - z 10 * z 123);
  SZ 4732 (z 2 * z 3 * z 9 * z 546 - z 9 * z 123 - z 10 * z 124 - z 10 * z 4730);
  SZ 4733 (z 6 * z 4729 + z 23 * z 4731 + z 234 * z 4630 + z 5 * z 125 * z 548 - z 25 * z 4732 - z 239 * z 4626);
  SZ 4734 (z 31 * z 4626 - z 6 * z 4623 - z 5 * z 29 * z 548 - z 4 * z 6 * z 25 * z 548);
  SZ 4735 (z 23 * z 4623 + z 25 * z 4636 + z 27 * z 4626 + z 29 * z 4630);
  SZ 4736 ((Lit 2 1) * z 33 * z 4734 + (Lit 2 1) * z 34 * z 4735);
  SZ 4737 (((Lit 2 1) * z 36 * z 4734 - z 33 * z 4736 / (PowH (z 35) 0)) / (PowN (z 36) 2));
  SZ 4738 (z 39 * z 43 * z 4635 + (Lit 1 2) * rf * z 82 * z 4737);
  SZ 4739 ((- z 4738) - d3 * z 43 * z 4635 - z 5 * z 118 * z 548);
  SZ 4740 (d1 * z 3 * z 6 * z 43 * z 548);
  SZ 4741 (z 9 * z 145 + z 10 * z 126 + d2 * z 43 * z 4635 + z 6 * z 9 * z 118 * z 548 - z 10 * z 4740);
  SZ 4742 (((Lit 2 1) * z 36 * z 4735 - z 34 * z 4736 / (PowH (z 35) 0)) / (PowN (z 36) 2));
  SZ 4743 (z 40 * z 43 * z 4635 + (Lit 1 2) * rf * z 82 * z 4742);
  SZ 4744 (z 43 * (d2 * z 4633 + d3 * z 3 * z 6 * z 548));
  SZ 4745 (z 9 * z 126 - z 4744 - z 9 * z 4740 - z 10 * z 145 - z 6 * z 10 * z 118 * z 548);
  SZ 4746 (z 11 * z 39 * z 43 * z 4662 + z 12 * z 40 * z 90 * z 551 + (Lit 1 2) * rf * z 11 * z 94 * z 4737 - z 11 * z 39 * z 90 * z 551 - z 11 * z 40 * z 43 * z 4655 - z 11 * z 40 * z 94 * z 551 - z 12 * z 39 * z 43 * z 4655 - z 12 * z 39 * z 94 * z 551 - z 12 * z 40 * z 43 * z 4662 - (Lit 1 2) * rf * z 11 * z 90 * z 4742 - (Lit 1 2) * rf * z 12 * z 90 * z 4737 - (Lit 1 2) * rf * z 12 * z 94 * z 4742);
  SZ 4747 (z 6 * z 4739 + z 257 * z 4630 + z 5 * z 262 * z 548 + z 23 * (z 4741 + z 4743) - z 259 * z 4626 - z 25 * (z 4745 + z 4746));
  SZ 4748 (d2 * z 4643 + z 9 * z 147 + d1 * z 10 * z 4603);
  SZ 4749 (z 40 * z 4643 + (Lit 1 2) * rf * z 77 * z 4742);
  SZ 4750 ((- d1) * z 4607 - d3 * z 4643);
  SZ 4751 (z 39 * z 4643 + (Lit 1 2) * rf * z 77 * z 4737);
  SZ 4752 (d3 * z 4637 - d2 * z 4625);
  SZ 4753 (z 4752 + d1 * z 9 * z 4603 - z 10 * z 147);
  SZ 4754 (z 11 * z 39 * z 4659 + z 12 * z 40 * z 92 * z 551 + (Lit 1 2) * rf * z 11 * z 97 * z 4737 - z 11 * z 40 * z 4652 - z 12 * z 39 * z 4652 - z 12 * z 40 * z 4659 - z 11 * z 39 * z 92 * z 551 - z 11 * z 40 * z 97 * z 551 - z 12 * z 39 * z 97 * z 551 - (Lit 1 2) * rf * z 11 * z 92 * z 4742 - (Lit 1 2) * rf * z 12 * z 92 * z 4737 - (Lit 1 2) * rf * z 12 * z 97 * z 4742);
  SZ 4755 (z 256 * z 4630 + z 5 * z 263 * z 548 + z 23 * (z 4748 + z 4749) + z 6 * (z 4750 - z 4751) - z 261 * z 4626 - z 25 * (z 4753 + z 4754));
  SZ 4756 (d2 * z 4644 + z 9 * z 143);
  SZ 4757 (z 40 * z 4644 + (Lit 1 2) * rf * z 76 * z 4742);
  SZ 4758 ((Lit 2 1) * d1 * z 4608 - d3 * z 4644);
  SZ 4759 (z 39 * z 4644 + (Lit 1 2) * rf * z 76 * z 4737);
  SZ 4760 (d3 * z 4638 - d2 * z 4627);
  SZ 4761 (z 11 * z 39 * z 4660 + z 12 * z 40 * z 91 * z 551 + (Lit 1 2) * rf * z 11 * z 95 * z 4737 - z 11 * z 40 * z 4653 - z 12 * z 39 * z 4653 - z 12 * z 40 * z 4660 - z 11 * z 39 * z 91 * z 551 - z 11 * z 40 * z 95 * z 551 - z 12 * z 39 * z 95 * z 551 - (Lit 1 2) * rf * z 11 * z 91 * z 4742 - (Lit 1 2) * rf * z 12 * z 91 * z 4737 - (Lit 1 2) * rf * z 12 * z 95 * z 4742)].
(* [_mooreriderlean2012.py:10142-10636] *)
Definition chunk20 : list stmt := [
  SZ 4762 (z 255 * z 4630 + z 5 * z 264 * z 548 + z 23 * (z 4756 + z 4757) + z 6 * (z 4758 - z 4759) - z 260 * z 4626 - z 25 * (z 4760 + z 4761 - z 10 * z 143));
  SZ 4763 (z 254 * z 4630 + (Lit 1 2) * rf * z 23 * z 83 * z 4742 - z 5 * z 250 * z 548 - (Lit 1 2) * rf * z 6 * z 83 * z 4737);
  SZ 4764 (d3 * z 4639 - d2 * z 4632);
  SZ 4765 (z 11 * z 39 * z 4661 + z 12 * z 40 * z 93 * z 551 + (Lit 1 2) * rf * z 11 * z 96 * z 4737 - z 11 * z 40 * z 4654 - z 12 * z 39 * z 4654 - z 12 * z 40 * z 4661 - z 11 * z 39 * z 93 * z 551 - z 11 * z 40 * z 96 * z 551 - z 12 * z 39 * z 96 * z 551 - (Lit 1 2) * rf * z 11 * z 93 * z 4742 - (Lit 1 2) * rf * z 12 * z 93 * z 4737 - (Lit 1 2) * rf * z 12 * z 96 * z 4742);
  SZ 4766 (z 258 * z 4626 + z 25 * (z 4764 + z 4765));
  SZ 4767 (z 4728 * u1 + z 4733 * u2 + z 4747 * u3 + z 4755 * u4 + z 4762 * u5 + z 4763 * u8 + z 543 * z 578 + z 548 * z 594 + z 551 * z 586 - z 4766 * u7 - z 619 - z 540 * z 573 - z 546 * z 616);
  SZ 4768 (rr * z 4607 * u4 + z 2 * z 546 * u1 + z 1 * z 543 * q3p + z 2 * z 540 * q3p + rr * z 548 * z 275 - (Lit 2 1) * rr * z 4608 * u5 - z 1 * z 546 * u2 - z 546 * z 552);
  SZ 4769 (z 25 * z 4734 + z 33 * z 4626);
  SZ 4770 (((Lit 2 1) * z 35 * z 4769 - z 416 * z 4736) / (PowH (z 35) 1));
  SZ 4771 ((z 4736 * (z 25 * z 36 - (Lit 2 1) * z 33 * z 420) / (PowH (z 35) 0) - z 36 * ((Lit 2 1) * z 36 * z 4626 - (Lit 2 1) * z 420 * z 4734 - z 33 * z 4770)) / (PowN (z 36) 3));
  SZ 4772 ((z 34 * z 36 * z 4770 + (Lit 2 1) * z 36 * z 420 * z 4735 - (Lit 2 1) * z 34 * z 420 * z 4736 / (PowH (z 35) 0)) / (PowN (z 36) 3));
  SZ 4773 (z 443 * z 4633 + z 3 * z 6 * z 434 * z 548 - (Lit 1 2) * rf * z 28 * z 4771 - (Lit 1 2) * rf * z 32 * z 4772);
  SZ 4774 (z 25 * z 4735 + z 34 * z 4626);
  SZ 4775 (((Lit 2 1) * z 35 * z 4774 - z 412 * z 4736) / (PowH (z 35) 1));
  SZ 4776 ((z 33 * z 36 * z 4775 + (Lit 2 1) * z 36 * z 418 * z 4734 - (Lit 2 1) * z 33 * z 418 * z 4736 / (PowH (z 35) 0)) / (PowN (z 36) 3));
  SZ 4777 ((z 4736 * (z 25 * z 36 - (Lit 2 1) * z 34 * z 418) / (PowH (z 35) 0) - z 36 * ((Lit 2 1) * z 36 * z 4626 - (Lit 2 1) * z 418 * z 4735 - z 34 * z 4775)) / (PowN (z 36) 3));
  SZ 4778 ((- z 444) * z 4633 - (Lit 1 2) * rf * z 28 * z 4776 - (Lit 1 2) * rf * z 32 * z 4777 - z 3 * z 6 * z 432 * z 548);
  SZ 4779 ((Lit 2 1) * z 23 * z 4735 + (Lit 2 1) * z 34 * z 4630 - (Lit 2 1) * z 6 * z 4734 - (Lit 2 1) * z 5 * z 33 * z 548);
  SZ 4780 (((Lit 2 1) * z 35 * z 4779 - z 411 * z 4736) / (PowH (z 35) 1));
  SZ 4781 (((Lit 2 1) * z 33 * z 421 * z 4736 / (PowH (z 35) 0) - z 36 * (z 33 * z 4780 + (Lit 2 1) * z 421 * z 4734 + (Lit 4 1) * z 5 * z 36 * z 548 - (Lit 2 1) * z 6 * z 4736 / (PowH (z 35) 0))) / (PowN (z 36) 3));
  SZ 4782 (((Lit 2 1) * z 4736 * (z 23 * z 36 - z 34 * z 421) / (PowH (z 35) 0) - z 36 * ((Lit 4 1) * z 36 * z 4630 - (Lit 2 1) * z 421 * z 4735 - z 34 * z 4780)) / (PowN (z 36) 3));
  SZ 4783 ((Lit 1 4) * rf * z 28 * z 4781 - (Lit 1 2) * z 446 * z 4633 - (Lit 1 4) * rf * z 32 * z 4782 - (Lit 1 2) * z 3 * z 6 * z 430 * z 548);
  SZ 4784 (z 3 * z 5 * z 4773 + d1 * z 4 * z 5 * z 548 + z 4 * z 6 * z 448 * z 548 + z 449 * (z 3 * z 9 + z 4 * z 4628) + z 453 * (z 3 * z 4628 - z 4 * z 9) + z 4778 * (z 3 * z 24 - z 4 * z 10) + (Lit 1 2) * rf * z 4737 * (z 3 * z 10 + z 4 * z 24) - z 3 * z 6 * z 455 * z 548 - (Lit 1 2) * rf * z 4 * z 5 * z 4742 - z 4783 * (z 3 * z 26 + z 4 * z 9) - z 451 * (z 3 * z 4622 - z 4 * z 10));
  SZ 4785 (z 5 * z 4623 - z 6 * z 29 * z 548);
  SZ 4786 (z 33 * z 4785 + z 410 * z 4734);
  SZ 4787 (((Lit 2 1) * z 35 * z 4786 - z 415 * z 4736) / (PowH (z 35) 1));
  SZ 4788 ((z 34 * z 36 * z 4787 + (Lit 2 1) * z 36 * z 417 * z 4735 - (Lit 2 1) * z 34 * z 417 * z 4736 / (PowH (z 35) 0)) / (PowN (z 36) 3));
  SZ 4789 (((Lit 2 1) * z 33 * z 417 * z 4736 / (PowH (z 35) 0) + z 36 * ((Lit 2 1) * z 36 * z 4785 - (Lit 2 1) * z 417 * z 4734 - z 33 * z 4787 - z 410 * z 4736 / (PowH (z 35) 0))) / (PowN (z 36) 3));
  SZ 4790 (z 441 * z 4633 + (Lit 1 2) * rf * z 32 * z 4788 - (Lit 1 2) * rf * z 28 * z 4789 - z 3 * z 6 * z 429 * z 548);
  SZ 4791 (z 29 * z 4735 + z 34 * z 4623);
  SZ 4792 (((Lit 2 1) * z 35 * z 4791 - z 414 * z 4736) / (PowH (z 35) 1));
  SZ 4793 ((z 33 * z 36 * z 4792 + (Lit 2 1) * z 36 * z 419 * z 4734 - (Lit 2 1) * z 33 * z 419 * z 4736 / (PowH (z 35) 0)) / (PowN (z 36) 3));
  SZ 4794 ((z 4736 * (z 29 * z 36 - (Lit 2 1) * z 34 * z 419) / (PowH (z 35) 0) - z 36 * ((Lit 2 1) * z 36 * z 4623 - (Lit 2 1) * z 419 * z 4735 - z 34 * z 4792)) / (PowN (z 36) 3));
  SZ 4795 ((- z 445) * z 4633 - (Lit 1 2) * rf * z 28 * z 4793 - (Lit 1 2) * rf * z 32 * z 4794 - z 3 * z 6 * z 433 * z 548);
  SZ 4796 ((Lit 2 1) * z 27 * z 4735 + (Lit 2 1) * z 31 * z 4734 + (Lit 2 1) * z 34 * z 4636 - (Lit 2 1) * z 4 * z 6 * z 33 * z 548);
  SZ 4797 (((Lit 2 1) * z 35 * z 4796 - z 413 * z 4736) / (PowH (z 35) 1));
  SZ 4798 (((Lit 2 1) * z 4736 * (z 31 * z 36 - z 33 * z 422) / (PowH (z 35) 0) + z 36 * (z 33 * z 4797 + (Lit 2 1) * z 422 * z 4734 + (Lit 4 1) * z 4 * z 6 * z 36 * z 548)) / (PowN (z 36) 3));
  SZ 4799 (((Lit 2 1) * z 4736 * (z 27 * z 36 - z 34 * z 422) / (PowH (z 35) 0) - z 36 * ((Lit 4 1) * z 36 * z 4636 - (Lit 2 1) * z 422 * z 4735 - z 34 * z 4797)) / (PowN (z 36) 3));
  SZ 4800 ((Lit 1 2) * z 442 * z 4633 - (Lit 1 4) * rf * z 28 * z 4798 - (Lit 1 4) * rf * z 32 * z 4799 - (Lit 1 2) * z 3 * z 6 * z 431 * z 548);
  SZ 4801 (z 4790 + z 6 * z 10 * z 454 + d1 * z 3 * z 6 * z 548 + z 3 * z 5 * z 10 * z 449 + z 4 * z 5 * z 9 * z 4778 + z 3 * z 6 * z 9 * z 449 * z 548 + z 4 * z 6 * z 10 * z 451 * z 548 - z 4 * z 6 * z 4773 - z 6 * z 9 * z 452 - z 6 * z 9 * z 4795 - z 6 * z 10 * z 4800 - z 3 * z 5 * z 448 * z 548 - z 4 * z 5 * z 9 * z 451 - z 4 * z 5 * z 10 * z 453 - z 4 * z 5 * z 10 * z 4783 - z 4 * z 5 * z 455 * z 548 - z 5 * z 9 * z 454 * z 548 - z 5 * z 10 * z 452 * z 548 - (Lit 1 2) * rf * z 3 * z 6 * z 4742 - z 4 * z 6 * z 9 * z 453 * z 548 - (Lit 1 2) * rf * z 3 * z 5 * z 9 * z 4737);
  SZ 4802 (z 5 * z 9 * z 4800 + z 6 * z 10 * z 454 * z 548 + z 4778 * (z 3 * z 9 - z 4 * z 6 * z 10) + (Lit 1 2) * rf * z 4737 * (z 4 * z 9 + z 3 * z 6 * z 10) + z 451 * (z 4 * z 6 * z 10 - z 3 * z 9 - z 4 * z 5 * z 9 * z 548) - z 5 * z 9 * z 454 - z 5 * z 10 * z 452 - z 5 * z 10 * z 4795 - z 6 * z 9 * z 452 * z 548 - z 4783 * (z 3 * z 10 + z 4 * z 6 * z 9) - z 453 * (z 3 * z 10 + z 4 * z 6 * z 9 + z 4 * z 5 * z 10 * z 548) - z 449 * (z 4 * z 10 - z 3 * z 6 * z 9 - z 3 * z 5 * z 10 * z 548));
  SZ 4803 (z 4784 * u4 + z 4801 * u5 + z 4802 * u7 + z 663 + z 548 * z 662);
  SZ 4804 (z 27 * z 4726 + z 29 * z 4727 + z 233 * z 4636 + z 238 * z 4623 + z 4 * z 6 * z 122 * z 548 - z 31 * z 4724);
  SZ 4805 (z 27 * z 4731 + z 29 * z 4732 + z 234 * z 4636 + z 239 * z 4623 + z 4 * z 6 * z 125 * z 548 - z 31 * z 4729);
  SZ 4806 (z 257 * z 4636 + z 259 * z 4623 + z 4 * z 6 * z 262 * z 548 + z 27 * (z 4741 + z 4743) + z 29 * (z 4745 + z 4746) - z 31 * z 4739);
  SZ 4807 (z 256 * z 4636 + z 261 * z 4623 + z 4 * z 6 * z 263 * z 548 + z 27 * (z 4748 + z 4749) + z 29 * (z 4753 + z 4754) - z 31 * (z 4750 - z 4751));
  SZ 4808 (z 255 * z 4636 + z 260 * z 4623 + z 4 * z 6 * z 264 * z 548 + z 27 * (z 4756 + z 4757) + z 29 * (z 4760 + z 4761 - z 10 * z 143) - z 31 * (z 4758 - z 4759));
  SZ 4809 (z 258 * z 4623 + z 29 * (z 4764 + z 4765));
  SZ 4810 (z 254 * z 4636 + (Lit 1 2) * rf * z 27 * z 83 * z 4742 + (Lit 1 2) * rf * z 31 * z 83 * z 4737 - z 4 * z 6 * z 250 * z 548);
  SZ 4811 (z 4804 * u1 + z 4805 * u2 + z 4806 * u3 + z 4807 * u4 + z 4808 * u5 + z 4809 * u7 + z 4810 * u8 + z 627 + z 543 * z 622 + z 548 * z 624 + z 551 * z 623 - z 540 * z 621 - z 546 * z 626);
  SZ 4812 ((z 525 * z 4723 + z 478 * z 496 * z 4767 - z 511 * z 4768 - z 535 * z 4803 - z 478 * z 528 * z 4811) / z 494);
  SZ 4813 ((z 526 * z 4723 + z 532 * z 4811 - z 512 * z 4768 - z 527 * z 4767 - z 537 * z 4803) / z 494);
  SZ 4814 ((z 519 * z 4723 + z 487 * z 496 * z 4767 - z 504 * z 4768 - z 533 * z 4803 - z 487 * z 528 * z 4811) / z 494);
  SZ 4815 ((z 523 * z 4723 + z 482 * z 496 * z 4767 - z 509 * z 4768 - z 534 * z 4803 - z 482 * z 528 * z 4811) / z 494);
  SZ 4816 (z 4715 + z 940 * z 4812 + z 944 * z 4813 + z 946 * z 4814 + z 536 * z 941 * z 4803 / z 494 - z 947 * z 4815);
  SZ 4817 (z 75 * z 4642 + z 79 * z 4651 + z 93 * z 4658 + z 96 * z 4664 + ie11 * z 75 * z 4634 + ie31 * z 75 * z 4640 + ie31 * z 79 * z 4634 + ie33 * z 79 * z 4640 + if11 * z 93 * z 4656 + if11 * z 96 * z 4663 + me * z 161 * (z 4703 + z 9 * z 4701 - z 10 * z 4700) + mf * z 150 * (z 4707 + z 9 * z 4701 - z 10 * z 4700));
  SZ 4818 (z 4817 + z 543 * z 4714 + z 548 * z 4712 + z 551 * z 4713 - z 540 * z 4710 - z 546 * z 4711);
  SZ 4819 (z 4818 + z 970 * z 4812 + z 971 * z 4814 + z 975 * z 4813 + z 536 * z 967 * z 4803 / z 494 - z 972 * z 4815);
  SZ 4820 (z 53 * (z 4612 + id22 * z 4609));
  SZ 4821 (z 4820 + z 542 * z 4714 - z 539 * z 4710 - z 545 * z 4711 - z 550 * z 4713);
  SZ 4822 (z 4821 + z 955 * z 4812 + z 957 * z 4814 + z 961 * z 4813 + z 536 * z 954 * z 4803 / z 494 - z 958 * z 4815);
  SZ 4823 (z 98 * z 4672 + z 99 * z 4677 + ig11 * z 98 * z 4667 + ig22 * z 99 * z 4675 + ig31 * z 98 * z 4670 - mg * (z 200 * z 4691 + z 201 * z 4693 - z 205 * z 4686));
  SZ 4824 (z 4823 + z 902 * z 4812 + z 906 * z 4814 + z 536 * z 903 * z 4803 / z 494 - z 907 * z 4815);
  SZ 4825 ((z 1005 * z 4816 + z 1022 * z 4819 - z 1015 * z 4822 - z 1026 * z 4824) / z 1001);
  SZ 4826 (ig11 * ((Lit 2 1) * z 4078 * q9p + z 339));
  SZ 4827 (z 99 * z 852 + ig31 * z 98 * z 335 - ig22 * z 99 * z 336);
  SZ 4828 (z 13 * z 18 - z 14 * z 20);
  SZ 4829 (z 116 * q5p + z 117 * q4p + z 4828 * q9p + z 43 * z 108 * q3p + z 343);
  SZ 4830 (z 98 * (ig11 * z 336 - z 852 - ig31 * z 334));
  SZ 4831 (ig31 * ((Lit 2 1) * z 4078 * q9p + z 339));
  SZ 4832 (z 98 * z 853 + ig22 * z 99 * z 334 - z 99 * z 851 - ig11 * z 98 * z 335);
  SZ 4833 (l6 * z 4829 + z 200 * z 336 - z 99 * (z 201 * q9p + z 202 * q3p + z 203 * q4p + z 204 * q5p) - z 201 * z 335);
  SZ 4834 (l5 * z 4139 - l6 * ((Lit 2 1) * z 4078 * q9p + z 339));
  SZ 4835 (z 98 * (z 201 * q9p + z 202 * q3p + z 203 * q4p + z 204 * q5p) + z 4834 + z 201 * z 334 + z 205 * z 336);
  SZ 4836 (z 98 * (z 197 * q3p + z 198 * q5p + z 199 * q4p - z 200 * q9p) - z 99 * (z 205 * q9p + z 206 * q3p + z 207 * q4p + z 208 * q5p) - l5 * z 4829 - z 200 * z 334 - z 205 * z 335);
  SZ 4837 (z 109 * z 4826 + z 109 * z 4827 + z 113 * z 4830 + z 117 * z 4831 + z 117 * z 4832 + ig22 * z 113 * z 4829 + ig31 * z 109 * z 4139 + ig33 * z 117 * z 4139 + mg * (z 209 * z 4833 + z 212 * z 4835 + z 215 * z 4836));
  SZ 4838 (mg * (z 182 * z 4833 + z 187 * z 4835 + z 192 * z 4836));
  SZ 4839 (z 110 * z 4826 + z 110 * z 4827 + z 112 * z 4830 + z 115 * z 4831 + z 115 * z 4832 + ig22 * z 112 * z 4829 + ig31 * z 110 * z 4139 + ig33 * z 115 * z 4139 + mg * (z 211 * z 4833 + z 214 * z 4835 + z 217 * z 4836));
  SZ 4840 (z 111 * z 4826 + z 111 * z 4827 + z 114 * z 4830 + z 116 * z 4831 + z 116 * z 4832 + ig22 * z 114 * z 4829 + ig31 * z 111 * z 4139 + ig33 * z 116 * z 4139 + mg * (z 210 * z 4833 + z 213 * z 4835 + z 216 * z 4836));
  SZ 4841 (mg * (z 183 * z 4833 + z 188 * z 4835 + z 193 * z 4836));
  SZ 4842 (z 4837 + z 538 * z 4838 + z 544 * z 4839 + z 547 * z 4840 - z 541 * z 4841);
  SZ 4843 (c9 * (z 694 - z 13 * z 670 - z 14 * z 672));
  SZ 4844 (z 543 * z 4841 + z 548 * z 4840 - z 540 * z 4838 - z 546 * z 4839);
  SZ 4845 (c9 * (z 700 - z 13 * z 676 - z 14 * z 678));
  SZ 4846 (z 542 * z 4841 - z 539 * z 4838 - z 545 * z 4839);
  SZ 4847 (c9 * (z 697 + z 13 * z 673 - z 14 * z 675));
  SZ 4848 (z 98 * z 4826 + z 98 * z 4827 + z 99 * z 4830 + ig22 * z 99 * z 4829 + ig31 * z 98 * z 4139 - mg * (z 200 * z 4835 + z 201 * z 4836 - z 205 * z 4833));
  SZ 4849 ((z 1005 * (z 4843 + z 4842) + z 1022 * (z 4845 + z 4844) + z 1015 * (z 4847 - z 4846) - z 1026 * (c9 * z 98 + z 4848)) / z 1001);
  SZ 4850 (z 963 * z 1702 + z 973 * z 2032 - z 960 * z 2038 - z 977 * z 1703);
  SZ 4851 (z 963 * z 1717 + z 979 * z 2032 - z 965 * z 2038 - z 977 * z 1720);
  SZ 4852 (z 983 * z 4850 + z 1007 * z 1691 - z 905 * z 4851 - z 981 * z 1723 - z 1004 * z 2039);
  SZ 4853 (z 983 * z 2035 + z 993 * z 1691 - z 905 * z 2042 - z 981 * z 1985 - z 999 * z 2039);
  SZ 4854 (z 949 * z 1702 + z 973 * z 2030 - z 945 * z 2038 - z 977 * z 1980);
  SZ 4855 (z 949 * z 1717 + z 979 * z 2030 - z 951 * z 2038 - z 977 * z 1983);
  SZ 4856 (z 983 * z 4854 + z 1017 * z 1691 - z 905 * z 4855 - z 981 * z 2011 - z 1014 * z 2039);
  SZ 4857 (z 979 * z 2035 + z 993 * z 1717 - z 973 * z 2042 - z 977 * z 1985 - z 991 * z 1702 - z 999 * z 2038);
  SZ 4858 ((z 2045 * (z 1008 * z 985 + z 1023 * z 987 - z 1018 * z 986 - z 1027 * z 988) - z 1001 * (z 4852 * z 985 + z 4853 * z 987 + z 1018 * (z 2025 - z 2015) - z 1027 * z 2028 - z 4856 * z 986 - z 4857 * z 988 - z 1008 * (z 1977 - z 1958) - z 1023 * (z 2008 - z 1989))) / (PowN (z 1001) 2));
  SZ 4859 (z 963 * z 2106 + z 973 * z 2506 - z 960 * z 2513 - z 977 * z 2107);
  SZ 4860 (z 963 * z 2134 + z 979 * z 2506 - z 965 * z 2513 - z 977 * z 2137);
  SZ 4861 (z 983 * z 4859 + z 1007 * z 2078 - z 905 * z 4860 - z 981 * z 2140 - z 1004 * z 2515);
  SZ 4862 (z 983 * z 2509 + z 993 * z 2078 - z 905 * z 2518 - z 981 * z 2443 - z 999 * z 2515);
  SZ 4863 (z 949 * z 2106 + z 973 * z 2504 - z 945 * z 2513 - z 977 * z 2437);
  SZ 4864 (z 949 * z 2134 + z 979 * z 2504 - z 951 * z 2513 - z 977 * z 2441);
  SZ 4865 (z 983 * z 4863 + z 1017 * z 2078 - z 905 * z 4864 - z 981 * z 2470 - z 1014 * z 2515);
  SZ 4866 (z 979 * z 2509 + z 993 * z 2134 - z 973 * z 2518 - z 977 * z 2443 - z 991 * z 2106 - z 999 * z 2513);
  SZ 4867 ((z 2521 * (z 1008 * z 985 + z 1023 * z 987 - z 1018 * z 986 - z 1027 * z 988) - z 1001 * (z 4861 * z 985 + z 4862 * z 987 + z 1018 * (z 2495 - z 2474) - z 4865 * z 986 - z 4866 * z 988 - z 1027 * (z 2499 + z 2498) - z 1008 * (z 2433 - z 2412) - z 1023 * (z 2467 - z 2447))) / (PowN (z 1001) 2));
  SZ 4868 (z 963 * z 2571 + z 973 * z 2961 - z 960 * z 2968 - z 977 * z 2572);
  SZ 4869 (z 963 * z 2596 + z 979 * z 2961 - z 965 * z 2968 - z 977 * z 2599);
  SZ 4870 (z 983 * z 4868 + z 1007 * z 2549 - z 905 * z 4869 - z 981 * z 2602 - z 1004 * z 2970);
  SZ 4871 (z 983 * z 2964 + z 993 * z 2549 - z 905 * z 2973 - z 981 * z 2896 - z 999 * z 2970);
  SZ 4872 (z 949 * z 2571 + z 973 * z 2959 - z 945 * z 2968 - z 977 * z 2890);
  SZ 4873 (z 949 * z 2596 + z 979 * z 2959 - z 951 * z 2968 - z 977 * z 2894);
  SZ 4874 (z 983 * z 4872 + z 1017 * z 2549 - z 905 * z 4873 - z 981 * z 2923 - z 1014 * z 2970);
  SZ 4875 (z 979 * z 2964 + z 993 * z 2596 - z 973 * z 2973 - z 977 * z 2896 - z 991 * z 2571 - z 999 * z 2968);
  SZ 4876 ((z 2976 * (z 1008 * z 985 + z 1023 * z 987 - z 1018 * z 986 - z 1027 * z 988) - z 1001 * (z 4870 * z 985 + z 4871 * z 987 + z 1018 * (z 2946 - z 2927) - z 4874 * z 986 - z 4875 * z 988 - z 1027 * (z 2950 + z 2949) - z 1008 * (z 2886 - z 2866) - z 1023 * (z 2920 - z 2900))) / (PowN (z 1001) 2));
  SZ 4877 (z 963 * z 2985 + z 973 * z 3317 - z 960 * z 3323 - z 977 * z 2986);
  SZ 4878 (z 963 * z 2999 + z 979 * z 3317 - z 965 * z 3323 - z 977 * z 3002);
  SZ 4879 (z 983 * z 4877 + z 1007 * z 2978 - z 905 * z 4878 - z 981 * z 3005 - z 1004 * z 3324);
  SZ 4880 (z 983 * z 3320 + z 993 * z 2978 - z 905 * z 3327 - z 981 * z 3267 - z 999 * z 3324);
  SZ 4881 (z 949 * z 2985 + z 973 * z 3315 - z 945 * z 3323 - z 977 * z 3262);
  SZ 4882 (z 949 * z 2999 + z 979 * z 3315 - z 951 * z 3323 - z 977 * z 3265);
  SZ 4883 (z 983 * z 4881 + z 1017 * z 2978 - z 905 * z 4882 - z 981 * z 3293 - z 1014 * z 3324);
  SZ 4884 (z 979 * z 3320 + z 993 * z 2999 - z 973 * z 3327 - z 977 * z 3267 - z 991 * z 2985 - z 999 * z 3323);
  SZ 4885 ((z 3330 * (z 1008 * z 985 + z 1023 * z 987 - z 1018 * z 986 - z 1027 * z 988) - z 1001 * (z 4879 * z 985 + z 4880 * z 987 + z 1018 * (z 3307 - z 3297) - z 1027 * z 3310 - z 4883 * z 986 - z 4884 * z 988 - z 1008 * (z 3259 - z 3240) - z 1023 * (z 3290 - z 3271))) / (PowN (z 1001) 2));
  SZ 4886 (z 963 * z 3345 + z 973 * z 3704 - z 960 * z 3711 - z 977 * z 3346);
  SZ 4887 (z 963 * z 3370 + z 979 * z 3704 - z 965 * z 3711 - z 977 * z 3373);
  SZ 4888 (z 983 * z 4886 + z 1007 * z 3332 - z 905 * z 4887 - z 981 * z 3376 - z 1004 * z 3712);
  SZ 4889 (z 983 * z 3707 + z 993 * z 3332 - z 905 * z 3715 - z 981 * z 3648 - z 999 * z 3712);
  SZ 4890 (z 949 * z 3345 + z 973 * z 3702 - z 945 * z 3711 - z 977 * z 3642);
  SZ 4891 (z 949 * z 3370 + z 979 * z 3702 - z 951 * z 3711 - z 977 * z 3646);
  SZ 4892 (z 983 * z 4890 + z 1017 * z 3332 - z 905 * z 4891 - z 981 * z 3674 - z 1014 * z 3712);
  SZ 4893 (z 979 * z 3707 + z 993 * z 3370 - z 973 * z 3715 - z 977 * z 3648 - z 991 * z 3345 - z 999 * z 3711);
  SZ 4894 ((z 3718 * (z 1008 * z 985 + z 1023 * z 987 - z 1018 * z 986 - z 1027 * z 988) - z 1001 * (z 4888 * z 985 + z 4889 * z 987 + z 1018 * (z 3694 - z 3678) - z 1027 * z 3697 - z 4892 * z 986 - z 4893 * z 988 - z 1008 * (z 3639 - z 3619) - z 1023 * (z 3671 - z 3652))) / (PowN (z 1001) 2));
  SZ 4895 (z 963 * z 3727 + z 973 * z 4061 - z 960 * z 4068 - z 977 * z 3728);
  SZ 4896 (z 963 * z 3746 + z 979 * z 4061 - z 965 * z 4068 - z 977 * z 3749);
  SZ 4897 (z 983 * z 4895 + z 1007 * z 3720 - z 905 * z 4896 - z 981 * z 3752 - z 1004 * z 4069);
  SZ 4898 (z 983 * z 4064 + z 993 * z 3720 - z 905 * z 4072 - z 981 * z 4011 - z 999 * z 4069);
  SZ 4899 (z 949 * z 3727 + z 973 * z 4059 - z 945 * z 4068 - z 977 * z 4005);
  SZ 4900 (z 949 * z 3746 + z 979 * z 4059 - z 951 * z 4068 - z 977 * z 4009);
  SZ 4901 (z 983 * z 4899 + z 1017 * z 3720 - z 905 * z 4900 - z 981 * z 4037 - z 1014 * z 4069);
  SZ 4902 (z 979 * z 4064 + z 993 * z 3746 - z 973 * z 4072 - z 977 * z 4011 - z 991 * z 3727 - z 999 * z 4068);
  SZ 4903 ((z 4075 * (z 1008 * z 985 + z 1023 * z 987 - z 1018 * z 986 - z 1027 * z 988) - z 1001 * (z 4897 * z 985 + z 4898 * z 987 + z 1018 * (z 4051 - z 4041) - z 1027 * z 4054 - z 4901 * z 986 - z 4902 * z 988 - z 1008 * (z 4002 - z 3983) - z 1023 * (z 4034 - z 4015))) / (PowN (z 1001) 2));
  SZ 4904 (z 963 * z 4109 + z 973 * z 4212 - z 960 * z 4218 - z 977 * z 4110);
  SZ 4905 (z 963 * z 4124 + z 979 * z 4212 - z 965 * z 4218 - z 977 * z 4126);
  SZ 4906 (z 983 * z 4904 + z 1007 * z 4096 - (Lit 2 1) * z 1006 * z 4120 - z 905 * z 4905 - z 981 * z 4129 - z 1004 * z 4220);
  SZ 4907 (z 983 * z 4215 + z 993 * z 4096 - (Lit 2 1) * z 991 * z 4120 - z 905 * z 4223 - z 981 * z 4184 - z 999 * z 4220);
  SZ 4908 (z 949 * z 4109 + z 973 * z 4210 - z 945 * z 4218 - z 977 * z 4180);
  SZ 4909 (z 949 * z 4124 + z 979 * z 4210 - z 951 * z 4218 - z 977 * z 4182);
  SZ 4910 (z 983 * z 4908 + z 1017 * z 4096 - (Lit 2 1) * z 1016 * z 4120 - z 905 * z 4909 - z 981 * z 4194 - z 1014 * z 4220);
  SZ 4911 (z 979 * z 4215 + z 993 * z 4124 - z 973 * z 4223 - z 977 * z 4184 - z 991 * z 4109 - z 999 * z 4218);
  SZ 4912 ((z 4226 * (z 1008 * z 985 + z 1023 * z 987 - z 1018 * z 986 - z 1027 * z 988) + z 1001 * (z 4910 * z 986 + z 4911 * z 988 + z 1008 * (z 4177 - z 4171) + z 1023 * (z 4191 - z 4187) - z 4906 * z 985 - z 4907 * z 987 - z 1018 * (z 4201 - z 4197) - z 1027 * (z 4205 - z 4204))) / (PowN (z 1001) 2));
  SZ 4913 ((z 1008 * z 4462 + z 1023 * z 4465 - z 1018 * z 4468 - z 1027 * z 4470) / z 1001);
  SZ 4914 ((z 1008 * z 4591 + z 1023 * z 4594 - z 1018 * z 4597 - z 1027 * z 4599) / z 1001);
  SZ 4915 ((z 1008 * z 4816 + z 1023 * z 4819 - z 1018 * z 4822 - z 1027 * z 4824) / z 1001);
  SZ 4916 ((z 1008 * (z 4843 + z 4842) + z 1023 * (z 4845 + z 4844) + z 1018 * (z 4847 - z 4846) - z 1027 * (c9 * z 98 + z 4848)) / z 1001);
  SZ 4917 (z 963 * z 1713 + z 978 * z 2032 - z 964 * z 2038 - z 977 * z 1701);
  SZ 4918 (z 982 * z 4850 + z 1007 * z 1722 - z 905 * z 4917 - z 981 * z 1714 - z 1003 * z 2039);
  SZ 4919 (z 982 * z 2035 + z 993 * z 1722 - z 905 * z 2033 - z 981 * z 1981 - z 997 * z 2039);
  SZ 4920 (z 949 * z 1713 + z 978 * z 2030 - z 950 * z 2038 - z 977 * z 1979);
  SZ 4921 (z 982 * z 4854 + z 1017 * z 1722 - z 905 * z 4920 - z 981 * z 2009 - z 1013 * z 2039);
  SZ 4922 (z 978 * z 2035 + z 993 * z 1713 - z 973 * z 2033 - z 977 * z 1981 - z 989 * z 1702 - z 997 * z 2038);
  SZ 4923 ((z 2045 * (z 1010 * z 985 + z 1024 * z 987 - z 1020 * z 986 - z 1028 * z 988) - z 1001 * (z 4918 * z 985 + z 4919 * z 987 + z 1020 * (z 2025 - z 2015) - z 1028 * z 2028 - z 4921 * z 986 - z 4922 * z 988 - z 1010 * (z 1977 - z 1958) - z 1024 * (z 2008 - z 1989))) / (PowN (z 1001) 2));
  SZ 4924 (z 963 * z 2121 + z 978 * z 2506 - z 964 * z 2513 - z 977 * z 2103);
  SZ 4925 (z 982 * z 4859 + z 1007 * z 2139 - z 905 * z 4924 - z 981 * z 2122 - z 1003 * z 2515);
  SZ 4926 (z 982 * z 2509 + z 993 * z 2139 - z 905 * z 2507 - z 981 * z 2438 - z 997 * z 2515);
  SZ 4927 (z 949 * z 2121 + z 978 * z 2504 - z 950 * z 2513 - z 977 * z 2435);
  SZ 4928 (z 982 * z 4863 + z 1017 * z 2139 - z 905 * z 4927 - z 981 * z 2468 - z 1013 * z 2515);
  SZ 4929 (z 978 * z 2509 + z 993 * z 2121 - z 973 * z 2507 - z 977 * z 2438 - z 989 * z 2106 - z 997 * z 2513);
  SZ 4930 ((z 2521 * (z 1010 * z 985 + z 1024 * z 987 - z 1020 * z 986 - z 1028 * z 988) - z 1001 * (z 4925 * z 985 + z 4926 * z 987 + z 1020 * (z 2495 - z 2474) - z 4928 * z 986 - z 4929 * z 988 - z 1028 * (z 2499 + z 2498) - z 1010 * (z 2433 - z 2412) - z 1024 * (z 2467 - z 2447))) / (PowN (z 1001) 2));
  SZ 4931 (z 963 * z 2586 + z 978 * z 2961 - z 964 * z 2968 - z 977 * z 2568);
  SZ 4932 (z 982 * z 4868 + z 1007 * z 2601 - z 905 * z 4931 - z 981 * z 2587 - z 1003 * z 2970);
  SZ 4933 (z 982 * z 2964 + z 993 * z 2601 - z 905 * z 2962 - z 981 * z 2891 - z 997 * z 2970);
  SZ 4934 (z 949 * z 2586 + z 978 * z 2959 - z 950 * z 2968 - z 977 * z 2888);
  SZ 4935 (z 982 * z 4872 + z 1017 * z 2601 - z 905 * z 4934 - z 981 * z 2921 - z 1013 * z 2970);
  SZ 4936 (z 978 * z 2964 + z 993 * z 2586 - z 973 * z 2962 - z 977 * z 2891 - z 989 * z 2571 - z 997 * z 2968);
  SZ 4937 ((z 2976 * (z 1010 * z 985 + z 1024 * z 987 - z 1020 * z 986 - z 1028 * z 988) - z 1001 * (z 4932 * z 985 + z 4933 * z 987 + z 1020 * (z 2946 - z 2927) - z 4935 * z 986 - z 4936 * z 988 - z 1028 * (z 2950 + z 2949) - z 1010 * (z 2886 - z 2866) - z 1024 * (z 2920 - z 2900))) / (PowN (z 1001) 2));
  SZ 4938 (z 963 * z 2993 + z 978 * z 3317 - z 964 * z 3323 - z 977 * z 2984);
  SZ 4939 (z 982 * z 4877 + z 1007 * z 3004 - z 905 * z 4938 - z 981 * z 2994 - z 1003 * z 3324);
  SZ 4940 (z 982 * z 3320 + z 993 * z 3004 - z 905 * z 3318 - z 981 * z 3263 - z 997 * z 3324);
  SZ 4941 (z 949 * z 2993 + z 978 * z 3315 - z 950 * z 3323 - z 977 * z 3261);
  SZ 4942 (z 982 * z 4881 + z 1017 * z 3004 - z 905 * z 4941 - z 981 * z 3291 - z 1013 * z 3324);
  SZ 4943 (z 978 * z 3320 + z 993 * z 2993 - z 973 * z 3318 - z 977 * z 3263 - z 989 * z 2985 - z 997 * z 3323);
  SZ 4944 ((z 3330 * (z 1010 * z 985 + z 1024 * z 987 - z 1020 * z 986 - z 1028 * z 988) - z 1001 * (z 4939 * z 985 + z 4940 * z 987 + z 1020 * (z 3307 - z 3297) - z 1028 * z 3310 - z 4942 * z 986 - z 4943 * z 988 - z 1010 * (z 3259 - z 3240) - z 1024 * (z 3290 - z 3271))) / (PowN (z 1001) 2));
  SZ 4945 (z 963 * z 3360 + z 978 * z 3704 - z 964 * z 3711 - z 977 * z 3344);
  SZ 4946 (z 982 * z 4886 + z 1007 * z 3375 - z 905 * z 4945 - z 981 * z 3361 - z 1003 * z 3712);
  SZ 4947 (z 982 * z 3707 + z 993 * z 3375 - z 905 * z 3705 - z 981 * z 3643 - z 997 * z 3712);
  SZ 4948 (z 949 * z 3360 + z 978 * z 3702 - z 950 * z 3711 - z 977 * z 3641);
  SZ 4949 (z 982 * z 4890 + z 1017 * z 3375 - z 905 * z 4948 - z 981 * z 3672 - z 1013 * z 3712);
  SZ 4950 (z 978 * z 3707 + z 993 * z 3360 - z 973 * z 3705 - z 977 * z 3643 - z 989 * z 3345 - z 997 * z 3711);
  SZ 4951 ((z 3718 * (z 1010 * z 985 + z 1024 * z 987 - z 1020 * z 986 - z 1028 * z 988) - z 1001 * (z 4946 * z 985 + z 4947 * z 987 + z 1020 * (z 3694 - z 3678) - z 1028 * z 3697 - z 4949 * z 986 - z 4950 * z 988 - z 1010 * (z 3639 - z 3619) - z 1024 * (z 3671 - z 3652))) / (PowN (z 1001) 2));
  SZ 4952 (z 963 * z 3736 + z 978 * z 4061 - z 964 * z 4068 - z 977 * z 3726);
  SZ 4953 (z 982 * z 4895 + z 1007 * z 3751 - z 905 * z 4952 - z 981 * z 3737 - z 1003 * z 4069);
  SZ 4954 (z 982 * z 4064 + z 993 * z 3751 - z 905 * z 4062 - z 981 * z 4006 - z 997 * z 4069);
  SZ 4955 (z 949 * z 3736 + z 978 * z 4059 - z 950 * z 4068 - z 977 * z 4004);
  SZ 4956 (z 982 * z 4899 + z 1017 * z 3751 - z 905 * z 4955 - z 981 * z 4035 - z 1013 * z 4069);
  SZ 4957 (z 978 * z 4064 + z 993 * z 3736 - z 973 * z 4062 - z 977 * z 4006 - z 989 * z 3727 - z 997 * z 4068);
  SZ 4958 ((z 4075 * (z 1010 * z 985 + z 1024 * z 987 - z 1020 * z 986 - z 1028 * z 988) - z 1001 * (z 4953 * z 985 + z 4954 * z 987 + z 1020 * (z 4051 - z 4041) - z 1028 * z 4054 - z 4956 * z 986 - z 4957 * z 988 - z 1010 * (z 4002 - z 3983) - z 1024 * (z 4034 - z 4015))) / (PowN (z 1001) 2));
  SZ 4959 (z 963 * z 4117 + z 978 * z 4212 - z 964 * z 4218 - z 977 * z 4106);
  SZ 4960 (z 982 * z 4904 + z 1007 * z 4128 - (Lit 2 1) * z 1009 * z 4120 - z 905 * z 4959 - z 981 * z 4118 - z 1003 * z 4220);
  SZ 4961 (z 982 * z 4215 + z 993 * z 4128 - (Lit 2 1) * z 989 * z 4120 - z 905 * z 4213 - z 981 * z 4181 - z 997 * z 4220);
  SZ 4962 (z 949 * z 4117 + z 978 * z 4210 - z 950 * z 4218 - z 977 * z 4178);
  SZ 4963 (z 982 * z 4908 + z 1017 * z 4128 - (Lit 2 1) * z 1019 * z 4120 - z 905 * z 4962 - z 981 * z 4192 - z 1013 * z 4220);
  SZ 4964 (z 978 * z 4215 + z 993 * z 4117 - z 973 * z 4213 - z 977 * z 4181 - z 989 * z 4109 - z 997 * z 4218);
  SZ 4965 ((z 4226 * (z 1010 * z 985 + z 1024 * z 987 - z 1020 * z 986 - z 1028 * z 988) + z 1001 * (z 4963 * z 986 + z 4964 * z 988 + z 1010 * (z 4177 - z 4171) + z 1024 * (z 4191 - z 4187) - z 4960 * z 985 - z 4961 * z 987 - z 1020 * (z 4201 - z 4197) - z 1028 * (z 4205 - z 4204))) / (PowN (z 1001) 2));
  SZ 4966 ((z 1010 * z 4462 + z 1024 * z 4465 - z 1020 * z 4468 - z 1028 * z 4470) / z 1001);
  SZ 4967 ((z 1010 * z 4591 + z 1024 * z 4594 - z 1020 * z 4597 - z 1028 * z 4599) / z 1001);
  SZ 4968 ((z 1010 * z 4816 + z 1024 * z 4819 - z 1020 * z 4822 - z 1028 * z 4824) / z 1001);
  SZ 4969 ((z 1010 * (z 4843 + z 4842) + z 1024 * (z 4845 + z 4844) + z 1020 * (z 4847 - z 4846) - z 1028 * (c9 * z 98 + z 4848)) / z 1001);
  SZ 4970 (z 982 * z 4851 + z 1006 * z 1722 - z 981 * z 1721 - z 983 * z 4917 - z 1002 * z 2039 - z 1009 * z 1691);
  SZ 4971 (z 982 * z 2042 + z 991 * z 1722 - z 981 * z 1984 - z 983 * z 2033 - z 989 * z 1691 - z 995 * z 2039);
  SZ 4972 (z 982 * z 4855 + z 1016 * z 1722 - z 981 * z 2010 - z 983 * z 4920 - z 1012 * z 2039 - z 1019 * z 1691);
  SZ 4973 (z 978 * z 2042 + z 991 * z 1713 - z 977 * z 1984 - z 979 * z 2033 - z 989 * z 1717 - z 995 * z 2038);
  SZ 4974 ((z 2045 * (z 1011 * z 985 + z 1025 * z 987 - z 1021 * z 986 - z 1029 * z 988) - z 1001 * (z 4970 * z 985 + z 4971 * z 987 + z 1021 * (z 2025 - z 2015) - z 1029 * z 2028 - z 4972 * z 986 - z 4973 * z 988 - z 1011 * (z 1977 - z 1958) - z 1025 * (z 2008 - z 1989))) / (PowN (z 1001) 2));
  SZ 4975 (z 982 * z 4860 + z 1006 * z 2139 - z 981 * z 2138 - z 983 * z 4924 - z 1002 * z 2515 - z 1009 * z 2078);
  SZ 4976 (z 982 * z 2518 + z 991 * z 2139 - z 981 * z 2442 - z 983 * z 2507 - z 989 * z 2078 - z 995 * z 2515);
  SZ 4977 (z 982 * z 4864 + z 1016 * z 2139 - z 981 * z 2469 - z 983 * z 4927 - z 1012 * z 2515 - z 1019 * z 2078);
  SZ 4978 (z 978 * z 2518 + z 991 * z 2121 - z 977 * z 2442 - z 979 * z 2507 - z 989 * z 2134 - z 995 * z 2513);
  SZ 4979 ((z 2521 * (z 1011 * z 985 + z 1025 * z 987 - z 1021 * z 986 - z 1029 * z 988) - z 1001 * (z 4975 * z 985 + z 4976 * z 987 + z 1021 * (z 2495 - z 2474) - z 4977 * z 986 - z 4978 * z 988 - z 1029 * (z 2499 + z 2498) - z 1011 * (z 2433 - z 2412) - z 1025 * (z 2467 - z 2447))) / (PowN (z 1001) 2));
  SZ 4980 (z 982 * z 4869 + z 1006 * z 2601 - z 981 * z 2600 - z 983 * z 4931 - z 1002 * z 2970 - z 1009 * z 2549);
  SZ 4981 (z 982 * z 2973 + z 991 * z 2601 - z 981 * z 2895 - z 983 * z 2962 - z 989 * z 2549 - z 995 * z 2970);
  SZ 4982 (z 982 * z 4873 + z 1016 * z 2601 - z 981 * z 2922 - z 983 * z 4934 - z 1012 * z 2970 - z 1019 * z 2549);
  SZ 4983 (z 978 * z 2973 + z 991 * z 2586 - z 977 * z 2895 - z 979 * z 2962 - z 989 * z 2596 - z 995 * z 2968);
  SZ 4984 ((z 2976 * (z 1011 * z 985 + z 1025 * z 987 - z 1021 * z 986 - z 1029 * z 988) - z 1001 * (z 4980 * z 985 + z 4981 * z 987 + z 1021 * (z 2946 - z 2927) - z 4982 * z 986 - z 4983 * z 988 - z 1029 * (z 2950 + z 2949) - z 1011 * (z 2886 - z 2866) - z 1025 * (z 2920 - z 2900))) / (PowN (z 1001) 2));
  SZ 4985 (z 982 * z 4878 + z 1006 * z 3004 - z 981 * z 3003 - z 983 * z 4938 - z 1002 * z 3324 - z 1009 * z 2978);
  SZ 4986 (z 982 * z 3327 + z 991 * z 3004 - z 981 * z 3266 - z 983 * z 3318 - z 989 * z 2978 - z 995 * z 3324);
  SZ 4987 (z 982 * z 4882 + z 1016 * z 3004 - z 981 * z 3292 - z 983 * z 4941 - z 1012 * z 3324 - z 1019 * z 2978);
  SZ 4988 (z 978 * z 3327 + z 991 * z 2993 - z 977 * z 3266 - z 979 * z 3318 - z 989 * z 2999 - z 995 * z 3323);
  SZ 4989 ((z 3330 * (z 1011 * z 985 + z 1025 * z 987 - z 1021 * z 986 - z 1029 * z 988) - z 1001 * (z 4985 * z 985 + z 4986 * z 987 + z 1021 * (z 3307 - z 3297) - z 1029 * z 3310 - z 4987 * z 986 - z 4988 * z 988 - z 1011 * (z 3259 - z 3240) - z 1025 * (z 3290 - z 3271))) / (PowN (z 1001) 2));
  SZ 4990 (z 982 * z 4887 + z 1006 * z 3375 - z 981 * z 3374 - z 983 * z 4945 - z 1002 * z 3712 - z 1009 * z 3332);
  SZ 4991 (z 982 * z 3715 + z 991 * z 3375 - z 981 * z 3647 - z 983 * z 3705 - z 989 * z 3332 - z 995 * z 3712);
  SZ 4992 (z 982 * z 4891 + z 1016 * z 3375 - z 981 * z 3673 - z 983 * z 4948 - z 1012 * z 3712 - z 1019 * z 3332);
  SZ 4993 (z 978 * z 3715 + z 991 * z 3360 - z 977 * z 3647 - z 979 * z 3705 - z 989 * z 3370 - z 995 * z 3711);
  SZ 4994 ((z 3718 * (z 1011 * z 985 + z 1025 * z 987 - z 1021 * z 986 - z 1029 * z 988) - z 1001 * (z 4990 * z 985 + z 4991 * z 987 + z 1021 * (z 3694 - z 3678) - z 1029 * z 3697 - z 4992 * z 986 - z 4993 * z 988 - z 1011 * (z 3639 - z 3619) - z 1025 * (z 3671 - z 3652))) / (PowN (z 1001) 2));
  SZ 4995 (z 982 * z 4896 + z 1006 * z 3751 - z 981 * z 3750 - z 983 * z 4952 - z 1002 * z 4069 - z 1009 * z 3720);
  SZ 4996 (z 982 * z 4072 + z 991 * z 3751 - z 981 * z 4010 - z 983 * z 4062 - z 989 * z 3720 - z 995 * z 4069);
  SZ 4997 (z 982 * z 4900 + z 1016 * z 3751 - z 981 * z 4036 - z 983 * z 4955 - z 1012 * z 4069 - z 1019 * z 3720);
  SZ 4998 (z 978 * z 4072 + z 991 * z 3736 - z 977 * z 4010 - z 979 * z 4062 - z 989 * z 3746 - z 995 * z 4068);
  SZ 4999 ((z 4075 * (z 1011 * z 985 + z 1025 * z 987 - z 1021 * z 986 - z 1029 * z 988) - z 1001 * (z 4995 * z 985 + z 4996 * z 987 + z 1021 * (z 4051 - z 4041) - z 1029 * z 4054 - z 4997 * z 986 - z 4998 * z 988 - z 1011 * (z 4002 - z 3983) - z 1025 * (z 4034 - z 4015))) / (PowN (z 1001) 2));
  SZ 5000 (z 982 * z 4905 + z 1006 * z 4128 - z 981 * z 4127 - z 983 * z 4959 - z 1002 * z 4220 - z 1009 * z 4096);
  SZ 5001 (z 982 * z 4223 + z 991 * z 4128 - z 981 * z 4183 - z 983 * z 4213 - z 989 * z 4096 - z 995 * z 4220);
  SZ 5002 (z 982 * z 4909 + z 1016 * z 4128 - z 981 * z 4193 - z 983 * z 4962 - z 1012 * z 4220 - z 1019 * z 4096);
  SZ 5003 (z 978 * z 4223 + z 991 * z 4117 - z 977 * z 4183 - z 979 * z 4213 - z 989 * z 4124 - z 995 * z 4218);
  SZ 5004 ((z 4226 * (z 1011 * z 985 + z 1025 * z 987 - z 1021 * z 986 - z 1029 * z 988) + z 1001 * (z 5002 * z 986 + z 5003 * z 988 + z 1011 * (z 4177 - z 4171) + z 1025 * (z 4191 - z 4187) - z 5000 * z 985 - z 5001 * z 987 - z 1021 * (z 4201 - z 4197) - z 1029 * (z 4205 - z 4204))) / (PowN (z 1001) 2));
  SZ 5005 ((z 1011 * z 4462 + z 1025 * z 4465 - z 1021 * z 4468 - z 1029 * z 4470) / z 1001);
  SZ 5006 ((z 1011 * z 4591 + z 1025 * z 4594 - z 1021 * z 4597 - z 1029 * z 4599) / z 1001);
  SZ 5007 ((z 1011 * z 4816 + z 1025 * z 4819 - z 1021 * z 4822 - z 1029 * z 4824) / z 1001);
  SZ 5008 ((z 1011 * (z 4843 + z 4842) + z 1025 * (z 4845 + z 4844) + z 1021 * (z 4847 - z 4846) - z 1029 * (c9 * z 98 + z 4848)) / z 1001);
  SZ 5009 (z 5 * z 670 + z 6 * z 672);
  SZ 5010 (z 5 * z 676 + z 6 * z 678);
  SZ 5011 (z 5 * z 673 - z 6 * z 675)].
(* [_mooreriderlean2012.py:10637-10891] *)
Definition chunk21 : list stmt := [
  SZ 5012 ((z 1015 * z 5011 - z 1005 * z 5009 - z 1022 * z 5010) / z 1001);
  SZ 5013 (z 1015 * (z 674 + z 681) / z 1001);
  SZ 5014 ((z 1005 * (z 672 - z 688) + z 1022 * (z 678 - z 692)) / z 1001);
  SZ 5015 (z 694 - z 13 * z 670 - z 14 * z 672);
  SZ 5016 (z 700 - z 13 * z 676 - z 14 * z 678);
  SZ 5017 (z 14 * z 675 - z 697 - z 13 * z 673);
  SZ 5018 ((z 98 * z 1026 + z 1015 * z 5017 - z 1005 * z 5015 - z 1022 * z 5016) / z 1001);
  SZ 5019 ((z 1018 * z 5011 - z 1008 * z 5009 - z 1023 * z 5010) / z 1001);
  SZ 5020 (z 1018 * (z 674 + z 681) / z 1001);
  SZ 5021 ((z 1008 * (z 672 - z 688) + z 1023 * (z 678 - z 692)) / z 1001);
  SZ 5022 ((z 98 * z 1027 + z 1018 * z 5017 - z 1008 * z 5015 - z 1023 * z 5016) / z 1001);
  SZ 5023 ((z 1020 * z 5011 - z 1010 * z 5009 - z 1024 * z 5010) / z 1001);
  SZ 5024 (z 1020 * (z 674 + z 681) / z 1001);
  SZ 5025 ((z 1010 * (z 672 - z 688) + z 1024 * (z 678 - z 692)) / z 1001);
  SZ 5026 ((z 98 * z 1028 + z 1020 * z 5017 - z 1010 * z 5015 - z 1024 * z 5016) / z 1001);
  SZ 5027 ((z 1021 * z 5011 - z 1011 * z 5009 - z 1025 * z 5010) / z 1001);
  SZ 5028 (z 1021 * (z 674 + z 681) / z 1001);
  SZ 5029 ((z 1011 * (z 672 - z 688) + z 1025 * (z 678 - z 692)) / z 1001);
  SZ 5030 ((z 98 * z 1029 + z 1021 * z 5017 - z 1011 * z 5015 - z 1025 * z 5016) / z 1001);
  SM MA 0 0 (Lit 0 1);
  SM MA 0 1 (Lit 0 1);
  SM MA 0 2 (z 1060);
  SM MA 0 3 (z 1197);
  SM MA 0 4 (z 1325);
  SM MA 0 5 (z 1338);
  SM MA 0 6 (z 1451);
  SM MA 0 7 (z 1468);
  SM MA 0 8 (Lit 0 1);
  SM MA 0 9 (z 538);
  SM MA 0 10 (- z 539);
  SM MA 0 11 (- z 540);
  SM MA 0 12 (Lit 0 1);
  SM MA 1 0 (Lit 0 1);
  SM MA 1 1 (Lit 0 1);
  SM MA 1 2 (z 1479);
  SM MA 1 3 (z 1491);
  SM MA 1 4 (z 1502);
  SM MA 1 5 (z 1508);
  SM MA 1 6 (z 1518);
  SM MA 1 7 (z 1525);
  SM MA 1 8 (Lit 0 1);
  SM MA 1 9 (- z 541);
  SM MA 1 10 (z 542);
  SM MA 1 11 (z 543);
  SM MA 1 12 (Lit 0 1);
  SM MA 2 0 (Lit 0 1);
  SM MA 2 1 (Lit 0 1);
  SM MA 2 2 (z 1534);
  SM MA 2 3 (z 1543);
  SM MA 2 4 (z 1552);
  SM MA 2 5 (z 1557);
  SM MA 2 6 (z 1566);
  SM MA 2 7 (z 1570);
  SM MA 2 8 (Lit 0 1);
  SM MA 2 9 (z 544);
  SM MA 2 10 (- z 545);
  SM MA 2 11 (- z 546);
  SM MA 2 12 (Lit 0 1);
  SM MA 3 0 (Lit 0 1);
  SM MA 3 1 (Lit 0 1);
  SM MA 3 2 (Lit 0 1);
  SM MA 3 3 (Lit 0 1);
  SM MA 3 4 (Lit 0 1);
  SM MA 3 5 (Lit 0 1);
  SM MA 3 6 (Lit 0 1);
  SM MA 3 7 (Lit 0 1);
  SM MA 3 8 (Lit 0 1);
  SM MA 3 9 (Lit 1 1);
  SM MA 3 10 (Lit 0 1);
  SM MA 3 11 (Lit 0 1);
  SM MA 3 12 (Lit 0 1);
  SM MA 4 0 (Lit 0 1);
  SM MA 4 1 (Lit 0 1);
  SM MA 4 2 (z 1574);
  SM MA 4 3 (z 1578);
  SM MA 4 4 (z 1582);
  SM MA 4 5 (z 1586);
  SM MA 4 6 (z 1590);
  SM MA 4 7 (z 1593);
  SM MA 4 8 (Lit 0 1);
  SM MA 4 9 (z 547);
  SM MA 4 10 (Lit 0 1);
  SM MA 4 11 (z 548);
  SM MA 4 12 (Lit 0 1);
  SM MA 5 0 (Lit 0 1);
  SM MA 5 1 (Lit 0 1);
  SM MA 5 2 (Lit 0 1);
  SM MA 5 3 (Lit 0 1);
  SM MA 5 4 (Lit 0 1);
  SM MA 5 5 (Lit 0 1);
  SM MA 5 6 (Lit 0 1);
  SM MA 5 7 (Lit 0 1);
  SM MA 5 8 (Lit 0 1);
  SM MA 5 9 (Lit 0 1);
  SM MA 5 10 (Lit 1 1);
  SM MA 5 11 (Lit 0 1);
  SM MA 5 12 (Lit 0 1);
  SM MA 6 0 (Lit 0 1);
  SM MA 6 1 (Lit 0 1);
  SM MA 6 2 (Lit 0 1);
  SM MA 6 3 (Lit 0 1);
  SM MA 6 4 (Lit 0 1);
  SM MA 6 5 (Lit 0 1);
  SM MA 6 6 (Lit 0 1);
  SM MA 6 7 (Lit 0 1);
  SM MA 6 8 (Lit 0 1);
  SM MA 6 9 (Lit 0 1);
  SM MA 6 10 (Lit 0 1);
  SM MA 6 11 (Lit 1 1);
  SM MA 6 12 (Lit 0 1);
  SM MA 7 0 (Lit 0 1);
  SM MA 7 1 (Lit 0 1);
  SM MA 7 2 (z 1607);
  SM MA 7 3 (z 1625);
  SM MA 7 4 (z 1643);
  SM MA 7 5 (z 1651);
  SM MA 7 6 (z 1669);
  SM MA 7 7 (z 1683);
  SM MA 7 8 (Lit 0 1);
  SM MA 7 9 (z 549);
  SM MA 7 10 (- z 550);
  SM MA 7 11 (z 551);
  SM MA 7 12 (Lit 0 1);
  SM MA 8 0 (Lit 0 1);
  SM MA 8 1 (Lit 0 1);
  SM MA 8 2 (Lit 0 1);
  SM MA 8 3 (Lit 0 1);
  SM MA 8 4 (Lit 0 1);
  SM MA 8 5 (Lit 0 1);
  SM MA 8 6 (Lit 0 1);
  SM MA 8 7 (Lit 0 1);
  SM MA 8 8 (Lit 0 1);
  SM MA 8 9 (Lit 0 1);
  SM MA 8 10 (Lit 0 1);
  SM MA 8 11 (Lit 0 1);
  SM MA 8 12 (Lit 1 1);
  SM MA 9 0 (Lit 0 1);
  SM MA 9 1 (Lit 0 1);
  SM MA 9 2 (- z 2046);
  SM MA 9 3 (- z 2522);
  SM MA 9 4 (- z 2977);
  SM MA 9 5 (- z 3331);
  SM MA 9 6 (- z 3719);
  SM MA 9 7 (- z 4076);
  SM MA 9 8 (- z 4227);
  SM MA 9 9 (z 4471);
  SM MA 9 10 (z 4600);
  SM MA 9 11 (z 4825);
  SM MA 9 12 (z 4849);
  SM MA 10 0 (Lit 0 1);
  SM MA 10 1 (Lit 0 1);
  SM MA 10 2 (z 4858);
  SM MA 10 3 (z 4867);
  SM MA 10 4 (z 4876);
  SM MA 10 5 (z 4885);
  SM MA 10 6 (z 4894);
  SM MA 10 7 (z 4903);
  SM MA 10 8 (z 4912);
  SM MA 10 9 (- z 4913);
  SM MA 10 10 (- z 4914);
  SM MA 10 11 (- z 4915);
  SM MA 10 12 (- z 4916);
  SM MA 11 0 (Lit 0 1);
  SM MA 11 1 (Lit 0 1);
  SM MA 11 2 (- z 4923);
  SM MA 11 3 (- z 4930);
  SM MA 11 4 (- z 4937);
  SM MA 11 5 (- z 4944);
  SM MA 11 6 (- z 4951);
  SM MA 11 7 (- z 4958);
  SM MA 11 8 (- z 4965);
  SM MA 11 9 (z 4966);
  SM MA 11 10 (z 4967);
  SM MA 11 11 (z 4968);
  SM MA 11 12 (z 4969);
  SM MA 12 0 (Lit 0 1);
  SM MA 12 1 (Lit 0 1);
  SM MA 12 2 (z 4974);
  SM MA 12 3 (z 4979);
  SM MA 12 4 (z 4984);
  SM MA 12 5 (z 4989);
  SM MA 12 6 (z 4994);
  SM MA 12 7 (z 4999);
  SM MA 12 8 (z 5004);
  SM MA 12 9 (- z 5005);
  SM MA 12 10 (- z 5006);
  SM MA 12 11 (- z 5007);
  SM MA 12 12 (- z 5008);
  SM MB 0 0 (Lit 0 1);
  SM MB 0 1 (Lit 0 1);
  SM MB 0 2 (Lit 0 1);
  SM MB 0 3 (Lit 0 1);
  SM MB 1 0 (Lit 0 1);
  SM MB 1 1 (Lit 0 1);
  SM MB 1 2 (Lit 0 1);
  SM MB 1 3 (Lit 0 1);
  SM MB 2 0 (Lit 0 1);
  SM MB 2 1 (Lit 0 1);
  SM MB 2 2 (Lit 0 1);
  SM MB 2 3 (Lit 0 1);
  SM MB 3 0 (Lit 0 1);
  SM MB 3 1 (Lit 0 1);
  SM MB 3 2 (Lit 0 1);
  SM MB 3 3 (Lit 0 1);
  SM MB 4 0 (Lit 0 1);
  SM MB 4 1 (Lit 0 1);
  SM MB 4 2 (Lit 0 1);
  SM MB 4 3 (Lit 0 1);
  SM MB 5 0 (Lit 0 1);
  SM MB 5 1 (Lit 0 1);
  SM MB 5 2 (Lit 0 1);
  SM MB 5 3 (Lit 0 1);
  SM MB 6 0 (Lit 0 1);
  SM MB 6 1 (Lit 0 1);
  SM MB 6 2 (Lit 0 1);
  SM MB 6 3 (Lit 0 1);
  SM MB 7 0 (Lit 0 1);
  SM MB 7 1 (Lit 0 1);
  SM MB 7 2 (Lit 0 1);
  SM MB 7 3 (Lit 0 1);
  SM MB 8 0 (Lit 0 1);
  SM MB 8 1 (Lit 0 1);
  SM MB 8 2 (Lit 0 1);
  SM MB 8 3 (Lit 0 1);
  SM MB 9 0 (z 5012);
  SM MB 9 1 (z 5013);
  SM MB 9 2 (z 5014);
  SM MB 9 3 (z 5018);
  SM MB 10 0 (- z 5019);
  SM MB 10 1 (- z 5020);
  SM MB 10 2 (- z 5021);
  SM MB 10 3 (- z 5022);
  SM MB 11 0 (z 5023);
  SM MB 11 1 (z 5024);
  SM MB 11 2 (z 5025);
  SM MB 11 3 (z 5026);
  SM MB 12 0 (- z 5027);
  SM MB 12 1 (- z 5028);
  SM MB 12 2 (- z 5029);
  SM MB 12 3 (- z 5030);
  SM MC 0 0 (Lit 1 1);
  SM MC 0 1 (Lit 0 1);
  SM MC 0 2 (Lit 0 1);
  SM MC 0 3 (Lit 0 1);
  SM MC 0 4 (Lit 0 1);
  SM MC 0 5 (Lit 0 1);
  SM MC 0 6 (Lit 0 1);
  SM MC 0 7 (Lit 0 1);
  SM MC 0 8 (Lit 0 1);
  SM MC 0 9 (Lit 0 1)].
(* [_mooreriderlean2012.py:10892-11141] *)
Definition chunk22 : list stmt := [
  SM MC 0 10 (Lit 0 1);
  SM MC 0 11 (Lit 0 1);
  SM MC 0 12 (Lit 0 1);
  SM MC 1 0 (Lit 0 1);
  SM MC 1 1 (Lit 1 1);
  SM MC 1 2 (Lit 0 1);
  SM MC 1 3 (Lit 0 1);
  SM MC 1 4 (Lit 0 1);
  SM MC 1 5 (Lit 0 1);
  SM MC 1 6 (Lit 0 1);
  SM MC 1 7 (Lit 0 1);
  SM MC 1 8 (Lit 0 1);
  SM MC 1 9 (Lit 0 1);
  SM MC 1 10 (Lit 0 1);
  SM MC 1 11 (Lit 0 1);
  SM MC 1 12 (Lit 0 1);
  SM MC 2 0 (Lit 0 1);
  SM MC 2 1 (Lit 0 1);
  SM MC 2 2 (Lit 1 1);
  SM MC 2 3 (Lit 0 1);
  SM MC 2 4 (Lit 0 1);
  SM MC 2 5 (Lit 0 1);
  SM MC 2 6 (Lit 0 1);
  SM MC 2 7 (Lit 0 1);
  SM MC 2 8 (Lit 0 1);
  SM MC 2 9 (Lit 0 1);
  SM MC 2 10 (Lit 0 1);
  SM MC 2 11 (Lit 0 1);
  SM MC 2 12 (Lit 0 1);
  SM MC 3 0 (Lit 0 1);
  SM MC 3 1 (Lit 0 1);
  SM MC 3 2 (Lit 0 1);
  SM MC 3 3 (Lit 1 1);
  SM MC 3 4 (Lit 0 1);
  SM MC 3 5 (Lit 0 1);
  SM MC 3 6 (Lit 0 1);
  SM MC 3 7 (Lit 0 1);
  SM MC 3 8 (Lit 0 1);
  SM MC 3 9 (Lit 0 1);
  SM MC 3 10 (Lit 0 1);
  SM MC 3 11 (Lit 0 1);
  SM MC 3 12 (Lit 0 1);
  SM MC 4 0 (Lit 0 1);
  SM MC 4 1 (Lit 0 1);
  SM MC 4 2 (Lit 0 1);
  SM MC 4 3 (Lit 0 1);
  SM MC 4 4 (Lit 1 1);
  SM MC 4 5 (Lit 0 1);
  SM MC 4 6 (Lit 0 1);
  SM MC 4 7 (Lit 0 1);
  SM MC 4 8 (Lit 0 1);
  SM MC 4 9 (Lit 0 1);
  SM MC 4 10 (Lit 0 1);
  SM MC 4 11 (Lit 0 1);
  SM MC 4 12 (Lit 0 1);
  SM MC 5 0 (Lit 0 1);
  SM MC 5 1 (Lit 0 1);
  SM MC 5 2 (Lit 0 1);
  SM MC 5 3 (Lit 0 1);
  SM MC 5 4 (Lit 0 1);
  SM MC 5 5 (Lit 1 1);
  SM MC 5 6 (Lit 0 1);
  SM MC 5 7 (Lit 0 1);
  SM MC 5 8 (Lit 0 1);
  SM MC 5 9 (Lit 0 1);
  SM MC 5 10 (Lit 0 1);
  SM MC 5 11 (Lit 0 1);
  SM MC 5 12 (Lit 0 1);
  SM MC 6 0 (Lit 0 1);
  SM MC 6 1 (Lit 0 1);
  SM MC 6 2 (Lit 0 1);
  SM MC 6 3 (Lit 0 1);
  SM MC 6 4 (Lit 0 1);
  SM MC 6 5 (Lit 0 1);
  SM MC 6 6 (Lit 1 1);
  SM MC 6 7 (Lit 0 1);
  SM MC 6 8 (Lit 0 1);
  SM MC 6 9 (Lit 0 1);
  SM MC 6 10 (Lit 0 1);
  SM MC 6 11 (Lit 0 1);
  SM MC 6 12 (Lit 0 1);
  SM MC 7 0 (Lit 0 1);
  SM MC 7 1 (Lit 0 1);
  SM MC 7 2 (Lit 0 1);
  SM MC 7 3 (Lit 0 1);
  SM MC 7 4 (Lit 0 1);
  SM MC 7 5 (Lit 0 1);
  SM MC 7 6 (Lit 0 1);
  SM MC 7 7 (Lit 1 1);
  SM MC 7 8 (Lit 0 1);
  SM MC 7 9 (Lit 0 1);
  SM MC 7 10 (Lit 0 1);
  SM MC 7 11 (Lit 0 1);
  SM MC 7 12 (Lit 0 1);
  SM MC 8 0 (Lit 0 1);
  SM MC 8 1 (Lit 0 1);
  SM MC 8 2 (Lit 0 1);
  SM MC 8 3 (Lit 0 1);
  SM MC 8 4 (Lit 0 1);
  SM MC 8 5 (Lit 0 1);
  SM MC 8 6 (Lit 0 1);
  SM MC 8 7 (Lit 0 1);
  SM MC 8 8 (Lit 1 1);
  SM MC 8 9 (Lit 0 1);
  SM MC 8 10 (Lit 0 1);
  SM MC 8 11 (Lit 0 1);
  SM MC 8 12 (Lit 0 1);
  SM MC 9 0 (Lit 0 1);
  SM MC 9 1 (Lit 0 1);
  SM MC 9 2 (z 1060);
  SM MC 9 3 (z 1197);
  SM MC 9 4 (z 1325);
  SM MC 9 5 (z 1338);
  SM MC 9 6 (z 1451);
  SM MC 9 7 (z 1468);
  SM MC 9 8 (Lit 0 1);
  SM MC 9 9 (z 538);
  SM MC 9 10 (- z 539);
  SM MC 9 11 (- z 540);
  SM MC 9 12 (Lit 0 1);
  SM MC 10 0 (Lit 0 1);
  SM MC 10 1 (Lit 0 1);
  SM MC 10 2 (z 1479);
  SM MC 10 3 (z 1491);
  SM MC 10 4 (z 1502);
  SM MC 10 5 (z 1508);
  SM MC 10 6 (z 1518);
  SM MC 10 7 (z 1525);
  SM MC 10 8 (Lit 0 1);
  SM MC 10 9 (- z 541);
  SM MC 10 10 (z 542);
  SM MC 10 11 (z 543);
  SM MC 10 12 (Lit 0 1);
  SM MC 11 0 (Lit 0 1);
  SM MC 11 1 (Lit 0 1);
  SM MC 11 2 (z 1534);
  SM MC 11 3 (z 1543);
  SM MC 11 4 (z 1552);
  SM MC 11 5 (z 1557);
  SM MC 11 6 (z 1566);
  SM MC 11 7 (z 1570);
  SM MC 11 8 (Lit 0 1);
  SM MC 11 9 (z 544);
  SM MC 11 10 (- z 545);
  SM MC 11 11 (- z 546);
  SM MC 11 12 (Lit 0 1);
  SM MC 12 0 (Lit 0 1);
  SM MC 12 1 (Lit 0 1);
  SM MC 12 2 (Lit 0 1);
  SM MC 12 3 (Lit 0 1);
  SM MC 12 4 (Lit 0 1);
  SM MC 12 5 (Lit 0 1);
  SM MC 12 6 (Lit 0 1);
  SM MC 12 7 (Lit 0 1);
  SM MC 12 8 (Lit 0 1);
  SM MC 12 9 (Lit 1 1);
  SM MC 12 10 (Lit 0 1);
  SM MC 12 11 (Lit 0 1);
  SM MC 12 12 (Lit 0 1);
  SM MC 13 0 (Lit 0 1);
  SM MC 13 1 (Lit 0 1);
  SM MC 13 2 (z 1574);
  SM MC 13 3 (z 1578);
  SM MC 13 4 (z 1582);
  SM MC 13 5 (z 1586);
  SM MC 13 6 (z 1590);
  SM MC 13 7 (z 1593);
  SM MC 13 8 (Lit 0 1);
  SM MC 13 9 (z 547);
  SM MC 13 10 (Lit 0 1);
  SM MC 13 11 (z 548);
  SM MC 13 12 (Lit 0 1);
  SM MC 14 0 (Lit 0 1);
  SM MC 14 1 (Lit 0 1);
  SM MC 14 2 (Lit 0 1);
  SM MC 14 3 (Lit 0 1);
  SM MC 14 4 (Lit 0 1);
  SM MC 14 5 (Lit 0 1);
  SM MC 14 6 (Lit 0 1);
  SM MC 14 7 (Lit 0 1);
  SM MC 14 8 (Lit 0 1);
  SM MC 14 9 (Lit 0 1);
  SM MC 14 10 (Lit 1 1);
  SM MC 14 11 (Lit 0 1);
  SM MC 14 12 (Lit 0 1);
  SM MC 15 0 (Lit 0 1);
  SM MC 15 1 (Lit 0 1);
  SM MC 15 2 (Lit 0 1);
  SM MC 15 3 (Lit 0 1);
  SM MC 15 4 (Lit 0 1);
  SM MC 15 5 (Lit 0 1);
  SM MC 15 6 (Lit 0 1);
  SM MC 15 7 (Lit 0 1);
  SM MC 15 8 (Lit 0 1);
  SM MC 15 9 (Lit 0 1);
  SM MC 15 10 (Lit 0 1);
  SM MC 15 11 (Lit 1 1);
  SM MC 15 12 (Lit 0 1);
  SM MC 16 0 (Lit 0 1);
  SM MC 16 1 (Lit 0 1);
  SM MC 16 2 (z 1607);
  SM MC 16 3 (z 1625);
  SM MC 16 4 (z 1643);
  SM MC 16 5 (z 1651);
  SM MC 16 6 (z 1669);
  SM MC 16 7 (z 1683);
  SM MC 16 8 (Lit 0 1);
  SM MC 16 9 (z 549);
  SM MC 16 10 (- z 550);
  SM MC 16 11 (z 551);
  SM MC 16 12 (Lit 0 1);
  SM MC 17 0 (Lit 0 1);
  SM MC 17 1 (Lit 0 1);
  SM MC 17 2 (Lit 0 1);
  SM MC 17 3 (Lit 0 1);
  SM MC 17 4 (Lit 0 1);
  SM MC 17 5 (Lit 0 1);
  SM MC 17 6 (Lit 0 1);
  SM MC 17 7 (Lit 0 1);
  SM MC 17 8 (Lit 0 1);
  SM MC 17 9 (Lit 0 1);
  SM MC 17 10 (Lit 0 1);
  SM MC 17 11 (Lit 0 1);
  SM MC 17 12 (Lit 1 1);
  SM MD 0 0 (Lit 0 1);
  SM MD 0 1 (Lit 0 1);
  SM MD 0 2 (Lit 0 1);
  SM MD 0 3 (Lit 0 1);
  SM MD 1 0 (Lit 0 1);
  SM MD 1 1 (Lit 0 1);
  SM MD 1 2 (Lit 0 1);
  SM MD 1 3 (Lit 0 1);
  SM MD 2 0 (Lit 0 1);
  SM MD 2 1 (Lit 0 1);
  SM MD 2 2 (Lit 0 1);
  SM MD 2 3 (Lit 0 1);
  SM MD 3 0 (Lit 0 1);
  SM MD 3 1 (Lit 0 1);
  SM MD 3 2 (Lit 0 1);
  SM MD 3 3 (Lit 0 1);
  SM MD 4 0 (Lit 0 1);
  SM MD 4 1 (Lit 0 1);
  SM MD 4 2 (Lit 0 1);
  SM MD 4 3 (Lit 0 1);
  SM MD 5 0 (Lit 0 1);
  SM MD 5 1 (Lit 0 1);
  SM MD 5 2 (Lit 0 1);
  SM MD 5 3 (Lit 0 1);
  SM MD 6 0 (Lit 0 1);
  SM MD 6 1 (Lit 0 1)].
(* [_mooreriderlean2012.py:11142-11187] *)
Definition chunk23 : list stmt := [
  SM MD 6 2 (Lit 0 1);
  SM MD 6 3 (Lit 0 1);
  SM MD 7 0 (Lit 0 1);
  SM MD 7 1 (Lit 0 1);
  SM MD 7 2 (Lit 0 1);
  SM MD 7 3 (Lit 0 1);
  SM MD 8 0 (Lit 0 1);
  SM MD 8 1 (Lit 0 1);
  SM MD 8 2 (Lit 0 1);
  SM MD 8 3 (Lit 0 1);
  SM MD 9 0 (Lit 0 1);
  SM MD 9 1 (Lit 0 1);
  SM MD 9 2 (Lit 0 1);
  SM MD 9 3 (Lit 0 1);
  SM MD 10 0 (Lit 0 1);
  SM MD 10 1 (Lit 0 1);
  SM MD 10 2 (Lit 0 1);
  SM MD 10 3 (Lit 0 1);
  SM MD 11 0 (Lit 0 1);
  SM MD 11 1 (Lit 0 1);
  SM MD 11 2 (Lit 0 1);
  SM MD 11 3 (Lit 0 1);
  SM MD 12 0 (Lit 0 1);
  SM MD 12 1 (Lit 0 1);
  SM MD 12 2 (Lit 0 1);
  SM MD 12 3 (Lit 0 1);
  SM MD 13 0 (Lit 0 1);
  SM MD 13 1 (Lit 0 1);
  SM MD 13 2 (Lit 0 1);
  SM MD 13 3 (Lit 0 1);
  SM MD 14 0 (Lit 0 1);
  SM MD 14 1 (Lit 0 1);
  SM MD 14 2 (Lit 0 1);
  SM MD 14 3 (Lit 0 1);
  SM MD 15 0 (Lit 0 1);
  SM MD 15 1 (Lit 0 1);
  SM MD 15 2 (Lit 0 1);
  SM MD 15 3 (Lit 0 1);
  SM MD 16 0 (Lit 0 1);
  SM MD 16 1 (Lit 0 1);
  SM MD 16 2 (Lit 0 1);
  SM MD 16 3 (Lit 0 1);
  SM MD 17 0 (Lit 0 1);
  SM MD 17 1 (Lit 0 1);
  SM MD 17 2 (Lit 0 1);
  SM MD 17 3 (Lit 0 1)].
(* [_mooreriderlean2012.py:76-11187] *)
Definition lean_program : list stmt :=
  (chunk1 ++ chunk2 ++ chunk3 ++ chunk4 ++ chunk5 ++ chunk6 ++ chunk7 ++ chunk8 ++ chunk9 ++ chunk10 ++ chunk11 ++ chunk12 ++ chunk13 ++ chunk14 ++ chunk15 ++ chunk16 ++ chunk17 ++ chunk18 ++ chunk19 ++ chunk20 ++ chunk21 ++ chunk22 ++ chunk23)%list.
