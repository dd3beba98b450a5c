(** The vector kernels of the inverse transforms, 32 points, SSE. Definitions only, for the machine of
    VtModel. Each is the text of the function: the names of its vector variables (an array takes as
    many numbers as it has elements; a name declared again in another block has a number added), its
    macros expanded, its statements in order. *)
From Coq Require Import ZArith List Bool.
From Verif Require Import VtModel.
Import ListNotations.
Open Scope Z_scope.

(** vec/intrinsic_idct.cc:5213-6047 [idct_32x8_sse128]. The lowest bit of [i_dst] is a flag that changes shift and limits; the stride is [i_dst & 0xFE]. *)
Definition idct_32x8_sse128 : list ins :=
  let m128iS0 := 1 in let m128iS1 := 5 in let m128iS2 := 9 in let m128iS3 := 13 in let m128iS4 := 17 in let m128iS5 := 21 in let m128iS6 := 25 in
  let m128iS7 := 29 in let m128iAdd := 33 in let m128Tmp0 := 34 in let m128Tmp1 := 35 in let m128Tmp2 := 36 in let m128Tmp3 := 37 in let E0h := 38 in
  let E1h := 39 in let E2h := 40 in let E3h := 41 in let E0l := 42 in let E1l := 43 in let E2l := 44 in let E3l := 45 in let O0h := 46 in
  let O1h := 47 in let O2h := 48 in let O3h := 49 in let O0l := 50 in let O1l := 51 in let O2l := 52 in let O3l := 53 in let EE0l := 54 in
  let EE1l := 55 in let E00l := 56 in let E01l := 57 in let EE0h := 58 in let EE1h := 59 in let E00h := 60 in let E01h := 61 in
  let c16_p45_p45 := 62 in let c16_p43_p44 := 63 in let c16_p39_p41 := 64 in let c16_p34_p36 := 65 in let c16_p27_p30 := 66 in
  let c16_p19_p23 := 67 in let c16_p11_p15 := 68 in let c16_p02_p07 := 69 in let c16_p41_p45 := 70 in let c16_p23_p34 := 71 in
  let c16_n02_p11 := 72 in let c16_n27_n15 := 73 in let c16_n43_n36 := 74 in let c16_n44_n45 := 75 in let c16_n30_n39 := 76 in
  let c16_n07_n19 := 77 in let c16_p34_p44 := 78 in let c16_n07_p15 := 79 in let c16_n41_n27 := 80 in let c16_n39_n45 := 81 in
  let c16_n02_n23 := 82 in let c16_p36_p19 := 83 in let c16_p43_p45 := 84 in let c16_p11_p30 := 85 in let c16_p23_p43 := 86 in
  let c16_n34_n07 := 87 in let c16_n36_n45 := 88 in let c16_p19_n11 := 89 in let c16_p44_p41 := 90 in let c16_n02_p27 := 91 in
  let c16_n45_n30 := 92 in let c16_n15_n39 := 93 in let c16_p11_p41 := 94 in let c16_n45_n27 := 95 in let c16_p07_n30 := 96 in
  let c16_p43_p39 := 97 in let c16_n23_p15 := 98 in let c16_n34_n45 := 99 in let c16_p36_p02 := 100 in let c16_p19_p44 := 101 in
  let c16_n02_p39 := 102 in let c16_n36_n41 := 103 in let c16_p43_p07 := 104 in let c16_n11_p34 := 105 in let c16_n30_n44 := 106 in
  let c16_p45_p15 := 107 in let c16_n19_p27 := 108 in let c16_n23_n45 := 109 in let c16_n15_p36 := 110 in let c16_n11_n45 := 111 in
  let c16_p34_p39 := 112 in let c16_n45_n19 := 113 in let c16_p41_n07 := 114 in let c16_n23_p30 := 115 in let c16_n02_n44 := 116 in
  let c16_p27_p43 := 117 in let c16_n27_p34 := 118 in let c16_p19_n39 := 119 in let c16_n11_p43 := 120 in let c16_p02_n45 := 121 in
  let c16_p07_p45 := 122 in let c16_n15_n44 := 123 in let c16_p23_p41 := 124 in let c16_n30_n36 := 125 in let c16_n36_p30 := 126 in
  let c16_p41_n23 := 127 in let c16_n44_p15 := 128 in let c16_p45_n07 := 129 in let c16_n45_n02 := 130 in let c16_p43_p11 := 131 in
  let c16_n39_n19 := 132 in let c16_p34_p27 := 133 in let c16_n43_p27 := 134 in let c16_p44_n02 := 135 in let c16_n30_n23 := 136 in
  let c16_p07_p41 := 137 in let c16_p19_n45 := 138 in let c16_n39_p34 := 139 in let c16_p45_n11 := 140 in let c16_n36_n15 := 141 in
  let c16_n45_p23 := 142 in let c16_p27_p19 := 143 in let c16_p15_n45 := 144 in let c16_n44_p30 := 145 in let c16_p34_p11 := 146 in
  let c16_p07_n43 := 147 in let c16_n41_p36 := 148 in let c16_p39_p02 := 149 in let c16_n44_p19 := 150 in let c16_n02_p36 := 151 in
  let c16_p45_n34 := 152 in let c16_n15_n23 := 153 in let c16_n39_p43 := 154 in let c16_p30_p07 := 155 in let c16_p27_n45 := 156 in
  let c16_n41_p11 := 157 in let c16_n39_p15 := 158 in let c16_n30_p45 := 159 in let c16_p27_p02 := 160 in let c16_p41_n44 := 161 in
  let c16_n11_n19 := 162 in let c16_n45_p36 := 163 in let c16_n07_p34 := 164 in let c16_p43_n23 := 165 in let c16_n30_p11 := 166 in
  let c16_n45_p43 := 167 in let c16_n19_p36 := 168 in let c16_p23_n02 := 169 in let c16_p45_n39 := 170 in let c16_p27_n41 := 171 in
  let c16_n15_n07 := 172 in let c16_n44_p34 := 173 in let c16_n19_p07 := 174 in let c16_n39_p30 := 175 in let c16_n45_p44 := 176 in
  let c16_n36_p43 := 177 in let c16_n15_p27 := 178 in let c16_p11_p02 := 179 in let c16_p34_n23 := 180 in let c16_p45_n41 := 181 in
  let c16_n07_p02 := 182 in let c16_n15_p11 := 183 in let c16_n23_p19 := 184 in let c16_n30_p27 := 185 in let c16_n36_p34 := 186 in
  let c16_n41_p39 := 187 in let c16_n44_p43 := 188 in let c16_n45_p45 := 189 in let c16_p35_p40 := 190 in let c16_p21_p29 := 191 in
  let c16_p04_p13 := 192 in let c16_p29_p43 := 193 in let c16_n21_p04 := 194 in let c16_n45_n40 := 195 in let c16_n13_n35 := 196 in
  let c16_p04_p40 := 197 in let c16_n43_n35 := 198 in let c16_p29_n13 := 199 in let c16_p21_p45 := 200 in let c16_n21_p35 := 201 in
  let c16_p04_n43 := 202 in let c16_p13_p45 := 203 in let c16_n29_n40 := 204 in let c16_n40_p29 := 205 in let c16_p45_n13 := 206 in
  let c16_n43_n04 := 207 in let c16_p35_p21 := 208 in let c16_n45_p21 := 209 in let c16_p13_p29 := 210 in let c16_p35_n43 := 211 in
  let c16_n40_p04 := 212 in let c16_n35_p13 := 213 in let c16_n40_p45 := 214 in let c16_p04_p21 := 215 in let c16_p43_n29 := 216 in
  let c16_n13_p04 := 217 in let c16_n29_p21 := 218 in let c16_n40_p35 := 219 in let c16_p38_p44 := 220 in let c16_p09_p25 := 221 in
  let c16_n09_p38 := 222 in let c16_n25_n44 := 223 in let c16_n44_p25 := 224 in let c16_p38_p09 := 225 in let c16_n25_p09 := 226 in
  let c16_n44_p38 := 227 in let c16_p17_p42 := 228 in let c16_n42_p17 := 229 in let c16_p32_p32 := 230 in let c16_n32_p32 := 231 in
  let c32_rnd := 232 in let res00 := 233 in let res01 := 237 in let res02 := 241 in let res03 := 245 in let res04 := 249 in let res05 := 253 in
  let res06 := 257 in let res07 := 261 in let res08 := 265 in let res09 := 269 in let res10 := 273 in let res11 := 277 in let res12 := 281 in
  let res13 := 285 in let res14 := 289 in let res15 := 293 in let res16 := 297 in let res17 := 301 in let res18 := 305 in let res19 := 309 in
  let res20 := 313 in let res21 := 317 in let res22 := 321 in let res23 := 325 in let res24 := 329 in let res25 := 333 in let res26 := 337 in
  let res27 := 341 in let res28 := 345 in let res29 := 349 in let res30 := 353 in let res31 := 357 in let T_00_00A := 361 in let T_00_00B := 362 in
  let T_00_01A := 363 in let T_00_01B := 364 in let T_00_02A := 365 in let T_00_02B := 366 in let T_00_03A := 367 in let T_00_03B := 368 in
  let T_00_04A := 369 in let T_00_04B := 370 in let T_00_05A := 371 in let T_00_05B := 372 in let T_00_06A := 373 in let T_00_06B := 374 in
  let T_00_07A := 375 in let T_00_07B := 376 in let T_00_08A := 377 in let T_00_08B := 378 in let T_00_09A := 379 in let T_00_09B := 380 in
  let T_00_10A := 381 in let T_00_10B := 382 in let T_00_11A := 383 in let T_00_11B := 384 in let T_00_12A := 385 in let T_00_12B := 386 in
  let T_00_13A := 387 in let T_00_13B := 388 in let T_00_14A := 389 in let T_00_14B := 390 in let T_00_15A := 391 in let T_00_15B := 392 in
  let O00A := 393 in let O01A := 394 in let O02A := 395 in let O03A := 396 in let O04A := 397 in let O05A := 398 in let O06A := 399 in
  let O07A := 400 in let O08A := 401 in let O09A := 402 in let O10A := 403 in let O11A := 404 in let O12A := 405 in let O13A := 406 in
  let O14A := 407 in let O15A := 408 in let O00B := 409 in let O01B := 410 in let O02B := 411 in let O03B := 412 in let O04B := 413 in
  let O05B := 414 in let O06B := 415 in let O07B := 416 in let O08B := 417 in let O09B := 418 in let O10B := 419 in let O11B := 420 in
  let O12B := 421 in let O13B := 422 in let O14B := 423 in let O15B := 424 in let EO0A := 425 in let EO1A := 426 in let EO2A := 427 in
  let EO3A := 428 in let EO4A := 429 in let EO5A := 430 in let EO6A := 431 in let EO7A := 432 in let EO0B := 433 in let EO1B := 434 in
  let EO2B := 435 in let EO3B := 436 in let EO4B := 437 in let EO5B := 438 in let EO6B := 439 in let EO7B := 440 in let T00 := 441 in
  let T01 := 442 in let T02 := 443 in let T03 := 444 in let EEO0A := 445 in let EEO1A := 446 in let EEO2A := 447 in let EEO3A := 448 in
  let EEO0B := 449 in let EEO1B := 450 in let EEO2B := 451 in let EEO3B := 452 in let EEEO0A := 453 in let EEEO0B := 454 in let EEEO1A := 455 in
  let EEEO1B := 456 in let EEEE0A := 457 in let EEEE0B := 458 in let EEEE1A := 459 in let EEEE1B := 460 in let EEE0A := 461 in let EEE0B := 462 in
  let EEE1A := 463 in let EEE1B := 464 in let EEE3A := 465 in let EEE3B := 466 in let EEE2A := 467 in let EEE2B := 468 in let EE0A := 469 in
  let EE0B := 470 in let EE1A := 471 in let EE1B := 472 in let EE2A := 473 in let EE2B := 474 in let EE3A := 475 in let EE3B := 476 in
  let EE7A := 477 in let EE7B := 478 in let EE6A := 479 in let EE6B := 480 in let EE5A := 481 in let EE5B := 482 in let EE4A := 483 in
  let EE4B := 484 in let E0A := 485 in let E0B := 486 in let E1A := 487 in let E1B := 488 in let E2A := 489 in let E2B := 490 in let E3A := 491 in
  let E3B := 492 in let E4A := 493 in let E4B := 494 in let E5A := 495 in let E5B := 496 in let E6A := 497 in let E6B := 498 in let E7A := 499 in
  let E7B := 500 in let EFA := 501 in let EFB := 502 in let EEA := 503 in let EEB := 504 in let EDA := 505 in let EDB := 506 in let ECA := 507 in
  let ECB := 508 in let EBA := 509 in let EBB := 510 in let EAA := 511 in let EAB := 512 in let E9A := 513 in let E9B := 514 in let E8A := 515 in
  let E8B := 516 in let T10A := 517 in let T10B := 518 in let T11A := 519 in let T11B := 520 in let T12A := 521 in let T12B := 522 in
  let T13A := 523 in let T13B := 524 in let T14A := 525 in let T14B := 526 in let T15A := 527 in let T15B := 528 in let T16A := 529 in
  let T16B := 530 in let T17A := 531 in let T17B := 532 in let T18A := 533 in let T18B := 534 in let T19A := 535 in let T19B := 536 in
  let T1AA := 537 in let T1AB := 538 in let T1BA := 539 in let T1BB := 540 in let T1CA := 541 in let T1CB := 542 in let T1DA := 543 in
  let T1DB := 544 in let T1EA := 545 in let T1EB := 546 in let T1FA := 547 in let T1FB := 548 in let T2_00A := 549 in let T2_00B := 550 in
  let T2_01A := 551 in let T2_01B := 552 in let T2_02A := 553 in let T2_02B := 554 in let T2_03A := 555 in let T2_03B := 556 in let T2_04A := 557 in
  let T2_04B := 558 in let T2_05A := 559 in let T2_05B := 560 in let T2_06A := 561 in let T2_06B := 562 in let T2_07A := 563 in let T2_07B := 564 in
  let T2_08A := 565 in let T2_08B := 566 in let T2_09A := 567 in let T2_09B := 568 in let T2_10A := 569 in let T2_10B := 570 in let T2_11A := 571 in
  let T2_11B := 572 in let T2_12A := 573 in let T2_12B := 574 in let T2_13A := 575 in let T2_13B := 576 in let T2_14A := 577 in let T2_14B := 578 in
  let T2_15A := 579 in let T2_15B := 580 in let T2_31A := 581 in let T2_31B := 582 in let T2_30A := 583 in let T2_30B := 584 in let T2_29A := 585 in
  let T2_29B := 586 in let T2_28A := 587 in let T2_28B := 588 in let T2_27A := 589 in let T2_27B := 590 in let T2_26A := 591 in let T2_26B := 592 in
  let T2_25A := 593 in let T2_25B := 594 in let T2_24A := 595 in let T2_24B := 596 in let T2_23A := 597 in let T2_23B := 598 in let T2_22A := 599 in
  let T2_22B := 600 in let T2_21A := 601 in let T2_21B := 602 in let T2_20A := 603 in let T2_20B := 604 in let T2_19A := 605 in let T2_19B := 606 in
  let T2_18A := 607 in let T2_18B := 608 in let T2_17A := 609 in let T2_17B := 610 in let T2_16A := 611 in let T2_16B := 612 in let T3_00A := 613 in
  let T3_00B := 614 in let T3_01A := 615 in let T3_01B := 616 in let T3_02A := 617 in let T3_02B := 618 in let T3_03A := 619 in let T3_03B := 620 in
  let T3_04A := 621 in let T3_04B := 622 in let T3_05A := 623 in let T3_05B := 624 in let T3_06A := 625 in let T3_06B := 626 in let T3_07A := 627 in
  let T3_07B := 628 in let T3_08A := 629 in let T3_08B := 630 in let T3_09A := 631 in let T3_09B := 632 in let T3_10A := 633 in let T3_10B := 634 in
  let T3_11A := 635 in let T3_11B := 636 in let T3_12A := 637 in let T3_12B := 638 in let T3_13A := 639 in let T3_13B := 640 in let T3_14A := 641 in
  let T3_14B := 642 in let T3_15A := 643 in let T3_15B := 644 in let T3_16A := 645 in let T3_16B := 646 in let T3_17A := 647 in let T3_17B := 648 in
  let T3_18A := 649 in let T3_18B := 650 in let T3_19A := 651 in let T3_19B := 652 in let T3_20A := 653 in let T3_20B := 654 in let T3_21A := 655 in
  let T3_21B := 656 in let T3_22A := 657 in let T3_22B := 658 in let T3_23A := 659 in let T3_23B := 660 in let T3_24A := 661 in let T3_24B := 662 in
  let T3_25A := 663 in let T3_25B := 664 in let T3_26A := 665 in let T3_26B := 666 in let T3_27A := 667 in let T3_27B := 668 in let T3_28A := 669 in
  let T3_28B := 670 in let T3_29A := 671 in let T3_29B := 672 in let T3_30A := 673 in let T3_30B := 674 in let T3_31A := 675 in let T3_31B := 676 in
  let tr0_0 := 677 in let tr0_1 := 678 in let tr0_2 := 679 in let tr0_3 := 680 in let tr0_4 := 681 in let tr0_5 := 682 in let tr0_6 := 683 in
  let tr0_7 := 684 in let tr1_0 := 685 in let tr1_1 := 686 in let tr1_2 := 687 in let tr1_3 := 688 in let tr1_4 := 689 in let tr1_5 := 690 in
  let tr1_6 := 691 in let tr1_7 := 692 in let max_val := 693 in let min_val := 694 in
  [Set_ m128iAdd (S32 8 (I 16))]
  ++ loop 4 (fun pass =>
    [Set_ (m128iS1 + pass) (Ld 8 (8 * pass + 32));
     Set_ (m128iS3 + pass) (Ld 8 (8 * pass + 96));
     Set_ m128Tmp0 (lo16 (R (m128iS1 + pass)) (R (m128iS3 + pass)));
     Set_ E1l (madd (R m128Tmp0) (Cst [44; 38; 44; 38; 44; 38; 44; 38]));
     Set_ m128Tmp1 (hi16 (R (m128iS1 + pass)) (R (m128iS3 + pass)));
     Set_ E1h (madd (R m128Tmp1) (Cst [44; 38; 44; 38; 44; 38; 44; 38]));
     Set_ (m128iS5 + pass) (Ld 8 (8 * pass + 160));
     Set_ (m128iS7 + pass) (Ld 8 (8 * pass + 224));
     Set_ m128Tmp2 (lo16 (R (m128iS5 + pass)) (R (m128iS7 + pass)));
     Set_ E2l (madd (R m128Tmp2) (Cst [25; 9; 25; 9; 25; 9; 25; 9]));
     Set_ m128Tmp3 (hi16 (R (m128iS5 + pass)) (R (m128iS7 + pass)));
     Set_ E2h (madd (R m128Tmp3) (Cst [25; 9; 25; 9; 25; 9; 25; 9]));
     Set_ O0l (add32 (R E1l) (R E2l));
     Set_ O0h (add32 (R E1h) (R E2h));
     Set_ E1l (madd (R m128Tmp0) (Cst [38; (-9); 38; (-9); 38; (-9); 38; (-9)]));
     Set_ E1h (madd (R m128Tmp1) (Cst [38; (-9); 38; (-9); 38; (-9); 38; (-9)]));
     Set_ E2l (madd (R m128Tmp2) (Cst [(-44); (-25); (-44); (-25); (-44); (-25); (-44); (-25)]));
     Set_ E2h (madd (R m128Tmp3) (Cst [(-44); (-25); (-44); (-25); (-44); (-25); (-44); (-25)]));
     Set_ O1l (add32 (R E1l) (R E2l));
     Set_ O1h (add32 (R E1h) (R E2h));
     Set_ E1l (madd (R m128Tmp0) (Cst [25; (-44); 25; (-44); 25; (-44); 25; (-44)]));
     Set_ E1h (madd (R m128Tmp1) (Cst [25; (-44); 25; (-44); 25; (-44); 25; (-44)]));
     Set_ E2l (madd (R m128Tmp2) (Cst [9; 38; 9; 38; 9; 38; 9; 38]));
     Set_ E2h (madd (R m128Tmp3) (Cst [9; 38; 9; 38; 9; 38; 9; 38]));
     Set_ O2l (add32 (R E1l) (R E2l));
     Set_ O2h (add32 (R E1h) (R E2h));
     Set_ E1l (madd (R m128Tmp0) (Cst [9; (-25); 9; (-25); 9; (-25); 9; (-25)]));
     Set_ E1h (madd (R m128Tmp1) (Cst [9; (-25); 9; (-25); 9; (-25); 9; (-25)]));
     Set_ E2l (madd (R m128Tmp2) (Cst [38; (-44); 38; (-44); 38; (-44); 38; (-44)]));
     Set_ E2h (madd (R m128Tmp3) (Cst [38; (-44); 38; (-44); 38; (-44); 38; (-44)]));
     Set_ O3h (add32 (R E1h) (R E2h));
     Set_ O3l (add32 (R E1l) (R E2l));
     Set_ (m128iS0 + pass) (Ld 8 (8 * pass));
     Set_ (m128iS4 + pass) (Ld 8 (8 * pass + 128));
     Set_ m128Tmp0 (lo16 (R (m128iS0 + pass)) (R (m128iS4 + pass)));
     Set_ EE0l (madd (R m128Tmp0) (Cst [32; 32; 32; 32; 32; 32; 32; 32]));
     Set_ m128Tmp1 (hi16 (R (m128iS0 + pass)) (R (m128iS4 + pass)));
     Set_ EE0h (madd (R m128Tmp1) (Cst [32; 32; 32; 32; 32; 32; 32; 32]));
     Set_ EE1l (madd (R m128Tmp0) (Cst [32; (-32); 32; (-32); 32; (-32); 32; (-32)]));
     Set_ EE1h (madd (R m128Tmp1) (Cst [32; (-32); 32; (-32); 32; (-32); 32; (-32)]));
     Set_ (m128iS2 + pass) (Ld 8 (8 * pass + 64));
     Set_ (m128iS6 + pass) (Ld 8 (8 * pass + 192));
     Set_ m128Tmp0 (lo16 (R (m128iS2 + pass)) (R (m128iS6 + pass)));
     Set_ E00l (madd (R m128Tmp0) (Cst [42; 17; 42; 17; 42; 17; 42; 17]));
     Set_ m128Tmp1 (hi16 (R (m128iS2 + pass)) (R (m128iS6 + pass)));
     Set_ E00h (madd (R m128Tmp1) (Cst [42; 17; 42; 17; 42; 17; 42; 17]));
     Set_ E01l (madd (R m128Tmp0) (Cst [17; (-42); 17; (-42); 17; (-42); 17; (-42)]));
     Set_ E01h (madd (R m128Tmp1) (Cst [17; (-42); 17; (-42); 17; (-42); 17; (-42)]));
     Set_ E0l (add32 (R EE0l) (R E00l));
     Set_ E0l (add32 (R E0l) (R m128iAdd));
     Set_ E0h (add32 (R EE0h) (R E00h));
     Set_ E0h (add32 (R E0h) (R m128iAdd));
     Set_ E3l (sub32 (R EE0l) (R E00l));
     Set_ E3l (add32 (R E3l) (R m128iAdd));
     Set_ E3h (sub32 (R EE0h) (R E00h));
     Set_ E3h (add32 (R E3h) (R m128iAdd));
     Set_ E1l (add32 (R EE1l) (R E01l));
     Set_ E1l (add32 (R E1l) (R m128iAdd));
     Set_ E1h (add32 (R EE1h) (R E01h));
     Set_ E1h (add32 (R E1h) (R m128iAdd));
     Set_ E2l (sub32 (R EE1l) (R E01l));
     Set_ E2l (add32 (R E2l) (R m128iAdd));
     Set_ E2h (sub32 (R EE1h) (R E01h));
     Set_ E2h (add32 (R E2h) (R m128iAdd))]
    ++ [Set_ (m128iS0 + pass) (packs32 (Sra32 (add32 (R E0l) (R O0l)) (I 5)) (Sra32 (add32 (R E0h) (R O0h)) (I 5)));
     Set_ (m128iS7 + pass) (packs32 (Sra32 (sub32 (R E0l) (R O0l)) (I 5)) (Sra32 (sub32 (R E0h) (R O0h)) (I 5)));
     Set_ (m128iS1 + pass) (packs32 (Sra32 (add32 (R E1l) (R O1l)) (I 5)) (Sra32 (add32 (R E1h) (R O1h)) (I 5)));
     Set_ (m128iS6 + pass) (packs32 (Sra32 (sub32 (R E1l) (R O1l)) (I 5)) (Sra32 (sub32 (R E1h) (R O1h)) (I 5)));
     Set_ (m128iS2 + pass) (packs32 (Sra32 (add32 (R E2l) (R O2l)) (I 5)) (Sra32 (add32 (R E2h) (R O2h)) (I 5)));
     Set_ (m128iS5 + pass) (packs32 (Sra32 (sub32 (R E2l) (R O2l)) (I 5)) (Sra32 (sub32 (R E2h) (R O2h)) (I 5)));
     Set_ (m128iS3 + pass) (packs32 (Sra32 (add32 (R E3l) (R O3l)) (I 5)) (Sra32 (add32 (R E3h) (R O3h)) (I 5)));
     Set_ (m128iS4 + pass) (packs32 (Sra32 (sub32 (R E3l) (R O3l)) (I 5)) (Sra32 (sub32 (R E3h) (R O3h)) (I 5)));
     Set_ E0l (lo16 (R (m128iS0 + pass)) (R (m128iS4 + pass)));
     Set_ E1l (lo16 (R (m128iS1 + pass)) (R (m128iS5 + pass)));
     Set_ E2l (lo16 (R (m128iS2 + pass)) (R (m128iS6 + pass)));
     Set_ E3l (lo16 (R (m128iS3 + pass)) (R (m128iS7 + pass)));
     Set_ O0l (hi16 (R (m128iS0 + pass)) (R (m128iS4 + pass)));
     Set_ O1l (hi16 (R (m128iS1 + pass)) (R (m128iS5 + pass)));
     Set_ O2l (hi16 (R (m128iS2 + pass)) (R (m128iS6 + pass)));
     Set_ O3l (hi16 (R (m128iS3 + pass)) (R (m128iS7 + pass)));
     Set_ m128Tmp0 (lo16 (R E0l) (R E2l));
     Set_ m128Tmp1 (lo16 (R E1l) (R E3l));
     Set_ (m128iS0 + pass) (lo16 (R m128Tmp0) (R m128Tmp1));
     Set_ (m128iS1 + pass) (hi16 (R m128Tmp0) (R m128Tmp1));
     Set_ m128Tmp2 (hi16 (R E0l) (R E2l));
     Set_ m128Tmp3 (hi16 (R E1l) (R E3l));
     Set_ (m128iS2 + pass) (lo16 (R m128Tmp2) (R m128Tmp3));
     Set_ (m128iS3 + pass) (hi16 (R m128Tmp2) (R m128Tmp3));
     Set_ m128Tmp0 (lo16 (R O0l) (R O2l));
     Set_ m128Tmp1 (lo16 (R O1l) (R O3l));
     Set_ (m128iS4 + pass) (lo16 (R m128Tmp0) (R m128Tmp1));
     Set_ (m128iS5 + pass) (hi16 (R m128Tmp0) (R m128Tmp1));
     Set_ m128Tmp2 (hi16 (R O0l) (R O2l));
     Set_ m128Tmp3 (hi16 (R O1l) (R O3l));
     Set_ (m128iS6 + pass) (lo16 (R m128Tmp2) (R m128Tmp3));
     Set_ (m128iS7 + pass) (hi16 (R m128Tmp2) (R m128Tmp3))])
  ++ [Set_ c16_p45_p45 (S32 8 (I 2949165));
   Set_ c16_p43_p44 (S32 8 (I 2818092));
   Set_ c16_p39_p41 (S32 8 (I 2555945));
   Set_ c16_p34_p36 (S32 8 (I 2228260));
   Set_ c16_p27_p30 (S32 8 (I 1769502));
   Set_ c16_p19_p23 (S32 8 (I 1245207));
   Set_ c16_p11_p15 (S32 8 (I 720911));
   Set_ c16_p02_p07 (S32 8 (I 131079));
   Set_ c16_p41_p45 (S32 8 (I 2687021));
   Set_ c16_p23_p34 (S32 8 (I 1507362));
   Set_ c16_n02_p11 (S32 8 (I (-131061)));
   Set_ c16_n27_n15 (S32 8 (I (-1703951)));
   Set_ c16_n43_n36 (S32 8 (I (-2752548)));
   Set_ c16_n44_n45 (S32 8 (I (-2818093)));
   Set_ c16_n30_n39 (S32 8 (I (-1900583)));
   Set_ c16_n07_n19 (S32 8 (I (-393235)));
   Set_ c16_p34_p44 (S32 8 (I 2228268));
   Set_ c16_n07_p15 (S32 8 (I (-458737)));
   Set_ c16_n41_n27 (S32 8 (I (-2621467)));
   Set_ c16_n39_n45 (S32 8 (I (-2490413)));
   Set_ c16_n02_n23 (S32 8 (I (-65559)));
   Set_ c16_p36_p19 (S32 8 (I 2359315));
   Set_ c16_p43_p45 (S32 8 (I 2818093));
   Set_ c16_p11_p30 (S32 8 (I 720926));
   Set_ c16_p23_p43 (S32 8 (I 1507371));
   Set_ c16_n34_n07 (S32 8 (I (-2162695)));
   Set_ c16_n36_n45 (S32 8 (I (-2293805)));
   Set_ c16_p19_n11 (S32 8 (I 1310709));
   Set_ c16_p44_p41 (S32 8 (I 2883625));
   Set_ c16_n02_p27 (S32 8 (I (-131045)));
   Set_ c16_n45_n30 (S32 8 (I (-2883614)));
   Set_ c16_n15_n39 (S32 8 (I (-917543)));
   Set_ c16_p11_p41 (S32 8 (I 720937));
   Set_ c16_n45_n27 (S32 8 (I (-2883611)));
   Set_ c16_p07_n30 (S32 8 (I 524258));
   Set_ c16_p43_p39 (S32 8 (I 2818087));
   Set_ c16_n23_p15 (S32 8 (I (-1507313)));
   Set_ c16_n34_n45 (S32 8 (I (-2162733)));
   Set_ c16_p36_p02 (S32 8 (I 2359298));
   Set_ c16_p19_p44 (S32 8 (I 1245228));
   Set_ c16_n02_p39 (S32 8 (I (-131033)));
   Set_ c16_n36_n41 (S32 8 (I (-2293801)));
   Set_ c16_p43_p07 (S32 8 (I 2818055));
   Set_ c16_n11_p34 (S32 8 (I (-720862)));
   Set_ c16_n30_n44 (S32 8 (I (-1900588)));
   Set_ c16_p45_p15 (S32 8 (I 2949135));
   Set_ c16_n19_p27 (S32 8 (I (-1245157)));
   Set_ c16_n23_n45 (S32 8 (I (-1441837)));
   Set_ c16_n15_p36 (S32 8 (I (-983004)));
   Set_ c16_n11_n45 (S32 8 (I (-655405)));
   Set_ c16_p34_p39 (S32 8 (I 2228263));
   Set_ c16_n45_n19 (S32 8 (I (-2883603)));
   Set_ c16_p41_n07 (S32 8 (I 2752505));
   Set_ c16_n23_p30 (S32 8 (I (-1507298)));
   Set_ c16_n02_n44 (S32 8 (I (-65580)));
   Set_ c16_p27_p43 (S32 8 (I 1769515));
   Set_ c16_n27_p34 (S32 8 (I (-1769438)));
   Set_ c16_p19_n39 (S32 8 (I 1310681));
   Set_ c16_n11_p43 (S32 8 (I (-720853)));
   Set_ c16_p02_n45 (S32 8 (I 196563));
   Set_ c16_p07_p45 (S32 8 (I 458797));
   Set_ c16_n15_n44 (S32 8 (I (-917548)));
   Set_ c16_p23_p41 (S32 8 (I 1507369));
   Set_ c16_n30_n36 (S32 8 (I (-1900580)))]
  ++ [Set_ c16_n36_p30 (S32 8 (I (-2359266)));
   Set_ c16_p41_n23 (S32 8 (I 2752489));
   Set_ c16_n44_p15 (S32 8 (I (-2883569)));
   Set_ c16_p45_n07 (S32 8 (I 3014649));
   Set_ c16_n45_n02 (S32 8 (I (-2883586)));
   Set_ c16_p43_p11 (S32 8 (I 2818059));
   Set_ c16_n39_n19 (S32 8 (I (-2490387)));
   Set_ c16_p34_p27 (S32 8 (I 2228251));
   Set_ c16_n43_p27 (S32 8 (I (-2818021)));
   Set_ c16_p44_n02 (S32 8 (I 2949118));
   Set_ c16_n30_n23 (S32 8 (I (-1900567)));
   Set_ c16_p07_p41 (S32 8 (I 458793));
   Set_ c16_p19_n45 (S32 8 (I 1310675));
   Set_ c16_n39_p34 (S32 8 (I (-2555870)));
   Set_ c16_p45_n11 (S32 8 (I 3014645));
   Set_ c16_n36_n15 (S32 8 (I (-2293775)));
   Set_ c16_n45_p23 (S32 8 (I (-2949097)));
   Set_ c16_p27_p19 (S32 8 (I 1769491));
   Set_ c16_p15_n45 (S32 8 (I 1048531));
   Set_ c16_n44_p30 (S32 8 (I (-2883554)));
   Set_ c16_p34_p11 (S32 8 (I 2228235));
   Set_ c16_p07_n43 (S32 8 (I 524245));
   Set_ c16_n41_p36 (S32 8 (I (-2686940)));
   Set_ c16_p39_p02 (S32 8 (I 2555906));
   Set_ c16_n44_p19 (S32 8 (I (-2883565)));
   Set_ c16_n02_p36 (S32 8 (I (-131036)));
   Set_ c16_p45_n34 (S32 8 (I 3014622));
   Set_ c16_n15_n23 (S32 8 (I (-917527)));
   Set_ c16_n39_p43 (S32 8 (I (-2555861)));
   Set_ c16_p30_p07 (S32 8 (I 1966087));
   Set_ c16_p27_n45 (S32 8 (I 1834963));
   Set_ c16_n41_p11 (S32 8 (I (-2686965)));
   Set_ c16_n39_p15 (S32 8 (I (-2555889)));
   Set_ c16_n30_p45 (S32 8 (I (-1966035)));
   Set_ c16_p27_p02 (S32 8 (I 1769474));
   Set_ c16_p41_n44 (S32 8 (I 2752468));
   Set_ c16_n11_n19 (S32 8 (I (-655379)));
   Set_ c16_n45_p36 (S32 8 (I (-2949084)));
   Set_ c16_n07_p34 (S32 8 (I (-458718)));
   Set_ c16_p43_n23 (S32 8 (I 2883561));
   Set_ c16_n30_p11 (S32 8 (I (-1966069)));
   Set_ c16_n45_p43 (S32 8 (I (-2949077)));
   Set_ c16_n19_p36 (S32 8 (I (-1245148)));
   Set_ c16_p23_n02 (S32 8 (I 1572862));
   Set_ c16_p45_n39 (S32 8 (I 3014617));
   Set_ c16_p27_n41 (S32 8 (I 1834967));
   Set_ c16_n15_n07 (S32 8 (I (-917511)));
   Set_ c16_n44_p34 (S32 8 (I (-2883550)));
   Set_ c16_n19_p07 (S32 8 (I (-1245177)));
   Set_ c16_n39_p30 (S32 8 (I (-2555874)));
   Set_ c16_n45_p44 (S32 8 (I (-2949076)));
   Set_ c16_n36_p43 (S32 8 (I (-2359253)));
   Set_ c16_n15_p27 (S32 8 (I (-983013)));
   Set_ c16_p11_p02 (S32 8 (I 720898));
   Set_ c16_p34_n23 (S32 8 (I 2293737));
   Set_ c16_p45_n41 (S32 8 (I 3014615));
   Set_ c16_n07_p02 (S32 8 (I (-458750)));
   Set_ c16_n15_p11 (S32 8 (I (-983029)));
   Set_ c16_n23_p19 (S32 8 (I (-1507309)));
   Set_ c16_n30_p27 (S32 8 (I (-1966053)));
   Set_ c16_n36_p34 (S32 8 (I (-2359262)));
   Set_ c16_n41_p39 (S32 8 (I (-2686937)));
   Set_ c16_n44_p43 (S32 8 (I (-2883541)));
   Set_ c16_n45_p45 (S32 8 (I (-2949075)))]
  ++ [Set_ c16_p35_p40 (S32 8 (I 2293800));
   Set_ c16_p21_p29 (S32 8 (I 1376285));
   Set_ c16_p04_p13 (S32 8 (I 262157));
   Set_ c16_p29_p43 (S32 8 (I 1900587));
   Set_ c16_n21_p04 (S32 8 (I (-1376252)));
   Set_ c16_n45_n40 (S32 8 (I (-2883624)));
   Set_ c16_n13_n35 (S32 8 (I (-786467)));
   Set_ c16_p04_p40 (S32 8 (I 262184));
   Set_ c16_n43_n35 (S32 8 (I (-2752547)));
   Set_ c16_p29_n13 (S32 8 (I 1966067));
   Set_ c16_p21_p45 (S32 8 (I 1376301));
   Set_ c16_n21_p35 (S32 8 (I (-1376221)));
   Set_ c16_p04_n43 (S32 8 (I 327637));
   Set_ c16_p13_p45 (S32 8 (I 852013));
   Set_ c16_n29_n40 (S32 8 (I (-1835048)));
   Set_ c16_n40_p29 (S32 8 (I (-2621411)));
   Set_ c16_p45_n13 (S32 8 (I 3014643));
   Set_ c16_n43_n04 (S32 8 (I (-2752516)));
   Set_ c16_p35_p21 (S32 8 (I 2293781));
   Set_ c16_n45_p21 (S32 8 (I (-2949099)));
   Set_ c16_p13_p29 (S32 8 (I 851997));
   Set_ c16_p35_n43 (S32 8 (I 2359253));
   Set_ c16_n40_p04 (S32 8 (I (-2621436)));
   Set_ c16_n35_p13 (S32 8 (I (-2293747)));
   Set_ c16_n40_p45 (S32 8 (I (-2621395)));
   Set_ c16_p04_p21 (S32 8 (I 262165));
   Set_ c16_p43_n29 (S32 8 (I 2883555));
   Set_ c16_n13_p04 (S32 8 (I (-851964)));
   Set_ c16_n29_p21 (S32 8 (I (-1900523)));
   Set_ c16_n40_p35 (S32 8 (I (-2621405)));
   Set_ c16_p38_p44 (S32 8 (I 2490412));
   Set_ c16_p09_p25 (S32 8 (I 589849));
   Set_ c16_n09_p38 (S32 8 (I (-589786)));
   Set_ c16_n25_n44 (S32 8 (I (-1572908)));
   Set_ c16_n44_p25 (S32 8 (I (-2883559)));
   Set_ c16_p38_p09 (S32 8 (I 2490377));
   Set_ c16_n25_p09 (S32 8 (I (-1638391)));
   Set_ c16_n44_p38 (S32 8 (I (-2883546)));
   Set_ c16_p17_p42 (S32 8 (I 1114154));
   Set_ c16_n42_p17 (S32 8 (I (-2752495)));
   Set_ c16_p32_p32 (S32 8 (I 2097184));
   Set_ c16_n32_p32 (S32 8 (I (-2097120)));
   Set_ c32_rnd (S32 8 (Q RND2));
   SetI 0 (Q SH2);
   Set_ T_00_00A (lo16 (R m128iS1) (R m128iS3));
   Set_ T_00_00B (hi16 (R m128iS1) (R m128iS3));
   Set_ T_00_01A (lo16 (R m128iS5) (R m128iS7));
   Set_ T_00_01B (hi16 (R m128iS5) (R m128iS7));
   Set_ T_00_02A (lo16 (R (m128iS1 + 1)) (R (m128iS3 + 1)));
   Set_ T_00_02B (hi16 (R (m128iS1 + 1)) (R (m128iS3 + 1)));
   Set_ T_00_03A (lo16 (R (m128iS5 + 1)) (R (m128iS7 + 1)));
   Set_ T_00_03B (hi16 (R (m128iS5 + 1)) (R (m128iS7 + 1)));
   Set_ T_00_04A (lo16 (R (m128iS1 + 2)) (R (m128iS3 + 2)));
   Set_ T_00_04B (hi16 (R (m128iS1 + 2)) (R (m128iS3 + 2)));
   Set_ T_00_05A (lo16 (R (m128iS5 + 2)) (R (m128iS7 + 2)));
   Set_ T_00_05B (hi16 (R (m128iS5 + 2)) (R (m128iS7 + 2)));
   Set_ T_00_06A (lo16 (R (m128iS1 + 3)) (R (m128iS3 + 3)));
   Set_ T_00_06B (hi16 (R (m128iS1 + 3)) (R (m128iS3 + 3)));
   Set_ T_00_07A (lo16 (R (m128iS5 + 3)) (R (m128iS7 + 3)));
   Set_ T_00_07B (hi16 (R (m128iS5 + 3)) (R (m128iS7 + 3)));
   Set_ T_00_08A (lo16 (R m128iS2) (R m128iS6));
   Set_ T_00_08B (hi16 (R m128iS2) (R m128iS6));
   Set_ T_00_09A (lo16 (R (m128iS2 + 1)) (R (m128iS6 + 1)));
   Set_ T_00_09B (hi16 (R (m128iS2 + 1)) (R (m128iS6 + 1)))]
  ++ [Set_ T_00_10A (lo16 (R (m128iS2 + 2)) (R (m128iS6 + 2)));
   Set_ T_00_10B (hi16 (R (m128iS2 + 2)) (R (m128iS6 + 2)));
   Set_ T_00_11A (lo16 (R (m128iS2 + 3)) (R (m128iS6 + 3)));
   Set_ T_00_11B (hi16 (R (m128iS2 + 3)) (R (m128iS6 + 3)));
   Set_ T_00_12A (lo16 (R m128iS4) (R (m128iS4 + 1)));
   Set_ T_00_12B (hi16 (R m128iS4) (R (m128iS4 + 1)));
   Set_ T_00_13A (lo16 (R (m128iS4 + 2)) (R (m128iS4 + 3)));
   Set_ T_00_13B (hi16 (R (m128iS4 + 2)) (R (m128iS4 + 3)));
   Set_ T_00_14A (lo16 (R (m128iS0 + 1)) (R (m128iS0 + 3)));
   Set_ T_00_14B (hi16 (R (m128iS0 + 1)) (R (m128iS0 + 3)));
   Set_ T_00_15A (lo16 (R m128iS0) (R (m128iS0 + 2)));
   Set_ T_00_15B (hi16 (R m128iS0) (R (m128iS0 + 2)));
   Set_ T00 (add32 (madd (R T_00_00A) (R c16_p45_p45)) (madd (R T_00_01A) (R c16_p43_p44)));
   Set_ T01 (add32 (madd (R T_00_02A) (R c16_p39_p41)) (madd (R T_00_03A) (R c16_p34_p36)));
   Set_ T02 (add32 (madd (R T_00_04A) (R c16_p27_p30)) (madd (R T_00_05A) (R c16_p19_p23)));
   Set_ T03 (add32 (madd (R T_00_06A) (R c16_p11_p15)) (madd (R T_00_07A) (R c16_p02_p07)));
   Set_ O00A (add32 (add32 (R T00) (R T01)) (add32 (R T02) (R T03)));
   Set_ T00 (add32 (madd (R T_00_00A) (R c16_p41_p45)) (madd (R T_00_01A) (R c16_p23_p34)));
   Set_ T01 (add32 (madd (R T_00_02A) (R c16_n02_p11)) (madd (R T_00_03A) (R c16_n27_n15)));
   Set_ T02 (add32 (madd (R T_00_04A) (R c16_n43_n36)) (madd (R T_00_05A) (R c16_n44_n45)));
   Set_ T03 (add32 (madd (R T_00_06A) (R c16_n30_n39)) (madd (R T_00_07A) (R c16_n07_n19)));
   Set_ O01A (add32 (add32 (R T00) (R T01)) (add32 (R T02) (R T03)));
   Set_ T00 (add32 (madd (R T_00_00A) (R c16_p34_p44)) (madd (R T_00_01A) (R c16_n07_p15)));
   Set_ T01 (add32 (madd (R T_00_02A) (R c16_n41_n27)) (madd (R T_00_03A) (R c16_n39_n45)));
   Set_ T02 (add32 (madd (R T_00_04A) (R c16_n02_n23)) (madd (R T_00_05A) (R c16_p36_p19)));
   Set_ T03 (add32 (madd (R T_00_06A) (R c16_p43_p45)) (madd (R T_00_07A) (R c16_p11_p30)));
   Set_ O02A (add32 (add32 (R T00) (R T01)) (add32 (R T02) (R T03)));
   Set_ T00 (add32 (madd (R T_00_00A) (R c16_p23_p43)) (madd (R T_00_01A) (R c16_n34_n07)));
   Set_ T01 (add32 (madd (R T_00_02A) (R c16_n36_n45)) (madd (R T_00_03A) (R c16_p19_n11)));
   Set_ T02 (add32 (madd (R T_00_04A) (R c16_p44_p41)) (madd (R T_00_05A) (R c16_n02_p27)));
   Set_ T03 (add32 (madd (R T_00_06A) (R c16_n45_n30)) (madd (R T_00_07A) (R c16_n15_n39)));
   Set_ O03A (add32 (add32 (R T00) (R T01)) (add32 (R T02) (R T03)));
   Set_ T00 (add32 (madd (R T_00_00A) (R c16_p11_p41)) (madd (R T_00_01A) (R c16_n45_n27)));
   Set_ T01 (add32 (madd (R T_00_02A) (R c16_p07_n30)) (madd (R T_00_03A) (R c16_p43_p39)));
   Set_ T02 (add32 (madd (R T_00_04A) (R c16_n23_p15)) (madd (R T_00_05A) (R c16_n34_n45)));
   Set_ T03 (add32 (madd (R T_00_06A) (R c16_p36_p02)) (madd (R T_00_07A) (R c16_p19_p44)));
   Set_ O04A (add32 (add32 (R T00) (R T01)) (add32 (R T02) (R T03)));
   Set_ T00 (add32 (madd (R T_00_00A) (R c16_n02_p39)) (madd (R T_00_01A) (R c16_n36_n41)));
   Set_ T01 (add32 (madd (R T_00_02A) (R c16_p43_p07)) (madd (R T_00_03A) (R c16_n11_p34)));
   Set_ T02 (add32 (madd (R T_00_04A) (R c16_n30_n44)) (madd (R T_00_05A) (R c16_p45_p15)));
   Set_ T03 (add32 (madd (R T_00_06A) (R c16_n19_p27)) (madd (R T_00_07A) (R c16_n23_n45)));
   Set_ O05A (add32 (add32 (R T00) (R T01)) (add32 (R T02) (R T03)));
   Set_ T00 (add32 (madd (R T_00_00A) (R c16_n15_p36)) (madd (R T_00_01A) (R c16_n11_n45)));
   Set_ T01 (add32 (madd (R T_00_02A) (R c16_p34_p39)) (madd (R T_00_03A) (R c16_n45_n19)));
   Set_ T02 (add32 (madd (R T_00_04A) (R c16_p41_n07)) (madd (R T_00_05A) (R c16_n23_p30)));
   Set_ T03 (add32 (madd (R T_00_06A) (R c16_n02_n44)) (madd (R T_00_07A) (R c16_p27_p43)));
   Set_ O06A (add32 (add32 (R T00) (R T01)) (add32 (R T02) (R T03)));
   Set_ T00 (add32 (madd (R T_00_00A) (R c16_n27_p34)) (madd (R T_00_01A) (R c16_p19_n39)));
   Set_ T01 (add32 (madd (R T_00_02A) (R c16_n11_p43)) (madd (R T_00_03A) (R c16_p02_n45)));
   Set_ T02 (add32 (madd (R T_00_04A) (R c16_p07_p45)) (madd (R T_00_05A) (R c16_n15_n44)));
   Set_ T03 (add32 (madd (R T_00_06A) (R c16_p23_p41)) (madd (R T_00_07A) (R c16_n30_n36)));
   Set_ O07A (add32 (add32 (R T00) (R T01)) (add32 (R T02) (R T03)));
   Set_ T00 (add32 (madd (R T_00_00A) (R c16_n36_p30)) (madd (R T_00_01A) (R c16_p41_n23)));
   Set_ T01 (add32 (madd (R T_00_02A) (R c16_n44_p15)) (madd (R T_00_03A) (R c16_p45_n07)));
   Set_ T02 (add32 (madd (R T_00_04A) (R c16_n45_n02)) (madd (R T_00_05A) (R c16_p43_p11)));
   Set_ T03 (add32 (madd (R T_00_06A) (R c16_n39_n19)) (madd (R T_00_07A) (R c16_p34_p27)));
   Set_ O08A (add32 (add32 (R T00) (R T01)) (add32 (R T02) (R T03)));
   Set_ T00 (add32 (madd (R T_00_00A) (R c16_n43_p27)) (madd (R T_00_01A) (R c16_p44_n02)));
   Set_ T01 (add32 (madd (R T_00_02A) (R c16_n30_n23)) (madd (R T_00_03A) (R c16_p07_p41)));
   Set_ T02 (add32 (madd (R T_00_04A) (R c16_p19_n45)) (madd (R T_00_05A) (R c16_n39_p34)));
   Set_ T03 (add32 (madd (R T_00_06A) (R c16_p45_n11)) (madd (R T_00_07A) (R c16_n36_n15)));
   Set_ O09A (add32 (add32 (R T00) (R T01)) (add32 (R T02) (R T03)));
   Set_ T00 (add32 (madd (R T_00_00A) (R c16_n45_p23)) (madd (R T_00_01A) (R c16_p27_p19)));
   Set_ T01 (add32 (madd (R T_00_02A) (R c16_p15_n45)) (madd (R T_00_03A) (R c16_n44_p30)))]
  ++ [Set_ T02 (add32 (madd (R T_00_04A) (R c16_p34_p11)) (madd (R T_00_05A) (R c16_p07_n43)));
   Set_ T03 (add32 (madd (R T_00_06A) (R c16_n41_p36)) (madd (R T_00_07A) (R c16_p39_p02)));
   Set_ O10A (add32 (add32 (R T00) (R T01)) (add32 (R T02) (R T03)));
   Set_ T00 (add32 (madd (R T_00_00A) (R c16_n44_p19)) (madd (R T_00_01A) (R c16_n02_p36)));
   Set_ T01 (add32 (madd (R T_00_02A) (R c16_p45_n34)) (madd (R T_00_03A) (R c16_n15_n23)));
   Set_ T02 (add32 (madd (R T_00_04A) (R c16_n39_p43)) (madd (R T_00_05A) (R c16_p30_p07)));
   Set_ T03 (add32 (madd (R T_00_06A) (R c16_p27_n45)) (madd (R T_00_07A) (R c16_n41_p11)));
   Set_ O11A (add32 (add32 (R T00) (R T01)) (add32 (R T02) (R T03)));
   Set_ T00 (add32 (madd (R T_00_00A) (R c16_n39_p15)) (madd (R T_00_01A) (R c16_n30_p45)));
   Set_ T01 (add32 (madd (R T_00_02A) (R c16_p27_p02)) (madd (R T_00_03A) (R c16_p41_n44)));
   Set_ T02 (add32 (madd (R T_00_04A) (R c16_n11_n19)) (madd (R T_00_05A) (R c16_n45_p36)));
   Set_ T03 (add32 (madd (R T_00_06A) (R c16_n07_p34)) (madd (R T_00_07A) (R c16_p43_n23)));
   Set_ O12A (add32 (add32 (R T00) (R T01)) (add32 (R T02) (R T03)));
   Set_ T00 (add32 (madd (R T_00_00A) (R c16_n30_p11)) (madd (R T_00_01A) (R c16_n45_p43)));
   Set_ T01 (add32 (madd (R T_00_02A) (R c16_n19_p36)) (madd (R T_00_03A) (R c16_p23_n02)));
   Set_ T02 (add32 (madd (R T_00_04A) (R c16_p45_n39)) (madd (R T_00_05A) (R c16_p27_n41)));
   Set_ T03 (add32 (madd (R T_00_06A) (R c16_n15_n07)) (madd (R T_00_07A) (R c16_n44_p34)));
   Set_ O13A (add32 (add32 (R T00) (R T01)) (add32 (R T02) (R T03)));
   Set_ T00 (add32 (madd (R T_00_00A) (R c16_n19_p07)) (madd (R T_00_01A) (R c16_n39_p30)));
   Set_ T01 (add32 (madd (R T_00_02A) (R c16_n45_p44)) (madd (R T_00_03A) (R c16_n36_p43)));
   Set_ T02 (add32 (madd (R T_00_04A) (R c16_n15_p27)) (madd (R T_00_05A) (R c16_p11_p02)));
   Set_ T03 (add32 (madd (R T_00_06A) (R c16_p34_n23)) (madd (R T_00_07A) (R c16_p45_n41)));
   Set_ O14A (add32 (add32 (R T00) (R T01)) (add32 (R T02) (R T03)));
   Set_ T00 (add32 (madd (R T_00_00A) (R c16_n07_p02)) (madd (R T_00_01A) (R c16_n15_p11)));
   Set_ T01 (add32 (madd (R T_00_02A) (R c16_n23_p19)) (madd (R T_00_03A) (R c16_n30_p27)));
   Set_ T02 (add32 (madd (R T_00_04A) (R c16_n36_p34)) (madd (R T_00_05A) (R c16_n41_p39)));
   Set_ T03 (add32 (madd (R T_00_06A) (R c16_n44_p43)) (madd (R T_00_07A) (R c16_n45_p45)));
   Set_ O15A (add32 (add32 (R T00) (R T01)) (add32 (R T02) (R T03)));
   Set_ T00 (add32 (madd (R T_00_00B) (R c16_p45_p45)) (madd (R T_00_01B) (R c16_p43_p44)));
   Set_ T01 (add32 (madd (R T_00_02B) (R c16_p39_p41)) (madd (R T_00_03B) (R c16_p34_p36)));
   Set_ T02 (add32 (madd (R T_00_04B) (R c16_p27_p30)) (madd (R T_00_05B) (R c16_p19_p23)));
   Set_ T03 (add32 (madd (R T_00_06B) (R c16_p11_p15)) (madd (R T_00_07B) (R c16_p02_p07)));
   Set_ O00B (add32 (add32 (R T00) (R T01)) (add32 (R T02) (R T03)));
   Set_ T00 (add32 (madd (R T_00_00B) (R c16_p41_p45)) (madd (R T_00_01B) (R c16_p23_p34)));
   Set_ T01 (add32 (madd (R T_00_02B) (R c16_n02_p11)) (madd (R T_00_03B) (R c16_n27_n15)));
   Set_ T02 (add32 (madd (R T_00_04B) (R c16_n43_n36)) (madd (R T_00_05B) (R c16_n44_n45)));
   Set_ T03 (add32 (madd (R T_00_06B) (R c16_n30_n39)) (madd (R T_00_07B) (R c16_n07_n19)));
   Set_ O01B (add32 (add32 (R T00) (R T01)) (add32 (R T02) (R T03)));
   Set_ T00 (add32 (madd (R T_00_00B) (R c16_p34_p44)) (madd (R T_00_01B) (R c16_n07_p15)));
   Set_ T01 (add32 (madd (R T_00_02B) (R c16_n41_n27)) (madd (R T_00_03B) (R c16_n39_n45)));
   Set_ T02 (add32 (madd (R T_00_04B) (R c16_n02_n23)) (madd (R T_00_05B) (R c16_p36_p19)));
   Set_ T03 (add32 (madd (R T_00_06B) (R c16_p43_p45)) (madd (R T_00_07B) (R c16_p11_p30)));
   Set_ O02B (add32 (add32 (R T00) (R T01)) (add32 (R T02) (R T03)));
   Set_ T00 (add32 (madd (R T_00_00B) (R c16_p23_p43)) (madd (R T_00_01B) (R c16_n34_n07)));
   Set_ T01 (add32 (madd (R T_00_02B) (R c16_n36_n45)) (madd (R T_00_03B) (R c16_p19_n11)));
   Set_ T02 (add32 (madd (R T_00_04B) (R c16_p44_p41)) (madd (R T_00_05B) (R c16_n02_p27)));
   Set_ T03 (add32 (madd (R T_00_06B) (R c16_n45_n30)) (madd (R T_00_07B) (R c16_n15_n39)));
   Set_ O03B (add32 (add32 (R T00) (R T01)) (add32 (R T02) (R T03)));
   Set_ T00 (add32 (madd (R T_00_00B) (R c16_p11_p41)) (madd (R T_00_01B) (R c16_n45_n27)));
   Set_ T01 (add32 (madd (R T_00_02B) (R c16_p07_n30)) (madd (R T_00_03B) (R c16_p43_p39)));
   Set_ T02 (add32 (madd (R T_00_04B) (R c16_n23_p15)) (madd (R T_00_05B) (R c16_n34_n45)));
   Set_ T03 (add32 (madd (R T_00_06B) (R c16_p36_p02)) (madd (R T_00_07B) (R c16_p19_p44)));
   Set_ O04B (add32 (add32 (R T00) (R T01)) (add32 (R T02) (R T03)));
   Set_ T00 (add32 (madd (R T_00_00B) (R c16_n02_p39)) (madd (R T_00_01B) (R c16_n36_n41)));
   Set_ T01 (add32 (madd (R T_00_02B) (R c16_p43_p07)) (madd (R T_00_03B) (R c16_n11_p34)));
   Set_ T02 (add32 (madd (R T_00_04B) (R c16_n30_n44)) (madd (R T_00_05B) (R c16_p45_p15)));
   Set_ T03 (add32 (madd (R T_00_06B) (R c16_n19_p27)) (madd (R T_00_07B) (R c16_n23_n45)));
   Set_ O05B (add32 (add32 (R T00) (R T01)) (add32 (R T02) (R T03)));
   Set_ T00 (add32 (madd (R T_00_00B) (R c16_n15_p36)) (madd (R T_00_01B) (R c16_n11_n45)));
   Set_ T01 (add32 (madd (R T_00_02B) (R c16_p34_p39)) (madd (R T_00_03B) (R c16_n45_n19)));
   Set_ T02 (add32 (madd (R T_00_04B) (R c16_p41_n07)) (madd (R T_00_05B) (R c16_n23_p30)));
   Set_ T03 (add32 (madd (R T_00_06B) (R c16_n02_n44)) (madd (R T_00_07B) (R c16_p27_p43)));
   Set_ O06B (add32 (add32 (R T00) (R T01)) (add32 (R T02) (R T03)));
   Set_ T00 (add32 (madd (R T_00_00B) (R c16_n27_p34)) (madd (R T_00_01B) (R c16_p19_n39)))]
  ++ [Set_ T01 (add32 (madd (R T_00_02B) (R c16_n11_p43)) (madd (R T_00_03B) (R c16_p02_n45)));
   Set_ T02 (add32 (madd (R T_00_04B) (R c16_p07_p45)) (madd (R T_00_05B) (R c16_n15_n44)));
   Set_ T03 (add32 (madd (R T_00_06B) (R c16_p23_p41)) (madd (R T_00_07B) (R c16_n30_n36)));
   Set_ O07B (add32 (add32 (R T00) (R T01)) (add32 (R T02) (R T03)));
   Set_ T00 (add32 (madd (R T_00_00B) (R c16_n36_p30)) (madd (R T_00_01B) (R c16_p41_n23)));
   Set_ T01 (add32 (madd (R T_00_02B) (R c16_n44_p15)) (madd (R T_00_03B) (R c16_p45_n07)));
   Set_ T02 (add32 (madd (R T_00_04B) (R c16_n45_n02)) (madd (R T_00_05B) (R c16_p43_p11)));
   Set_ T03 (add32 (madd (R T_00_06B) (R c16_n39_n19)) (madd (R T_00_07B) (R c16_p34_p27)));
   Set_ O08B (add32 (add32 (R T00) (R T01)) (add32 (R T02) (R T03)));
   Set_ T00 (add32 (madd (R T_00_00B) (R c16_n43_p27)) (madd (R T_00_01B) (R c16_p44_n02)));
   Set_ T01 (add32 (madd (R T_00_02B) (R c16_n30_n23)) (madd (R T_00_03B) (R c16_p07_p41)));
   Set_ T02 (add32 (madd (R T_00_04B) (R c16_p19_n45)) (madd (R T_00_05B) (R c16_n39_p34)));
   Set_ T03 (add32 (madd (R T_00_06B) (R c16_p45_n11)) (madd (R T_00_07B) (R c16_n36_n15)));
   Set_ O09B (add32 (add32 (R T00) (R T01)) (add32 (R T02) (R T03)));
   Set_ T00 (add32 (madd (R T_00_00B) (R c16_n45_p23)) (madd (R T_00_01B) (R c16_p27_p19)));
   Set_ T01 (add32 (madd (R T_00_02B) (R c16_p15_n45)) (madd (R T_00_03B) (R c16_n44_p30)));
   Set_ T02 (add32 (madd (R T_00_04B) (R c16_p34_p11)) (madd (R T_00_05B) (R c16_p07_n43)));
   Set_ T03 (add32 (madd (R T_00_06B) (R c16_n41_p36)) (madd (R T_00_07B) (R c16_p39_p02)));
   Set_ O10B (add32 (add32 (R T00) (R T01)) (add32 (R T02) (R T03)));
   Set_ T00 (add32 (madd (R T_00_00B) (R c16_n44_p19)) (madd (R T_00_01B) (R c16_n02_p36)));
   Set_ T01 (add32 (madd (R T_00_02B) (R c16_p45_n34)) (madd (R T_00_03B) (R c16_n15_n23)));
   Set_ T02 (add32 (madd (R T_00_04B) (R c16_n39_p43)) (madd (R T_00_05B) (R c16_p30_p07)));
   Set_ T03 (add32 (madd (R T_00_06B) (R c16_p27_n45)) (madd (R T_00_07B) (R c16_n41_p11)));
   Set_ O11B (add32 (add32 (R T00) (R T01)) (add32 (R T02) (R T03)));
   Set_ T00 (add32 (madd (R T_00_00B) (R c16_n39_p15)) (madd (R T_00_01B) (R c16_n30_p45)));
   Set_ T01 (add32 (madd (R T_00_02B) (R c16_p27_p02)) (madd (R T_00_03B) (R c16_p41_n44)));
   Set_ T02 (add32 (madd (R T_00_04B) (R c16_n11_n19)) (madd (R T_00_05B) (R c16_n45_p36)));
   Set_ T03 (add32 (madd (R T_00_06B) (R c16_n07_p34)) (madd (R T_00_07B) (R c16_p43_n23)));
   Set_ O12B (add32 (add32 (R T00) (R T01)) (add32 (R T02) (R T03)));
   Set_ T00 (add32 (madd (R T_00_00B) (R c16_n30_p11)) (madd (R T_00_01B) (R c16_n45_p43)));
   Set_ T01 (add32 (madd (R T_00_02B) (R c16_n19_p36)) (madd (R T_00_03B) (R c16_p23_n02)));
   Set_ T02 (add32 (madd (R T_00_04B) (R c16_p45_n39)) (madd (R T_00_05B) (R c16_p27_n41)));
   Set_ T03 (add32 (madd (R T_00_06B) (R c16_n15_n07)) (madd (R T_00_07B) (R c16_n44_p34)));
   Set_ O13B (add32 (add32 (R T00) (R T01)) (add32 (R T02) (R T03)));
   Set_ T00 (add32 (madd (R T_00_00B) (R c16_n19_p07)) (madd (R T_00_01B) (R c16_n39_p30)));
   Set_ T01 (add32 (madd (R T_00_02B) (R c16_n45_p44)) (madd (R T_00_03B) (R c16_n36_p43)));
   Set_ T02 (add32 (madd (R T_00_04B) (R c16_n15_p27)) (madd (R T_00_05B) (R c16_p11_p02)));
   Set_ T03 (add32 (madd (R T_00_06B) (R c16_p34_n23)) (madd (R T_00_07B) (R c16_p45_n41)));
   Set_ O14B (add32 (add32 (R T00) (R T01)) (add32 (R T02) (R T03)));
   Set_ T00 (add32 (madd (R T_00_00B) (R c16_n07_p02)) (madd (R T_00_01B) (R c16_n15_p11)));
   Set_ T01 (add32 (madd (R T_00_02B) (R c16_n23_p19)) (madd (R T_00_03B) (R c16_n30_p27)));
   Set_ T02 (add32 (madd (R T_00_04B) (R c16_n36_p34)) (madd (R T_00_05B) (R c16_n41_p39)));
   Set_ T03 (add32 (madd (R T_00_06B) (R c16_n44_p43)) (madd (R T_00_07B) (R c16_n45_p45)));
   Set_ O15B (add32 (add32 (R T00) (R T01)) (add32 (R T02) (R T03)));
   Set_ T00 (add32 (madd (R T_00_08A) (R c16_p43_p45)) (madd (R T_00_09A) (R c16_p35_p40)));
   Set_ T01 (add32 (madd (R T_00_10A) (R c16_p21_p29)) (madd (R T_00_11A) (R c16_p04_p13)));
   Set_ EO0A (add32 (R T00) (R T01));
   Set_ T00 (add32 (madd (R T_00_08A) (R c16_p29_p43)) (madd (R T_00_09A) (R c16_n21_p04)));
   Set_ T01 (add32 (madd (R T_00_10A) (R c16_n45_n40)) (madd (R T_00_11A) (R c16_n13_n35)));
   Set_ EO1A (add32 (R T00) (R T01));
   Set_ T00 (add32 (madd (R T_00_08A) (R c16_p04_p40)) (madd (R T_00_09A) (R c16_n43_n35)));
   Set_ T01 (add32 (madd (R T_00_10A) (R c16_p29_n13)) (madd (R T_00_11A) (R c16_p21_p45)));
   Set_ EO2A (add32 (R T00) (R T01));
   Set_ T00 (add32 (madd (R T_00_08A) (R c16_n21_p35)) (madd (R T_00_09A) (R c16_p04_n43)));
   Set_ T01 (add32 (madd (R T_00_10A) (R c16_p13_p45)) (madd (R T_00_11A) (R c16_n29_n40)));
   Set_ EO3A (add32 (R T00) (R T01));
   Set_ T00 (add32 (madd (R T_00_08A) (R c16_n40_p29)) (madd (R T_00_09A) (R c16_p45_n13)));
   Set_ T01 (add32 (madd (R T_00_10A) (R c16_n43_n04)) (madd (R T_00_11A) (R c16_p35_p21)));
   Set_ EO4A (add32 (R T00) (R T01));
   Set_ T00 (add32 (madd (R T_00_08A) (R c16_n45_p21)) (madd (R T_00_09A) (R c16_p13_p29)));
   Set_ T01 (add32 (madd (R T_00_10A) (R c16_p35_n43)) (madd (R T_00_11A) (R c16_n40_p04)));
   Set_ EO5A (add32 (R T00) (R T01));
   Set_ T00 (add32 (madd (R T_00_08A) (R c16_n35_p13)) (madd (R T_00_09A) (R c16_n40_p45)));
   Set_ T01 (add32 (madd (R T_00_10A) (R c16_p04_p21)) (madd (R T_00_11A) (R c16_p43_n29)))]
  ++ [Set_ EO6A (add32 (R T00) (R T01));
   Set_ T00 (add32 (madd (R T_00_08A) (R c16_n13_p04)) (madd (R T_00_09A) (R c16_n29_p21)));
   Set_ T01 (add32 (madd (R T_00_10A) (R c16_n40_p35)) (madd (R T_00_11A) (R c16_n45_p43)));
   Set_ EO7A (add32 (R T00) (R T01));
   Set_ T00 (add32 (madd (R T_00_08B) (R c16_p43_p45)) (madd (R T_00_09B) (R c16_p35_p40)));
   Set_ T01 (add32 (madd (R T_00_10B) (R c16_p21_p29)) (madd (R T_00_11B) (R c16_p04_p13)));
   Set_ EO0B (add32 (R T00) (R T01));
   Set_ T00 (add32 (madd (R T_00_08B) (R c16_p29_p43)) (madd (R T_00_09B) (R c16_n21_p04)));
   Set_ T01 (add32 (madd (R T_00_10B) (R c16_n45_n40)) (madd (R T_00_11B) (R c16_n13_n35)));
   Set_ EO1B (add32 (R T00) (R T01));
   Set_ T00 (add32 (madd (R T_00_08B) (R c16_p04_p40)) (madd (R T_00_09B) (R c16_n43_n35)));
   Set_ T01 (add32 (madd (R T_00_10B) (R c16_p29_n13)) (madd (R T_00_11B) (R c16_p21_p45)));
   Set_ EO2B (add32 (R T00) (R T01));
   Set_ T00 (add32 (madd (R T_00_08B) (R c16_n21_p35)) (madd (R T_00_09B) (R c16_p04_n43)));
   Set_ T01 (add32 (madd (R T_00_10B) (R c16_p13_p45)) (madd (R T_00_11B) (R c16_n29_n40)));
   Set_ EO3B (add32 (R T00) (R T01));
   Set_ T00 (add32 (madd (R T_00_08B) (R c16_n40_p29)) (madd (R T_00_09B) (R c16_p45_n13)));
   Set_ T01 (add32 (madd (R T_00_10B) (R c16_n43_n04)) (madd (R T_00_11B) (R c16_p35_p21)));
   Set_ EO4B (add32 (R T00) (R T01));
   Set_ T00 (add32 (madd (R T_00_08B) (R c16_n45_p21)) (madd (R T_00_09B) (R c16_p13_p29)));
   Set_ T01 (add32 (madd (R T_00_10B) (R c16_p35_n43)) (madd (R T_00_11B) (R c16_n40_p04)));
   Set_ EO5B (add32 (R T00) (R T01));
   Set_ T00 (add32 (madd (R T_00_08B) (R c16_n35_p13)) (madd (R T_00_09B) (R c16_n40_p45)));
   Set_ T01 (add32 (madd (R T_00_10B) (R c16_p04_p21)) (madd (R T_00_11B) (R c16_p43_n29)));
   Set_ EO6B (add32 (R T00) (R T01));
   Set_ T00 (add32 (madd (R T_00_08B) (R c16_n13_p04)) (madd (R T_00_09B) (R c16_n29_p21)));
   Set_ T01 (add32 (madd (R T_00_10B) (R c16_n40_p35)) (madd (R T_00_11B) (R c16_n45_p43)));
   Set_ EO7B (add32 (R T00) (R T01));
   Set_ EEO0A (add32 (madd (R T_00_12A) (R c16_p38_p44)) (madd (R T_00_13A) (R c16_p09_p25)));
   Set_ EEO1A (add32 (madd (R T_00_12A) (R c16_n09_p38)) (madd (R T_00_13A) (R c16_n25_n44)));
   Set_ EEO2A (add32 (madd (R T_00_12A) (R c16_n44_p25)) (madd (R T_00_13A) (R c16_p38_p09)));
   Set_ EEO3A (add32 (madd (R T_00_12A) (R c16_n25_p09)) (madd (R T_00_13A) (R c16_n44_p38)));
   Set_ EEO0B (add32 (madd (R T_00_12B) (R c16_p38_p44)) (madd (R T_00_13B) (R c16_p09_p25)));
   Set_ EEO1B (add32 (madd (R T_00_12B) (R c16_n09_p38)) (madd (R T_00_13B) (R c16_n25_n44)));
   Set_ EEO2B (add32 (madd (R T_00_12B) (R c16_n44_p25)) (madd (R T_00_13B) (R c16_p38_p09)));
   Set_ EEO3B (add32 (madd (R T_00_12B) (R c16_n25_p09)) (madd (R T_00_13B) (R c16_n44_p38)));
   Set_ EEEO0A (madd (R T_00_14A) (R c16_p17_p42));
   Set_ EEEO0B (madd (R T_00_14B) (R c16_p17_p42));
   Set_ EEEO1A (madd (R T_00_14A) (R c16_n42_p17));
   Set_ EEEO1B (madd (R T_00_14B) (R c16_n42_p17));
   Set_ EEEE0A (madd (R T_00_15A) (R c16_p32_p32));
   Set_ EEEE0B (madd (R T_00_15B) (R c16_p32_p32));
   Set_ EEEE1A (madd (R T_00_15A) (R c16_n32_p32));
   Set_ EEEE1B (madd (R T_00_15B) (R c16_n32_p32));
   Set_ EEE0A (add32 (R EEEE0A) (R EEEO0A));
   Set_ EEE0B (add32 (R EEEE0B) (R EEEO0B));
   Set_ EEE1A (add32 (R EEEE1A) (R EEEO1A));
   Set_ EEE1B (add32 (R EEEE1B) (R EEEO1B));
   Set_ EEE3A (sub32 (R EEEE0A) (R EEEO0A));
   Set_ EEE3B (sub32 (R EEEE0B) (R EEEO0B));
   Set_ EEE2A (sub32 (R EEEE1A) (R EEEO1A));
   Set_ EEE2B (sub32 (R EEEE1B) (R EEEO1B));
   Set_ EE0A (add32 (R EEE0A) (R EEO0A));
   Set_ EE0B (add32 (R EEE0B) (R EEO0B));
   Set_ EE1A (add32 (R EEE1A) (R EEO1A));
   Set_ EE1B (add32 (R EEE1B) (R EEO1B));
   Set_ EE2A (add32 (R EEE2A) (R EEO2A));
   Set_ EE2B (add32 (R EEE2B) (R EEO2B));
   Set_ EE3A (add32 (R EEE3A) (R EEO3A));
   Set_ EE3B (add32 (R EEE3B) (R EEO3B));
   Set_ EE7A (sub32 (R EEE0A) (R EEO0A));
   Set_ EE7B (sub32 (R EEE0B) (R EEO0B));
   Set_ EE6A (sub32 (R EEE1A) (R EEO1A));
   Set_ EE6B (sub32 (R EEE1B) (R EEO1B))]
  ++ [Set_ EE5A (sub32 (R EEE2A) (R EEO2A));
   Set_ EE5B (sub32 (R EEE2B) (R EEO2B));
   Set_ EE4A (sub32 (R EEE3A) (R EEO3A));
   Set_ EE4B (sub32 (R EEE3B) (R EEO3B));
   Set_ E0A (add32 (R EE0A) (R EO0A));
   Set_ E0B (add32 (R EE0B) (R EO0B));
   Set_ E1A (add32 (R EE1A) (R EO1A));
   Set_ E1B (add32 (R EE1B) (R EO1B));
   Set_ E2A (add32 (R EE2A) (R EO2A));
   Set_ E2B (add32 (R EE2B) (R EO2B));
   Set_ E3A (add32 (R EE3A) (R EO3A));
   Set_ E3B (add32 (R EE3B) (R EO3B));
   Set_ E4A (add32 (R EE4A) (R EO4A));
   Set_ E4B (add32 (R EE4B) (R EO4B));
   Set_ E5A (add32 (R EE5A) (R EO5A));
   Set_ E5B (add32 (R EE5B) (R EO5B));
   Set_ E6A (add32 (R EE6A) (R EO6A));
   Set_ E6B (add32 (R EE6B) (R EO6B));
   Set_ E7A (add32 (R EE7A) (R EO7A));
   Set_ E7B (add32 (R EE7B) (R EO7B));
   Set_ EFA (sub32 (R EE0A) (R EO0A));
   Set_ EFB (sub32 (R EE0B) (R EO0B));
   Set_ EEA (sub32 (R EE1A) (R EO1A));
   Set_ EEB (sub32 (R EE1B) (R EO1B));
   Set_ EDA (sub32 (R EE2A) (R EO2A));
   Set_ EDB (sub32 (R EE2B) (R EO2B));
   Set_ ECA (sub32 (R EE3A) (R EO3A));
   Set_ ECB (sub32 (R EE3B) (R EO3B));
   Set_ EBA (sub32 (R EE4A) (R EO4A));
   Set_ EBB (sub32 (R EE4B) (R EO4B));
   Set_ EAA (sub32 (R EE5A) (R EO5A));
   Set_ EAB (sub32 (R EE5B) (R EO5B));
   Set_ E9A (sub32 (R EE6A) (R EO6A));
   Set_ E9B (sub32 (R EE6B) (R EO6B));
   Set_ E8A (sub32 (R EE7A) (R EO7A));
   Set_ E8B (sub32 (R EE7B) (R EO7B));
   Set_ T10A (add32 (R E0A) (R c32_rnd));
   Set_ T10B (add32 (R E0B) (R c32_rnd));
   Set_ T11A (add32 (R E1A) (R c32_rnd));
   Set_ T11B (add32 (R E1B) (R c32_rnd));
   Set_ T12A (add32 (R E2A) (R c32_rnd));
   Set_ T12B (add32 (R E2B) (R c32_rnd));
   Set_ T13A (add32 (R E3A) (R c32_rnd));
   Set_ T13B (add32 (R E3B) (R c32_rnd));
   Set_ T14A (add32 (R E4A) (R c32_rnd));
   Set_ T14B (add32 (R E4B) (R c32_rnd));
   Set_ T15A (add32 (R E5A) (R c32_rnd));
   Set_ T15B (add32 (R E5B) (R c32_rnd));
   Set_ T16A (add32 (R E6A) (R c32_rnd));
   Set_ T16B (add32 (R E6B) (R c32_rnd));
   Set_ T17A (add32 (R E7A) (R c32_rnd));
   Set_ T17B (add32 (R E7B) (R c32_rnd));
   Set_ T18A (add32 (R E8A) (R c32_rnd));
   Set_ T18B (add32 (R E8B) (R c32_rnd));
   Set_ T19A (add32 (R E9A) (R c32_rnd));
   Set_ T19B (add32 (R E9B) (R c32_rnd));
   Set_ T1AA (add32 (R EAA) (R c32_rnd));
   Set_ T1AB (add32 (R EAB) (R c32_rnd));
   Set_ T1BA (add32 (R EBA) (R c32_rnd));
   Set_ T1BB (add32 (R EBB) (R c32_rnd));
   Set_ T1CA (add32 (R ECA) (R c32_rnd));
   Set_ T1CB (add32 (R ECB) (R c32_rnd));
   Set_ T1DA (add32 (R EDA) (R c32_rnd));
   Set_ T1DB (add32 (R EDB) (R c32_rnd))]
  ++ [Set_ T1EA (add32 (R EEA) (R c32_rnd));
   Set_ T1EB (add32 (R EEB) (R c32_rnd));
   Set_ T1FA (add32 (R EFA) (R c32_rnd));
   Set_ T1FB (add32 (R EFB) (R c32_rnd));
   Set_ T2_00A (add32 (R T10A) (R O00A));
   Set_ T2_00B (add32 (R T10B) (R O00B));
   Set_ T2_01A (add32 (R T11A) (R O01A));
   Set_ T2_01B (add32 (R T11B) (R O01B));
   Set_ T2_02A (add32 (R T12A) (R O02A));
   Set_ T2_02B (add32 (R T12B) (R O02B));
   Set_ T2_03A (add32 (R T13A) (R O03A));
   Set_ T2_03B (add32 (R T13B) (R O03B));
   Set_ T2_04A (add32 (R T14A) (R O04A));
   Set_ T2_04B (add32 (R T14B) (R O04B));
   Set_ T2_05A (add32 (R T15A) (R O05A));
   Set_ T2_05B (add32 (R T15B) (R O05B));
   Set_ T2_06A (add32 (R T16A) (R O06A));
   Set_ T2_06B (add32 (R T16B) (R O06B));
   Set_ T2_07A (add32 (R T17A) (R O07A));
   Set_ T2_07B (add32 (R T17B) (R O07B));
   Set_ T2_08A (add32 (R T18A) (R O08A));
   Set_ T2_08B (add32 (R T18B) (R O08B));
   Set_ T2_09A (add32 (R T19A) (R O09A));
   Set_ T2_09B (add32 (R T19B) (R O09B));
   Set_ T2_10A (add32 (R T1AA) (R O10A));
   Set_ T2_10B (add32 (R T1AB) (R O10B));
   Set_ T2_11A (add32 (R T1BA) (R O11A));
   Set_ T2_11B (add32 (R T1BB) (R O11B));
   Set_ T2_12A (add32 (R T1CA) (R O12A));
   Set_ T2_12B (add32 (R T1CB) (R O12B));
   Set_ T2_13A (add32 (R T1DA) (R O13A));
   Set_ T2_13B (add32 (R T1DB) (R O13B));
   Set_ T2_14A (add32 (R T1EA) (R O14A));
   Set_ T2_14B (add32 (R T1EB) (R O14B));
   Set_ T2_15A (add32 (R T1FA) (R O15A));
   Set_ T2_15B (add32 (R T1FB) (R O15B));
   Set_ T2_31A (sub32 (R T10A) (R O00A));
   Set_ T2_31B (sub32 (R T10B) (R O00B));
   Set_ T2_30A (sub32 (R T11A) (R O01A));
   Set_ T2_30B (sub32 (R T11B) (R O01B));
   Set_ T2_29A (sub32 (R T12A) (R O02A));
   Set_ T2_29B (sub32 (R T12B) (R O02B));
   Set_ T2_28A (sub32 (R T13A) (R O03A));
   Set_ T2_28B (sub32 (R T13B) (R O03B));
   Set_ T2_27A (sub32 (R T14A) (R O04A));
   Set_ T2_27B (sub32 (R T14B) (R O04B));
   Set_ T2_26A (sub32 (R T15A) (R O05A));
   Set_ T2_26B (sub32 (R T15B) (R O05B));
   Set_ T2_25A (sub32 (R T16A) (R O06A));
   Set_ T2_25B (sub32 (R T16B) (R O06B));
   Set_ T2_24A (sub32 (R T17A) (R O07A));
   Set_ T2_24B (sub32 (R T17B) (R O07B));
   Set_ T2_23A (sub32 (R T18A) (R O08A));
   Set_ T2_23B (sub32 (R T18B) (R O08B));
   Set_ T2_22A (sub32 (R T19A) (R O09A));
   Set_ T2_22B (sub32 (R T19B) (R O09B));
   Set_ T2_21A (sub32 (R T1AA) (R O10A));
   Set_ T2_21B (sub32 (R T1AB) (R O10B));
   Set_ T2_20A (sub32 (R T1BA) (R O11A));
   Set_ T2_20B (sub32 (R T1BB) (R O11B));
   Set_ T2_19A (sub32 (R T1CA) (R O12A));
   Set_ T2_19B (sub32 (R T1CB) (R O12B));
   Set_ T2_18A (sub32 (R T1DA) (R O13A));
   Set_ T2_18B (sub32 (R T1DB) (R O13B))]
  ++ [Set_ T2_17A (sub32 (R T1EA) (R O14A));
   Set_ T2_17B (sub32 (R T1EB) (R O14B));
   Set_ T2_16A (sub32 (R T1FA) (R O15A));
   Set_ T2_16B (sub32 (R T1FB) (R O15B));
   Set_ T3_00A (Sra32 (R T2_00A) (X 0));
   Set_ T3_00B (Sra32 (R T2_00B) (X 0));
   Set_ T3_01A (Sra32 (R T2_01A) (X 0));
   Set_ T3_01B (Sra32 (R T2_01B) (X 0));
   Set_ T3_02A (Sra32 (R T2_02A) (X 0));
   Set_ T3_02B (Sra32 (R T2_02B) (X 0));
   Set_ T3_03A (Sra32 (R T2_03A) (X 0));
   Set_ T3_03B (Sra32 (R T2_03B) (X 0));
   Set_ T3_04A (Sra32 (R T2_04A) (X 0));
   Set_ T3_04B (Sra32 (R T2_04B) (X 0));
   Set_ T3_05A (Sra32 (R T2_05A) (X 0));
   Set_ T3_05B (Sra32 (R T2_05B) (X 0));
   Set_ T3_06A (Sra32 (R T2_06A) (X 0));
   Set_ T3_06B (Sra32 (R T2_06B) (X 0));
   Set_ T3_07A (Sra32 (R T2_07A) (X 0));
   Set_ T3_07B (Sra32 (R T2_07B) (X 0));
   Set_ T3_08A (Sra32 (R T2_08A) (X 0));
   Set_ T3_08B (Sra32 (R T2_08B) (X 0));
   Set_ T3_09A (Sra32 (R T2_09A) (X 0));
   Set_ T3_09B (Sra32 (R T2_09B) (X 0));
   Set_ T3_10A (Sra32 (R T2_10A) (X 0));
   Set_ T3_10B (Sra32 (R T2_10B) (X 0));
   Set_ T3_11A (Sra32 (R T2_11A) (X 0));
   Set_ T3_11B (Sra32 (R T2_11B) (X 0));
   Set_ T3_12A (Sra32 (R T2_12A) (X 0));
   Set_ T3_12B (Sra32 (R T2_12B) (X 0));
   Set_ T3_13A (Sra32 (R T2_13A) (X 0));
   Set_ T3_13B (Sra32 (R T2_13B) (X 0));
   Set_ T3_14A (Sra32 (R T2_14A) (X 0));
   Set_ T3_14B (Sra32 (R T2_14B) (X 0));
   Set_ T3_15A (Sra32 (R T2_15A) (X 0));
   Set_ T3_15B (Sra32 (R T2_15B) (X 0));
   Set_ T3_16A (Sra32 (R T2_16A) (X 0));
   Set_ T3_16B (Sra32 (R T2_16B) (X 0));
   Set_ T3_17A (Sra32 (R T2_17A) (X 0));
   Set_ T3_17B (Sra32 (R T2_17B) (X 0));
   Set_ T3_18A (Sra32 (R T2_18A) (X 0));
   Set_ T3_18B (Sra32 (R T2_18B) (X 0));
   Set_ T3_19A (Sra32 (R T2_19A) (X 0));
   Set_ T3_19B (Sra32 (R T2_19B) (X 0));
   Set_ T3_20A (Sra32 (R T2_20A) (X 0));
   Set_ T3_20B (Sra32 (R T2_20B) (X 0));
   Set_ T3_21A (Sra32 (R T2_21A) (X 0));
   Set_ T3_21B (Sra32 (R T2_21B) (X 0));
   Set_ T3_22A (Sra32 (R T2_22A) (X 0));
   Set_ T3_22B (Sra32 (R T2_22B) (X 0));
   Set_ T3_23A (Sra32 (R T2_23A) (X 0));
   Set_ T3_23B (Sra32 (R T2_23B) (X 0));
   Set_ T3_24A (Sra32 (R T2_24A) (X 0));
   Set_ T3_24B (Sra32 (R T2_24B) (X 0));
   Set_ T3_25A (Sra32 (R T2_25A) (X 0));
   Set_ T3_25B (Sra32 (R T2_25B) (X 0));
   Set_ T3_26A (Sra32 (R T2_26A) (X 0));
   Set_ T3_26B (Sra32 (R T2_26B) (X 0));
   Set_ T3_27A (Sra32 (R T2_27A) (X 0));
   Set_ T3_27B (Sra32 (R T2_27B) (X 0));
   Set_ T3_28A (Sra32 (R T2_28A) (X 0));
   Set_ T3_28B (Sra32 (R T2_28B) (X 0));
   Set_ T3_29A (Sra32 (R T2_29A) (X 0));
   Set_ T3_29B (Sra32 (R T2_29B) (X 0))]
  ++ [Set_ T3_30A (Sra32 (R T2_30A) (X 0));
   Set_ T3_30B (Sra32 (R T2_30B) (X 0));
   Set_ T3_31A (Sra32 (R T2_31A) (X 0));
   Set_ T3_31B (Sra32 (R T2_31B) (X 0));
   Set_ res00 (packs32 (R T3_00A) (R T3_00B));
   Set_ res01 (packs32 (R T3_01A) (R T3_01B));
   Set_ res02 (packs32 (R T3_02A) (R T3_02B));
   Set_ res03 (packs32 (R T3_03A) (R T3_03B));
   Set_ res04 (packs32 (R T3_04A) (R T3_04B));
   Set_ res05 (packs32 (R T3_05A) (R T3_05B));
   Set_ res06 (packs32 (R T3_06A) (R T3_06B));
   Set_ res07 (packs32 (R T3_07A) (R T3_07B));
   Set_ res08 (packs32 (R T3_08A) (R T3_08B));
   Set_ res09 (packs32 (R T3_09A) (R T3_09B));
   Set_ res10 (packs32 (R T3_10A) (R T3_10B));
   Set_ res11 (packs32 (R T3_11A) (R T3_11B));
   Set_ res12 (packs32 (R T3_12A) (R T3_12B));
   Set_ res13 (packs32 (R T3_13A) (R T3_13B));
   Set_ res14 (packs32 (R T3_14A) (R T3_14B));
   Set_ res15 (packs32 (R T3_15A) (R T3_15B));
   Set_ res16 (packs32 (R T3_16A) (R T3_16B));
   Set_ res17 (packs32 (R T3_17A) (R T3_17B));
   Set_ res18 (packs32 (R T3_18A) (R T3_18B));
   Set_ res19 (packs32 (R T3_19A) (R T3_19B));
   Set_ res20 (packs32 (R T3_20A) (R T3_20B));
   Set_ res21 (packs32 (R T3_21A) (R T3_21B));
   Set_ res22 (packs32 (R T3_22A) (R T3_22B));
   Set_ res23 (packs32 (R T3_23A) (R T3_23B));
   Set_ res24 (packs32 (R T3_24A) (R T3_24B));
   Set_ res25 (packs32 (R T3_25A) (R T3_25B));
   Set_ res26 (packs32 (R T3_26A) (R T3_26B));
   Set_ res27 (packs32 (R T3_27A) (R T3_27B));
   Set_ res28 (packs32 (R T3_28A) (R T3_28B));
   Set_ res29 (packs32 (R T3_29A) (R T3_29B));
   Set_ res30 (packs32 (R T3_30A) (R T3_30B));
   Set_ res31 (packs32 (R T3_31A) (R T3_31B));
   Set_ tr0_0 (lo16 (R res00) (R res01));
   Set_ tr0_1 (lo16 (R res02) (R res03));
   Set_ tr0_2 (hi16 (R res00) (R res01));
   Set_ tr0_3 (hi16 (R res02) (R res03));
   Set_ tr0_4 (lo16 (R res04) (R res05));
   Set_ tr0_5 (lo16 (R res06) (R res07));
   Set_ tr0_6 (hi16 (R res04) (R res05));
   Set_ tr0_7 (hi16 (R res06) (R res07));
   Set_ tr1_0 (lo32 (R tr0_0) (R tr0_1));
   Set_ tr1_1 (lo32 (R tr0_2) (R tr0_3));
   Set_ tr1_2 (hi32 (R tr0_0) (R tr0_1));
   Set_ tr1_3 (hi32 (R tr0_2) (R tr0_3));
   Set_ tr1_4 (lo32 (R tr0_4) (R tr0_5));
   Set_ tr1_5 (lo32 (R tr0_6) (R tr0_7));
   Set_ tr1_6 (hi32 (R tr0_4) (R tr0_5));
   Set_ tr1_7 (hi32 (R tr0_6) (R tr0_7));
   Set_ m128iS0 (lo64 (R tr1_0) (R tr1_4));
   Set_ m128iS1 (hi64 (R tr1_0) (R tr1_4));
   Set_ m128iS2 (lo64 (R tr1_2) (R tr1_6));
   Set_ m128iS3 (hi64 (R tr1_2) (R tr1_6));
   Set_ m128iS4 (lo64 (R tr1_1) (R tr1_5));
   Set_ m128iS5 (hi64 (R tr1_1) (R tr1_5));
   Set_ m128iS6 (lo64 (R tr1_3) (R tr1_7));
   Set_ m128iS7 (hi64 (R tr1_3) (R tr1_7));
   Set_ tr0_0 (lo16 (R res08) (R res09));
   Set_ tr0_1 (lo16 (R res10) (R res11));
   Set_ tr0_2 (hi16 (R res08) (R res09));
   Set_ tr0_3 (hi16 (R res10) (R res11))]
  ++ [Set_ tr0_4 (lo16 (R res12) (R res13));
   Set_ tr0_5 (lo16 (R res14) (R res15));
   Set_ tr0_6 (hi16 (R res12) (R res13));
   Set_ tr0_7 (hi16 (R res14) (R res15));
   Set_ tr1_0 (lo32 (R tr0_0) (R tr0_1));
   Set_ tr1_1 (lo32 (R tr0_2) (R tr0_3));
   Set_ tr1_2 (hi32 (R tr0_0) (R tr0_1));
   Set_ tr1_3 (hi32 (R tr0_2) (R tr0_3));
   Set_ tr1_4 (lo32 (R tr0_4) (R tr0_5));
   Set_ tr1_5 (lo32 (R tr0_6) (R tr0_7));
   Set_ tr1_6 (hi32 (R tr0_4) (R tr0_5));
   Set_ tr1_7 (hi32 (R tr0_6) (R tr0_7));
   Set_ (m128iS0 + 1) (lo64 (R tr1_0) (R tr1_4));
   Set_ (m128iS1 + 1) (hi64 (R tr1_0) (R tr1_4));
   Set_ (m128iS2 + 1) (lo64 (R tr1_2) (R tr1_6));
   Set_ (m128iS3 + 1) (hi64 (R tr1_2) (R tr1_6));
   Set_ (m128iS4 + 1) (lo64 (R tr1_1) (R tr1_5));
   Set_ (m128iS5 + 1) (hi64 (R tr1_1) (R tr1_5));
   Set_ (m128iS6 + 1) (lo64 (R tr1_3) (R tr1_7));
   Set_ (m128iS7 + 1) (hi64 (R tr1_3) (R tr1_7));
   Set_ tr0_0 (lo16 (R res16) (R res17));
   Set_ tr0_1 (lo16 (R res18) (R res19));
   Set_ tr0_2 (hi16 (R res16) (R res17));
   Set_ tr0_3 (hi16 (R res18) (R res19));
   Set_ tr0_4 (lo16 (R res20) (R res21));
   Set_ tr0_5 (lo16 (R res22) (R res23));
   Set_ tr0_6 (hi16 (R res20) (R res21));
   Set_ tr0_7 (hi16 (R res22) (R res23));
   Set_ tr1_0 (lo32 (R tr0_0) (R tr0_1));
   Set_ tr1_1 (lo32 (R tr0_2) (R tr0_3));
   Set_ tr1_2 (hi32 (R tr0_0) (R tr0_1));
   Set_ tr1_3 (hi32 (R tr0_2) (R tr0_3));
   Set_ tr1_4 (lo32 (R tr0_4) (R tr0_5));
   Set_ tr1_5 (lo32 (R tr0_6) (R tr0_7));
   Set_ tr1_6 (hi32 (R tr0_4) (R tr0_5));
   Set_ tr1_7 (hi32 (R tr0_6) (R tr0_7));
   Set_ (m128iS0 + 2) (lo64 (R tr1_0) (R tr1_4));
   Set_ (m128iS1 + 2) (hi64 (R tr1_0) (R tr1_4));
   Set_ (m128iS2 + 2) (lo64 (R tr1_2) (R tr1_6));
   Set_ (m128iS3 + 2) (hi64 (R tr1_2) (R tr1_6));
   Set_ (m128iS4 + 2) (lo64 (R tr1_1) (R tr1_5));
   Set_ (m128iS5 + 2) (hi64 (R tr1_1) (R tr1_5));
   Set_ (m128iS6 + 2) (lo64 (R tr1_3) (R tr1_7));
   Set_ (m128iS7 + 2) (hi64 (R tr1_3) (R tr1_7));
   Set_ tr0_0 (lo16 (R res24) (R res25));
   Set_ tr0_1 (lo16 (R res26) (R res27));
   Set_ tr0_2 (hi16 (R res24) (R res25));
   Set_ tr0_3 (hi16 (R res26) (R res27));
   Set_ tr0_4 (lo16 (R res28) (R res29));
   Set_ tr0_5 (lo16 (R res30) (R res31));
   Set_ tr0_6 (hi16 (R res28) (R res29));
   Set_ tr0_7 (hi16 (R res30) (R res31));
   Set_ tr1_0 (lo32 (R tr0_0) (R tr0_1));
   Set_ tr1_1 (lo32 (R tr0_2) (R tr0_3));
   Set_ tr1_2 (hi32 (R tr0_0) (R tr0_1));
   Set_ tr1_3 (hi32 (R tr0_2) (R tr0_3));
   Set_ tr1_4 (lo32 (R tr0_4) (R tr0_5));
   Set_ tr1_5 (lo32 (R tr0_6) (R tr0_7));
   Set_ tr1_6 (hi32 (R tr0_4) (R tr0_5));
   Set_ tr1_7 (hi32 (R tr0_6) (R tr0_7));
   Set_ (m128iS0 + 3) (lo64 (R tr1_0) (R tr1_4));
   Set_ (m128iS1 + 3) (hi64 (R tr1_0) (R tr1_4));
   Set_ (m128iS2 + 3) (lo64 (R tr1_2) (R tr1_6));
   Set_ (m128iS3 + 3) (hi64 (R tr1_2) (R tr1_6))]
  ++ [Set_ (m128iS4 + 3) (lo64 (R tr1_1) (R tr1_5));
   Set_ (m128iS5 + 3) (hi64 (R tr1_1) (R tr1_5));
   Set_ (m128iS6 + 3) (lo64 (R tr1_3) (R tr1_7));
   Set_ (m128iS7 + 3) (hi64 (R tr1_3) (R tr1_7));
   Set_ max_val (S16 8 (Q HI2));
   Set_ min_val (S16 8 (Q LO2))]
  ++ loop 4 (fun i =>
    [Set_ (m128iS0 + i) (min16 (R (m128iS0 + i)) (R max_val));
     Set_ (m128iS0 + i) (max16 (R (m128iS0 + i)) (R min_val));
     Set_ (m128iS1 + i) (min16 (R (m128iS1 + i)) (R max_val));
     Set_ (m128iS1 + i) (max16 (R (m128iS1 + i)) (R min_val));
     Set_ (m128iS2 + i) (min16 (R (m128iS2 + i)) (R max_val));
     Set_ (m128iS2 + i) (max16 (R (m128iS2 + i)) (R min_val));
     Set_ (m128iS3 + i) (min16 (R (m128iS3 + i)) (R max_val));
     Set_ (m128iS3 + i) (max16 (R (m128iS3 + i)) (R min_val));
     Set_ (m128iS4 + i) (min16 (R (m128iS4 + i)) (R max_val));
     Set_ (m128iS4 + i) (max16 (R (m128iS4 + i)) (R min_val));
     Set_ (m128iS5 + i) (min16 (R (m128iS5 + i)) (R max_val));
     Set_ (m128iS5 + i) (max16 (R (m128iS5 + i)) (R min_val));
     Set_ (m128iS6 + i) (min16 (R (m128iS6 + i)) (R max_val));
     Set_ (m128iS6 + i) (max16 (R (m128iS6 + i)) (R min_val));
     Set_ (m128iS7 + i) (min16 (R (m128iS7 + i)) (R max_val));
     Set_ (m128iS7 + i) (max16 (R (m128iS7 + i)) (R min_val))])
  ++ loop 2 (fun i =>
    [St 8 0 0 0 (R m128iS0);
     St 8 0 0 8 (R (m128iS0 + 1));
     St 8 0 0 16 (R (m128iS0 + 2));
     St 8 0 0 24 (R (m128iS0 + 3));
     St 8 0 1 0 (R m128iS1);
     St 8 0 1 8 (R (m128iS1 + 1));
     St 8 0 1 16 (R (m128iS1 + 2));
     St 8 0 1 24 (R (m128iS1 + 3));
     St 8 0 2 0 (R m128iS2);
     St 8 0 2 8 (R (m128iS2 + 1));
     St 8 0 2 16 (R (m128iS2 + 2));
     St 8 0 2 24 (R (m128iS2 + 3));
     St 8 0 3 0 (R m128iS3);
     St 8 0 3 8 (R (m128iS3 + 1));
     St 8 0 3 16 (R (m128iS3 + 2));
     St 8 0 3 24 (R (m128iS3 + 3));
     St 8 0 4 0 (R m128iS4);
     St 8 0 4 8 (R (m128iS4 + 1));
     St 8 0 4 16 (R (m128iS4 + 2));
     St 8 0 4 24 (R (m128iS4 + 3));
     St 8 0 5 0 (R m128iS5);
     St 8 0 5 8 (R (m128iS5 + 1));
     St 8 0 5 16 (R (m128iS5 + 2));
     St 8 0 5 24 (R (m128iS5 + 3));
     St 8 0 6 0 (R m128iS6);
     St 8 0 6 8 (R (m128iS6 + 1));
     St 8 0 6 16 (R (m128iS6 + 2));
     St 8 0 6 24 (R (m128iS6 + 3));
     St 8 0 7 0 (R m128iS7);
     St 8 0 7 8 (R (m128iS7 + 1));
     St 8 0 7 16 (R (m128iS7 + 2));
     St 8 0 7 24 (R (m128iS7 + 3))]).

(** vec/intrinsic_idct.cc:6069-6895 [idct_8x32_sse128]. The lowest bit of [i_dst] is a flag that changes shift and limits; the stride is [i_dst & 0xFE]. *)
Definition idct_8x32_sse128 : list ins :=
  let c16_p45_p45 := 1 in let c16_p43_p44 := 2 in let c16_p39_p41 := 3 in let c16_p34_p36 := 4 in let c16_p27_p30 := 5 in let c16_p19_p23 := 6 in
  let c16_p11_p15 := 7 in let c16_p02_p07 := 8 in let c16_p41_p45 := 9 in let c16_p23_p34 := 10 in let c16_n02_p11 := 11 in let c16_n27_n15 := 12 in
  let c16_n43_n36 := 13 in let c16_n44_n45 := 14 in let c16_n30_n39 := 15 in let c16_n07_n19 := 16 in let c16_p34_p44 := 17 in
  let c16_n07_p15 := 18 in let c16_n41_n27 := 19 in let c16_n39_n45 := 20 in let c16_n02_n23 := 21 in let c16_p36_p19 := 22 in
  let c16_p43_p45 := 23 in let c16_p11_p30 := 24 in let c16_p23_p43 := 25 in let c16_n34_n07 := 26 in let c16_n36_n45 := 27 in
  let c16_p19_n11 := 28 in let c16_p44_p41 := 29 in let c16_n02_p27 := 30 in let c16_n45_n30 := 31 in let c16_n15_n39 := 32 in
  let c16_p11_p41 := 33 in let c16_n45_n27 := 34 in let c16_p07_n30 := 35 in let c16_p43_p39 := 36 in let c16_n23_p15 := 37 in
  let c16_n34_n45 := 38 in let c16_p36_p02 := 39 in let c16_p19_p44 := 40 in let c16_n02_p39 := 41 in let c16_n36_n41 := 42 in
  let c16_p43_p07 := 43 in let c16_n11_p34 := 44 in let c16_n30_n44 := 45 in let c16_p45_p15 := 46 in let c16_n19_p27 := 47 in
  let c16_n23_n45 := 48 in let c16_n15_p36 := 49 in let c16_n11_n45 := 50 in let c16_p34_p39 := 51 in let c16_n45_n19 := 52 in
  let c16_p41_n07 := 53 in let c16_n23_p30 := 54 in let c16_n02_n44 := 55 in let c16_p27_p43 := 56 in let c16_n27_p34 := 57 in
  let c16_p19_n39 := 58 in let c16_n11_p43 := 59 in let c16_p02_n45 := 60 in let c16_p07_p45 := 61 in let c16_n15_n44 := 62 in
  let c16_p23_p41 := 63 in let c16_n30_n36 := 64 in let c16_n36_p30 := 65 in let c16_p41_n23 := 66 in let c16_n44_p15 := 67 in
  let c16_p45_n07 := 68 in let c16_n45_n02 := 69 in let c16_p43_p11 := 70 in let c16_n39_n19 := 71 in let c16_p34_p27 := 72 in
  let c16_n43_p27 := 73 in let c16_p44_n02 := 74 in let c16_n30_n23 := 75 in let c16_p07_p41 := 76 in let c16_p19_n45 := 77 in
  let c16_n39_p34 := 78 in let c16_p45_n11 := 79 in let c16_n36_n15 := 80 in let c16_n45_p23 := 81 in let c16_p27_p19 := 82 in
  let c16_p15_n45 := 83 in let c16_n44_p30 := 84 in let c16_p34_p11 := 85 in let c16_p07_n43 := 86 in let c16_n41_p36 := 87 in
  let c16_p39_p02 := 88 in let c16_n44_p19 := 89 in let c16_n02_p36 := 90 in let c16_p45_n34 := 91 in let c16_n15_n23 := 92 in
  let c16_n39_p43 := 93 in let c16_p30_p07 := 94 in let c16_p27_n45 := 95 in let c16_n41_p11 := 96 in let c16_n39_p15 := 97 in
  let c16_n30_p45 := 98 in let c16_p27_p02 := 99 in let c16_p41_n44 := 100 in let c16_n11_n19 := 101 in let c16_n45_p36 := 102 in
  let c16_n07_p34 := 103 in let c16_p43_n23 := 104 in let c16_n30_p11 := 105 in let c16_n45_p43 := 106 in let c16_n19_p36 := 107 in
  let c16_p23_n02 := 108 in let c16_p45_n39 := 109 in let c16_p27_n41 := 110 in let c16_n15_n07 := 111 in let c16_n44_p34 := 112 in
  let c16_n19_p07 := 113 in let c16_n39_p30 := 114 in let c16_n45_p44 := 115 in let c16_n36_p43 := 116 in let c16_n15_p27 := 117 in
  let c16_p11_p02 := 118 in let c16_p34_n23 := 119 in let c16_p45_n41 := 120 in let c16_n07_p02 := 121 in let c16_n15_p11 := 122 in
  let c16_n23_p19 := 123 in let c16_n30_p27 := 124 in let c16_n36_p34 := 125 in let c16_n41_p39 := 126 in let c16_n44_p43 := 127 in
  let c16_n45_p45 := 128 in let c16_p35_p40 := 129 in let c16_p21_p29 := 130 in let c16_p04_p13 := 131 in let c16_p29_p43 := 132 in
  let c16_n21_p04 := 133 in let c16_n45_n40 := 134 in let c16_n13_n35 := 135 in let c16_p04_p40 := 136 in let c16_n43_n35 := 137 in
  let c16_p29_n13 := 138 in let c16_p21_p45 := 139 in let c16_n21_p35 := 140 in let c16_p04_n43 := 141 in let c16_p13_p45 := 142 in
  let c16_n29_n40 := 143 in let c16_n40_p29 := 144 in let c16_p45_n13 := 145 in let c16_n43_n04 := 146 in let c16_p35_p21 := 147 in
  let c16_n45_p21 := 148 in let c16_p13_p29 := 149 in let c16_p35_n43 := 150 in let c16_n40_p04 := 151 in let c16_n35_p13 := 152 in
  let c16_n40_p45 := 153 in let c16_p04_p21 := 154 in let c16_p43_n29 := 155 in let c16_n13_p04 := 156 in let c16_n29_p21 := 157 in
  let c16_n40_p35 := 158 in let c16_p38_p44 := 159 in let c16_p09_p25 := 160 in let c16_n09_p38 := 161 in let c16_n25_n44 := 162 in
  let c16_n44_p25 := 163 in let c16_p38_p09 := 164 in let c16_n25_p09 := 165 in let c16_n44_p38 := 166 in let c16_p17_p42 := 167 in
  let c16_n42_p17 := 168 in let c16_p32_p32 := 169 in let c16_n32_p32 := 170 in let c32_rnd := 171 in let in00 := 172 in let in01 := 173 in
  let in02 := 174 in let in03 := 175 in let in04 := 176 in let in05 := 177 in let in06 := 178 in let in07 := 179 in let in08 := 180 in
  let in09 := 181 in let in10 := 182 in let in11 := 183 in let in12 := 184 in let in13 := 185 in let in14 := 186 in let in15 := 187 in
  let in16 := 188 in let in17 := 189 in let in18 := 190 in let in19 := 191 in let in20 := 192 in let in21 := 193 in let in22 := 194 in
  let in23 := 195 in let in24 := 196 in let in25 := 197 in let in26 := 198 in let in27 := 199 in let in28 := 200 in let in29 := 201 in
  let in30 := 202 in let in31 := 203 in let res00 := 204 in let res01 := 208 in let res02 := 212 in let res03 := 216 in let res04 := 220 in
  let res05 := 224 in let res06 := 228 in let res07 := 232 in let T_00_00A := 236 in let T_00_00B := 237 in let T_00_01A := 238 in
  let T_00_01B := 239 in let T_00_02A := 240 in let T_00_02B := 241 in let T_00_03A := 242 in let T_00_03B := 243 in let T_00_04A := 244 in
  let T_00_04B := 245 in let T_00_05A := 246 in let T_00_05B := 247 in let T_00_06A := 248 in let T_00_06B := 249 in let T_00_07A := 250 in
  let T_00_07B := 251 in let T_00_08A := 252 in let T_00_08B := 253 in let T_00_09A := 254 in let T_00_09B := 255 in let T_00_10A := 256 in
  let T_00_10B := 257 in let T_00_11A := 258 in let T_00_11B := 259 in let T_00_12A := 260 in let T_00_12B := 261 in let T_00_13A := 262 in
  let T_00_13B := 263 in let T_00_14A := 264 in let T_00_14B := 265 in let T_00_15A := 266 in let T_00_15B := 267 in let O00A := 268 in
  let O01A := 269 in let O02A := 270 in let O03A := 271 in let O04A := 272 in let O05A := 273 in let O06A := 274 in let O07A := 275 in
  let O08A := 276 in let O09A := 277 in let O10A := 278 in let O11A := 279 in let O12A := 280 in let O13A := 281 in let O14A := 282 in
  let O15A := 283 in let O00B := 284 in let O01B := 285 in let O02B := 286 in let O03B := 287 in let O04B := 288 in let O05B := 289 in
  let O06B := 290 in let O07B := 291 in let O08B := 292 in let O09B := 293 in let O10B := 294 in let O11B := 295 in let O12B := 296 in
  let O13B := 297 in let O14B := 298 in let O15B := 299 in let EO0A := 300 in let EO1A := 301 in let EO2A := 302 in let EO3A := 303 in
  let EO4A := 304 in let EO5A := 305 in let EO6A := 306 in let EO7A := 307 in let EO0B := 308 in let EO1B := 309 in let EO2B := 310 in
  let EO3B := 311 in let EO4B := 312 in let EO5B := 313 in let EO6B := 314 in let EO7B := 315 in let T00 := 316 in let T01 := 317 in let T02 := 318 in
  let T03 := 319 in let T00_2 := 320 in let T01_2 := 321 in let EEO0A := 322 in let EEO1A := 323 in let EEO2A := 324 in let EEO3A := 325 in
  let EEO0B := 326 in let EEO1B := 327 in let EEO2B := 328 in let EEO3B := 329 in let EEEO0A := 330 in let EEEO0B := 331 in let EEEO1A := 332 in
  let EEEO1B := 333 in let EEEE0A := 334 in let EEEE0B := 335 in let EEEE1A := 336 in let EEEE1B := 337 in let EEE0A := 338 in let EEE0B := 339 in
  let EEE1A := 340 in let EEE1B := 341 in let EEE3A := 342 in let EEE3B := 343 in let EEE2A := 344 in let EEE2B := 345 in let EE0A := 346 in
  let EE0B := 347 in let EE1A := 348 in let EE1B := 349 in let EE2A := 350 in let EE2B := 351 in let EE3A := 352 in let EE3B := 353 in
  let EE7A := 354 in let EE7B := 355 in let EE6A := 356 in let EE6B := 357 in let EE5A := 358 in let EE5B := 359 in let EE4A := 360 in
  let EE4B := 361 in let E0A := 362 in let E0B := 363 in let E1A := 364 in let E1B := 365 in let E2A := 366 in let E2B := 367 in let E3A := 368 in
  let E3B := 369 in let E4A := 370 in let E4B := 371 in let E5A := 372 in let E5B := 373 in let E6A := 374 in let E6B := 375 in let E7A := 376 in
  let E7B := 377 in let EFA := 378 in let EFB := 379 in let EEA := 380 in let EEB := 381 in let EDA := 382 in let EDB := 383 in let ECA := 384 in
  let ECB := 385 in let EBA := 386 in let EBB := 387 in let EAA := 388 in let EAB := 389 in let E9A := 390 in let E9B := 391 in let E8A := 392 in
  let E8B := 393 in let T10A := 394 in let T10B := 395 in let T11A := 396 in let T11B := 397 in let T12A := 398 in let T12B := 399 in
  let T13A := 400 in let T13B := 401 in let T14A := 402 in let T14B := 403 in let T15A := 404 in let T15B := 405 in let T16A := 406 in
  let T16B := 407 in let T17A := 408 in let T17B := 409 in let T18A := 410 in let T18B := 411 in let T19A := 412 in let T19B := 413 in
  let T1AA := 414 in let T1AB := 415 in let T1BA := 416 in let T1BB := 417 in let T1CA := 418 in let T1CB := 419 in let T1DA := 420 in
  let T1DB := 421 in let T1EA := 422 in let T1EB := 423 in let T1FA := 424 in let T1FB := 425 in let T2_00A := 426 in let T2_00B := 427 in
  let T2_01A := 428 in let T2_01B := 429 in let T2_02A := 430 in let T2_02B := 431 in let T2_03A := 432 in let T2_03B := 433 in let T2_04A := 434 in
  let T2_04B := 435 in let T2_05A := 436 in let T2_05B := 437 in let T2_06A := 438 in let T2_06B := 439 in let T2_07A := 440 in let T2_07B := 441 in
  let T2_08A := 442 in let T2_08B := 443 in let T2_09A := 444 in let T2_09B := 445 in let T2_10A := 446 in let T2_10B := 447 in let T2_11A := 448 in
  let T2_11B := 449 in let T2_12A := 450 in let T2_12B := 451 in let T2_13A := 452 in let T2_13B := 453 in let T2_14A := 454 in let T2_14B := 455 in
  let T2_15A := 456 in let T2_15B := 457 in let T2_31A := 458 in let T2_31B := 459 in let T2_30A := 460 in let T2_30B := 461 in let T2_29A := 462 in
  let T2_29B := 463 in let T2_28A := 464 in let T2_28B := 465 in let T2_27A := 466 in let T2_27B := 467 in let T2_26A := 468 in let T2_26B := 469 in
  let T2_25A := 470 in let T2_25B := 471 in let T2_24A := 472 in let T2_24B := 473 in let T2_23A := 474 in let T2_23B := 475 in let T2_22A := 476 in
  let T2_22B := 477 in let T2_21A := 478 in let T2_21B := 479 in let T2_20A := 480 in let T2_20B := 481 in let T2_19A := 482 in let T2_19B := 483 in
  let T2_18A := 484 in let T2_18B := 485 in let T2_17A := 486 in let T2_17B := 487 in let T2_16A := 488 in let T2_16B := 489 in let T3_00A := 490 in
  let T3_00B := 491 in let T3_01A := 492 in let T3_01B := 493 in let T3_02A := 494 in let T3_02B := 495 in let T3_03A := 496 in let T3_03B := 497 in
  let T3_04A := 498 in let T3_04B := 499 in let T3_05A := 500 in let T3_05B := 501 in let T3_06A := 502 in let T3_06B := 503 in let T3_07A := 504 in
  let T3_07B := 505 in let T3_08A := 506 in let T3_08B := 507 in let T3_09A := 508 in let T3_09B := 509 in let T3_10A := 510 in let T3_10B := 511 in
  let T3_11A := 512 in let T3_11B := 513 in let T3_12A := 514 in let T3_12B := 515 in let T3_13A := 516 in let T3_13B := 517 in let T3_14A := 518 in
  let T3_14B := 519 in let T3_15A := 520 in let T3_15B := 521 in let T3_16A := 522 in let T3_16B := 523 in let T3_17A := 524 in let T3_17B := 525 in
  let T3_18A := 526 in let T3_18B := 527 in let T3_19A := 528 in let T3_19B := 529 in let T3_20A := 530 in let T3_20B := 531 in let T3_21A := 532 in
  let T3_21B := 533 in let T3_22A := 534 in let T3_22B := 535 in let T3_23A := 536 in let T3_23B := 537 in let T3_24A := 538 in let T3_24B := 539 in
  let T3_25A := 540 in let T3_25B := 541 in let T3_26A := 542 in let T3_26B := 543 in let T3_27A := 544 in let T3_27B := 545 in let T3_28A := 546 in
  let T3_28B := 547 in let T3_29A := 548 in let T3_29B := 549 in let T3_30A := 550 in let T3_30B := 551 in let T3_31A := 552 in let T3_31B := 553 in
  let max_val := 554 in let min_val := 555 in let tr0_0 := 556 in let tr0_1 := 557 in let tr0_2 := 558 in let tr0_3 := 559 in let tr0_4 := 560 in
  let tr0_5 := 561 in let tr0_6 := 562 in let tr0_7 := 563 in let tr1_0 := 564 in let tr1_1 := 565 in let tr1_2 := 566 in let tr1_3 := 567 in
  let tr1_4 := 568 in let tr1_5 := 569 in let tr1_6 := 570 in let tr1_7 := 571 in let m128Tmp0 := 572 in let m128Tmp1 := 573 in let m128Tmp2 := 574 in
  let m128Tmp3 := 575 in let E0h := 576 in let E1h := 577 in let E2h := 578 in let E3h := 579 in let E0l := 580 in let E1l := 581 in let E2l := 582 in
  let E3l := 583 in let O0h := 584 in let O1h := 585 in let O2h := 586 in let O3h := 587 in let O0l := 588 in let O1l := 589 in let O2l := 590 in
  let O3l := 591 in let EE0l := 592 in let EE1l := 593 in let E00l := 594 in let E01l := 595 in let EE0h := 596 in let EE1h := 597 in
  let E00h := 598 in let E01h := 599 in
  [Set_ c16_p45_p45 (S32 8 (I 2949165));
   Set_ c16_p43_p44 (S32 8 (I 2818092));
   Set_ c16_p39_p41 (S32 8 (I 2555945));
   Set_ c16_p34_p36 (S32 8 (I 2228260));
   Set_ c16_p27_p30 (S32 8 (I 1769502));
   Set_ c16_p19_p23 (S32 8 (I 1245207));
   Set_ c16_p11_p15 (S32 8 (I 720911));
   Set_ c16_p02_p07 (S32 8 (I 131079));
   Set_ c16_p41_p45 (S32 8 (I 2687021));
   Set_ c16_p23_p34 (S32 8 (I 1507362));
   Set_ c16_n02_p11 (S32 8 (I (-131061)));
   Set_ c16_n27_n15 (S32 8 (I (-1703951)));
   Set_ c16_n43_n36 (S32 8 (I (-2752548)));
   Set_ c16_n44_n45 (S32 8 (I (-2818093)));
   Set_ c16_n30_n39 (S32 8 (I (-1900583)));
   Set_ c16_n07_n19 (S32 8 (I (-393235)));
   Set_ c16_p34_p44 (S32 8 (I 2228268));
   Set_ c16_n07_p15 (S32 8 (I (-458737)));
   Set_ c16_n41_n27 (S32 8 (I (-2621467)));
   Set_ c16_n39_n45 (S32 8 (I (-2490413)));
   Set_ c16_n02_n23 (S32 8 (I (-65559)));
   Set_ c16_p36_p19 (S32 8 (I 2359315));
   Set_ c16_p43_p45 (S32 8 (I 2818093));
   Set_ c16_p11_p30 (S32 8 (I 720926));
   Set_ c16_p23_p43 (S32 8 (I 1507371));
   Set_ c16_n34_n07 (S32 8 (I (-2162695)));
   Set_ c16_n36_n45 (S32 8 (I (-2293805)));
   Set_ c16_p19_n11 (S32 8 (I 1310709));
   Set_ c16_p44_p41 (S32 8 (I 2883625));
   Set_ c16_n02_p27 (S32 8 (I (-131045)));
   Set_ c16_n45_n30 (S32 8 (I (-2883614)));
   Set_ c16_n15_n39 (S32 8 (I (-917543)));
   Set_ c16_p11_p41 (S32 8 (I 720937));
   Set_ c16_n45_n27 (S32 8 (I (-2883611)));
   Set_ c16_p07_n30 (S32 8 (I 524258));
   Set_ c16_p43_p39 (S32 8 (I 2818087));
   Set_ c16_n23_p15 (S32 8 (I (-1507313)));
   Set_ c16_n34_n45 (S32 8 (I (-2162733)));
   Set_ c16_p36_p02 (S32 8 (I 2359298));
   Set_ c16_p19_p44 (S32 8 (I 1245228));
   Set_ c16_n02_p39 (S32 8 (I (-131033)));
   Set_ c16_n36_n41 (S32 8 (I (-2293801)));
   Set_ c16_p43_p07 (S32 8 (I 2818055));
   Set_ c16_n11_p34 (S32 8 (I (-720862)));
   Set_ c16_n30_n44 (S32 8 (I (-1900588)));
   Set_ c16_p45_p15 (S32 8 (I 2949135));
   Set_ c16_n19_p27 (S32 8 (I (-1245157)));
   Set_ c16_n23_n45 (S32 8 (I (-1441837)));
   Set_ c16_n15_p36 (S32 8 (I (-983004)));
   Set_ c16_n11_n45 (S32 8 (I (-655405)));
   Set_ c16_p34_p39 (S32 8 (I 2228263));
   Set_ c16_n45_n19 (S32 8 (I (-2883603)));
   Set_ c16_p41_n07 (S32 8 (I 2752505));
   Set_ c16_n23_p30 (S32 8 (I (-1507298)));
   Set_ c16_n02_n44 (S32 8 (I (-65580)));
   Set_ c16_p27_p43 (S32 8 (I 1769515));
   Set_ c16_n27_p34 (S32 8 (I (-1769438)));
   Set_ c16_p19_n39 (S32 8 (I 1310681));
   Set_ c16_n11_p43 (S32 8 (I (-720853)));
   Set_ c16_p02_n45 (S32 8 (I 196563));
   Set_ c16_p07_p45 (S32 8 (I 458797));
   Set_ c16_n15_n44 (S32 8 (I (-917548)));
   Set_ c16_p23_p41 (S32 8 (I 1507369));
   Set_ c16_n30_n36 (S32 8 (I (-1900580)))]
  ++ [Set_ c16_n36_p30 (S32 8 (I (-2359266)));
   Set_ c16_p41_n23 (S32 8 (I 2752489));
   Set_ c16_n44_p15 (S32 8 (I (-2883569)));
   Set_ c16_p45_n07 (S32 8 (I 3014649));
   Set_ c16_n45_n02 (S32 8 (I (-2883586)));
   Set_ c16_p43_p11 (S32 8 (I 2818059));
   Set_ c16_n39_n19 (S32 8 (I (-2490387)));
   Set_ c16_p34_p27 (S32 8 (I 2228251));
   Set_ c16_n43_p27 (S32 8 (I (-2818021)));
   Set_ c16_p44_n02 (S32 8 (I 2949118));
   Set_ c16_n30_n23 (S32 8 (I (-1900567)));
   Set_ c16_p07_p41 (S32 8 (I 458793));
   Set_ c16_p19_n45 (S32 8 (I 1310675));
   Set_ c16_n39_p34 (S32 8 (I (-2555870)));
   Set_ c16_p45_n11 (S32 8 (I 3014645));
   Set_ c16_n36_n15 (S32 8 (I (-2293775)));
   Set_ c16_n45_p23 (S32 8 (I (-2949097)));
   Set_ c16_p27_p19 (S32 8 (I 1769491));
   Set_ c16_p15_n45 (S32 8 (I 1048531));
   Set_ c16_n44_p30 (S32 8 (I (-2883554)));
   Set_ c16_p34_p11 (S32 8 (I 2228235));
   Set_ c16_p07_n43 (S32 8 (I 524245));
   Set_ c16_n41_p36 (S32 8 (I (-2686940)));
   Set_ c16_p39_p02 (S32 8 (I 2555906));
   Set_ c16_n44_p19 (S32 8 (I (-2883565)));
   Set_ c16_n02_p36 (S32 8 (I (-131036)));
   Set_ c16_p45_n34 (S32 8 (I 3014622));
   Set_ c16_n15_n23 (S32 8 (I (-917527)));
   Set_ c16_n39_p43 (S32 8 (I (-2555861)));
   Set_ c16_p30_p07 (S32 8 (I 1966087));
   Set_ c16_p27_n45 (S32 8 (I 1834963));
   Set_ c16_n41_p11 (S32 8 (I (-2686965)));
   Set_ c16_n39_p15 (S32 8 (I (-2555889)));
   Set_ c16_n30_p45 (S32 8 (I (-1966035)));
   Set_ c16_p27_p02 (S32 8 (I 1769474));
   Set_ c16_p41_n44 (S32 8 (I 2752468));
   Set_ c16_n11_n19 (S32 8 (I (-655379)));
   Set_ c16_n45_p36 (S32 8 (I (-2949084)));
   Set_ c16_n07_p34 (S32 8 (I (-458718)));
   Set_ c16_p43_n23 (S32 8 (I 2883561));
   Set_ c16_n30_p11 (S32 8 (I (-1966069)));
   Set_ c16_n45_p43 (S32 8 (I (-2949077)));
   Set_ c16_n19_p36 (S32 8 (I (-1245148)));
   Set_ c16_p23_n02 (S32 8 (I 1572862));
   Set_ c16_p45_n39 (S32 8 (I 3014617));
   Set_ c16_p27_n41 (S32 8 (I 1834967));
   Set_ c16_n15_n07 (S32 8 (I (-917511)));
   Set_ c16_n44_p34 (S32 8 (I (-2883550)));
   Set_ c16_n19_p07 (S32 8 (I (-1245177)));
   Set_ c16_n39_p30 (S32 8 (I (-2555874)));
   Set_ c16_n45_p44 (S32 8 (I (-2949076)));
   Set_ c16_n36_p43 (S32 8 (I (-2359253)));
   Set_ c16_n15_p27 (S32 8 (I (-983013)));
   Set_ c16_p11_p02 (S32 8 (I 720898));
   Set_ c16_p34_n23 (S32 8 (I 2293737));
   Set_ c16_p45_n41 (S32 8 (I 3014615));
   Set_ c16_n07_p02 (S32 8 (I (-458750)));
   Set_ c16_n15_p11 (S32 8 (I (-983029)));
   Set_ c16_n23_p19 (S32 8 (I (-1507309)));
   Set_ c16_n30_p27 (S32 8 (I (-1966053)));
   Set_ c16_n36_p34 (S32 8 (I (-2359262)));
   Set_ c16_n41_p39 (S32 8 (I (-2686937)));
   Set_ c16_n44_p43 (S32 8 (I (-2883541)));
   Set_ c16_n45_p45 (S32 8 (I (-2949075)))]
  ++ [Set_ c16_p35_p40 (S32 8 (I 2293800));
   Set_ c16_p21_p29 (S32 8 (I 1376285));
   Set_ c16_p04_p13 (S32 8 (I 262157));
   Set_ c16_p29_p43 (S32 8 (I 1900587));
   Set_ c16_n21_p04 (S32 8 (I (-1376252)));
   Set_ c16_n45_n40 (S32 8 (I (-2883624)));
   Set_ c16_n13_n35 (S32 8 (I (-786467)));
   Set_ c16_p04_p40 (S32 8 (I 262184));
   Set_ c16_n43_n35 (S32 8 (I (-2752547)));
   Set_ c16_p29_n13 (S32 8 (I 1966067));
   Set_ c16_p21_p45 (S32 8 (I 1376301));
   Set_ c16_n21_p35 (S32 8 (I (-1376221)));
   Set_ c16_p04_n43 (S32 8 (I 327637));
   Set_ c16_p13_p45 (S32 8 (I 852013));
   Set_ c16_n29_n40 (S32 8 (I (-1835048)));
   Set_ c16_n40_p29 (S32 8 (I (-2621411)));
   Set_ c16_p45_n13 (S32 8 (I 3014643));
   Set_ c16_n43_n04 (S32 8 (I (-2752516)));
   Set_ c16_p35_p21 (S32 8 (I 2293781));
   Set_ c16_n45_p21 (S32 8 (I (-2949099)));
   Set_ c16_p13_p29 (S32 8 (I 851997));
   Set_ c16_p35_n43 (S32 8 (I 2359253));
   Set_ c16_n40_p04 (S32 8 (I (-2621436)));
   Set_ c16_n35_p13 (S32 8 (I (-2293747)));
   Set_ c16_n40_p45 (S32 8 (I (-2621395)));
   Set_ c16_p04_p21 (S32 8 (I 262165));
   Set_ c16_p43_n29 (S32 8 (I 2883555));
   Set_ c16_n13_p04 (S32 8 (I (-851964)));
   Set_ c16_n29_p21 (S32 8 (I (-1900523)));
   Set_ c16_n40_p35 (S32 8 (I (-2621405)));
   Set_ c16_p38_p44 (S32 8 (I 2490412));
   Set_ c16_p09_p25 (S32 8 (I 589849));
   Set_ c16_n09_p38 (S32 8 (I (-589786)));
   Set_ c16_n25_n44 (S32 8 (I (-1572908)));
   Set_ c16_n44_p25 (S32 8 (I (-2883559)));
   Set_ c16_p38_p09 (S32 8 (I 2490377));
   Set_ c16_n25_p09 (S32 8 (I (-1638391)));
   Set_ c16_n44_p38 (S32 8 (I (-2883546)));
   Set_ c16_p17_p42 (S32 8 (I 1114154));
   Set_ c16_n42_p17 (S32 8 (I (-2752495)));
   Set_ c16_p32_p32 (S32 8 (I 2097184));
   Set_ c16_n32_p32 (S32 8 (I (-2097120)));
   Set_ c32_rnd (S32 8 (I 16));
   SetI 0 (I 5);
   Set_ in00 (Ld 8 0);
   Set_ in01 (Ld 8 8);
   Set_ in02 (Ld 8 16);
   Set_ in03 (Ld 8 24);
   Set_ in04 (Ld 8 32);
   Set_ in05 (Ld 8 40);
   Set_ in06 (Ld 8 48);
   Set_ in07 (Ld 8 56);
   Set_ in08 (Ld 8 64);
   Set_ in09 (Ld 8 72);
   Set_ in10 (Ld 8 80);
   Set_ in11 (Ld 8 88);
   Set_ in12 (Ld 8 96);
   Set_ in13 (Ld 8 104);
   Set_ in14 (Ld 8 112);
   Set_ in15 (Ld 8 120);
   Set_ in16 (Ld 8 128);
   Set_ in17 (Ld 8 136);
   Set_ in18 (Ld 8 144);
   Set_ in19 (Ld 8 152)]
  ++ [Set_ in20 (Ld 8 160);
   Set_ in21 (Ld 8 168);
   Set_ in22 (Ld 8 176);
   Set_ in23 (Ld 8 184);
   Set_ in24 (Ld 8 192);
   Set_ in25 (Ld 8 200);
   Set_ in26 (Ld 8 208);
   Set_ in27 (Ld 8 216);
   Set_ in28 (Ld 8 224);
   Set_ in29 (Ld 8 232);
   Set_ in30 (Ld 8 240);
   Set_ in31 (Ld 8 248);
   Set_ T_00_00A (lo16 (R in01) (R in03));
   Set_ T_00_00B (hi16 (R in01) (R in03));
   Set_ T_00_01A (lo16 (R in05) (R in07));
   Set_ T_00_01B (hi16 (R in05) (R in07));
   Set_ T_00_02A (lo16 (R in09) (R in11));
   Set_ T_00_02B (hi16 (R in09) (R in11));
   Set_ T_00_03A (lo16 (R in13) (R in15));
   Set_ T_00_03B (hi16 (R in13) (R in15));
   Set_ T_00_04A (lo16 (R in17) (R in19));
   Set_ T_00_04B (hi16 (R in17) (R in19));
   Set_ T_00_05A (lo16 (R in21) (R in23));
   Set_ T_00_05B (hi16 (R in21) (R in23));
   Set_ T_00_06A (lo16 (R in25) (R in27));
   Set_ T_00_06B (hi16 (R in25) (R in27));
   Set_ T_00_07A (lo16 (R in29) (R in31));
   Set_ T_00_07B (hi16 (R in29) (R in31));
   Set_ T_00_08A (lo16 (R in02) (R in06));
   Set_ T_00_08B (hi16 (R in02) (R in06));
   Set_ T_00_09A (lo16 (R in10) (R in14));
   Set_ T_00_09B (hi16 (R in10) (R in14));
   Set_ T_00_10A (lo16 (R in18) (R in22));
   Set_ T_00_10B (hi16 (R in18) (R in22));
   Set_ T_00_11A (lo16 (R in26) (R in30));
   Set_ T_00_11B (hi16 (R in26) (R in30));
   Set_ T_00_12A (lo16 (R in04) (R in12));
   Set_ T_00_12B (hi16 (R in04) (R in12));
   Set_ T_00_13A (lo16 (R in20) (R in28));
   Set_ T_00_13B (hi16 (R in20) (R in28));
   Set_ T_00_14A (lo16 (R in08) (R in24));
   Set_ T_00_14B (hi16 (R in08) (R in24));
   Set_ T_00_15A (lo16 (R in00) (R in16));
   Set_ T_00_15B (hi16 (R in00) (R in16));
   Set_ T00 (add32 (madd (R T_00_00A) (R c16_p45_p45)) (madd (R T_00_01A) (R c16_p43_p44)));
   Set_ T01 (add32 (madd (R T_00_02A) (R c16_p39_p41)) (madd (R T_00_03A) (R c16_p34_p36)));
   Set_ T02 (add32 (madd (R T_00_04A) (R c16_p27_p30)) (madd (R T_00_05A) (R c16_p19_p23)));
   Set_ T03 (add32 (madd (R T_00_06A) (R c16_p11_p15)) (madd (R T_00_07A) (R c16_p02_p07)));
   Set_ O00A (add32 (add32 (R T00) (R T01)) (add32 (R T02) (R T03)));
   Set_ T00 (add32 (madd (R T_00_00A) (R c16_p41_p45)) (madd (R T_00_01A) (R c16_p23_p34)));
   Set_ T01 (add32 (madd (R T_00_02A) (R c16_n02_p11)) (madd (R T_00_03A) (R c16_n27_n15)));
   Set_ T02 (add32 (madd (R T_00_04A) (R c16_n43_n36)) (madd (R T_00_05A) (R c16_n44_n45)));
   Set_ T03 (add32 (madd (R T_00_06A) (R c16_n30_n39)) (madd (R T_00_07A) (R c16_n07_n19)));
   Set_ O01A (add32 (add32 (R T00) (R T01)) (add32 (R T02) (R T03)));
   Set_ T00 (add32 (madd (R T_00_00A) (R c16_p34_p44)) (madd (R T_00_01A) (R c16_n07_p15)));
   Set_ T01 (add32 (madd (R T_00_02A) (R c16_n41_n27)) (madd (R T_00_03A) (R c16_n39_n45)));
   Set_ T02 (add32 (madd (R T_00_04A) (R c16_n02_n23)) (madd (R T_00_05A) (R c16_p36_p19)));
   Set_ T03 (add32 (madd (R T_00_06A) (R c16_p43_p45)) (madd (R T_00_07A) (R c16_p11_p30)));
   Set_ O02A (add32 (add32 (R T00) (R T01)) (add32 (R T02) (R T03)));
   Set_ T00 (add32 (madd (R T_00_00A) (R c16_p23_p43)) (madd (R T_00_01A) (R c16_n34_n07)));
   Set_ T01 (add32 (madd (R T_00_02A) (R c16_n36_n45)) (madd (R T_00_03A) (R c16_p19_n11)));
   Set_ T02 (add32 (madd (R T_00_04A) (R c16_p44_p41)) (madd (R T_00_05A) (R c16_n02_p27)));
   Set_ T03 (add32 (madd (R T_00_06A) (R c16_n45_n30)) (madd (R T_00_07A) (R c16_n15_n39)));
   Set_ O03A (add32 (add32 (R T00) (R T01)) (add32 (R T02) (R T03)))]
  ++ [Set_ T00 (add32 (madd (R T_00_00A) (R c16_p11_p41)) (madd (R T_00_01A) (R c16_n45_n27)));
   Set_ T01 (add32 (madd (R T_00_02A) (R c16_p07_n30)) (madd (R T_00_03A) (R c16_p43_p39)));
   Set_ T02 (add32 (madd (R T_00_04A) (R c16_n23_p15)) (madd (R T_00_05A) (R c16_n34_n45)));
   Set_ T03 (add32 (madd (R T_00_06A) (R c16_p36_p02)) (madd (R T_00_07A) (R c16_p19_p44)));
   Set_ O04A (add32 (add32 (R T00) (R T01)) (add32 (R T02) (R T03)));
   Set_ T00 (add32 (madd (R T_00_00A) (R c16_n02_p39)) (madd (R T_00_01A) (R c16_n36_n41)));
   Set_ T01 (add32 (madd (R T_00_02A) (R c16_p43_p07)) (madd (R T_00_03A) (R c16_n11_p34)));
   Set_ T02 (add32 (madd (R T_00_04A) (R c16_n30_n44)) (madd (R T_00_05A) (R c16_p45_p15)));
   Set_ T03 (add32 (madd (R T_00_06A) (R c16_n19_p27)) (madd (R T_00_07A) (R c16_n23_n45)));
   Set_ O05A (add32 (add32 (R T00) (R T01)) (add32 (R T02) (R T03)));
   Set_ T00 (add32 (madd (R T_00_00A) (R c16_n15_p36)) (madd (R T_00_01A) (R c16_n11_n45)));
   Set_ T01 (add32 (madd (R T_00_02A) (R c16_p34_p39)) (madd (R T_00_03A) (R c16_n45_n19)));
   Set_ T02 (add32 (madd (R T_00_04A) (R c16_p41_n07)) (madd (R T_00_05A) (R c16_n23_p30)));
   Set_ T03 (add32 (madd (R T_00_06A) (R c16_n02_n44)) (madd (R T_00_07A) (R c16_p27_p43)));
   Set_ O06A (add32 (add32 (R T00) (R T01)) (add32 (R T02) (R T03)));
   Set_ T00 (add32 (madd (R T_00_00A) (R c16_n27_p34)) (madd (R T_00_01A) (R c16_p19_n39)));
   Set_ T01 (add32 (madd (R T_00_02A) (R c16_n11_p43)) (madd (R T_00_03A) (R c16_p02_n45)));
   Set_ T02 (add32 (madd (R T_00_04A) (R c16_p07_p45)) (madd (R T_00_05A) (R c16_n15_n44)));
   Set_ T03 (add32 (madd (R T_00_06A) (R c16_p23_p41)) (madd (R T_00_07A) (R c16_n30_n36)));
   Set_ O07A (add32 (add32 (R T00) (R T01)) (add32 (R T02) (R T03)));
   Set_ T00 (add32 (madd (R T_00_00A) (R c16_n36_p30)) (madd (R T_00_01A) (R c16_p41_n23)));
   Set_ T01 (add32 (madd (R T_00_02A) (R c16_n44_p15)) (madd (R T_00_03A) (R c16_p45_n07)));
   Set_ T02 (add32 (madd (R T_00_04A) (R c16_n45_n02)) (madd (R T_00_05A) (R c16_p43_p11)));
   Set_ T03 (add32 (madd (R T_00_06A) (R c16_n39_n19)) (madd (R T_00_07A) (R c16_p34_p27)));
   Set_ O08A (add32 (add32 (R T00) (R T01)) (add32 (R T02) (R T03)));
   Set_ T00 (add32 (madd (R T_00_00A) (R c16_n43_p27)) (madd (R T_00_01A) (R c16_p44_n02)));
   Set_ T01 (add32 (madd (R T_00_02A) (R c16_n30_n23)) (madd (R T_00_03A) (R c16_p07_p41)));
   Set_ T02 (add32 (madd (R T_00_04A) (R c16_p19_n45)) (madd (R T_00_05A) (R c16_n39_p34)));
   Set_ T03 (add32 (madd (R T_00_06A) (R c16_p45_n11)) (madd (R T_00_07A) (R c16_n36_n15)));
   Set_ O09A (add32 (add32 (R T00) (R T01)) (add32 (R T02) (R T03)));
   Set_ T00 (add32 (madd (R T_00_00A) (R c16_n45_p23)) (madd (R T_00_01A) (R c16_p27_p19)));
   Set_ T01 (add32 (madd (R T_00_02A) (R c16_p15_n45)) (madd (R T_00_03A) (R c16_n44_p30)));
   Set_ T02 (add32 (madd (R T_00_04A) (R c16_p34_p11)) (madd (R T_00_05A) (R c16_p07_n43)));
   Set_ T03 (add32 (madd (R T_00_06A) (R c16_n41_p36)) (madd (R T_00_07A) (R c16_p39_p02)));
   Set_ O10A (add32 (add32 (R T00) (R T01)) (add32 (R T02) (R T03)));
   Set_ T00 (add32 (madd (R T_00_00A) (R c16_n44_p19)) (madd (R T_00_01A) (R c16_n02_p36)));
   Set_ T01 (add32 (madd (R T_00_02A) (R c16_p45_n34)) (madd (R T_00_03A) (R c16_n15_n23)));
   Set_ T02 (add32 (madd (R T_00_04A) (R c16_n39_p43)) (madd (R T_00_05A) (R c16_p30_p07)));
   Set_ T03 (add32 (madd (R T_00_06A) (R c16_p27_n45)) (madd (R T_00_07A) (R c16_n41_p11)));
   Set_ O11A (add32 (add32 (R T00) (R T01)) (add32 (R T02) (R T03)));
   Set_ T00 (add32 (madd (R T_00_00A) (R c16_n39_p15)) (madd (R T_00_01A) (R c16_n30_p45)));
   Set_ T01 (add32 (madd (R T_00_02A) (R c16_p27_p02)) (madd (R T_00_03A) (R c16_p41_n44)));
   Set_ T02 (add32 (madd (R T_00_04A) (R c16_n11_n19)) (madd (R T_00_05A) (R c16_n45_p36)));
   Set_ T03 (add32 (madd (R T_00_06A) (R c16_n07_p34)) (madd (R T_00_07A) (R c16_p43_n23)));
   Set_ O12A (add32 (add32 (R T00) (R T01)) (add32 (R T02) (R T03)));
   Set_ T00 (add32 (madd (R T_00_00A) (R c16_n30_p11)) (madd (R T_00_01A) (R c16_n45_p43)));
   Set_ T01 (add32 (madd (R T_00_02A) (R c16_n19_p36)) (madd (R T_00_03A) (R c16_p23_n02)));
   Set_ T02 (add32 (madd (R T_00_04A) (R c16_p45_n39)) (madd (R T_00_05A) (R c16_p27_n41)));
   Set_ T03 (add32 (madd (R T_00_06A) (R c16_n15_n07)) (madd (R T_00_07A) (R c16_n44_p34)));
   Set_ O13A (add32 (add32 (R T00) (R T01)) (add32 (R T02) (R T03)));
   Set_ T00 (add32 (madd (R T_00_00A) (R c16_n19_p07)) (madd (R T_00_01A) (R c16_n39_p30)));
   Set_ T01 (add32 (madd (R T_00_02A) (R c16_n45_p44)) (madd (R T_00_03A) (R c16_n36_p43)));
   Set_ T02 (add32 (madd (R T_00_04A) (R c16_n15_p27)) (madd (R T_00_05A) (R c16_p11_p02)));
   Set_ T03 (add32 (madd (R T_00_06A) (R c16_p34_n23)) (madd (R T_00_07A) (R c16_p45_n41)));
   Set_ O14A (add32 (add32 (R T00) (R T01)) (add32 (R T02) (R T03)));
   Set_ T00 (add32 (madd (R T_00_00A) (R c16_n07_p02)) (madd (R T_00_01A) (R c16_n15_p11)));
   Set_ T01 (add32 (madd (R T_00_02A) (R c16_n23_p19)) (madd (R T_00_03A) (R c16_n30_p27)));
   Set_ T02 (add32 (madd (R T_00_04A) (R c16_n36_p34)) (madd (R T_00_05A) (R c16_n41_p39)));
   Set_ T03 (add32 (madd (R T_00_06A) (R c16_n44_p43)) (madd (R T_00_07A) (R c16_n45_p45)));
   Set_ O15A (add32 (add32 (R T00) (R T01)) (add32 (R T02) (R T03)));
   Set_ T00 (add32 (madd (R T_00_00B) (R c16_p45_p45)) (madd (R T_00_01B) (R c16_p43_p44)));
   Set_ T01 (add32 (madd (R T_00_02B) (R c16_p39_p41)) (madd (R T_00_03B) (R c16_p34_p36)));
   Set_ T02 (add32 (madd (R T_00_04B) (R c16_p27_p30)) (madd (R T_00_05B) (R c16_p19_p23)));
   Set_ T03 (add32 (madd (R T_00_06B) (R c16_p11_p15)) (madd (R T_00_07B) (R c16_p02_p07)))]
  ++ [Set_ O00B (add32 (add32 (R T00) (R T01)) (add32 (R T02) (R T03)));
   Set_ T00 (add32 (madd (R T_00_00B) (R c16_p41_p45)) (madd (R T_00_01B) (R c16_p23_p34)));
   Set_ T01 (add32 (madd (R T_00_02B) (R c16_n02_p11)) (madd (R T_00_03B) (R c16_n27_n15)));
   Set_ T02 (add32 (madd (R T_00_04B) (R c16_n43_n36)) (madd (R T_00_05B) (R c16_n44_n45)));
   Set_ T03 (add32 (madd (R T_00_06B) (R c16_n30_n39)) (madd (R T_00_07B) (R c16_n07_n19)));
   Set_ O01B (add32 (add32 (R T00) (R T01)) (add32 (R T02) (R T03)));
   Set_ T00 (add32 (madd (R T_00_00B) (R c16_p34_p44)) (madd (R T_00_01B) (R c16_n07_p15)));
   Set_ T01 (add32 (madd (R T_00_02B) (R c16_n41_n27)) (madd (R T_00_03B) (R c16_n39_n45)));
   Set_ T02 (add32 (madd (R T_00_04B) (R c16_n02_n23)) (madd (R T_00_05B) (R c16_p36_p19)));
   Set_ T03 (add32 (madd (R T_00_06B) (R c16_p43_p45)) (madd (R T_00_07B) (R c16_p11_p30)));
   Set_ O02B (add32 (add32 (R T00) (R T01)) (add32 (R T02) (R T03)));
   Set_ T00 (add32 (madd (R T_00_00B) (R c16_p23_p43)) (madd (R T_00_01B) (R c16_n34_n07)));
   Set_ T01 (add32 (madd (R T_00_02B) (R c16_n36_n45)) (madd (R T_00_03B) (R c16_p19_n11)));
   Set_ T02 (add32 (madd (R T_00_04B) (R c16_p44_p41)) (madd (R T_00_05B) (R c16_n02_p27)));
   Set_ T03 (add32 (madd (R T_00_06B) (R c16_n45_n30)) (madd (R T_00_07B) (R c16_n15_n39)));
   Set_ O03B (add32 (add32 (R T00) (R T01)) (add32 (R T02) (R T03)));
   Set_ T00 (add32 (madd (R T_00_00B) (R c16_p11_p41)) (madd (R T_00_01B) (R c16_n45_n27)));
   Set_ T01 (add32 (madd (R T_00_02B) (R c16_p07_n30)) (madd (R T_00_03B) (R c16_p43_p39)));
   Set_ T02 (add32 (madd (R T_00_04B) (R c16_n23_p15)) (madd (R T_00_05B) (R c16_n34_n45)));
   Set_ T03 (add32 (madd (R T_00_06B) (R c16_p36_p02)) (madd (R T_00_07B) (R c16_p19_p44)));
   Set_ O04B (add32 (add32 (R T00) (R T01)) (add32 (R T02) (R T03)));
   Set_ T00 (add32 (madd (R T_00_00B) (R c16_n02_p39)) (madd (R T_00_01B) (R c16_n36_n41)));
   Set_ T01 (add32 (madd (R T_00_02B) (R c16_p43_p07)) (madd (R T_00_03B) (R c16_n11_p34)));
   Set_ T02 (add32 (madd (R T_00_04B) (R c16_n30_n44)) (madd (R T_00_05B) (R c16_p45_p15)));
   Set_ T03 (add32 (madd (R T_00_06B) (R c16_n19_p27)) (madd (R T_00_07B) (R c16_n23_n45)));
   Set_ O05B (add32 (add32 (R T00) (R T01)) (add32 (R T02) (R T03)));
   Set_ T00 (add32 (madd (R T_00_00B) (R c16_n15_p36)) (madd (R T_00_01B) (R c16_n11_n45)));
   Set_ T01 (add32 (madd (R T_00_02B) (R c16_p34_p39)) (madd (R T_00_03B) (R c16_n45_n19)));
   Set_ T02 (add32 (madd (R T_00_04B) (R c16_p41_n07)) (madd (R T_00_05B) (R c16_n23_p30)));
   Set_ T03 (add32 (madd (R T_00_06B) (R c16_n02_n44)) (madd (R T_00_07B) (R c16_p27_p43)));
   Set_ O06B (add32 (add32 (R T00) (R T01)) (add32 (R T02) (R T03)));
   Set_ T00 (add32 (madd (R T_00_00B) (R c16_n27_p34)) (madd (R T_00_01B) (R c16_p19_n39)));
   Set_ T01 (add32 (madd (R T_00_02B) (R c16_n11_p43)) (madd (R T_00_03B) (R c16_p02_n45)));
   Set_ T02 (add32 (madd (R T_00_04B) (R c16_p07_p45)) (madd (R T_00_05B) (R c16_n15_n44)));
   Set_ T03 (add32 (madd (R T_00_06B) (R c16_p23_p41)) (madd (R T_00_07B) (R c16_n30_n36)));
   Set_ O07B (add32 (add32 (R T00) (R T01)) (add32 (R T02) (R T03)));
   Set_ T00 (add32 (madd (R T_00_00B) (R c16_n36_p30)) (madd (R T_00_01B) (R c16_p41_n23)));
   Set_ T01 (add32 (madd (R T_00_02B) (R c16_n44_p15)) (madd (R T_00_03B) (R c16_p45_n07)));
   Set_ T02 (add32 (madd (R T_00_04B) (R c16_n45_n02)) (madd (R T_00_05B) (R c16_p43_p11)));
   Set_ T03 (add32 (madd (R T_00_06B) (R c16_n39_n19)) (madd (R T_00_07B) (R c16_p34_p27)));
   Set_ O08B (add32 (add32 (R T00) (R T01)) (add32 (R T02) (R T03)));
   Set_ T00 (add32 (madd (R T_00_00B) (R c16_n43_p27)) (madd (R T_00_01B) (R c16_p44_n02)));
   Set_ T01 (add32 (madd (R T_00_02B) (R c16_n30_n23)) (madd (R T_00_03B) (R c16_p07_p41)));
   Set_ T02 (add32 (madd (R T_00_04B) (R c16_p19_n45)) (madd (R T_00_05B) (R c16_n39_p34)));
   Set_ T03 (add32 (madd (R T_00_06B) (R c16_p45_n11)) (madd (R T_00_07B) (R c16_n36_n15)));
   Set_ O09B (add32 (add32 (R T00) (R T01)) (add32 (R T02) (R T03)));
   Set_ T00 (add32 (madd (R T_00_00B) (R c16_n45_p23)) (madd (R T_00_01B) (R c16_p27_p19)));
   Set_ T01 (add32 (madd (R T_00_02B) (R c16_p15_n45)) (madd (R T_00_03B) (R c16_n44_p30)));
   Set_ T02 (add32 (madd (R T_00_04B) (R c16_p34_p11)) (madd (R T_00_05B) (R c16_p07_n43)));
   Set_ T03 (add32 (madd (R T_00_06B) (R c16_n41_p36)) (madd (R T_00_07B) (R c16_p39_p02)));
   Set_ O10B (add32 (add32 (R T00) (R T01)) (add32 (R T02) (R T03)));
   Set_ T00 (add32 (madd (R T_00_00B) (R c16_n44_p19)) (madd (R T_00_01B) (R c16_n02_p36)));
   Set_ T01 (add32 (madd (R T_00_02B) (R c16_p45_n34)) (madd (R T_00_03B) (R c16_n15_n23)));
   Set_ T02 (add32 (madd (R T_00_04B) (R c16_n39_p43)) (madd (R T_00_05B) (R c16_p30_p07)));
   Set_ T03 (add32 (madd (R T_00_06B) (R c16_p27_n45)) (madd (R T_00_07B) (R c16_n41_p11)));
   Set_ O11B (add32 (add32 (R T00) (R T01)) (add32 (R T02) (R T03)));
   Set_ T00 (add32 (madd (R T_00_00B) (R c16_n39_p15)) (madd (R T_00_01B) (R c16_n30_p45)));
   Set_ T01 (add32 (madd (R T_00_02B) (R c16_p27_p02)) (madd (R T_00_03B) (R c16_p41_n44)));
   Set_ T02 (add32 (madd (R T_00_04B) (R c16_n11_n19)) (madd (R T_00_05B) (R c16_n45_p36)));
   Set_ T03 (add32 (madd (R T_00_06B) (R c16_n07_p34)) (madd (R T_00_07B) (R c16_p43_n23)));
   Set_ O12B (add32 (add32 (R T00) (R T01)) (add32 (R T02) (R T03)));
   Set_ T00 (add32 (madd (R T_00_00B) (R c16_n30_p11)) (madd (R T_00_01B) (R c16_n45_p43)));
   Set_ T01 (add32 (madd (R T_00_02B) (R c16_n19_p36)) (madd (R T_00_03B) (R c16_p23_n02)));
   Set_ T02 (add32 (madd (R T_00_04B) (R c16_p45_n39)) (madd (R T_00_05B) (R c16_p27_n41)))]
  ++ [Set_ T03 (add32 (madd (R T_00_06B) (R c16_n15_n07)) (madd (R T_00_07B) (R c16_n44_p34)));
   Set_ O13B (add32 (add32 (R T00) (R T01)) (add32 (R T02) (R T03)));
   Set_ T00 (add32 (madd (R T_00_00B) (R c16_n19_p07)) (madd (R T_00_01B) (R c16_n39_p30)));
   Set_ T01 (add32 (madd (R T_00_02B) (R c16_n45_p44)) (madd (R T_00_03B) (R c16_n36_p43)));
   Set_ T02 (add32 (madd (R T_00_04B) (R c16_n15_p27)) (madd (R T_00_05B) (R c16_p11_p02)));
   Set_ T03 (add32 (madd (R T_00_06B) (R c16_p34_n23)) (madd (R T_00_07B) (R c16_p45_n41)));
   Set_ O14B (add32 (add32 (R T00) (R T01)) (add32 (R T02) (R T03)));
   Set_ T00 (add32 (madd (R T_00_00B) (R c16_n07_p02)) (madd (R T_00_01B) (R c16_n15_p11)));
   Set_ T01 (add32 (madd (R T_00_02B) (R c16_n23_p19)) (madd (R T_00_03B) (R c16_n30_p27)));
   Set_ T02 (add32 (madd (R T_00_04B) (R c16_n36_p34)) (madd (R T_00_05B) (R c16_n41_p39)));
   Set_ T03 (add32 (madd (R T_00_06B) (R c16_n44_p43)) (madd (R T_00_07B) (R c16_n45_p45)));
   Set_ O15B (add32 (add32 (R T00) (R T01)) (add32 (R T02) (R T03)));
   Set_ T00_2 (add32 (madd (R T_00_08A) (R c16_p43_p45)) (madd (R T_00_09A) (R c16_p35_p40)));
   Set_ T01_2 (add32 (madd (R T_00_10A) (R c16_p21_p29)) (madd (R T_00_11A) (R c16_p04_p13)));
   Set_ EO0A (add32 (R T00_2) (R T01_2));
   Set_ T00_2 (add32 (madd (R T_00_08A) (R c16_p29_p43)) (madd (R T_00_09A) (R c16_n21_p04)));
   Set_ T01_2 (add32 (madd (R T_00_10A) (R c16_n45_n40)) (madd (R T_00_11A) (R c16_n13_n35)));
   Set_ EO1A (add32 (R T00_2) (R T01_2));
   Set_ T00_2 (add32 (madd (R T_00_08A) (R c16_p04_p40)) (madd (R T_00_09A) (R c16_n43_n35)));
   Set_ T01_2 (add32 (madd (R T_00_10A) (R c16_p29_n13)) (madd (R T_00_11A) (R c16_p21_p45)));
   Set_ EO2A (add32 (R T00_2) (R T01_2));
   Set_ T00_2 (add32 (madd (R T_00_08A) (R c16_n21_p35)) (madd (R T_00_09A) (R c16_p04_n43)));
   Set_ T01_2 (add32 (madd (R T_00_10A) (R c16_p13_p45)) (madd (R T_00_11A) (R c16_n29_n40)));
   Set_ EO3A (add32 (R T00_2) (R T01_2));
   Set_ T00_2 (add32 (madd (R T_00_08A) (R c16_n40_p29)) (madd (R T_00_09A) (R c16_p45_n13)));
   Set_ T01_2 (add32 (madd (R T_00_10A) (R c16_n43_n04)) (madd (R T_00_11A) (R c16_p35_p21)));
   Set_ EO4A (add32 (R T00_2) (R T01_2));
   Set_ T00_2 (add32 (madd (R T_00_08A) (R c16_n45_p21)) (madd (R T_00_09A) (R c16_p13_p29)));
   Set_ T01_2 (add32 (madd (R T_00_10A) (R c16_p35_n43)) (madd (R T_00_11A) (R c16_n40_p04)));
   Set_ EO5A (add32 (R T00_2) (R T01_2));
   Set_ T00_2 (add32 (madd (R T_00_08A) (R c16_n35_p13)) (madd (R T_00_09A) (R c16_n40_p45)));
   Set_ T01_2 (add32 (madd (R T_00_10A) (R c16_p04_p21)) (madd (R T_00_11A) (R c16_p43_n29)));
   Set_ EO6A (add32 (R T00_2) (R T01_2));
   Set_ T00_2 (add32 (madd (R T_00_08A) (R c16_n13_p04)) (madd (R T_00_09A) (R c16_n29_p21)));
   Set_ T01_2 (add32 (madd (R T_00_10A) (R c16_n40_p35)) (madd (R T_00_11A) (R c16_n45_p43)));
   Set_ EO7A (add32 (R T00_2) (R T01_2));
   Set_ T00_2 (add32 (madd (R T_00_08B) (R c16_p43_p45)) (madd (R T_00_09B) (R c16_p35_p40)));
   Set_ T01_2 (add32 (madd (R T_00_10B) (R c16_p21_p29)) (madd (R T_00_11B) (R c16_p04_p13)));
   Set_ EO0B (add32 (R T00_2) (R T01_2));
   Set_ T00_2 (add32 (madd (R T_00_08B) (R c16_p29_p43)) (madd (R T_00_09B) (R c16_n21_p04)));
   Set_ T01_2 (add32 (madd (R T_00_10B) (R c16_n45_n40)) (madd (R T_00_11B) (R c16_n13_n35)));
   Set_ EO1B (add32 (R T00_2) (R T01_2));
   Set_ T00_2 (add32 (madd (R T_00_08B) (R c16_p04_p40)) (madd (R T_00_09B) (R c16_n43_n35)));
   Set_ T01_2 (add32 (madd (R T_00_10B) (R c16_p29_n13)) (madd (R T_00_11B) (R c16_p21_p45)));
   Set_ EO2B (add32 (R T00_2) (R T01_2));
   Set_ T00_2 (add32 (madd (R T_00_08B) (R c16_n21_p35)) (madd (R T_00_09B) (R c16_p04_n43)));
   Set_ T01_2 (add32 (madd (R T_00_10B) (R c16_p13_p45)) (madd (R T_00_11B) (R c16_n29_n40)));
   Set_ EO3B (add32 (R T00_2) (R T01_2));
   Set_ T00_2 (add32 (madd (R T_00_08B) (R c16_n40_p29)) (madd (R T_00_09B) (R c16_p45_n13)));
   Set_ T01_2 (add32 (madd (R T_00_10B) (R c16_n43_n04)) (madd (R T_00_11B) (R c16_p35_p21)));
   Set_ EO4B (add32 (R T00_2) (R T01_2));
   Set_ T00_2 (add32 (madd (R T_00_08B) (R c16_n45_p21)) (madd (R T_00_09B) (R c16_p13_p29)));
   Set_ T01_2 (add32 (madd (R T_00_10B) (R c16_p35_n43)) (madd (R T_00_11B) (R c16_n40_p04)));
   Set_ EO5B (add32 (R T00_2) (R T01_2));
   Set_ T00_2 (add32 (madd (R T_00_08B) (R c16_n35_p13)) (madd (R T_00_09B) (R c16_n40_p45)));
   Set_ T01_2 (add32 (madd (R T_00_10B) (R c16_p04_p21)) (madd (R T_00_11B) (R c16_p43_n29)));
   Set_ EO6B (add32 (R T00_2) (R T01_2));
   Set_ T00_2 (add32 (madd (R T_00_08B) (R c16_n13_p04)) (madd (R T_00_09B) (R c16_n29_p21)));
   Set_ T01_2 (add32 (madd (R T_00_10B) (R c16_n40_p35)) (madd (R T_00_11B) (R c16_n45_p43)));
   Set_ EO7B (add32 (R T00_2) (R T01_2));
   Set_ EEO0A (add32 (madd (R T_00_12A) (R c16_p38_p44)) (madd (R T_00_13A) (R c16_p09_p25)));
   Set_ EEO1A (add32 (madd (R T_00_12A) (R c16_n09_p38)) (madd (R T_00_13A) (R c16_n25_n44)));
   Set_ EEO2A (add32 (madd (R T_00_12A) (R c16_n44_p25)) (madd (R T_00_13A) (R c16_p38_p09)));
   Set_ EEO3A (add32 (madd (R T_00_12A) (R c16_n25_p09)) (madd (R T_00_13A) (R c16_n44_p38)))]
  ++ [Set_ EEO0B (add32 (madd (R T_00_12B) (R c16_p38_p44)) (madd (R T_00_13B) (R c16_p09_p25)));
   Set_ EEO1B (add32 (madd (R T_00_12B) (R c16_n09_p38)) (madd (R T_00_13B) (R c16_n25_n44)));
   Set_ EEO2B (add32 (madd (R T_00_12B) (R c16_n44_p25)) (madd (R T_00_13B) (R c16_p38_p09)));
   Set_ EEO3B (add32 (madd (R T_00_12B) (R c16_n25_p09)) (madd (R T_00_13B) (R c16_n44_p38)));
   Set_ EEEO0A (madd (R T_00_14A) (R c16_p17_p42));
   Set_ EEEO0B (madd (R T_00_14B) (R c16_p17_p42));
   Set_ EEEO1A (madd (R T_00_14A) (R c16_n42_p17));
   Set_ EEEO1B (madd (R T_00_14B) (R c16_n42_p17));
   Set_ EEEE0A (madd (R T_00_15A) (R c16_p32_p32));
   Set_ EEEE0B (madd (R T_00_15B) (R c16_p32_p32));
   Set_ EEEE1A (madd (R T_00_15A) (R c16_n32_p32));
   Set_ EEEE1B (madd (R T_00_15B) (R c16_n32_p32));
   Set_ EEE0A (add32 (R EEEE0A) (R EEEO0A));
   Set_ EEE0B (add32 (R EEEE0B) (R EEEO0B));
   Set_ EEE1A (add32 (R EEEE1A) (R EEEO1A));
   Set_ EEE1B (add32 (R EEEE1B) (R EEEO1B));
   Set_ EEE3A (sub32 (R EEEE0A) (R EEEO0A));
   Set_ EEE3B (sub32 (R EEEE0B) (R EEEO0B));
   Set_ EEE2A (sub32 (R EEEE1A) (R EEEO1A));
   Set_ EEE2B (sub32 (R EEEE1B) (R EEEO1B));
   Set_ EE0A (add32 (R EEE0A) (R EEO0A));
   Set_ EE0B (add32 (R EEE0B) (R EEO0B));
   Set_ EE1A (add32 (R EEE1A) (R EEO1A));
   Set_ EE1B (add32 (R EEE1B) (R EEO1B));
   Set_ EE2A (add32 (R EEE2A) (R EEO2A));
   Set_ EE2B (add32 (R EEE2B) (R EEO2B));
   Set_ EE3A (add32 (R EEE3A) (R EEO3A));
   Set_ EE3B (add32 (R EEE3B) (R EEO3B));
   Set_ EE7A (sub32 (R EEE0A) (R EEO0A));
   Set_ EE7B (sub32 (R EEE0B) (R EEO0B));
   Set_ EE6A (sub32 (R EEE1A) (R EEO1A));
   Set_ EE6B (sub32 (R EEE1B) (R EEO1B));
   Set_ EE5A (sub32 (R EEE2A) (R EEO2A));
   Set_ EE5B (sub32 (R EEE2B) (R EEO2B));
   Set_ EE4A (sub32 (R EEE3A) (R EEO3A));
   Set_ EE4B (sub32 (R EEE3B) (R EEO3B));
   Set_ E0A (add32 (R EE0A) (R EO0A));
   Set_ E0B (add32 (R EE0B) (R EO0B));
   Set_ E1A (add32 (R EE1A) (R EO1A));
   Set_ E1B (add32 (R EE1B) (R EO1B));
   Set_ E2A (add32 (R EE2A) (R EO2A));
   Set_ E2B (add32 (R EE2B) (R EO2B));
   Set_ E3A (add32 (R EE3A) (R EO3A));
   Set_ E3B (add32 (R EE3B) (R EO3B));
   Set_ E4A (add32 (R EE4A) (R EO4A));
   Set_ E4B (add32 (R EE4B) (R EO4B));
   Set_ E5A (add32 (R EE5A) (R EO5A));
   Set_ E5B (add32 (R EE5B) (R EO5B));
   Set_ E6A (add32 (R EE6A) (R EO6A));
   Set_ E6B (add32 (R EE6B) (R EO6B));
   Set_ E7A (add32 (R EE7A) (R EO7A));
   Set_ E7B (add32 (R EE7B) (R EO7B));
   Set_ EFA (sub32 (R EE0A) (R EO0A));
   Set_ EFB (sub32 (R EE0B) (R EO0B));
   Set_ EEA (sub32 (R EE1A) (R EO1A));
   Set_ EEB (sub32 (R EE1B) (R EO1B));
   Set_ EDA (sub32 (R EE2A) (R EO2A));
   Set_ EDB (sub32 (R EE2B) (R EO2B));
   Set_ ECA (sub32 (R EE3A) (R EO3A));
   Set_ ECB (sub32 (R EE3B) (R EO3B));
   Set_ EBA (sub32 (R EE4A) (R EO4A));
   Set_ EBB (sub32 (R EE4B) (R EO4B));
   Set_ EAA (sub32 (R EE5A) (R EO5A));
   Set_ EAB (sub32 (R EE5B) (R EO5B))]
  ++ [Set_ E9A (sub32 (R EE6A) (R EO6A));
   Set_ E9B (sub32 (R EE6B) (R EO6B));
   Set_ E8A (sub32 (R EE7A) (R EO7A));
   Set_ E8B (sub32 (R EE7B) (R EO7B));
   Set_ T10A (add32 (R E0A) (R c32_rnd));
   Set_ T10B (add32 (R E0B) (R c32_rnd));
   Set_ T11A (add32 (R E1A) (R c32_rnd));
   Set_ T11B (add32 (R E1B) (R c32_rnd));
   Set_ T12A (add32 (R E2A) (R c32_rnd));
   Set_ T12B (add32 (R E2B) (R c32_rnd));
   Set_ T13A (add32 (R E3A) (R c32_rnd));
   Set_ T13B (add32 (R E3B) (R c32_rnd));
   Set_ T14A (add32 (R E4A) (R c32_rnd));
   Set_ T14B (add32 (R E4B) (R c32_rnd));
   Set_ T15A (add32 (R E5A) (R c32_rnd));
   Set_ T15B (add32 (R E5B) (R c32_rnd));
   Set_ T16A (add32 (R E6A) (R c32_rnd));
   Set_ T16B (add32 (R E6B) (R c32_rnd));
   Set_ T17A (add32 (R E7A) (R c32_rnd));
   Set_ T17B (add32 (R E7B) (R c32_rnd));
   Set_ T18A (add32 (R E8A) (R c32_rnd));
   Set_ T18B (add32 (R E8B) (R c32_rnd));
   Set_ T19A (add32 (R E9A) (R c32_rnd));
   Set_ T19B (add32 (R E9B) (R c32_rnd));
   Set_ T1AA (add32 (R EAA) (R c32_rnd));
   Set_ T1AB (add32 (R EAB) (R c32_rnd));
   Set_ T1BA (add32 (R EBA) (R c32_rnd));
   Set_ T1BB (add32 (R EBB) (R c32_rnd));
   Set_ T1CA (add32 (R ECA) (R c32_rnd));
   Set_ T1CB (add32 (R ECB) (R c32_rnd));
   Set_ T1DA (add32 (R EDA) (R c32_rnd));
   Set_ T1DB (add32 (R EDB) (R c32_rnd));
   Set_ T1EA (add32 (R EEA) (R c32_rnd));
   Set_ T1EB (add32 (R EEB) (R c32_rnd));
   Set_ T1FA (add32 (R EFA) (R c32_rnd));
   Set_ T1FB (add32 (R EFB) (R c32_rnd));
   Set_ T2_00A (add32 (R T10A) (R O00A));
   Set_ T2_00B (add32 (R T10B) (R O00B));
   Set_ T2_01A (add32 (R T11A) (R O01A));
   Set_ T2_01B (add32 (R T11B) (R O01B));
   Set_ T2_02A (add32 (R T12A) (R O02A));
   Set_ T2_02B (add32 (R T12B) (R O02B));
   Set_ T2_03A (add32 (R T13A) (R O03A));
   Set_ T2_03B (add32 (R T13B) (R O03B));
   Set_ T2_04A (add32 (R T14A) (R O04A));
   Set_ T2_04B (add32 (R T14B) (R O04B));
   Set_ T2_05A (add32 (R T15A) (R O05A));
   Set_ T2_05B (add32 (R T15B) (R O05B));
   Set_ T2_06A (add32 (R T16A) (R O06A));
   Set_ T2_06B (add32 (R T16B) (R O06B));
   Set_ T2_07A (add32 (R T17A) (R O07A));
   Set_ T2_07B (add32 (R T17B) (R O07B));
   Set_ T2_08A (add32 (R T18A) (R O08A));
   Set_ T2_08B (add32 (R T18B) (R O08B));
   Set_ T2_09A (add32 (R T19A) (R O09A));
   Set_ T2_09B (add32 (R T19B) (R O09B));
   Set_ T2_10A (add32 (R T1AA) (R O10A));
   Set_ T2_10B (add32 (R T1AB) (R O10B));
   Set_ T2_11A (add32 (R T1BA) (R O11A));
   Set_ T2_11B (add32 (R T1BB) (R O11B));
   Set_ T2_12A (add32 (R T1CA) (R O12A));
   Set_ T2_12B (add32 (R T1CB) (R O12B));
   Set_ T2_13A (add32 (R T1DA) (R O13A));
   Set_ T2_13B (add32 (R T1DB) (R O13B))]
  ++ [Set_ T2_14A (add32 (R T1EA) (R O14A));
   Set_ T2_14B (add32 (R T1EB) (R O14B));
   Set_ T2_15A (add32 (R T1FA) (R O15A));
   Set_ T2_15B (add32 (R T1FB) (R O15B));
   Set_ T2_31A (sub32 (R T10A) (R O00A));
   Set_ T2_31B (sub32 (R T10B) (R O00B));
   Set_ T2_30A (sub32 (R T11A) (R O01A));
   Set_ T2_30B (sub32 (R T11B) (R O01B));
   Set_ T2_29A (sub32 (R T12A) (R O02A));
   Set_ T2_29B (sub32 (R T12B) (R O02B));
   Set_ T2_28A (sub32 (R T13A) (R O03A));
   Set_ T2_28B (sub32 (R T13B) (R O03B));
   Set_ T2_27A (sub32 (R T14A) (R O04A));
   Set_ T2_27B (sub32 (R T14B) (R O04B));
   Set_ T2_26A (sub32 (R T15A) (R O05A));
   Set_ T2_26B (sub32 (R T15B) (R O05B));
   Set_ T2_25A (sub32 (R T16A) (R O06A));
   Set_ T2_25B (sub32 (R T16B) (R O06B));
   Set_ T2_24A (sub32 (R T17A) (R O07A));
   Set_ T2_24B (sub32 (R T17B) (R O07B));
   Set_ T2_23A (sub32 (R T18A) (R O08A));
   Set_ T2_23B (sub32 (R T18B) (R O08B));
   Set_ T2_22A (sub32 (R T19A) (R O09A));
   Set_ T2_22B (sub32 (R T19B) (R O09B));
   Set_ T2_21A (sub32 (R T1AA) (R O10A));
   Set_ T2_21B (sub32 (R T1AB) (R O10B));
   Set_ T2_20A (sub32 (R T1BA) (R O11A));
   Set_ T2_20B (sub32 (R T1BB) (R O11B));
   Set_ T2_19A (sub32 (R T1CA) (R O12A));
   Set_ T2_19B (sub32 (R T1CB) (R O12B));
   Set_ T2_18A (sub32 (R T1DA) (R O13A));
   Set_ T2_18B (sub32 (R T1DB) (R O13B));
   Set_ T2_17A (sub32 (R T1EA) (R O14A));
   Set_ T2_17B (sub32 (R T1EB) (R O14B));
   Set_ T2_16A (sub32 (R T1FA) (R O15A));
   Set_ T2_16B (sub32 (R T1FB) (R O15B));
   Set_ T3_00A (Sra32 (R T2_00A) (X 0));
   Set_ T3_00B (Sra32 (R T2_00B) (X 0));
   Set_ T3_01A (Sra32 (R T2_01A) (X 0));
   Set_ T3_01B (Sra32 (R T2_01B) (X 0));
   Set_ T3_02A (Sra32 (R T2_02A) (X 0));
   Set_ T3_02B (Sra32 (R T2_02B) (X 0));
   Set_ T3_03A (Sra32 (R T2_03A) (X 0));
   Set_ T3_03B (Sra32 (R T2_03B) (X 0));
   Set_ T3_04A (Sra32 (R T2_04A) (X 0));
   Set_ T3_04B (Sra32 (R T2_04B) (X 0));
   Set_ T3_05A (Sra32 (R T2_05A) (X 0));
   Set_ T3_05B (Sra32 (R T2_05B) (X 0));
   Set_ T3_06A (Sra32 (R T2_06A) (X 0));
   Set_ T3_06B (Sra32 (R T2_06B) (X 0));
   Set_ T3_07A (Sra32 (R T2_07A) (X 0));
   Set_ T3_07B (Sra32 (R T2_07B) (X 0));
   Set_ T3_08A (Sra32 (R T2_08A) (X 0));
   Set_ T3_08B (Sra32 (R T2_08B) (X 0));
   Set_ T3_09A (Sra32 (R T2_09A) (X 0));
   Set_ T3_09B (Sra32 (R T2_09B) (X 0));
   Set_ T3_10A (Sra32 (R T2_10A) (X 0));
   Set_ T3_10B (Sra32 (R T2_10B) (X 0));
   Set_ T3_11A (Sra32 (R T2_11A) (X 0));
   Set_ T3_11B (Sra32 (R T2_11B) (X 0));
   Set_ T3_12A (Sra32 (R T2_12A) (X 0));
   Set_ T3_12B (Sra32 (R T2_12B) (X 0));
   Set_ T3_13A (Sra32 (R T2_13A) (X 0));
   Set_ T3_13B (Sra32 (R T2_13B) (X 0))]
  ++ [Set_ T3_14A (Sra32 (R T2_14A) (X 0));
   Set_ T3_14B (Sra32 (R T2_14B) (X 0));
   Set_ T3_15A (Sra32 (R T2_15A) (X 0));
   Set_ T3_15B (Sra32 (R T2_15B) (X 0));
   Set_ T3_16A (Sra32 (R T2_16A) (X 0));
   Set_ T3_16B (Sra32 (R T2_16B) (X 0));
   Set_ T3_17A (Sra32 (R T2_17A) (X 0));
   Set_ T3_17B (Sra32 (R T2_17B) (X 0));
   Set_ T3_18A (Sra32 (R T2_18A) (X 0));
   Set_ T3_18B (Sra32 (R T2_18B) (X 0));
   Set_ T3_19A (Sra32 (R T2_19A) (X 0));
   Set_ T3_19B (Sra32 (R T2_19B) (X 0));
   Set_ T3_20A (Sra32 (R T2_20A) (X 0));
   Set_ T3_20B (Sra32 (R T2_20B) (X 0));
   Set_ T3_21A (Sra32 (R T2_21A) (X 0));
   Set_ T3_21B (Sra32 (R T2_21B) (X 0));
   Set_ T3_22A (Sra32 (R T2_22A) (X 0));
   Set_ T3_22B (Sra32 (R T2_22B) (X 0));
   Set_ T3_23A (Sra32 (R T2_23A) (X 0));
   Set_ T3_23B (Sra32 (R T2_23B) (X 0));
   Set_ T3_24A (Sra32 (R T2_24A) (X 0));
   Set_ T3_24B (Sra32 (R T2_24B) (X 0));
   Set_ T3_25A (Sra32 (R T2_25A) (X 0));
   Set_ T3_25B (Sra32 (R T2_25B) (X 0));
   Set_ T3_26A (Sra32 (R T2_26A) (X 0));
   Set_ T3_26B (Sra32 (R T2_26B) (X 0));
   Set_ T3_27A (Sra32 (R T2_27A) (X 0));
   Set_ T3_27B (Sra32 (R T2_27B) (X 0));
   Set_ T3_28A (Sra32 (R T2_28A) (X 0));
   Set_ T3_28B (Sra32 (R T2_28B) (X 0));
   Set_ T3_29A (Sra32 (R T2_29A) (X 0));
   Set_ T3_29B (Sra32 (R T2_29B) (X 0));
   Set_ T3_30A (Sra32 (R T2_30A) (X 0));
   Set_ T3_30B (Sra32 (R T2_30B) (X 0));
   Set_ T3_31A (Sra32 (R T2_31A) (X 0));
   Set_ T3_31B (Sra32 (R T2_31B) (X 0));
   Set_ res00 (packs32 (R T3_00A) (R T3_00B));
   Set_ res01 (packs32 (R T3_01A) (R T3_01B));
   Set_ res02 (packs32 (R T3_02A) (R T3_02B));
   Set_ res03 (packs32 (R T3_03A) (R T3_03B));
   Set_ res04 (packs32 (R T3_04A) (R T3_04B));
   Set_ res05 (packs32 (R T3_05A) (R T3_05B));
   Set_ res06 (packs32 (R T3_06A) (R T3_06B));
   Set_ res07 (packs32 (R T3_07A) (R T3_07B));
   Set_ (res00 + 1) (packs32 (R T3_08A) (R T3_08B));
   Set_ (res01 + 1) (packs32 (R T3_09A) (R T3_09B));
   Set_ (res02 + 1) (packs32 (R T3_10A) (R T3_10B));
   Set_ (res03 + 1) (packs32 (R T3_11A) (R T3_11B));
   Set_ (res04 + 1) (packs32 (R T3_12A) (R T3_12B));
   Set_ (res05 + 1) (packs32 (R T3_13A) (R T3_13B));
   Set_ (res06 + 1) (packs32 (R T3_14A) (R T3_14B));
   Set_ (res07 + 1) (packs32 (R T3_15A) (R T3_15B));
   Set_ (res00 + 2) (packs32 (R T3_16A) (R T3_16B));
   Set_ (res01 + 2) (packs32 (R T3_17A) (R T3_17B));
   Set_ (res02 + 2) (packs32 (R T3_18A) (R T3_18B));
   Set_ (res03 + 2) (packs32 (R T3_19A) (R T3_19B));
   Set_ (res04 + 2) (packs32 (R T3_20A) (R T3_20B));
   Set_ (res05 + 2) (packs32 (R T3_21A) (R T3_21B));
   Set_ (res06 + 2) (packs32 (R T3_22A) (R T3_22B));
   Set_ (res07 + 2) (packs32 (R T3_23A) (R T3_23B));
   Set_ (res00 + 3) (packs32 (R T3_24A) (R T3_24B));
   Set_ (res01 + 3) (packs32 (R T3_25A) (R T3_25B));
   Set_ (res02 + 3) (packs32 (R T3_26A) (R T3_26B));
   Set_ (res03 + 3) (packs32 (R T3_27A) (R T3_27B))]
  ++ [Set_ (res04 + 3) (packs32 (R T3_28A) (R T3_28B));
   Set_ (res05 + 3) (packs32 (R T3_29A) (R T3_29B));
   Set_ (res06 + 3) (packs32 (R T3_30A) (R T3_30B));
   Set_ (res07 + 3) (packs32 (R T3_31A) (R T3_31B));
   Set_ max_val (S16 8 (Q HI2));
   Set_ min_val (S16 8 (Q LO2));
   Set_ c32_rnd (S32 8 (Q RND2));
   SetI 0 (Q SH2)]
  ++ loop 4 (fun pass =>
    [Set_ tr0_0 (lo16 (R (res00 + pass)) (R (res01 + pass)));
     Set_ tr0_1 (lo16 (R (res02 + pass)) (R (res03 + pass)));
     Set_ tr0_2 (hi16 (R (res00 + pass)) (R (res01 + pass)));
     Set_ tr0_3 (hi16 (R (res02 + pass)) (R (res03 + pass)));
     Set_ tr0_4 (lo16 (R (res04 + pass)) (R (res05 + pass)));
     Set_ tr0_5 (lo16 (R (res06 + pass)) (R (res07 + pass)));
     Set_ tr0_6 (hi16 (R (res04 + pass)) (R (res05 + pass)));
     Set_ tr0_7 (hi16 (R (res06 + pass)) (R (res07 + pass)));
     Set_ tr1_0 (lo32 (R tr0_0) (R tr0_1));
     Set_ tr1_1 (lo32 (R tr0_2) (R tr0_3));
     Set_ tr1_2 (hi32 (R tr0_0) (R tr0_1));
     Set_ tr1_3 (hi32 (R tr0_2) (R tr0_3));
     Set_ tr1_4 (lo32 (R tr0_4) (R tr0_5));
     Set_ tr1_5 (lo32 (R tr0_6) (R tr0_7));
     Set_ tr1_6 (hi32 (R tr0_4) (R tr0_5));
     Set_ tr1_7 (hi32 (R tr0_6) (R tr0_7));
     Set_ in00 (lo64 (R tr1_0) (R tr1_4));
     Set_ in01 (hi64 (R tr1_0) (R tr1_4));
     Set_ in02 (lo64 (R tr1_2) (R tr1_6));
     Set_ in03 (hi64 (R tr1_2) (R tr1_6));
     Set_ in04 (lo64 (R tr1_1) (R tr1_5));
     Set_ in05 (hi64 (R tr1_1) (R tr1_5));
     Set_ in06 (lo64 (R tr1_3) (R tr1_7));
     Set_ in07 (hi64 (R tr1_3) (R tr1_7));
     Set_ m128Tmp0 (lo16 (R in01) (R in03));
     Set_ E1l (madd (R m128Tmp0) (Cst [44; 38; 44; 38; 44; 38; 44; 38]));
     Set_ m128Tmp1 (hi16 (R in01) (R in03));
     Set_ E1h (madd (R m128Tmp1) (Cst [44; 38; 44; 38; 44; 38; 44; 38]));
     Set_ m128Tmp2 (lo16 (R in05) (R in07));
     Set_ E2l (madd (R m128Tmp2) (Cst [25; 9; 25; 9; 25; 9; 25; 9]));
     Set_ m128Tmp3 (hi16 (R in05) (R in07));
     Set_ E2h (madd (R m128Tmp3) (Cst [25; 9; 25; 9; 25; 9; 25; 9]));
     Set_ O0l (add32 (R E1l) (R E2l));
     Set_ O0h (add32 (R E1h) (R E2h));
     Set_ E1l (madd (R m128Tmp0) (Cst [38; (-9); 38; (-9); 38; (-9); 38; (-9)]));
     Set_ E1h (madd (R m128Tmp1) (Cst [38; (-9); 38; (-9); 38; (-9); 38; (-9)]));
     Set_ E2l (madd (R m128Tmp2) (Cst [(-44); (-25); (-44); (-25); (-44); (-25); (-44); (-25)]));
     Set_ E2h (madd (R m128Tmp3) (Cst [(-44); (-25); (-44); (-25); (-44); (-25); (-44); (-25)]));
     Set_ O1l (add32 (R E1l) (R E2l));
     Set_ O1h (add32 (R E1h) (R E2h));
     Set_ E1l (madd (R m128Tmp0) (Cst [25; (-44); 25; (-44); 25; (-44); 25; (-44)]));
     Set_ E1h (madd (R m128Tmp1) (Cst [25; (-44); 25; (-44); 25; (-44); 25; (-44)]));
     Set_ E2l (madd (R m128Tmp2) (Cst [9; 38; 9; 38; 9; 38; 9; 38]));
     Set_ E2h (madd (R m128Tmp3) (Cst [9; 38; 9; 38; 9; 38; 9; 38]));
     Set_ O2l (add32 (R E1l) (R E2l));
     Set_ O2h (add32 (R E1h) (R E2h));
     Set_ E1l (madd (R m128Tmp0) (Cst [9; (-25); 9; (-25); 9; (-25); 9; (-25)]));
     Set_ E1h (madd (R m128Tmp1) (Cst [9; (-25); 9; (-25); 9; (-25); 9; (-25)]));
     Set_ E2l (madd (R m128Tmp2) (Cst [38; (-44); 38; (-44); 38; (-44); 38; (-44)]));
     Set_ E2h (madd (R m128Tmp3) (Cst [38; (-44); 38; (-44); 38; (-44); 38; (-44)]));
     Set_ O3h (add32 (R E1h) (R E2h));
     Set_ O3l (add32 (R E1l) (R E2l));
     Set_ m128Tmp0 (lo16 (R in00) (R in04));
     Set_ EE0l (madd (R m128Tmp0) (Cst [32; 32; 32; 32; 32; 32; 32; 32]));
     Set_ m128Tmp1 (hi16 (R in00) (R in04));
     Set_ EE0h (madd (R m128Tmp1) (Cst [32; 32; 32; 32; 32; 32; 32; 32]));
     Set_ EE1l (madd (R m128Tmp0) (Cst [32; (-32); 32; (-32); 32; (-32); 32; (-32)]));
     Set_ EE1h (madd (R m128Tmp1) (Cst [32; (-32); 32; (-32); 32; (-32); 32; (-32)]));
     Set_ m128Tmp0 (lo16 (R in02) (R in06));
     Set_ E00l (madd (R m128Tmp0) (Cst [42; 17; 42; 17; 42; 17; 42; 17]));
     Set_ m128Tmp1 (hi16 (R in02) (R in06));
     Set_ E00h (madd (R m128Tmp1) (Cst [42; 17; 42; 17; 42; 17; 42; 17]));
     Set_ E01l (madd (R m128Tmp0) (Cst [17; (-42); 17; (-42); 17; (-42); 17; (-42)]));
     Set_ E01h (madd (R m128Tmp1) (Cst [17; (-42); 17; (-42); 17; (-42); 17; (-42)]))]
    ++ [Set_ E0l (add32 (R EE0l) (R E00l));
     Set_ E0l (add32 (R E0l) (R c32_rnd));
     Set_ E0h (add32 (R EE0h) (R E00h));
     Set_ E0h (add32 (R E0h) (R c32_rnd));
     Set_ E3l (sub32 (R EE0l) (R E00l));
     Set_ E3l (add32 (R E3l) (R c32_rnd));
     Set_ E3h (sub32 (R EE0h) (R E00h));
     Set_ E3h (add32 (R E3h) (R c32_rnd));
     Set_ E1l (add32 (R EE1l) (R E01l));
     Set_ E1l (add32 (R E1l) (R c32_rnd));
     Set_ E1h (add32 (R EE1h) (R E01h));
     Set_ E1h (add32 (R E1h) (R c32_rnd));
     Set_ E2l (sub32 (R EE1l) (R E01l));
     Set_ E2l (add32 (R E2l) (R c32_rnd));
     Set_ E2h (sub32 (R EE1h) (R E01h));
     Set_ E2h (add32 (R E2h) (R c32_rnd));
     Set_ in00 (packs32 (Sra32 (add32 (R E0l) (R O0l)) (X 0)) (Sra32 (add32 (R E0h) (R O0h)) (X 0)));
     Set_ in07 (packs32 (Sra32 (sub32 (R E0l) (R O0l)) (X 0)) (Sra32 (sub32 (R E0h) (R O0h)) (X 0)));
     Set_ in01 (packs32 (Sra32 (add32 (R E1l) (R O1l)) (X 0)) (Sra32 (add32 (R E1h) (R O1h)) (X 0)));
     Set_ in06 (packs32 (Sra32 (sub32 (R E1l) (R O1l)) (X 0)) (Sra32 (sub32 (R E1h) (R O1h)) (X 0)));
     Set_ in02 (packs32 (Sra32 (add32 (R E2l) (R O2l)) (X 0)) (Sra32 (add32 (R E2h) (R O2h)) (X 0)));
     Set_ in05 (packs32 (Sra32 (sub32 (R E2l) (R O2l)) (X 0)) (Sra32 (sub32 (R E2h) (R O2h)) (X 0)));
     Set_ in03 (packs32 (Sra32 (add32 (R E3l) (R O3l)) (X 0)) (Sra32 (add32 (R E3h) (R O3h)) (X 0)));
     Set_ in04 (packs32 (Sra32 (sub32 (R E3l) (R O3l)) (X 0)) (Sra32 (sub32 (R E3h) (R O3h)) (X 0)));
     Set_ E0l (lo16 (R in00) (R in04));
     Set_ E1l (lo16 (R in01) (R in05));
     Set_ E2l (lo16 (R in02) (R in06));
     Set_ E3l (lo16 (R in03) (R in07));
     Set_ O0l (hi16 (R in00) (R in04));
     Set_ O1l (hi16 (R in01) (R in05));
     Set_ O2l (hi16 (R in02) (R in06));
     Set_ O3l (hi16 (R in03) (R in07));
     Set_ m128Tmp0 (lo16 (R E0l) (R E2l));
     Set_ m128Tmp1 (lo16 (R E1l) (R E3l));
     Set_ in00 (lo16 (R m128Tmp0) (R m128Tmp1));
     Set_ in00 (min16 (R in00) (R max_val));
     Set_ in00 (max16 (R in00) (R min_val));
     St 8 0 (8 * pass) 0 (R in00);
     Set_ in01 (hi16 (R m128Tmp0) (R m128Tmp1));
     Set_ in01 (min16 (R in01) (R max_val));
     Set_ in01 (max16 (R in01) (R min_val));
     St 8 0 (8 * pass) 8 (R in01);
     Set_ m128Tmp2 (hi16 (R E0l) (R E2l));
     Set_ m128Tmp3 (hi16 (R E1l) (R E3l));
     Set_ in02 (lo16 (R m128Tmp2) (R m128Tmp3));
     Set_ in02 (min16 (R in02) (R max_val));
     Set_ in02 (max16 (R in02) (R min_val));
     St 8 0 (8 * pass) 16 (R in02);
     Set_ in03 (hi16 (R m128Tmp2) (R m128Tmp3));
     Set_ in03 (min16 (R in03) (R max_val));
     Set_ in03 (max16 (R in03) (R min_val));
     St 8 0 (8 * pass) 24 (R in03);
     Set_ m128Tmp0 (lo16 (R O0l) (R O2l));
     Set_ m128Tmp1 (lo16 (R O1l) (R O3l));
     Set_ in04 (lo16 (R m128Tmp0) (R m128Tmp1));
     Set_ in04 (min16 (R in04) (R max_val));
     Set_ in04 (max16 (R in04) (R min_val));
     St 8 0 (8 * pass) 32 (R in04);
     Set_ in05 (hi16 (R m128Tmp0) (R m128Tmp1));
     Set_ in05 (min16 (R in05) (R max_val));
     Set_ in05 (max16 (R in05) (R min_val));
     St 8 0 (8 * pass) 40 (R in05);
     Set_ m128Tmp2 (hi16 (R O0l) (R O2l));
     Set_ m128Tmp3 (hi16 (R O1l) (R O3l))]
    ++ [Set_ in06 (lo16 (R m128Tmp2) (R m128Tmp3));
     Set_ in06 (min16 (R in06) (R max_val));
     Set_ in06 (max16 (R in06) (R min_val));
     St 8 0 (8 * pass) 48 (R in06);
     Set_ in07 (hi16 (R m128Tmp2) (R m128Tmp3));
     Set_ in07 (min16 (R in07) (R max_val));
     Set_ in07 (max16 (R in07) (R min_val));
     St 8 0 (8 * pass) 56 (R in07)]).

(** vec/intrinsic_idct.cc:2447-3233 [idct_32x32_sse128]. The lowest bit of [i_dst] is a flag that changes shift and limits; the stride is [i_dst & 0xFE]. *)
Definition idct_32x32_sse128 : list ins :=
  let c16_p45_p45 := 1 in let c16_p43_p44 := 2 in let c16_p39_p41 := 3 in let c16_p34_p36 := 4 in let c16_p27_p30 := 5 in let c16_p19_p23 := 6 in
  let c16_p11_p15 := 7 in let c16_p02_p07 := 8 in let c16_p41_p45 := 9 in let c16_p23_p34 := 10 in let c16_n02_p11 := 11 in let c16_n27_n15 := 12 in
  let c16_n43_n36 := 13 in let c16_n44_n45 := 14 in let c16_n30_n39 := 15 in let c16_n07_n19 := 16 in let c16_p34_p44 := 17 in
  let c16_n07_p15 := 18 in let c16_n41_n27 := 19 in let c16_n39_n45 := 20 in let c16_n02_n23 := 21 in let c16_p36_p19 := 22 in
  let c16_p43_p45 := 23 in let c16_p11_p30 := 24 in let c16_p23_p43 := 25 in let c16_n34_n07 := 26 in let c16_n36_n45 := 27 in
  let c16_p19_n11 := 28 in let c16_p44_p41 := 29 in let c16_n02_p27 := 30 in let c16_n45_n30 := 31 in let c16_n15_n39 := 32 in
  let c16_p11_p41 := 33 in let c16_n45_n27 := 34 in let c16_p07_n30 := 35 in let c16_p43_p39 := 36 in let c16_n23_p15 := 37 in
  let c16_n34_n45 := 38 in let c16_p36_p02 := 39 in let c16_p19_p44 := 40 in let c16_n02_p39 := 41 in let c16_n36_n41 := 42 in
  let c16_p43_p07 := 43 in let c16_n11_p34 := 44 in let c16_n30_n44 := 45 in let c16_p45_p15 := 46 in let c16_n19_p27 := 47 in
  let c16_n23_n45 := 48 in let c16_n15_p36 := 49 in let c16_n11_n45 := 50 in let c16_p34_p39 := 51 in let c16_n45_n19 := 52 in
  let c16_p41_n07 := 53 in let c16_n23_p30 := 54 in let c16_n02_n44 := 55 in let c16_p27_p43 := 56 in let c16_n27_p34 := 57 in
  let c16_p19_n39 := 58 in let c16_n11_p43 := 59 in let c16_p02_n45 := 60 in let c16_p07_p45 := 61 in let c16_n15_n44 := 62 in
  let c16_p23_p41 := 63 in let c16_n30_n36 := 64 in let c16_n36_p30 := 65 in let c16_p41_n23 := 66 in let c16_n44_p15 := 67 in
  let c16_p45_n07 := 68 in let c16_n45_n02 := 69 in let c16_p43_p11 := 70 in let c16_n39_n19 := 71 in let c16_p34_p27 := 72 in
  let c16_n43_p27 := 73 in let c16_p44_n02 := 74 in let c16_n30_n23 := 75 in let c16_p07_p41 := 76 in let c16_p19_n45 := 77 in
  let c16_n39_p34 := 78 in let c16_p45_n11 := 79 in let c16_n36_n15 := 80 in let c16_n45_p23 := 81 in let c16_p27_p19 := 82 in
  let c16_p15_n45 := 83 in let c16_n44_p30 := 84 in let c16_p34_p11 := 85 in let c16_p07_n43 := 86 in let c16_n41_p36 := 87 in
  let c16_p39_p02 := 88 in let c16_n44_p19 := 89 in let c16_n02_p36 := 90 in let c16_p45_n34 := 91 in let c16_n15_n23 := 92 in
  let c16_n39_p43 := 93 in let c16_p30_p07 := 94 in let c16_p27_n45 := 95 in let c16_n41_p11 := 96 in let c16_n39_p15 := 97 in
  let c16_n30_p45 := 98 in let c16_p27_p02 := 99 in let c16_p41_n44 := 100 in let c16_n11_n19 := 101 in let c16_n45_p36 := 102 in
  let c16_n07_p34 := 103 in let c16_p43_n23 := 104 in let c16_n30_p11 := 105 in let c16_n45_p43 := 106 in let c16_n19_p36 := 107 in
  let c16_p23_n02 := 108 in let c16_p45_n39 := 109 in let c16_p27_n41 := 110 in let c16_n15_n07 := 111 in let c16_n44_p34 := 112 in
  let c16_n19_p07 := 113 in let c16_n39_p30 := 114 in let c16_n45_p44 := 115 in let c16_n36_p43 := 116 in let c16_n15_p27 := 117 in
  let c16_p11_p02 := 118 in let c16_p34_n23 := 119 in let c16_p45_n41 := 120 in let c16_n07_p02 := 121 in let c16_n15_p11 := 122 in
  let c16_n23_p19 := 123 in let c16_n30_p27 := 124 in let c16_n36_p34 := 125 in let c16_n41_p39 := 126 in let c16_n44_p43 := 127 in
  let c16_n45_p45 := 128 in let c16_p35_p40 := 129 in let c16_p21_p29 := 130 in let c16_p04_p13 := 131 in let c16_p29_p43 := 132 in
  let c16_n21_p04 := 133 in let c16_n45_n40 := 134 in let c16_n13_n35 := 135 in let c16_p04_p40 := 136 in let c16_n43_n35 := 137 in
  let c16_p29_n13 := 138 in let c16_p21_p45 := 139 in let c16_n21_p35 := 140 in let c16_p04_n43 := 141 in let c16_p13_p45 := 142 in
  let c16_n29_n40 := 143 in let c16_n40_p29 := 144 in let c16_p45_n13 := 145 in let c16_n43_n04 := 146 in let c16_p35_p21 := 147 in
  let c16_n45_p21 := 148 in let c16_p13_p29 := 149 in let c16_p35_n43 := 150 in let c16_n40_p04 := 151 in let c16_n35_p13 := 152 in
  let c16_n40_p45 := 153 in let c16_p04_p21 := 154 in let c16_p43_n29 := 155 in let c16_n13_p04 := 156 in let c16_n29_p21 := 157 in
  let c16_n40_p35 := 158 in let c16_p38_p44 := 159 in let c16_p09_p25 := 160 in let c16_n09_p38 := 161 in let c16_n25_n44 := 162 in
  let c16_n44_p25 := 163 in let c16_p38_p09 := 164 in let c16_n25_p09 := 165 in let c16_n44_p38 := 166 in let c16_p17_p42 := 167 in
  let c16_n42_p17 := 168 in let c16_p32_p32 := 169 in let c16_n32_p32 := 170 in let c32_rnd := 171 in let in00 := 172 in let in01 := 176 in
  let in02 := 180 in let in03 := 184 in let in04 := 188 in let in05 := 192 in let in06 := 196 in let in07 := 200 in let in08 := 204 in
  let in09 := 208 in let in10 := 212 in let in11 := 216 in let in12 := 220 in let in13 := 224 in let in14 := 228 in let in15 := 232 in
  let in16 := 236 in let in17 := 240 in let in18 := 244 in let in19 := 248 in let in20 := 252 in let in21 := 256 in let in22 := 260 in
  let in23 := 264 in let in24 := 268 in let in25 := 272 in let in26 := 276 in let in27 := 280 in let in28 := 284 in let in29 := 288 in
  let in30 := 292 in let in31 := 296 in let res00 := 300 in let res01 := 304 in let res02 := 308 in let res03 := 312 in let res04 := 316 in
  let res05 := 320 in let res06 := 324 in let res07 := 328 in let res08 := 332 in let res09 := 336 in let res10 := 340 in let res11 := 344 in
  let res12 := 348 in let res13 := 352 in let res14 := 356 in let res15 := 360 in let res16 := 364 in let res17 := 368 in let res18 := 372 in
  let res19 := 376 in let res20 := 380 in let res21 := 384 in let res22 := 388 in let res23 := 392 in let res24 := 396 in let res25 := 400 in
  let res26 := 404 in let res27 := 408 in let res28 := 412 in let res29 := 416 in let res30 := 420 in let res31 := 424 in let T_00_00A := 428 in
  let T_00_00B := 429 in let T_00_01A := 430 in let T_00_01B := 431 in let T_00_02A := 432 in let T_00_02B := 433 in let T_00_03A := 434 in
  let T_00_03B := 435 in let T_00_04A := 436 in let T_00_04B := 437 in let T_00_05A := 438 in let T_00_05B := 439 in let T_00_06A := 440 in
  let T_00_06B := 441 in let T_00_07A := 442 in let T_00_07B := 443 in let T_00_08A := 444 in let T_00_08B := 445 in let T_00_09A := 446 in
  let T_00_09B := 447 in let T_00_10A := 448 in let T_00_10B := 449 in let T_00_11A := 450 in let T_00_11B := 451 in let T_00_12A := 452 in
  let T_00_12B := 453 in let T_00_13A := 454 in let T_00_13B := 455 in let T_00_14A := 456 in let T_00_14B := 457 in let T_00_15A := 458 in
  let T_00_15B := 459 in let O00A := 460 in let O01A := 461 in let O02A := 462 in let O03A := 463 in let O04A := 464 in let O05A := 465 in
  let O06A := 466 in let O07A := 467 in let O08A := 468 in let O09A := 469 in let O10A := 470 in let O11A := 471 in let O12A := 472 in
  let O13A := 473 in let O14A := 474 in let O15A := 475 in let O00B := 476 in let O01B := 477 in let O02B := 478 in let O03B := 479 in
  let O04B := 480 in let O05B := 481 in let O06B := 482 in let O07B := 483 in let O08B := 484 in let O09B := 485 in let O10B := 486 in
  let O11B := 487 in let O12B := 488 in let O13B := 489 in let O14B := 490 in let O15B := 491 in let EO0A := 492 in let EO1A := 493 in
  let EO2A := 494 in let EO3A := 495 in let EO4A := 496 in let EO5A := 497 in let EO6A := 498 in let EO7A := 499 in let EO0B := 500 in
  let EO1B := 501 in let EO2B := 502 in let EO3B := 503 in let EO4B := 504 in let EO5B := 505 in let EO6B := 506 in let EO7B := 507 in
  let T00 := 508 in let T01 := 509 in let T02 := 510 in let T03 := 511 in let T00_2 := 512 in let T01_2 := 513 in let EEO0A := 514 in
  let EEO1A := 515 in let EEO2A := 516 in let EEO3A := 517 in let EEO0B := 518 in let EEO1B := 519 in let EEO2B := 520 in let EEO3B := 521 in
  let EEEO0A := 522 in let EEEO0B := 523 in let EEEO1A := 524 in let EEEO1B := 525 in let EEEE0A := 526 in let EEEE0B := 527 in let EEEE1A := 528 in
  let EEEE1B := 529 in let EEE0A := 530 in let EEE0B := 531 in let EEE1A := 532 in let EEE1B := 533 in let EEE3A := 534 in let EEE3B := 535 in
  let EEE2A := 536 in let EEE2B := 537 in let EE0A := 538 in let EE0B := 539 in let EE1A := 540 in let EE1B := 541 in let EE2A := 542 in
  let EE2B := 543 in let EE3A := 544 in let EE3B := 545 in let EE7A := 546 in let EE7B := 547 in let EE6A := 548 in let EE6B := 549 in
  let EE5A := 550 in let EE5B := 551 in let EE4A := 552 in let EE4B := 553 in let E0A := 554 in let E0B := 555 in let E1A := 556 in let E1B := 557 in
  let E2A := 558 in let E2B := 559 in let E3A := 560 in let E3B := 561 in let E4A := 562 in let E4B := 563 in let E5A := 564 in let E5B := 565 in
  let E6A := 566 in let E6B := 567 in let E7A := 568 in let E7B := 569 in let EFA := 570 in let EFB := 571 in let EEA := 572 in let EEB := 573 in
  let EDA := 574 in let EDB := 575 in let ECA := 576 in let ECB := 577 in let EBA := 578 in let EBB := 579 in let EAA := 580 in let EAB := 581 in
  let E9A := 582 in let E9B := 583 in let E8A := 584 in let E8B := 585 in let T10A := 586 in let T10B := 587 in let T11A := 588 in let T11B := 589 in
  let T12A := 590 in let T12B := 591 in let T13A := 592 in let T13B := 593 in let T14A := 594 in let T14B := 595 in let T15A := 596 in
  let T15B := 597 in let T16A := 598 in let T16B := 599 in let T17A := 600 in let T17B := 601 in let T18A := 602 in let T18B := 603 in
  let T19A := 604 in let T19B := 605 in let T1AA := 606 in let T1AB := 607 in let T1BA := 608 in let T1BB := 609 in let T1CA := 610 in
  let T1CB := 611 in let T1DA := 612 in let T1DB := 613 in let T1EA := 614 in let T1EB := 615 in let T1FA := 616 in let T1FB := 617 in
  let T2_00A := 618 in let T2_00B := 619 in let T2_01A := 620 in let T2_01B := 621 in let T2_02A := 622 in let T2_02B := 623 in let T2_03A := 624 in
  let T2_03B := 625 in let T2_04A := 626 in let T2_04B := 627 in let T2_05A := 628 in let T2_05B := 629 in let T2_06A := 630 in let T2_06B := 631 in
  let T2_07A := 632 in let T2_07B := 633 in let T2_08A := 634 in let T2_08B := 635 in let T2_09A := 636 in let T2_09B := 637 in let T2_10A := 638 in
  let T2_10B := 639 in let T2_11A := 640 in let T2_11B := 641 in let T2_12A := 642 in let T2_12B := 643 in let T2_13A := 644 in let T2_13B := 645 in
  let T2_14A := 646 in let T2_14B := 647 in let T2_15A := 648 in let T2_15B := 649 in let T2_31A := 650 in let T2_31B := 651 in let T2_30A := 652 in
  let T2_30B := 653 in let T2_29A := 654 in let T2_29B := 655 in let T2_28A := 656 in let T2_28B := 657 in let T2_27A := 658 in let T2_27B := 659 in
  let T2_26A := 660 in let T2_26B := 661 in let T2_25A := 662 in let T2_25B := 663 in let T2_24A := 664 in let T2_24B := 665 in let T2_23A := 666 in
  let T2_23B := 667 in let T2_22A := 668 in let T2_22B := 669 in let T2_21A := 670 in let T2_21B := 671 in let T2_20A := 672 in let T2_20B := 673 in
  let T2_19A := 674 in let T2_19B := 675 in let T2_18A := 676 in let T2_18B := 677 in let T2_17A := 678 in let T2_17B := 679 in let T2_16A := 680 in
  let T2_16B := 681 in let T3_00A := 682 in let T3_00B := 683 in let T3_01A := 684 in let T3_01B := 685 in let T3_02A := 686 in let T3_02B := 687 in
  let T3_03A := 688 in let T3_03B := 689 in let T3_04A := 690 in let T3_04B := 691 in let T3_05A := 692 in let T3_05B := 693 in let T3_06A := 694 in
  let T3_06B := 695 in let T3_07A := 696 in let T3_07B := 697 in let T3_08A := 698 in let T3_08B := 699 in let T3_09A := 700 in let T3_09B := 701 in
  let T3_10A := 702 in let T3_10B := 703 in let T3_11A := 704 in let T3_11B := 705 in let T3_12A := 706 in let T3_12B := 707 in let T3_13A := 708 in
  let T3_13B := 709 in let T3_14A := 710 in let T3_14B := 711 in let T3_15A := 712 in let T3_15B := 713 in let T3_16A := 714 in let T3_16B := 715 in
  let T3_17A := 716 in let T3_17B := 717 in let T3_18A := 718 in let T3_18B := 719 in let T3_19A := 720 in let T3_19B := 721 in let T3_20A := 722 in
  let T3_20B := 723 in let T3_21A := 724 in let T3_21B := 725 in let T3_22A := 726 in let T3_22B := 727 in let T3_23A := 728 in let T3_23B := 729 in
  let T3_24A := 730 in let T3_24B := 731 in let T3_25A := 732 in let T3_25B := 733 in let T3_26A := 734 in let T3_26B := 735 in let T3_27A := 736 in
  let T3_27B := 737 in let T3_28A := 738 in let T3_28B := 739 in let T3_29A := 740 in let T3_29B := 741 in let T3_30A := 742 in let T3_30B := 743 in
  let T3_31A := 744 in let T3_31B := 745 in let tr0_0 := 746 in let tr0_1 := 747 in let tr0_2 := 748 in let tr0_3 := 749 in let tr0_4 := 750 in
  let tr0_5 := 751 in let tr0_6 := 752 in let tr0_7 := 753 in let tr1_0 := 754 in let tr1_1 := 755 in let tr1_2 := 756 in let tr1_3 := 757 in
  let tr1_4 := 758 in let tr1_5 := 759 in let tr1_6 := 760 in let tr1_7 := 761 in let max_val := 762 in let min_val := 763 in
  [Set_ c16_p45_p45 (S32 8 (I 2949165));
   Set_ c16_p43_p44 (S32 8 (I 2818092));
   Set_ c16_p39_p41 (S32 8 (I 2555945));
   Set_ c16_p34_p36 (S32 8 (I 2228260));
   Set_ c16_p27_p30 (S32 8 (I 1769502));
   Set_ c16_p19_p23 (S32 8 (I 1245207));
   Set_ c16_p11_p15 (S32 8 (I 720911));
   Set_ c16_p02_p07 (S32 8 (I 131079));
   Set_ c16_p41_p45 (S32 8 (I 2687021));
   Set_ c16_p23_p34 (S32 8 (I 1507362));
   Set_ c16_n02_p11 (S32 8 (I (-131061)));
   Set_ c16_n27_n15 (S32 8 (I (-1703951)));
   Set_ c16_n43_n36 (S32 8 (I (-2752548)));
   Set_ c16_n44_n45 (S32 8 (I (-2818093)));
   Set_ c16_n30_n39 (S32 8 (I (-1900583)));
   Set_ c16_n07_n19 (S32 8 (I (-393235)));
   Set_ c16_p34_p44 (S32 8 (I 2228268));
   Set_ c16_n07_p15 (S32 8 (I (-458737)));
   Set_ c16_n41_n27 (S32 8 (I (-2621467)));
   Set_ c16_n39_n45 (S32 8 (I (-2490413)));
   Set_ c16_n02_n23 (S32 8 (I (-65559)));
   Set_ c16_p36_p19 (S32 8 (I 2359315));
   Set_ c16_p43_p45 (S32 8 (I 2818093));
   Set_ c16_p11_p30 (S32 8 (I 720926));
   Set_ c16_p23_p43 (S32 8 (I 1507371));
   Set_ c16_n34_n07 (S32 8 (I (-2162695)));
   Set_ c16_n36_n45 (S32 8 (I (-2293805)));
   Set_ c16_p19_n11 (S32 8 (I 1310709));
   Set_ c16_p44_p41 (S32 8 (I 2883625));
   Set_ c16_n02_p27 (S32 8 (I (-131045)));
   Set_ c16_n45_n30 (S32 8 (I (-2883614)));
   Set_ c16_n15_n39 (S32 8 (I (-917543)));
   Set_ c16_p11_p41 (S32 8 (I 720937));
   Set_ c16_n45_n27 (S32 8 (I (-2883611)));
   Set_ c16_p07_n30 (S32 8 (I 524258));
   Set_ c16_p43_p39 (S32 8 (I 2818087));
   Set_ c16_n23_p15 (S32 8 (I (-1507313)));
   Set_ c16_n34_n45 (S32 8 (I (-2162733)));
   Set_ c16_p36_p02 (S32 8 (I 2359298));
   Set_ c16_p19_p44 (S32 8 (I 1245228));
   Set_ c16_n02_p39 (S32 8 (I (-131033)));
   Set_ c16_n36_n41 (S32 8 (I (-2293801)));
   Set_ c16_p43_p07 (S32 8 (I 2818055));
   Set_ c16_n11_p34 (S32 8 (I (-720862)));
   Set_ c16_n30_n44 (S32 8 (I (-1900588)));
   Set_ c16_p45_p15 (S32 8 (I 2949135));
   Set_ c16_n19_p27 (S32 8 (I (-1245157)));
   Set_ c16_n23_n45 (S32 8 (I (-1441837)));
   Set_ c16_n15_p36 (S32 8 (I (-983004)));
   Set_ c16_n11_n45 (S32 8 (I (-655405)));
   Set_ c16_p34_p39 (S32 8 (I 2228263));
   Set_ c16_n45_n19 (S32 8 (I (-2883603)));
   Set_ c16_p41_n07 (S32 8 (I 2752505));
   Set_ c16_n23_p30 (S32 8 (I (-1507298)));
   Set_ c16_n02_n44 (S32 8 (I (-65580)));
   Set_ c16_p27_p43 (S32 8 (I 1769515));
   Set_ c16_n27_p34 (S32 8 (I (-1769438)));
   Set_ c16_p19_n39 (S32 8 (I 1310681));
   Set_ c16_n11_p43 (S32 8 (I (-720853)));
   Set_ c16_p02_n45 (S32 8 (I 196563));
   Set_ c16_p07_p45 (S32 8 (I 458797));
   Set_ c16_n15_n44 (S32 8 (I (-917548)));
   Set_ c16_p23_p41 (S32 8 (I 1507369));
   Set_ c16_n30_n36 (S32 8 (I (-1900580)))]
  ++ [Set_ c16_n36_p30 (S32 8 (I (-2359266)));
   Set_ c16_p41_n23 (S32 8 (I 2752489));
   Set_ c16_n44_p15 (S32 8 (I (-2883569)));
   Set_ c16_p45_n07 (S32 8 (I 3014649));
   Set_ c16_n45_n02 (S32 8 (I (-2883586)));
   Set_ c16_p43_p11 (S32 8 (I 2818059));
   Set_ c16_n39_n19 (S32 8 (I (-2490387)));
   Set_ c16_p34_p27 (S32 8 (I 2228251));
   Set_ c16_n43_p27 (S32 8 (I (-2818021)));
   Set_ c16_p44_n02 (S32 8 (I 2949118));
   Set_ c16_n30_n23 (S32 8 (I (-1900567)));
   Set_ c16_p07_p41 (S32 8 (I 458793));
   Set_ c16_p19_n45 (S32 8 (I 1310675));
   Set_ c16_n39_p34 (S32 8 (I (-2555870)));
   Set_ c16_p45_n11 (S32 8 (I 3014645));
   Set_ c16_n36_n15 (S32 8 (I (-2293775)));
   Set_ c16_n45_p23 (S32 8 (I (-2949097)));
   Set_ c16_p27_p19 (S32 8 (I 1769491));
   Set_ c16_p15_n45 (S32 8 (I 1048531));
   Set_ c16_n44_p30 (S32 8 (I (-2883554)));
   Set_ c16_p34_p11 (S32 8 (I 2228235));
   Set_ c16_p07_n43 (S32 8 (I 524245));
   Set_ c16_n41_p36 (S32 8 (I (-2686940)));
   Set_ c16_p39_p02 (S32 8 (I 2555906));
   Set_ c16_n44_p19 (S32 8 (I (-2883565)));
   Set_ c16_n02_p36 (S32 8 (I (-131036)));
   Set_ c16_p45_n34 (S32 8 (I 3014622));
   Set_ c16_n15_n23 (S32 8 (I (-917527)));
   Set_ c16_n39_p43 (S32 8 (I (-2555861)));
   Set_ c16_p30_p07 (S32 8 (I 1966087));
   Set_ c16_p27_n45 (S32 8 (I 1834963));
   Set_ c16_n41_p11 (S32 8 (I (-2686965)));
   Set_ c16_n39_p15 (S32 8 (I (-2555889)));
   Set_ c16_n30_p45 (S32 8 (I (-1966035)));
   Set_ c16_p27_p02 (S32 8 (I 1769474));
   Set_ c16_p41_n44 (S32 8 (I 2752468));
   Set_ c16_n11_n19 (S32 8 (I (-655379)));
   Set_ c16_n45_p36 (S32 8 (I (-2949084)));
   Set_ c16_n07_p34 (S32 8 (I (-458718)));
   Set_ c16_p43_n23 (S32 8 (I 2883561));
   Set_ c16_n30_p11 (S32 8 (I (-1966069)));
   Set_ c16_n45_p43 (S32 8 (I (-2949077)));
   Set_ c16_n19_p36 (S32 8 (I (-1245148)));
   Set_ c16_p23_n02 (S32 8 (I 1572862));
   Set_ c16_p45_n39 (S32 8 (I 3014617));
   Set_ c16_p27_n41 (S32 8 (I 1834967));
   Set_ c16_n15_n07 (S32 8 (I (-917511)));
   Set_ c16_n44_p34 (S32 8 (I (-2883550)));
   Set_ c16_n19_p07 (S32 8 (I (-1245177)));
   Set_ c16_n39_p30 (S32 8 (I (-2555874)));
   Set_ c16_n45_p44 (S32 8 (I (-2949076)));
   Set_ c16_n36_p43 (S32 8 (I (-2359253)));
   Set_ c16_n15_p27 (S32 8 (I (-983013)));
   Set_ c16_p11_p02 (S32 8 (I 720898));
   Set_ c16_p34_n23 (S32 8 (I 2293737));
   Set_ c16_p45_n41 (S32 8 (I 3014615));
   Set_ c16_n07_p02 (S32 8 (I (-458750)));
   Set_ c16_n15_p11 (S32 8 (I (-983029)));
   Set_ c16_n23_p19 (S32 8 (I (-1507309)));
   Set_ c16_n30_p27 (S32 8 (I (-1966053)));
   Set_ c16_n36_p34 (S32 8 (I (-2359262)));
   Set_ c16_n41_p39 (S32 8 (I (-2686937)));
   Set_ c16_n44_p43 (S32 8 (I (-2883541)));
   Set_ c16_n45_p45 (S32 8 (I (-2949075)))]
  ++ [Set_ c16_p35_p40 (S32 8 (I 2293800));
   Set_ c16_p21_p29 (S32 8 (I 1376285));
   Set_ c16_p04_p13 (S32 8 (I 262157));
   Set_ c16_p29_p43 (S32 8 (I 1900587));
   Set_ c16_n21_p04 (S32 8 (I (-1376252)));
   Set_ c16_n45_n40 (S32 8 (I (-2883624)));
   Set_ c16_n13_n35 (S32 8 (I (-786467)));
   Set_ c16_p04_p40 (S32 8 (I 262184));
   Set_ c16_n43_n35 (S32 8 (I (-2752547)));
   Set_ c16_p29_n13 (S32 8 (I 1966067));
   Set_ c16_p21_p45 (S32 8 (I 1376301));
   Set_ c16_n21_p35 (S32 8 (I (-1376221)));
   Set_ c16_p04_n43 (S32 8 (I 327637));
   Set_ c16_p13_p45 (S32 8 (I 852013));
   Set_ c16_n29_n40 (S32 8 (I (-1835048)));
   Set_ c16_n40_p29 (S32 8 (I (-2621411)));
   Set_ c16_p45_n13 (S32 8 (I 3014643));
   Set_ c16_n43_n04 (S32 8 (I (-2752516)));
   Set_ c16_p35_p21 (S32 8 (I 2293781));
   Set_ c16_n45_p21 (S32 8 (I (-2949099)));
   Set_ c16_p13_p29 (S32 8 (I 851997));
   Set_ c16_p35_n43 (S32 8 (I 2359253));
   Set_ c16_n40_p04 (S32 8 (I (-2621436)));
   Set_ c16_n35_p13 (S32 8 (I (-2293747)));
   Set_ c16_n40_p45 (S32 8 (I (-2621395)));
   Set_ c16_p04_p21 (S32 8 (I 262165));
   Set_ c16_p43_n29 (S32 8 (I 2883555));
   Set_ c16_n13_p04 (S32 8 (I (-851964)));
   Set_ c16_n29_p21 (S32 8 (I (-1900523)));
   Set_ c16_n40_p35 (S32 8 (I (-2621405)));
   Set_ c16_p38_p44 (S32 8 (I 2490412));
   Set_ c16_p09_p25 (S32 8 (I 589849));
   Set_ c16_n09_p38 (S32 8 (I (-589786)));
   Set_ c16_n25_n44 (S32 8 (I (-1572908)));
   Set_ c16_n44_p25 (S32 8 (I (-2883559)));
   Set_ c16_p38_p09 (S32 8 (I 2490377));
   Set_ c16_n25_p09 (S32 8 (I (-1638391)));
   Set_ c16_n44_p38 (S32 8 (I (-2883546)));
   Set_ c16_p17_p42 (S32 8 (I 1114154));
   Set_ c16_n42_p17 (S32 8 (I (-2752495)));
   Set_ c16_p32_p32 (S32 8 (I 2097184));
   Set_ c16_n32_p32 (S32 8 (I (-2097120)));
   Set_ c32_rnd (S32 8 (I 16));
   SetI 0 (I 5)]
  ++ loop 4 (fun i =>
    [Set_ (in00 + i) (Ld 8 (8 * i));
     Set_ (in01 + i) (Ld 8 (8 * i + 32));
     Set_ (in02 + i) (Ld 8 (8 * i + 64));
     Set_ (in03 + i) (Ld 8 (8 * i + 96));
     Set_ (in04 + i) (Ld 8 (8 * i + 128));
     Set_ (in05 + i) (Ld 8 (8 * i + 160));
     Set_ (in06 + i) (Ld 8 (8 * i + 192));
     Set_ (in07 + i) (Ld 8 (8 * i + 224));
     Set_ (in08 + i) (Ld 8 (8 * i + 256));
     Set_ (in09 + i) (Ld 8 (8 * i + 288));
     Set_ (in10 + i) (Ld 8 (8 * i + 320));
     Set_ (in11 + i) (Ld 8 (8 * i + 352));
     Set_ (in12 + i) (Ld 8 (8 * i + 384));
     Set_ (in13 + i) (Ld 8 (8 * i + 416));
     Set_ (in14 + i) (Ld 8 (8 * i + 448));
     Set_ (in15 + i) (Ld 8 (8 * i + 480));
     Set_ (in16 + i) (Ld 8 (8 * i + 512));
     Set_ (in17 + i) (Ld 8 (8 * i + 544));
     Set_ (in18 + i) (Ld 8 (8 * i + 576));
     Set_ (in19 + i) (Ld 8 (8 * i + 608));
     Set_ (in20 + i) (Ld 8 (8 * i + 640));
     Set_ (in21 + i) (Ld 8 (8 * i + 672));
     Set_ (in22 + i) (Ld 8 (8 * i + 704));
     Set_ (in23 + i) (Ld 8 (8 * i + 736));
     Set_ (in24 + i) (Ld 8 (8 * i + 768));
     Set_ (in25 + i) (Ld 8 (8 * i + 800));
     Set_ (in26 + i) (Ld 8 (8 * i + 832));
     Set_ (in27 + i) (Ld 8 (8 * i + 864));
     Set_ (in28 + i) (Ld 8 (8 * i + 896));
     Set_ (in29 + i) (Ld 8 (8 * i + 928));
     Set_ (in30 + i) (Ld 8 (8 * i + 960));
     Set_ (in31 + i) (Ld 8 (8 * i + 992))])
  ++ loop 2 (fun pass =>
    when (pass =? 1)
      ([Set_ c32_rnd (S32 8 (Q RND2));
       SetI 0 (Q SH2)])
    ++ loop 4 (fun part =>
      [Set_ T_00_00A (lo16 (R (in01 + part)) (R (in03 + part)));
       Set_ T_00_00B (hi16 (R (in01 + part)) (R (in03 + part)));
       Set_ T_00_01A (lo16 (R (in05 + part)) (R (in07 + part)));
       Set_ T_00_01B (hi16 (R (in05 + part)) (R (in07 + part)));
       Set_ T_00_02A (lo16 (R (in09 + part)) (R (in11 + part)));
       Set_ T_00_02B (hi16 (R (in09 + part)) (R (in11 + part)));
       Set_ T_00_03A (lo16 (R (in13 + part)) (R (in15 + part)));
       Set_ T_00_03B (hi16 (R (in13 + part)) (R (in15 + part)));
       Set_ T_00_04A (lo16 (R (in17 + part)) (R (in19 + part)));
       Set_ T_00_04B (hi16 (R (in17 + part)) (R (in19 + part)));
       Set_ T_00_05A (lo16 (R (in21 + part)) (R (in23 + part)));
       Set_ T_00_05B (hi16 (R (in21 + part)) (R (in23 + part)));
       Set_ T_00_06A (lo16 (R (in25 + part)) (R (in27 + part)));
       Set_ T_00_06B (hi16 (R (in25 + part)) (R (in27 + part)));
       Set_ T_00_07A (lo16 (R (in29 + part)) (R (in31 + part)));
       Set_ T_00_07B (hi16 (R (in29 + part)) (R (in31 + part)));
       Set_ T_00_08A (lo16 (R (in02 + part)) (R (in06 + part)));
       Set_ T_00_08B (hi16 (R (in02 + part)) (R (in06 + part)));
       Set_ T_00_09A (lo16 (R (in10 + part)) (R (in14 + part)));
       Set_ T_00_09B (hi16 (R (in10 + part)) (R (in14 + part)));
       Set_ T_00_10A (lo16 (R (in18 + part)) (R (in22 + part)));
       Set_ T_00_10B (hi16 (R (in18 + part)) (R (in22 + part)));
       Set_ T_00_11A (lo16 (R (in26 + part)) (R (in30 + part)));
       Set_ T_00_11B (hi16 (R (in26 + part)) (R (in30 + part)));
       Set_ T_00_12A (lo16 (R (in04 + part)) (R (in12 + part)));
       Set_ T_00_12B (hi16 (R (in04 + part)) (R (in12 + part)));
       Set_ T_00_13A (lo16 (R (in20 + part)) (R (in28 + part)));
       Set_ T_00_13B (hi16 (R (in20 + part)) (R (in28 + part)));
       Set_ T_00_14A (lo16 (R (in08 + part)) (R (in24 + part)));
       Set_ T_00_14B (hi16 (R (in08 + part)) (R (in24 + part)));
       Set_ T_00_15A (lo16 (R (in00 + part)) (R (in16 + part)));
       Set_ T_00_15B (hi16 (R (in00 + part)) (R (in16 + part)));
       Set_ T00 (add32 (madd (R T_00_00A) (R c16_p45_p45)) (madd (R T_00_01A) (R c16_p43_p44)));
       Set_ T01 (add32 (madd (R T_00_02A) (R c16_p39_p41)) (madd (R T_00_03A) (R c16_p34_p36)));
       Set_ T02 (add32 (madd (R T_00_04A) (R c16_p27_p30)) (madd (R T_00_05A) (R c16_p19_p23)));
       Set_ T03 (add32 (madd (R T_00_06A) (R c16_p11_p15)) (madd (R T_00_07A) (R c16_p02_p07)));
       Set_ O00A (add32 (add32 (R T00) (R T01)) (add32 (R T02) (R T03)));
       Set_ T00 (add32 (madd (R T_00_00A) (R c16_p41_p45)) (madd (R T_00_01A) (R c16_p23_p34)));
       Set_ T01 (add32 (madd (R T_00_02A) (R c16_n02_p11)) (madd (R T_00_03A) (R c16_n27_n15)));
       Set_ T02 (add32 (madd (R T_00_04A) (R c16_n43_n36)) (madd (R T_00_05A) (R c16_n44_n45)));
       Set_ T03 (add32 (madd (R T_00_06A) (R c16_n30_n39)) (madd (R T_00_07A) (R c16_n07_n19)));
       Set_ O01A (add32 (add32 (R T00) (R T01)) (add32 (R T02) (R T03)));
       Set_ T00 (add32 (madd (R T_00_00A) (R c16_p34_p44)) (madd (R T_00_01A) (R c16_n07_p15)));
       Set_ T01 (add32 (madd (R T_00_02A) (R c16_n41_n27)) (madd (R T_00_03A) (R c16_n39_n45)));
       Set_ T02 (add32 (madd (R T_00_04A) (R c16_n02_n23)) (madd (R T_00_05A) (R c16_p36_p19)));
       Set_ T03 (add32 (madd (R T_00_06A) (R c16_p43_p45)) (madd (R T_00_07A) (R c16_p11_p30)));
       Set_ O02A (add32 (add32 (R T00) (R T01)) (add32 (R T02) (R T03)));
       Set_ T00 (add32 (madd (R T_00_00A) (R c16_p23_p43)) (madd (R T_00_01A) (R c16_n34_n07)));
       Set_ T01 (add32 (madd (R T_00_02A) (R c16_n36_n45)) (madd (R T_00_03A) (R c16_p19_n11)));
       Set_ T02 (add32 (madd (R T_00_04A) (R c16_p44_p41)) (madd (R T_00_05A) (R c16_n02_p27)));
       Set_ T03 (add32 (madd (R T_00_06A) (R c16_n45_n30)) (madd (R T_00_07A) (R c16_n15_n39)));
       Set_ O03A (add32 (add32 (R T00) (R T01)) (add32 (R T02) (R T03)));
       Set_ T00 (add32 (madd (R T_00_00A) (R c16_p11_p41)) (madd (R T_00_01A) (R c16_n45_n27)));
       Set_ T01 (add32 (madd (R T_00_02A) (R c16_p07_n30)) (madd (R T_00_03A) (R c16_p43_p39)));
       Set_ T02 (add32 (madd (R T_00_04A) (R c16_n23_p15)) (madd (R T_00_05A) (R c16_n34_n45)));
       Set_ T03 (add32 (madd (R T_00_06A) (R c16_p36_p02)) (madd (R T_00_07A) (R c16_p19_p44)));
       Set_ O04A (add32 (add32 (R T00) (R T01)) (add32 (R T02) (R T03)));
       Set_ T00 (add32 (madd (R T_00_00A) (R c16_n02_p39)) (madd (R T_00_01A) (R c16_n36_n41)));
       Set_ T01 (add32 (madd (R T_00_02A) (R c16_p43_p07)) (madd (R T_00_03A) (R c16_n11_p34)));
       Set_ T02 (add32 (madd (R T_00_04A) (R c16_n30_n44)) (madd (R T_00_05A) (R c16_p45_p15)));
       Set_ T03 (add32 (madd (R T_00_06A) (R c16_n19_p27)) (madd (R T_00_07A) (R c16_n23_n45)));
       Set_ O05A (add32 (add32 (R T00) (R T01)) (add32 (R T02) (R T03)));
       Set_ T00 (add32 (madd (R T_00_00A) (R c16_n15_p36)) (madd (R T_00_01A) (R c16_n11_n45)));
       Set_ T01 (add32 (madd (R T_00_02A) (R c16_p34_p39)) (madd (R T_00_03A) (R c16_n45_n19)))]
      ++ [Set_ T02 (add32 (madd (R T_00_04A) (R c16_p41_n07)) (madd (R T_00_05A) (R c16_n23_p30)));
       Set_ T03 (add32 (madd (R T_00_06A) (R c16_n02_n44)) (madd (R T_00_07A) (R c16_p27_p43)));
       Set_ O06A (add32 (add32 (R T00) (R T01)) (add32 (R T02) (R T03)));
       Set_ T00 (add32 (madd (R T_00_00A) (R c16_n27_p34)) (madd (R T_00_01A) (R c16_p19_n39)));
       Set_ T01 (add32 (madd (R T_00_02A) (R c16_n11_p43)) (madd (R T_00_03A) (R c16_p02_n45)));
       Set_ T02 (add32 (madd (R T_00_04A) (R c16_p07_p45)) (madd (R T_00_05A) (R c16_n15_n44)));
       Set_ T03 (add32 (madd (R T_00_06A) (R c16_p23_p41)) (madd (R T_00_07A) (R c16_n30_n36)));
       Set_ O07A (add32 (add32 (R T00) (R T01)) (add32 (R T02) (R T03)));
       Set_ T00 (add32 (madd (R T_00_00A) (R c16_n36_p30)) (madd (R T_00_01A) (R c16_p41_n23)));
       Set_ T01 (add32 (madd (R T_00_02A) (R c16_n44_p15)) (madd (R T_00_03A) (R c16_p45_n07)));
       Set_ T02 (add32 (madd (R T_00_04A) (R c16_n45_n02)) (madd (R T_00_05A) (R c16_p43_p11)));
       Set_ T03 (add32 (madd (R T_00_06A) (R c16_n39_n19)) (madd (R T_00_07A) (R c16_p34_p27)));
       Set_ O08A (add32 (add32 (R T00) (R T01)) (add32 (R T02) (R T03)));
       Set_ T00 (add32 (madd (R T_00_00A) (R c16_n43_p27)) (madd (R T_00_01A) (R c16_p44_n02)));
       Set_ T01 (add32 (madd (R T_00_02A) (R c16_n30_n23)) (madd (R T_00_03A) (R c16_p07_p41)));
       Set_ T02 (add32 (madd (R T_00_04A) (R c16_p19_n45)) (madd (R T_00_05A) (R c16_n39_p34)));
       Set_ T03 (add32 (madd (R T_00_06A) (R c16_p45_n11)) (madd (R T_00_07A) (R c16_n36_n15)));
       Set_ O09A (add32 (add32 (R T00) (R T01)) (add32 (R T02) (R T03)));
       Set_ T00 (add32 (madd (R T_00_00A) (R c16_n45_p23)) (madd (R T_00_01A) (R c16_p27_p19)));
       Set_ T01 (add32 (madd (R T_00_02A) (R c16_p15_n45)) (madd (R T_00_03A) (R c16_n44_p30)));
       Set_ T02 (add32 (madd (R T_00_04A) (R c16_p34_p11)) (madd (R T_00_05A) (R c16_p07_n43)));
       Set_ T03 (add32 (madd (R T_00_06A) (R c16_n41_p36)) (madd (R T_00_07A) (R c16_p39_p02)));
       Set_ O10A (add32 (add32 (R T00) (R T01)) (add32 (R T02) (R T03)));
       Set_ T00 (add32 (madd (R T_00_00A) (R c16_n44_p19)) (madd (R T_00_01A) (R c16_n02_p36)));
       Set_ T01 (add32 (madd (R T_00_02A) (R c16_p45_n34)) (madd (R T_00_03A) (R c16_n15_n23)));
       Set_ T02 (add32 (madd (R T_00_04A) (R c16_n39_p43)) (madd (R T_00_05A) (R c16_p30_p07)));
       Set_ T03 (add32 (madd (R T_00_06A) (R c16_p27_n45)) (madd (R T_00_07A) (R c16_n41_p11)));
       Set_ O11A (add32 (add32 (R T00) (R T01)) (add32 (R T02) (R T03)));
       Set_ T00 (add32 (madd (R T_00_00A) (R c16_n39_p15)) (madd (R T_00_01A) (R c16_n30_p45)));
       Set_ T01 (add32 (madd (R T_00_02A) (R c16_p27_p02)) (madd (R T_00_03A) (R c16_p41_n44)));
       Set_ T02 (add32 (madd (R T_00_04A) (R c16_n11_n19)) (madd (R T_00_05A) (R c16_n45_p36)));
       Set_ T03 (add32 (madd (R T_00_06A) (R c16_n07_p34)) (madd (R T_00_07A) (R c16_p43_n23)));
       Set_ O12A (add32 (add32 (R T00) (R T01)) (add32 (R T02) (R T03)));
       Set_ T00 (add32 (madd (R T_00_00A) (R c16_n30_p11)) (madd (R T_00_01A) (R c16_n45_p43)));
       Set_ T01 (add32 (madd (R T_00_02A) (R c16_n19_p36)) (madd (R T_00_03A) (R c16_p23_n02)));
       Set_ T02 (add32 (madd (R T_00_04A) (R c16_p45_n39)) (madd (R T_00_05A) (R c16_p27_n41)));
       Set_ T03 (add32 (madd (R T_00_06A) (R c16_n15_n07)) (madd (R T_00_07A) (R c16_n44_p34)));
       Set_ O13A (add32 (add32 (R T00) (R T01)) (add32 (R T02) (R T03)));
       Set_ T00 (add32 (madd (R T_00_00A) (R c16_n19_p07)) (madd (R T_00_01A) (R c16_n39_p30)));
       Set_ T01 (add32 (madd (R T_00_02A) (R c16_n45_p44)) (madd (R T_00_03A) (R c16_n36_p43)));
       Set_ T02 (add32 (madd (R T_00_04A) (R c16_n15_p27)) (madd (R T_00_05A) (R c16_p11_p02)));
       Set_ T03 (add32 (madd (R T_00_06A) (R c16_p34_n23)) (madd (R T_00_07A) (R c16_p45_n41)));
       Set_ O14A (add32 (add32 (R T00) (R T01)) (add32 (R T02) (R T03)));
       Set_ T00 (add32 (madd (R T_00_00A) (R c16_n07_p02)) (madd (R T_00_01A) (R c16_n15_p11)));
       Set_ T01 (add32 (madd (R T_00_02A) (R c16_n23_p19)) (madd (R T_00_03A) (R c16_n30_p27)));
       Set_ T02 (add32 (madd (R T_00_04A) (R c16_n36_p34)) (madd (R T_00_05A) (R c16_n41_p39)));
       Set_ T03 (add32 (madd (R T_00_06A) (R c16_n44_p43)) (madd (R T_00_07A) (R c16_n45_p45)));
       Set_ O15A (add32 (add32 (R T00) (R T01)) (add32 (R T02) (R T03)));
       Set_ T00 (add32 (madd (R T_00_00B) (R c16_p45_p45)) (madd (R T_00_01B) (R c16_p43_p44)));
       Set_ T01 (add32 (madd (R T_00_02B) (R c16_p39_p41)) (madd (R T_00_03B) (R c16_p34_p36)));
       Set_ T02 (add32 (madd (R T_00_04B) (R c16_p27_p30)) (madd (R T_00_05B) (R c16_p19_p23)));
       Set_ T03 (add32 (madd (R T_00_06B) (R c16_p11_p15)) (madd (R T_00_07B) (R c16_p02_p07)));
       Set_ O00B (add32 (add32 (R T00) (R T01)) (add32 (R T02) (R T03)));
       Set_ T00 (add32 (madd (R T_00_00B) (R c16_p41_p45)) (madd (R T_00_01B) (R c16_p23_p34)));
       Set_ T01 (add32 (madd (R T_00_02B) (R c16_n02_p11)) (madd (R T_00_03B) (R c16_n27_n15)));
       Set_ T02 (add32 (madd (R T_00_04B) (R c16_n43_n36)) (madd (R T_00_05B) (R c16_n44_n45)));
       Set_ T03 (add32 (madd (R T_00_06B) (R c16_n30_n39)) (madd (R T_00_07B) (R c16_n07_n19)));
       Set_ O01B (add32 (add32 (R T00) (R T01)) (add32 (R T02) (R T03)));
       Set_ T00 (add32 (madd (R T_00_00B) (R c16_p34_p44)) (madd (R T_00_01B) (R c16_n07_p15)));
       Set_ T01 (add32 (madd (R T_00_02B) (R c16_n41_n27)) (madd (R T_00_03B) (R c16_n39_n45)));
       Set_ T02 (add32 (madd (R T_00_04B) (R c16_n02_n23)) (madd (R T_00_05B) (R c16_p36_p19)));
       Set_ T03 (add32 (madd (R T_00_06B) (R c16_p43_p45)) (madd (R T_00_07B) (R c16_p11_p30)));
       Set_ O02B (add32 (add32 (R T00) (R T01)) (add32 (R T02) (R T03)));
       Set_ T00 (add32 (madd (R T_00_00B) (R c16_p23_p43)) (madd (R T_00_01B) (R c16_n34_n07)))]
      ++ [Set_ T01 (add32 (madd (R T_00_02B) (R c16_n36_n45)) (madd (R T_00_03B) (R c16_p19_n11)));
       Set_ T02 (add32 (madd (R T_00_04B) (R c16_p44_p41)) (madd (R T_00_05B) (R c16_n02_p27)));
       Set_ T03 (add32 (madd (R T_00_06B) (R c16_n45_n30)) (madd (R T_00_07B) (R c16_n15_n39)));
       Set_ O03B (add32 (add32 (R T00) (R T01)) (add32 (R T02) (R T03)));
       Set_ T00 (add32 (madd (R T_00_00B) (R c16_p11_p41)) (madd (R T_00_01B) (R c16_n45_n27)));
       Set_ T01 (add32 (madd (R T_00_02B) (R c16_p07_n30)) (madd (R T_00_03B) (R c16_p43_p39)));
       Set_ T02 (add32 (madd (R T_00_04B) (R c16_n23_p15)) (madd (R T_00_05B) (R c16_n34_n45)));
       Set_ T03 (add32 (madd (R T_00_06B) (R c16_p36_p02)) (madd (R T_00_07B) (R c16_p19_p44)));
       Set_ O04B (add32 (add32 (R T00) (R T01)) (add32 (R T02) (R T03)));
       Set_ T00 (add32 (madd (R T_00_00B) (R c16_n02_p39)) (madd (R T_00_01B) (R c16_n36_n41)));
       Set_ T01 (add32 (madd (R T_00_02B) (R c16_p43_p07)) (madd (R T_00_03B) (R c16_n11_p34)));
       Set_ T02 (add32 (madd (R T_00_04B) (R c16_n30_n44)) (madd (R T_00_05B) (R c16_p45_p15)));
       Set_ T03 (add32 (madd (R T_00_06B) (R c16_n19_p27)) (madd (R T_00_07B) (R c16_n23_n45)));
       Set_ O05B (add32 (add32 (R T00) (R T01)) (add32 (R T02) (R T03)));
       Set_ T00 (add32 (madd (R T_00_00B) (R c16_n15_p36)) (madd (R T_00_01B) (R c16_n11_n45)));
       Set_ T01 (add32 (madd (R T_00_02B) (R c16_p34_p39)) (madd (R T_00_03B) (R c16_n45_n19)));
       Set_ T02 (add32 (madd (R T_00_04B) (R c16_p41_n07)) (madd (R T_00_05B) (R c16_n23_p30)));
       Set_ T03 (add32 (madd (R T_00_06B) (R c16_n02_n44)) (madd (R T_00_07B) (R c16_p27_p43)));
       Set_ O06B (add32 (add32 (R T00) (R T01)) (add32 (R T02) (R T03)));
       Set_ T00 (add32 (madd (R T_00_00B) (R c16_n27_p34)) (madd (R T_00_01B) (R c16_p19_n39)));
       Set_ T01 (add32 (madd (R T_00_02B) (R c16_n11_p43)) (madd (R T_00_03B) (R c16_p02_n45)));
       Set_ T02 (add32 (madd (R T_00_04B) (R c16_p07_p45)) (madd (R T_00_05B) (R c16_n15_n44)));
       Set_ T03 (add32 (madd (R T_00_06B) (R c16_p23_p41)) (madd (R T_00_07B) (R c16_n30_n36)));
       Set_ O07B (add32 (add32 (R T00) (R T01)) (add32 (R T02) (R T03)));
       Set_ T00 (add32 (madd (R T_00_00B) (R c16_n36_p30)) (madd (R T_00_01B) (R c16_p41_n23)));
       Set_ T01 (add32 (madd (R T_00_02B) (R c16_n44_p15)) (madd (R T_00_03B) (R c16_p45_n07)));
       Set_ T02 (add32 (madd (R T_00_04B) (R c16_n45_n02)) (madd (R T_00_05B) (R c16_p43_p11)));
       Set_ T03 (add32 (madd (R T_00_06B) (R c16_n39_n19)) (madd (R T_00_07B) (R c16_p34_p27)));
       Set_ O08B (add32 (add32 (R T00) (R T01)) (add32 (R T02) (R T03)));
       Set_ T00 (add32 (madd (R T_00_00B) (R c16_n43_p27)) (madd (R T_00_01B) (R c16_p44_n02)));
       Set_ T01 (add32 (madd (R T_00_02B) (R c16_n30_n23)) (madd (R T_00_03B) (R c16_p07_p41)));
       Set_ T02 (add32 (madd (R T_00_04B) (R c16_p19_n45)) (madd (R T_00_05B) (R c16_n39_p34)));
       Set_ T03 (add32 (madd (R T_00_06B) (R c16_p45_n11)) (madd (R T_00_07B) (R c16_n36_n15)));
       Set_ O09B (add32 (add32 (R T00) (R T01)) (add32 (R T02) (R T03)));
       Set_ T00 (add32 (madd (R T_00_00B) (R c16_n45_p23)) (madd (R T_00_01B) (R c16_p27_p19)));
       Set_ T01 (add32 (madd (R T_00_02B) (R c16_p15_n45)) (madd (R T_00_03B) (R c16_n44_p30)));
       Set_ T02 (add32 (madd (R T_00_04B) (R c16_p34_p11)) (madd (R T_00_05B) (R c16_p07_n43)));
       Set_ T03 (add32 (madd (R T_00_06B) (R c16_n41_p36)) (madd (R T_00_07B) (R c16_p39_p02)));
       Set_ O10B (add32 (add32 (R T00) (R T01)) (add32 (R T02) (R T03)));
       Set_ T00 (add32 (madd (R T_00_00B) (R c16_n44_p19)) (madd (R T_00_01B) (R c16_n02_p36)));
       Set_ T01 (add32 (madd (R T_00_02B) (R c16_p45_n34)) (madd (R T_00_03B) (R c16_n15_n23)));
       Set_ T02 (add32 (madd (R T_00_04B) (R c16_n39_p43)) (madd (R T_00_05B) (R c16_p30_p07)));
       Set_ T03 (add32 (madd (R T_00_06B) (R c16_p27_n45)) (madd (R T_00_07B) (R c16_n41_p11)));
       Set_ O11B (add32 (add32 (R T00) (R T01)) (add32 (R T02) (R T03)));
       Set_ T00 (add32 (madd (R T_00_00B) (R c16_n39_p15)) (madd (R T_00_01B) (R c16_n30_p45)));
       Set_ T01 (add32 (madd (R T_00_02B) (R c16_p27_p02)) (madd (R T_00_03B) (R c16_p41_n44)));
       Set_ T02 (add32 (madd (R T_00_04B) (R c16_n11_n19)) (madd (R T_00_05B) (R c16_n45_p36)));
       Set_ T03 (add32 (madd (R T_00_06B) (R c16_n07_p34)) (madd (R T_00_07B) (R c16_p43_n23)));
       Set_ O12B (add32 (add32 (R T00) (R T01)) (add32 (R T02) (R T03)));
       Set_ T00 (add32 (madd (R T_00_00B) (R c16_n30_p11)) (madd (R T_00_01B) (R c16_n45_p43)));
       Set_ T01 (add32 (madd (R T_00_02B) (R c16_n19_p36)) (madd (R T_00_03B) (R c16_p23_n02)));
       Set_ T02 (add32 (madd (R T_00_04B) (R c16_p45_n39)) (madd (R T_00_05B) (R c16_p27_n41)));
       Set_ T03 (add32 (madd (R T_00_06B) (R c16_n15_n07)) (madd (R T_00_07B) (R c16_n44_p34)));
       Set_ O13B (add32 (add32 (R T00) (R T01)) (add32 (R T02) (R T03)));
       Set_ T00 (add32 (madd (R T_00_00B) (R c16_n19_p07)) (madd (R T_00_01B) (R c16_n39_p30)));
       Set_ T01 (add32 (madd (R T_00_02B) (R c16_n45_p44)) (madd (R T_00_03B) (R c16_n36_p43)));
       Set_ T02 (add32 (madd (R T_00_04B) (R c16_n15_p27)) (madd (R T_00_05B) (R c16_p11_p02)));
       Set_ T03 (add32 (madd (R T_00_06B) (R c16_p34_n23)) (madd (R T_00_07B) (R c16_p45_n41)));
       Set_ O14B (add32 (add32 (R T00) (R T01)) (add32 (R T02) (R T03)));
       Set_ T00 (add32 (madd (R T_00_00B) (R c16_n07_p02)) (madd (R T_00_01B) (R c16_n15_p11)));
       Set_ T01 (add32 (madd (R T_00_02B) (R c16_n23_p19)) (madd (R T_00_03B) (R c16_n30_p27)));
       Set_ T02 (add32 (madd (R T_00_04B) (R c16_n36_p34)) (madd (R T_00_05B) (R c16_n41_p39)));
       Set_ T03 (add32 (madd (R T_00_06B) (R c16_n44_p43)) (madd (R T_00_07B) (R c16_n45_p45)));
       Set_ O15B (add32 (add32 (R T00) (R T01)) (add32 (R T02) (R T03)))]
      ++ [Set_ T00_2 (add32 (madd (R T_00_08A) (R c16_p43_p45)) (madd (R T_00_09A) (R c16_p35_p40)));
       Set_ T01_2 (add32 (madd (R T_00_10A) (R c16_p21_p29)) (madd (R T_00_11A) (R c16_p04_p13)));
       Set_ EO0A (add32 (R T00_2) (R T01_2));
       Set_ T00_2 (add32 (madd (R T_00_08A) (R c16_p29_p43)) (madd (R T_00_09A) (R c16_n21_p04)));
       Set_ T01_2 (add32 (madd (R T_00_10A) (R c16_n45_n40)) (madd (R T_00_11A) (R c16_n13_n35)));
       Set_ EO1A (add32 (R T00_2) (R T01_2));
       Set_ T00_2 (add32 (madd (R T_00_08A) (R c16_p04_p40)) (madd (R T_00_09A) (R c16_n43_n35)));
       Set_ T01_2 (add32 (madd (R T_00_10A) (R c16_p29_n13)) (madd (R T_00_11A) (R c16_p21_p45)));
       Set_ EO2A (add32 (R T00_2) (R T01_2));
       Set_ T00_2 (add32 (madd (R T_00_08A) (R c16_n21_p35)) (madd (R T_00_09A) (R c16_p04_n43)));
       Set_ T01_2 (add32 (madd (R T_00_10A) (R c16_p13_p45)) (madd (R T_00_11A) (R c16_n29_n40)));
       Set_ EO3A (add32 (R T00_2) (R T01_2));
       Set_ T00_2 (add32 (madd (R T_00_08A) (R c16_n40_p29)) (madd (R T_00_09A) (R c16_p45_n13)));
       Set_ T01_2 (add32 (madd (R T_00_10A) (R c16_n43_n04)) (madd (R T_00_11A) (R c16_p35_p21)));
       Set_ EO4A (add32 (R T00_2) (R T01_2));
       Set_ T00_2 (add32 (madd (R T_00_08A) (R c16_n45_p21)) (madd (R T_00_09A) (R c16_p13_p29)));
       Set_ T01_2 (add32 (madd (R T_00_10A) (R c16_p35_n43)) (madd (R T_00_11A) (R c16_n40_p04)));
       Set_ EO5A (add32 (R T00_2) (R T01_2));
       Set_ T00_2 (add32 (madd (R T_00_08A) (R c16_n35_p13)) (madd (R T_00_09A) (R c16_n40_p45)));
       Set_ T01_2 (add32 (madd (R T_00_10A) (R c16_p04_p21)) (madd (R T_00_11A) (R c16_p43_n29)));
       Set_ EO6A (add32 (R T00_2) (R T01_2));
       Set_ T00_2 (add32 (madd (R T_00_08A) (R c16_n13_p04)) (madd (R T_00_09A) (R c16_n29_p21)));
       Set_ T01_2 (add32 (madd (R T_00_10A) (R c16_n40_p35)) (madd (R T_00_11A) (R c16_n45_p43)));
       Set_ EO7A (add32 (R T00_2) (R T01_2));
       Set_ T00_2 (add32 (madd (R T_00_08B) (R c16_p43_p45)) (madd (R T_00_09B) (R c16_p35_p40)));
       Set_ T01_2 (add32 (madd (R T_00_10B) (R c16_p21_p29)) (madd (R T_00_11B) (R c16_p04_p13)));
       Set_ EO0B (add32 (R T00_2) (R T01_2));
       Set_ T00_2 (add32 (madd (R T_00_08B) (R c16_p29_p43)) (madd (R T_00_09B) (R c16_n21_p04)));
       Set_ T01_2 (add32 (madd (R T_00_10B) (R c16_n45_n40)) (madd (R T_00_11B) (R c16_n13_n35)));
       Set_ EO1B (add32 (R T00_2) (R T01_2));
       Set_ T00_2 (add32 (madd (R T_00_08B) (R c16_p04_p40)) (madd (R T_00_09B) (R c16_n43_n35)));
       Set_ T01_2 (add32 (madd (R T_00_10B) (R c16_p29_n13)) (madd (R T_00_11B) (R c16_p21_p45)));
       Set_ EO2B (add32 (R T00_2) (R T01_2));
       Set_ T00_2 (add32 (madd (R T_00_08B) (R c16_n21_p35)) (madd (R T_00_09B) (R c16_p04_n43)));
       Set_ T01_2 (add32 (madd (R T_00_10B) (R c16_p13_p45)) (madd (R T_00_11B) (R c16_n29_n40)));
       Set_ EO3B (add32 (R T00_2) (R T01_2));
       Set_ T00_2 (add32 (madd (R T_00_08B) (R c16_n40_p29)) (madd (R T_00_09B) (R c16_p45_n13)));
       Set_ T01_2 (add32 (madd (R T_00_10B) (R c16_n43_n04)) (madd (R T_00_11B) (R c16_p35_p21)));
       Set_ EO4B (add32 (R T00_2) (R T01_2));
       Set_ T00_2 (add32 (madd (R T_00_08B) (R c16_n45_p21)) (madd (R T_00_09B) (R c16_p13_p29)));
       Set_ T01_2 (add32 (madd (R T_00_10B) (R c16_p35_n43)) (madd (R T_00_11B) (R c16_n40_p04)));
       Set_ EO5B (add32 (R T00_2) (R T01_2));
       Set_ T00_2 (add32 (madd (R T_00_08B) (R c16_n35_p13)) (madd (R T_00_09B) (R c16_n40_p45)));
       Set_ T01_2 (add32 (madd (R T_00_10B) (R c16_p04_p21)) (madd (R T_00_11B) (R c16_p43_n29)));
       Set_ EO6B (add32 (R T00_2) (R T01_2));
       Set_ T00_2 (add32 (madd (R T_00_08B) (R c16_n13_p04)) (madd (R T_00_09B) (R c16_n29_p21)));
       Set_ T01_2 (add32 (madd (R T_00_10B) (R c16_n40_p35)) (madd (R T_00_11B) (R c16_n45_p43)));
       Set_ EO7B (add32 (R T00_2) (R T01_2));
       Set_ EEO0A (add32 (madd (R T_00_12A) (R c16_p38_p44)) (madd (R T_00_13A) (R c16_p09_p25)));
       Set_ EEO1A (add32 (madd (R T_00_12A) (R c16_n09_p38)) (madd (R T_00_13A) (R c16_n25_n44)));
       Set_ EEO2A (add32 (madd (R T_00_12A) (R c16_n44_p25)) (madd (R T_00_13A) (R c16_p38_p09)));
       Set_ EEO3A (add32 (madd (R T_00_12A) (R c16_n25_p09)) (madd (R T_00_13A) (R c16_n44_p38)));
       Set_ EEO0B (add32 (madd (R T_00_12B) (R c16_p38_p44)) (madd (R T_00_13B) (R c16_p09_p25)));
       Set_ EEO1B (add32 (madd (R T_00_12B) (R c16_n09_p38)) (madd (R T_00_13B) (R c16_n25_n44)));
       Set_ EEO2B (add32 (madd (R T_00_12B) (R c16_n44_p25)) (madd (R T_00_13B) (R c16_p38_p09)));
       Set_ EEO3B (add32 (madd (R T_00_12B) (R c16_n25_p09)) (madd (R T_00_13B) (R c16_n44_p38)));
       Set_ EEEO0A (madd (R T_00_14A) (R c16_p17_p42));
       Set_ EEEO0B (madd (R T_00_14B) (R c16_p17_p42));
       Set_ EEEO1A (madd (R T_00_14A) (R c16_n42_p17));
       Set_ EEEO1B (madd (R T_00_14B) (R c16_n42_p17));
       Set_ EEEE0A (madd (R T_00_15A) (R c16_p32_p32));
       Set_ EEEE0B (madd (R T_00_15B) (R c16_p32_p32));
       Set_ EEEE1A (madd (R T_00_15A) (R c16_n32_p32));
       Set_ EEEE1B (madd (R T_00_15B) (R c16_n32_p32))]
      ++ [Set_ EEE0A (add32 (R EEEE0A) (R EEEO0A));
       Set_ EEE0B (add32 (R EEEE0B) (R EEEO0B));
       Set_ EEE1A (add32 (R EEEE1A) (R EEEO1A));
       Set_ EEE1B (add32 (R EEEE1B) (R EEEO1B));
       Set_ EEE3A (sub32 (R EEEE0A) (R EEEO0A));
       Set_ EEE3B (sub32 (R EEEE0B) (R EEEO0B));
       Set_ EEE2A (sub32 (R EEEE1A) (R EEEO1A));
       Set_ EEE2B (sub32 (R EEEE1B) (R EEEO1B));
       Set_ EE0A (add32 (R EEE0A) (R EEO0A));
       Set_ EE0B (add32 (R EEE0B) (R EEO0B));
       Set_ EE1A (add32 (R EEE1A) (R EEO1A));
       Set_ EE1B (add32 (R EEE1B) (R EEO1B));
       Set_ EE2A (add32 (R EEE2A) (R EEO2A));
       Set_ EE2B (add32 (R EEE2B) (R EEO2B));
       Set_ EE3A (add32 (R EEE3A) (R EEO3A));
       Set_ EE3B (add32 (R EEE3B) (R EEO3B));
       Set_ EE7A (sub32 (R EEE0A) (R EEO0A));
       Set_ EE7B (sub32 (R EEE0B) (R EEO0B));
       Set_ EE6A (sub32 (R EEE1A) (R EEO1A));
       Set_ EE6B (sub32 (R EEE1B) (R EEO1B));
       Set_ EE5A (sub32 (R EEE2A) (R EEO2A));
       Set_ EE5B (sub32 (R EEE2B) (R EEO2B));
       Set_ EE4A (sub32 (R EEE3A) (R EEO3A));
       Set_ EE4B (sub32 (R EEE3B) (R EEO3B));
       Set_ E0A (add32 (R EE0A) (R EO0A));
       Set_ E0B (add32 (R EE0B) (R EO0B));
       Set_ E1A (add32 (R EE1A) (R EO1A));
       Set_ E1B (add32 (R EE1B) (R EO1B));
       Set_ E2A (add32 (R EE2A) (R EO2A));
       Set_ E2B (add32 (R EE2B) (R EO2B));
       Set_ E3A (add32 (R EE3A) (R EO3A));
       Set_ E3B (add32 (R EE3B) (R EO3B));
       Set_ E4A (add32 (R EE4A) (R EO4A));
       Set_ E4B (add32 (R EE4B) (R EO4B));
       Set_ E5A (add32 (R EE5A) (R EO5A));
       Set_ E5B (add32 (R EE5B) (R EO5B));
       Set_ E6A (add32 (R EE6A) (R EO6A));
       Set_ E6B (add32 (R EE6B) (R EO6B));
       Set_ E7A (add32 (R EE7A) (R EO7A));
       Set_ E7B (add32 (R EE7B) (R EO7B));
       Set_ EFA (sub32 (R EE0A) (R EO0A));
       Set_ EFB (sub32 (R EE0B) (R EO0B));
       Set_ EEA (sub32 (R EE1A) (R EO1A));
       Set_ EEB (sub32 (R EE1B) (R EO1B));
       Set_ EDA (sub32 (R EE2A) (R EO2A));
       Set_ EDB (sub32 (R EE2B) (R EO2B));
       Set_ ECA (sub32 (R EE3A) (R EO3A));
       Set_ ECB (sub32 (R EE3B) (R EO3B));
       Set_ EBA (sub32 (R EE4A) (R EO4A));
       Set_ EBB (sub32 (R EE4B) (R EO4B));
       Set_ EAA (sub32 (R EE5A) (R EO5A));
       Set_ EAB (sub32 (R EE5B) (R EO5B));
       Set_ E9A (sub32 (R EE6A) (R EO6A));
       Set_ E9B (sub32 (R EE6B) (R EO6B));
       Set_ E8A (sub32 (R EE7A) (R EO7A));
       Set_ E8B (sub32 (R EE7B) (R EO7B));
       Set_ T10A (add32 (R E0A) (R c32_rnd));
       Set_ T10B (add32 (R E0B) (R c32_rnd));
       Set_ T11A (add32 (R E1A) (R c32_rnd));
       Set_ T11B (add32 (R E1B) (R c32_rnd));
       Set_ T12A (add32 (R E2A) (R c32_rnd));
       Set_ T12B (add32 (R E2B) (R c32_rnd));
       Set_ T13A (add32 (R E3A) (R c32_rnd));
       Set_ T13B (add32 (R E3B) (R c32_rnd))]
      ++ [Set_ T14A (add32 (R E4A) (R c32_rnd));
       Set_ T14B (add32 (R E4B) (R c32_rnd));
       Set_ T15A (add32 (R E5A) (R c32_rnd));
       Set_ T15B (add32 (R E5B) (R c32_rnd));
       Set_ T16A (add32 (R E6A) (R c32_rnd));
       Set_ T16B (add32 (R E6B) (R c32_rnd));
       Set_ T17A (add32 (R E7A) (R c32_rnd));
       Set_ T17B (add32 (R E7B) (R c32_rnd));
       Set_ T18A (add32 (R E8A) (R c32_rnd));
       Set_ T18B (add32 (R E8B) (R c32_rnd));
       Set_ T19A (add32 (R E9A) (R c32_rnd));
       Set_ T19B (add32 (R E9B) (R c32_rnd));
       Set_ T1AA (add32 (R EAA) (R c32_rnd));
       Set_ T1AB (add32 (R EAB) (R c32_rnd));
       Set_ T1BA (add32 (R EBA) (R c32_rnd));
       Set_ T1BB (add32 (R EBB) (R c32_rnd));
       Set_ T1CA (add32 (R ECA) (R c32_rnd));
       Set_ T1CB (add32 (R ECB) (R c32_rnd));
       Set_ T1DA (add32 (R EDA) (R c32_rnd));
       Set_ T1DB (add32 (R EDB) (R c32_rnd));
       Set_ T1EA (add32 (R EEA) (R c32_rnd));
       Set_ T1EB (add32 (R EEB) (R c32_rnd));
       Set_ T1FA (add32 (R EFA) (R c32_rnd));
       Set_ T1FB (add32 (R EFB) (R c32_rnd));
       Set_ T2_00A (add32 (R T10A) (R O00A));
       Set_ T2_00B (add32 (R T10B) (R O00B));
       Set_ T2_01A (add32 (R T11A) (R O01A));
       Set_ T2_01B (add32 (R T11B) (R O01B));
       Set_ T2_02A (add32 (R T12A) (R O02A));
       Set_ T2_02B (add32 (R T12B) (R O02B));
       Set_ T2_03A (add32 (R T13A) (R O03A));
       Set_ T2_03B (add32 (R T13B) (R O03B));
       Set_ T2_04A (add32 (R T14A) (R O04A));
       Set_ T2_04B (add32 (R T14B) (R O04B));
       Set_ T2_05A (add32 (R T15A) (R O05A));
       Set_ T2_05B (add32 (R T15B) (R O05B));
       Set_ T2_06A (add32 (R T16A) (R O06A));
       Set_ T2_06B (add32 (R T16B) (R O06B));
       Set_ T2_07A (add32 (R T17A) (R O07A));
       Set_ T2_07B (add32 (R T17B) (R O07B));
       Set_ T2_08A (add32 (R T18A) (R O08A));
       Set_ T2_08B (add32 (R T18B) (R O08B));
       Set_ T2_09A (add32 (R T19A) (R O09A));
       Set_ T2_09B (add32 (R T19B) (R O09B));
       Set_ T2_10A (add32 (R T1AA) (R O10A));
       Set_ T2_10B (add32 (R T1AB) (R O10B));
       Set_ T2_11A (add32 (R T1BA) (R O11A));
       Set_ T2_11B (add32 (R T1BB) (R O11B));
       Set_ T2_12A (add32 (R T1CA) (R O12A));
       Set_ T2_12B (add32 (R T1CB) (R O12B));
       Set_ T2_13A (add32 (R T1DA) (R O13A));
       Set_ T2_13B (add32 (R T1DB) (R O13B));
       Set_ T2_14A (add32 (R T1EA) (R O14A));
       Set_ T2_14B (add32 (R T1EB) (R O14B));
       Set_ T2_15A (add32 (R T1FA) (R O15A));
       Set_ T2_15B (add32 (R T1FB) (R O15B));
       Set_ T2_31A (sub32 (R T10A) (R O00A));
       Set_ T2_31B (sub32 (R T10B) (R O00B));
       Set_ T2_30A (sub32 (R T11A) (R O01A));
       Set_ T2_30B (sub32 (R T11B) (R O01B));
       Set_ T2_29A (sub32 (R T12A) (R O02A));
       Set_ T2_29B (sub32 (R T12B) (R O02B));
       Set_ T2_28A (sub32 (R T13A) (R O03A));
       Set_ T2_28B (sub32 (R T13B) (R O03B))]
      ++ [Set_ T2_27A (sub32 (R T14A) (R O04A));
       Set_ T2_27B (sub32 (R T14B) (R O04B));
       Set_ T2_26A (sub32 (R T15A) (R O05A));
       Set_ T2_26B (sub32 (R T15B) (R O05B));
       Set_ T2_25A (sub32 (R T16A) (R O06A));
       Set_ T2_25B (sub32 (R T16B) (R O06B));
       Set_ T2_24A (sub32 (R T17A) (R O07A));
       Set_ T2_24B (sub32 (R T17B) (R O07B));
       Set_ T2_23A (sub32 (R T18A) (R O08A));
       Set_ T2_23B (sub32 (R T18B) (R O08B));
       Set_ T2_22A (sub32 (R T19A) (R O09A));
       Set_ T2_22B (sub32 (R T19B) (R O09B));
       Set_ T2_21A (sub32 (R T1AA) (R O10A));
       Set_ T2_21B (sub32 (R T1AB) (R O10B));
       Set_ T2_20A (sub32 (R T1BA) (R O11A));
       Set_ T2_20B (sub32 (R T1BB) (R O11B));
       Set_ T2_19A (sub32 (R T1CA) (R O12A));
       Set_ T2_19B (sub32 (R T1CB) (R O12B));
       Set_ T2_18A (sub32 (R T1DA) (R O13A));
       Set_ T2_18B (sub32 (R T1DB) (R O13B));
       Set_ T2_17A (sub32 (R T1EA) (R O14A));
       Set_ T2_17B (sub32 (R T1EB) (R O14B));
       Set_ T2_16A (sub32 (R T1FA) (R O15A));
       Set_ T2_16B (sub32 (R T1FB) (R O15B));
       Set_ T3_00A (Sra32 (R T2_00A) (X 0));
       Set_ T3_00B (Sra32 (R T2_00B) (X 0));
       Set_ T3_01A (Sra32 (R T2_01A) (X 0));
       Set_ T3_01B (Sra32 (R T2_01B) (X 0));
       Set_ T3_02A (Sra32 (R T2_02A) (X 0));
       Set_ T3_02B (Sra32 (R T2_02B) (X 0));
       Set_ T3_03A (Sra32 (R T2_03A) (X 0));
       Set_ T3_03B (Sra32 (R T2_03B) (X 0));
       Set_ T3_04A (Sra32 (R T2_04A) (X 0));
       Set_ T3_04B (Sra32 (R T2_04B) (X 0));
       Set_ T3_05A (Sra32 (R T2_05A) (X 0));
       Set_ T3_05B (Sra32 (R T2_05B) (X 0));
       Set_ T3_06A (Sra32 (R T2_06A) (X 0));
       Set_ T3_06B (Sra32 (R T2_06B) (X 0));
       Set_ T3_07A (Sra32 (R T2_07A) (X 0));
       Set_ T3_07B (Sra32 (R T2_07B) (X 0));
       Set_ T3_08A (Sra32 (R T2_08A) (X 0));
       Set_ T3_08B (Sra32 (R T2_08B) (X 0));
       Set_ T3_09A (Sra32 (R T2_09A) (X 0));
       Set_ T3_09B (Sra32 (R T2_09B) (X 0));
       Set_ T3_10A (Sra32 (R T2_10A) (X 0));
       Set_ T3_10B (Sra32 (R T2_10B) (X 0));
       Set_ T3_11A (Sra32 (R T2_11A) (X 0));
       Set_ T3_11B (Sra32 (R T2_11B) (X 0));
       Set_ T3_12A (Sra32 (R T2_12A) (X 0));
       Set_ T3_12B (Sra32 (R T2_12B) (X 0));
       Set_ T3_13A (Sra32 (R T2_13A) (X 0));
       Set_ T3_13B (Sra32 (R T2_13B) (X 0));
       Set_ T3_14A (Sra32 (R T2_14A) (X 0));
       Set_ T3_14B (Sra32 (R T2_14B) (X 0));
       Set_ T3_15A (Sra32 (R T2_15A) (X 0));
       Set_ T3_15B (Sra32 (R T2_15B) (X 0));
       Set_ T3_16A (Sra32 (R T2_16A) (X 0));
       Set_ T3_16B (Sra32 (R T2_16B) (X 0));
       Set_ T3_17A (Sra32 (R T2_17A) (X 0));
       Set_ T3_17B (Sra32 (R T2_17B) (X 0));
       Set_ T3_18A (Sra32 (R T2_18A) (X 0));
       Set_ T3_18B (Sra32 (R T2_18B) (X 0));
       Set_ T3_19A (Sra32 (R T2_19A) (X 0));
       Set_ T3_19B (Sra32 (R T2_19B) (X 0))]
      ++ [Set_ T3_20A (Sra32 (R T2_20A) (X 0));
       Set_ T3_20B (Sra32 (R T2_20B) (X 0));
       Set_ T3_21A (Sra32 (R T2_21A) (X 0));
       Set_ T3_21B (Sra32 (R T2_21B) (X 0));
       Set_ T3_22A (Sra32 (R T2_22A) (X 0));
       Set_ T3_22B (Sra32 (R T2_22B) (X 0));
       Set_ T3_23A (Sra32 (R T2_23A) (X 0));
       Set_ T3_23B (Sra32 (R T2_23B) (X 0));
       Set_ T3_24A (Sra32 (R T2_24A) (X 0));
       Set_ T3_24B (Sra32 (R T2_24B) (X 0));
       Set_ T3_25A (Sra32 (R T2_25A) (X 0));
       Set_ T3_25B (Sra32 (R T2_25B) (X 0));
       Set_ T3_26A (Sra32 (R T2_26A) (X 0));
       Set_ T3_26B (Sra32 (R T2_26B) (X 0));
       Set_ T3_27A (Sra32 (R T2_27A) (X 0));
       Set_ T3_27B (Sra32 (R T2_27B) (X 0));
       Set_ T3_28A (Sra32 (R T2_28A) (X 0));
       Set_ T3_28B (Sra32 (R T2_28B) (X 0));
       Set_ T3_29A (Sra32 (R T2_29A) (X 0));
       Set_ T3_29B (Sra32 (R T2_29B) (X 0));
       Set_ T3_30A (Sra32 (R T2_30A) (X 0));
       Set_ T3_30B (Sra32 (R T2_30B) (X 0));
       Set_ T3_31A (Sra32 (R T2_31A) (X 0));
       Set_ T3_31B (Sra32 (R T2_31B) (X 0));
       Set_ (res00 + part) (packs32 (R T3_00A) (R T3_00B));
       Set_ (res01 + part) (packs32 (R T3_01A) (R T3_01B));
       Set_ (res02 + part) (packs32 (R T3_02A) (R T3_02B));
       Set_ (res03 + part) (packs32 (R T3_03A) (R T3_03B));
       Set_ (res04 + part) (packs32 (R T3_04A) (R T3_04B));
       Set_ (res05 + part) (packs32 (R T3_05A) (R T3_05B));
       Set_ (res06 + part) (packs32 (R T3_06A) (R T3_06B));
       Set_ (res07 + part) (packs32 (R T3_07A) (R T3_07B));
       Set_ (res08 + part) (packs32 (R T3_08A) (R T3_08B));
       Set_ (res09 + part) (packs32 (R T3_09A) (R T3_09B));
       Set_ (res10 + part) (packs32 (R T3_10A) (R T3_10B));
       Set_ (res11 + part) (packs32 (R T3_11A) (R T3_11B));
       Set_ (res12 + part) (packs32 (R T3_12A) (R T3_12B));
       Set_ (res13 + part) (packs32 (R T3_13A) (R T3_13B));
       Set_ (res14 + part) (packs32 (R T3_14A) (R T3_14B));
       Set_ (res15 + part) (packs32 (R T3_15A) (R T3_15B));
       Set_ (res16 + part) (packs32 (R T3_16A) (R T3_16B));
       Set_ (res17 + part) (packs32 (R T3_17A) (R T3_17B));
       Set_ (res18 + part) (packs32 (R T3_18A) (R T3_18B));
       Set_ (res19 + part) (packs32 (R T3_19A) (R T3_19B));
       Set_ (res20 + part) (packs32 (R T3_20A) (R T3_20B));
       Set_ (res21 + part) (packs32 (R T3_21A) (R T3_21B));
       Set_ (res22 + part) (packs32 (R T3_22A) (R T3_22B));
       Set_ (res23 + part) (packs32 (R T3_23A) (R T3_23B));
       Set_ (res24 + part) (packs32 (R T3_24A) (R T3_24B));
       Set_ (res25 + part) (packs32 (R T3_25A) (R T3_25B));
       Set_ (res26 + part) (packs32 (R T3_26A) (R T3_26B));
       Set_ (res27 + part) (packs32 (R T3_27A) (R T3_27B));
       Set_ (res28 + part) (packs32 (R T3_28A) (R T3_28B));
       Set_ (res29 + part) (packs32 (R T3_29A) (R T3_29B));
       Set_ (res30 + part) (packs32 (R T3_30A) (R T3_30B));
       Set_ (res31 + part) (packs32 (R T3_31A) (R T3_31B))])
    ++ [Set_ tr0_0 (lo16 (R res00) (R res01));
     Set_ tr0_1 (lo16 (R res02) (R res03));
     Set_ tr0_2 (hi16 (R res00) (R res01));
     Set_ tr0_3 (hi16 (R res02) (R res03));
     Set_ tr0_4 (lo16 (R res04) (R res05));
     Set_ tr0_5 (lo16 (R res06) (R res07));
     Set_ tr0_6 (hi16 (R res04) (R res05));
     Set_ tr0_7 (hi16 (R res06) (R res07));
     Set_ tr1_0 (lo32 (R tr0_0) (R tr0_1));
     Set_ tr1_1 (lo32 (R tr0_2) (R tr0_3));
     Set_ tr1_2 (hi32 (R tr0_0) (R tr0_1));
     Set_ tr1_3 (hi32 (R tr0_2) (R tr0_3));
     Set_ tr1_4 (lo32 (R tr0_4) (R tr0_5));
     Set_ tr1_5 (lo32 (R tr0_6) (R tr0_7));
     Set_ tr1_6 (hi32 (R tr0_4) (R tr0_5));
     Set_ tr1_7 (hi32 (R tr0_6) (R tr0_7));
     Set_ in00 (lo64 (R tr1_0) (R tr1_4));
     Set_ in01 (hi64 (R tr1_0) (R tr1_4));
     Set_ in02 (lo64 (R tr1_2) (R tr1_6));
     Set_ in03 (hi64 (R tr1_2) (R tr1_6));
     Set_ in04 (lo64 (R tr1_1) (R tr1_5));
     Set_ in05 (hi64 (R tr1_1) (R tr1_5));
     Set_ in06 (lo64 (R tr1_3) (R tr1_7));
     Set_ in07 (hi64 (R tr1_3) (R tr1_7));
     Set_ tr0_0 (lo16 (R (res00 + 1)) (R (res01 + 1)));
     Set_ tr0_1 (lo16 (R (res02 + 1)) (R (res03 + 1)));
     Set_ tr0_2 (hi16 (R (res00 + 1)) (R (res01 + 1)));
     Set_ tr0_3 (hi16 (R (res02 + 1)) (R (res03 + 1)));
     Set_ tr0_4 (lo16 (R (res04 + 1)) (R (res05 + 1)));
     Set_ tr0_5 (lo16 (R (res06 + 1)) (R (res07 + 1)));
     Set_ tr0_6 (hi16 (R (res04 + 1)) (R (res05 + 1)));
     Set_ tr0_7 (hi16 (R (res06 + 1)) (R (res07 + 1)));
     Set_ tr1_0 (lo32 (R tr0_0) (R tr0_1));
     Set_ tr1_1 (lo32 (R tr0_2) (R tr0_3));
     Set_ tr1_2 (hi32 (R tr0_0) (R tr0_1));
     Set_ tr1_3 (hi32 (R tr0_2) (R tr0_3));
     Set_ tr1_4 (lo32 (R tr0_4) (R tr0_5));
     Set_ tr1_5 (lo32 (R tr0_6) (R tr0_7));
     Set_ tr1_6 (hi32 (R tr0_4) (R tr0_5));
     Set_ tr1_7 (hi32 (R tr0_6) (R tr0_7));
     Set_ in08 (lo64 (R tr1_0) (R tr1_4));
     Set_ in09 (hi64 (R tr1_0) (R tr1_4));
     Set_ in10 (lo64 (R tr1_2) (R tr1_6));
     Set_ in11 (hi64 (R tr1_2) (R tr1_6));
     Set_ in12 (lo64 (R tr1_1) (R tr1_5));
     Set_ in13 (hi64 (R tr1_1) (R tr1_5));
     Set_ in14 (lo64 (R tr1_3) (R tr1_7));
     Set_ in15 (hi64 (R tr1_3) (R tr1_7));
     Set_ tr0_0 (lo16 (R (res00 + 2)) (R (res01 + 2)));
     Set_ tr0_1 (lo16 (R (res02 + 2)) (R (res03 + 2)));
     Set_ tr0_2 (hi16 (R (res00 + 2)) (R (res01 + 2)));
     Set_ tr0_3 (hi16 (R (res02 + 2)) (R (res03 + 2)));
     Set_ tr0_4 (lo16 (R (res04 + 2)) (R (res05 + 2)));
     Set_ tr0_5 (lo16 (R (res06 + 2)) (R (res07 + 2)));
     Set_ tr0_6 (hi16 (R (res04 + 2)) (R (res05 + 2)));
     Set_ tr0_7 (hi16 (R (res06 + 2)) (R (res07 + 2)));
     Set_ tr1_0 (lo32 (R tr0_0) (R tr0_1));
     Set_ tr1_1 (lo32 (R tr0_2) (R tr0_3));
     Set_ tr1_2 (hi32 (R tr0_0) (R tr0_1));
     Set_ tr1_3 (hi32 (R tr0_2) (R tr0_3));
     Set_ tr1_4 (lo32 (R tr0_4) (R tr0_5));
     Set_ tr1_5 (lo32 (R tr0_6) (R tr0_7));
     Set_ tr1_6 (hi32 (R tr0_4) (R tr0_5));
     Set_ tr1_7 (hi32 (R tr0_6) (R tr0_7))]
    ++ [Set_ in16 (lo64 (R tr1_0) (R tr1_4));
     Set_ in17 (hi64 (R tr1_0) (R tr1_4));
     Set_ in18 (lo64 (R tr1_2) (R tr1_6));
     Set_ in19 (hi64 (R tr1_2) (R tr1_6));
     Set_ in20 (lo64 (R tr1_1) (R tr1_5));
     Set_ in21 (hi64 (R tr1_1) (R tr1_5));
     Set_ in22 (lo64 (R tr1_3) (R tr1_7));
     Set_ in23 (hi64 (R tr1_3) (R tr1_7));
     Set_ tr0_0 (lo16 (R (res00 + 3)) (R (res01 + 3)));
     Set_ tr0_1 (lo16 (R (res02 + 3)) (R (res03 + 3)));
     Set_ tr0_2 (hi16 (R (res00 + 3)) (R (res01 + 3)));
     Set_ tr0_3 (hi16 (R (res02 + 3)) (R (res03 + 3)));
     Set_ tr0_4 (lo16 (R (res04 + 3)) (R (res05 + 3)));
     Set_ tr0_5 (lo16 (R (res06 + 3)) (R (res07 + 3)));
     Set_ tr0_6 (hi16 (R (res04 + 3)) (R (res05 + 3)));
     Set_ tr0_7 (hi16 (R (res06 + 3)) (R (res07 + 3)));
     Set_ tr1_0 (lo32 (R tr0_0) (R tr0_1));
     Set_ tr1_1 (lo32 (R tr0_2) (R tr0_3));
     Set_ tr1_2 (hi32 (R tr0_0) (R tr0_1));
     Set_ tr1_3 (hi32 (R tr0_2) (R tr0_3));
     Set_ tr1_4 (lo32 (R tr0_4) (R tr0_5));
     Set_ tr1_5 (lo32 (R tr0_6) (R tr0_7));
     Set_ tr1_6 (hi32 (R tr0_4) (R tr0_5));
     Set_ tr1_7 (hi32 (R tr0_6) (R tr0_7));
     Set_ in24 (lo64 (R tr1_0) (R tr1_4));
     Set_ in25 (hi64 (R tr1_0) (R tr1_4));
     Set_ in26 (lo64 (R tr1_2) (R tr1_6));
     Set_ in27 (hi64 (R tr1_2) (R tr1_6));
     Set_ in28 (lo64 (R tr1_1) (R tr1_5));
     Set_ in29 (hi64 (R tr1_1) (R tr1_5));
     Set_ in30 (lo64 (R tr1_3) (R tr1_7));
     Set_ in31 (hi64 (R tr1_3) (R tr1_7));
     Set_ tr0_0 (lo16 (R res08) (R res09));
     Set_ tr0_1 (lo16 (R res10) (R res11));
     Set_ tr0_2 (hi16 (R res08) (R res09));
     Set_ tr0_3 (hi16 (R res10) (R res11));
     Set_ tr0_4 (lo16 (R res12) (R res13));
     Set_ tr0_5 (lo16 (R res14) (R res15));
     Set_ tr0_6 (hi16 (R res12) (R res13));
     Set_ tr0_7 (hi16 (R res14) (R res15));
     Set_ tr1_0 (lo32 (R tr0_0) (R tr0_1));
     Set_ tr1_1 (lo32 (R tr0_2) (R tr0_3));
     Set_ tr1_2 (hi32 (R tr0_0) (R tr0_1));
     Set_ tr1_3 (hi32 (R tr0_2) (R tr0_3));
     Set_ tr1_4 (lo32 (R tr0_4) (R tr0_5));
     Set_ tr1_5 (lo32 (R tr0_6) (R tr0_7));
     Set_ tr1_6 (hi32 (R tr0_4) (R tr0_5));
     Set_ tr1_7 (hi32 (R tr0_6) (R tr0_7));
     Set_ (in00 + 1) (lo64 (R tr1_0) (R tr1_4));
     Set_ (in01 + 1) (hi64 (R tr1_0) (R tr1_4));
     Set_ (in02 + 1) (lo64 (R tr1_2) (R tr1_6));
     Set_ (in03 + 1) (hi64 (R tr1_2) (R tr1_6));
     Set_ (in04 + 1) (lo64 (R tr1_1) (R tr1_5));
     Set_ (in05 + 1) (hi64 (R tr1_1) (R tr1_5));
     Set_ (in06 + 1) (lo64 (R tr1_3) (R tr1_7));
     Set_ (in07 + 1) (hi64 (R tr1_3) (R tr1_7));
     Set_ tr0_0 (lo16 (R (res08 + 1)) (R (res09 + 1)));
     Set_ tr0_1 (lo16 (R (res10 + 1)) (R (res11 + 1)));
     Set_ tr0_2 (hi16 (R (res08 + 1)) (R (res09 + 1)));
     Set_ tr0_3 (hi16 (R (res10 + 1)) (R (res11 + 1)));
     Set_ tr0_4 (lo16 (R (res12 + 1)) (R (res13 + 1)));
     Set_ tr0_5 (lo16 (R (res14 + 1)) (R (res15 + 1)));
     Set_ tr0_6 (hi16 (R (res12 + 1)) (R (res13 + 1)));
     Set_ tr0_7 (hi16 (R (res14 + 1)) (R (res15 + 1)))]
    ++ [Set_ tr1_0 (lo32 (R tr0_0) (R tr0_1));
     Set_ tr1_1 (lo32 (R tr0_2) (R tr0_3));
     Set_ tr1_2 (hi32 (R tr0_0) (R tr0_1));
     Set_ tr1_3 (hi32 (R tr0_2) (R tr0_3));
     Set_ tr1_4 (lo32 (R tr0_4) (R tr0_5));
     Set_ tr1_5 (lo32 (R tr0_6) (R tr0_7));
     Set_ tr1_6 (hi32 (R tr0_4) (R tr0_5));
     Set_ tr1_7 (hi32 (R tr0_6) (R tr0_7));
     Set_ (in08 + 1) (lo64 (R tr1_0) (R tr1_4));
     Set_ (in09 + 1) (hi64 (R tr1_0) (R tr1_4));
     Set_ (in10 + 1) (lo64 (R tr1_2) (R tr1_6));
     Set_ (in11 + 1) (hi64 (R tr1_2) (R tr1_6));
     Set_ (in12 + 1) (lo64 (R tr1_1) (R tr1_5));
     Set_ (in13 + 1) (hi64 (R tr1_1) (R tr1_5));
     Set_ (in14 + 1) (lo64 (R tr1_3) (R tr1_7));
     Set_ (in15 + 1) (hi64 (R tr1_3) (R tr1_7));
     Set_ tr0_0 (lo16 (R (res08 + 2)) (R (res09 + 2)));
     Set_ tr0_1 (lo16 (R (res10 + 2)) (R (res11 + 2)));
     Set_ tr0_2 (hi16 (R (res08 + 2)) (R (res09 + 2)));
     Set_ tr0_3 (hi16 (R (res10 + 2)) (R (res11 + 2)));
     Set_ tr0_4 (lo16 (R (res12 + 2)) (R (res13 + 2)));
     Set_ tr0_5 (lo16 (R (res14 + 2)) (R (res15 + 2)));
     Set_ tr0_6 (hi16 (R (res12 + 2)) (R (res13 + 2)));
     Set_ tr0_7 (hi16 (R (res14 + 2)) (R (res15 + 2)));
     Set_ tr1_0 (lo32 (R tr0_0) (R tr0_1));
     Set_ tr1_1 (lo32 (R tr0_2) (R tr0_3));
     Set_ tr1_2 (hi32 (R tr0_0) (R tr0_1));
     Set_ tr1_3 (hi32 (R tr0_2) (R tr0_3));
     Set_ tr1_4 (lo32 (R tr0_4) (R tr0_5));
     Set_ tr1_5 (lo32 (R tr0_6) (R tr0_7));
     Set_ tr1_6 (hi32 (R tr0_4) (R tr0_5));
     Set_ tr1_7 (hi32 (R tr0_6) (R tr0_7));
     Set_ (in16 + 1) (lo64 (R tr1_0) (R tr1_4));
     Set_ (in17 + 1) (hi64 (R tr1_0) (R tr1_4));
     Set_ (in18 + 1) (lo64 (R tr1_2) (R tr1_6));
     Set_ (in19 + 1) (hi64 (R tr1_2) (R tr1_6));
     Set_ (in20 + 1) (lo64 (R tr1_1) (R tr1_5));
     Set_ (in21 + 1) (hi64 (R tr1_1) (R tr1_5));
     Set_ (in22 + 1) (lo64 (R tr1_3) (R tr1_7));
     Set_ (in23 + 1) (hi64 (R tr1_3) (R tr1_7));
     Set_ tr0_0 (lo16 (R (res08 + 3)) (R (res09 + 3)));
     Set_ tr0_1 (lo16 (R (res10 + 3)) (R (res11 + 3)));
     Set_ tr0_2 (hi16 (R (res08 + 3)) (R (res09 + 3)));
     Set_ tr0_3 (hi16 (R (res10 + 3)) (R (res11 + 3)));
     Set_ tr0_4 (lo16 (R (res12 + 3)) (R (res13 + 3)));
     Set_ tr0_5 (lo16 (R (res14 + 3)) (R (res15 + 3)));
     Set_ tr0_6 (hi16 (R (res12 + 3)) (R (res13 + 3)));
     Set_ tr0_7 (hi16 (R (res14 + 3)) (R (res15 + 3)));
     Set_ tr1_0 (lo32 (R tr0_0) (R tr0_1));
     Set_ tr1_1 (lo32 (R tr0_2) (R tr0_3));
     Set_ tr1_2 (hi32 (R tr0_0) (R tr0_1));
     Set_ tr1_3 (hi32 (R tr0_2) (R tr0_3));
     Set_ tr1_4 (lo32 (R tr0_4) (R tr0_5));
     Set_ tr1_5 (lo32 (R tr0_6) (R tr0_7));
     Set_ tr1_6 (hi32 (R tr0_4) (R tr0_5));
     Set_ tr1_7 (hi32 (R tr0_6) (R tr0_7));
     Set_ (in24 + 1) (lo64 (R tr1_0) (R tr1_4));
     Set_ (in25 + 1) (hi64 (R tr1_0) (R tr1_4));
     Set_ (in26 + 1) (lo64 (R tr1_2) (R tr1_6));
     Set_ (in27 + 1) (hi64 (R tr1_2) (R tr1_6));
     Set_ (in28 + 1) (lo64 (R tr1_1) (R tr1_5));
     Set_ (in29 + 1) (hi64 (R tr1_1) (R tr1_5));
     Set_ (in30 + 1) (lo64 (R tr1_3) (R tr1_7));
     Set_ (in31 + 1) (hi64 (R tr1_3) (R tr1_7))]
    ++ [Set_ tr0_0 (lo16 (R res16) (R res17));
     Set_ tr0_1 (lo16 (R res18) (R res19));
     Set_ tr0_2 (hi16 (R res16) (R res17));
     Set_ tr0_3 (hi16 (R res18) (R res19));
     Set_ tr0_4 (lo16 (R res20) (R res21));
     Set_ tr0_5 (lo16 (R res22) (R res23));
     Set_ tr0_6 (hi16 (R res20) (R res21));
     Set_ tr0_7 (hi16 (R res22) (R res23));
     Set_ tr1_0 (lo32 (R tr0_0) (R tr0_1));
     Set_ tr1_1 (lo32 (R tr0_2) (R tr0_3));
     Set_ tr1_2 (hi32 (R tr0_0) (R tr0_1));
     Set_ tr1_3 (hi32 (R tr0_2) (R tr0_3));
     Set_ tr1_4 (lo32 (R tr0_4) (R tr0_5));
     Set_ tr1_5 (lo32 (R tr0_6) (R tr0_7));
     Set_ tr1_6 (hi32 (R tr0_4) (R tr0_5));
     Set_ tr1_7 (hi32 (R tr0_6) (R tr0_7));
     Set_ (in00 + 2) (lo64 (R tr1_0) (R tr1_4));
     Set_ (in01 + 2) (hi64 (R tr1_0) (R tr1_4));
     Set_ (in02 + 2) (lo64 (R tr1_2) (R tr1_6));
     Set_ (in03 + 2) (hi64 (R tr1_2) (R tr1_6));
     Set_ (in04 + 2) (lo64 (R tr1_1) (R tr1_5));
     Set_ (in05 + 2) (hi64 (R tr1_1) (R tr1_5));
     Set_ (in06 + 2) (lo64 (R tr1_3) (R tr1_7));
     Set_ (in07 + 2) (hi64 (R tr1_3) (R tr1_7));
     Set_ tr0_0 (lo16 (R (res16 + 1)) (R (res17 + 1)));
     Set_ tr0_1 (lo16 (R (res18 + 1)) (R (res19 + 1)));
     Set_ tr0_2 (hi16 (R (res16 + 1)) (R (res17 + 1)));
     Set_ tr0_3 (hi16 (R (res18 + 1)) (R (res19 + 1)));
     Set_ tr0_4 (lo16 (R (res20 + 1)) (R (res21 + 1)));
     Set_ tr0_5 (lo16 (R (res22 + 1)) (R (res23 + 1)));
     Set_ tr0_6 (hi16 (R (res20 + 1)) (R (res21 + 1)));
     Set_ tr0_7 (hi16 (R (res22 + 1)) (R (res23 + 1)));
     Set_ tr1_0 (lo32 (R tr0_0) (R tr0_1));
     Set_ tr1_1 (lo32 (R tr0_2) (R tr0_3));
     Set_ tr1_2 (hi32 (R tr0_0) (R tr0_1));
     Set_ tr1_3 (hi32 (R tr0_2) (R tr0_3));
     Set_ tr1_4 (lo32 (R tr0_4) (R tr0_5));
     Set_ tr1_5 (lo32 (R tr0_6) (R tr0_7));
     Set_ tr1_6 (hi32 (R tr0_4) (R tr0_5));
     Set_ tr1_7 (hi32 (R tr0_6) (R tr0_7));
     Set_ (in08 + 2) (lo64 (R tr1_0) (R tr1_4));
     Set_ (in09 + 2) (hi64 (R tr1_0) (R tr1_4));
     Set_ (in10 + 2) (lo64 (R tr1_2) (R tr1_6));
     Set_ (in11 + 2) (hi64 (R tr1_2) (R tr1_6));
     Set_ (in12 + 2) (lo64 (R tr1_1) (R tr1_5));
     Set_ (in13 + 2) (hi64 (R tr1_1) (R tr1_5));
     Set_ (in14 + 2) (lo64 (R tr1_3) (R tr1_7));
     Set_ (in15 + 2) (hi64 (R tr1_3) (R tr1_7));
     Set_ tr0_0 (lo16 (R (res16 + 2)) (R (res17 + 2)));
     Set_ tr0_1 (lo16 (R (res18 + 2)) (R (res19 + 2)));
     Set_ tr0_2 (hi16 (R (res16 + 2)) (R (res17 + 2)));
     Set_ tr0_3 (hi16 (R (res18 + 2)) (R (res19 + 2)));
     Set_ tr0_4 (lo16 (R (res20 + 2)) (R (res21 + 2)));
     Set_ tr0_5 (lo16 (R (res22 + 2)) (R (res23 + 2)));
     Set_ tr0_6 (hi16 (R (res20 + 2)) (R (res21 + 2)));
     Set_ tr0_7 (hi16 (R (res22 + 2)) (R (res23 + 2)));
     Set_ tr1_0 (lo32 (R tr0_0) (R tr0_1));
     Set_ tr1_1 (lo32 (R tr0_2) (R tr0_3));
     Set_ tr1_2 (hi32 (R tr0_0) (R tr0_1));
     Set_ tr1_3 (hi32 (R tr0_2) (R tr0_3));
     Set_ tr1_4 (lo32 (R tr0_4) (R tr0_5));
     Set_ tr1_5 (lo32 (R tr0_6) (R tr0_7));
     Set_ tr1_6 (hi32 (R tr0_4) (R tr0_5));
     Set_ tr1_7 (hi32 (R tr0_6) (R tr0_7))]
    ++ [Set_ (in16 + 2) (lo64 (R tr1_0) (R tr1_4));
     Set_ (in17 + 2) (hi64 (R tr1_0) (R tr1_4));
     Set_ (in18 + 2) (lo64 (R tr1_2) (R tr1_6));
     Set_ (in19 + 2) (hi64 (R tr1_2) (R tr1_6));
     Set_ (in20 + 2) (lo64 (R tr1_1) (R tr1_5));
     Set_ (in21 + 2) (hi64 (R tr1_1) (R tr1_5));
     Set_ (in22 + 2) (lo64 (R tr1_3) (R tr1_7));
     Set_ (in23 + 2) (hi64 (R tr1_3) (R tr1_7));
     Set_ tr0_0 (lo16 (R (res16 + 3)) (R (res17 + 3)));
     Set_ tr0_1 (lo16 (R (res18 + 3)) (R (res19 + 3)));
     Set_ tr0_2 (hi16 (R (res16 + 3)) (R (res17 + 3)));
     Set_ tr0_3 (hi16 (R (res18 + 3)) (R (res19 + 3)));
     Set_ tr0_4 (lo16 (R (res20 + 3)) (R (res21 + 3)));
     Set_ tr0_5 (lo16 (R (res22 + 3)) (R (res23 + 3)));
     Set_ tr0_6 (hi16 (R (res20 + 3)) (R (res21 + 3)));
     Set_ tr0_7 (hi16 (R (res22 + 3)) (R (res23 + 3)));
     Set_ tr1_0 (lo32 (R tr0_0) (R tr0_1));
     Set_ tr1_1 (lo32 (R tr0_2) (R tr0_3));
     Set_ tr1_2 (hi32 (R tr0_0) (R tr0_1));
     Set_ tr1_3 (hi32 (R tr0_2) (R tr0_3));
     Set_ tr1_4 (lo32 (R tr0_4) (R tr0_5));
     Set_ tr1_5 (lo32 (R tr0_6) (R tr0_7));
     Set_ tr1_6 (hi32 (R tr0_4) (R tr0_5));
     Set_ tr1_7 (hi32 (R tr0_6) (R tr0_7));
     Set_ (in24 + 2) (lo64 (R tr1_0) (R tr1_4));
     Set_ (in25 + 2) (hi64 (R tr1_0) (R tr1_4));
     Set_ (in26 + 2) (lo64 (R tr1_2) (R tr1_6));
     Set_ (in27 + 2) (hi64 (R tr1_2) (R tr1_6));
     Set_ (in28 + 2) (lo64 (R tr1_1) (R tr1_5));
     Set_ (in29 + 2) (hi64 (R tr1_1) (R tr1_5));
     Set_ (in30 + 2) (lo64 (R tr1_3) (R tr1_7));
     Set_ (in31 + 2) (hi64 (R tr1_3) (R tr1_7));
     Set_ tr0_0 (lo16 (R res24) (R res25));
     Set_ tr0_1 (lo16 (R res26) (R res27));
     Set_ tr0_2 (hi16 (R res24) (R res25));
     Set_ tr0_3 (hi16 (R res26) (R res27));
     Set_ tr0_4 (lo16 (R res28) (R res29));
     Set_ tr0_5 (lo16 (R res30) (R res31));
     Set_ tr0_6 (hi16 (R res28) (R res29));
     Set_ tr0_7 (hi16 (R res30) (R res31));
     Set_ tr1_0 (lo32 (R tr0_0) (R tr0_1));
     Set_ tr1_1 (lo32 (R tr0_2) (R tr0_3));
     Set_ tr1_2 (hi32 (R tr0_0) (R tr0_1));
     Set_ tr1_3 (hi32 (R tr0_2) (R tr0_3));
     Set_ tr1_4 (lo32 (R tr0_4) (R tr0_5));
     Set_ tr1_5 (lo32 (R tr0_6) (R tr0_7));
     Set_ tr1_6 (hi32 (R tr0_4) (R tr0_5));
     Set_ tr1_7 (hi32 (R tr0_6) (R tr0_7));
     Set_ (in00 + 3) (lo64 (R tr1_0) (R tr1_4));
     Set_ (in01 + 3) (hi64 (R tr1_0) (R tr1_4));
     Set_ (in02 + 3) (lo64 (R tr1_2) (R tr1_6));
     Set_ (in03 + 3) (hi64 (R tr1_2) (R tr1_6));
     Set_ (in04 + 3) (lo64 (R tr1_1) (R tr1_5));
     Set_ (in05 + 3) (hi64 (R tr1_1) (R tr1_5));
     Set_ (in06 + 3) (lo64 (R tr1_3) (R tr1_7));
     Set_ (in07 + 3) (hi64 (R tr1_3) (R tr1_7));
     Set_ tr0_0 (lo16 (R (res24 + 1)) (R (res25 + 1)));
     Set_ tr0_1 (lo16 (R (res26 + 1)) (R (res27 + 1)));
     Set_ tr0_2 (hi16 (R (res24 + 1)) (R (res25 + 1)));
     Set_ tr0_3 (hi16 (R (res26 + 1)) (R (res27 + 1)));
     Set_ tr0_4 (lo16 (R (res28 + 1)) (R (res29 + 1)));
     Set_ tr0_5 (lo16 (R (res30 + 1)) (R (res31 + 1)));
     Set_ tr0_6 (hi16 (R (res28 + 1)) (R (res29 + 1)));
     Set_ tr0_7 (hi16 (R (res30 + 1)) (R (res31 + 1)))]
    ++ [Set_ tr1_0 (lo32 (R tr0_0) (R tr0_1));
     Set_ tr1_1 (lo32 (R tr0_2) (R tr0_3));
     Set_ tr1_2 (hi32 (R tr0_0) (R tr0_1));
     Set_ tr1_3 (hi32 (R tr0_2) (R tr0_3));
     Set_ tr1_4 (lo32 (R tr0_4) (R tr0_5));
     Set_ tr1_5 (lo32 (R tr0_6) (R tr0_7));
     Set_ tr1_6 (hi32 (R tr0_4) (R tr0_5));
     Set_ tr1_7 (hi32 (R tr0_6) (R tr0_7));
     Set_ (in08 + 3) (lo64 (R tr1_0) (R tr1_4));
     Set_ (in09 + 3) (hi64 (R tr1_0) (R tr1_4));
     Set_ (in10 + 3) (lo64 (R tr1_2) (R tr1_6));
     Set_ (in11 + 3) (hi64 (R tr1_2) (R tr1_6));
     Set_ (in12 + 3) (lo64 (R tr1_1) (R tr1_5));
     Set_ (in13 + 3) (hi64 (R tr1_1) (R tr1_5));
     Set_ (in14 + 3) (lo64 (R tr1_3) (R tr1_7));
     Set_ (in15 + 3) (hi64 (R tr1_3) (R tr1_7));
     Set_ tr0_0 (lo16 (R (res24 + 2)) (R (res25 + 2)));
     Set_ tr0_1 (lo16 (R (res26 + 2)) (R (res27 + 2)));
     Set_ tr0_2 (hi16 (R (res24 + 2)) (R (res25 + 2)));
     Set_ tr0_3 (hi16 (R (res26 + 2)) (R (res27 + 2)));
     Set_ tr0_4 (lo16 (R (res28 + 2)) (R (res29 + 2)));
     Set_ tr0_5 (lo16 (R (res30 + 2)) (R (res31 + 2)));
     Set_ tr0_6 (hi16 (R (res28 + 2)) (R (res29 + 2)));
     Set_ tr0_7 (hi16 (R (res30 + 2)) (R (res31 + 2)));
     Set_ tr1_0 (lo32 (R tr0_0) (R tr0_1));
     Set_ tr1_1 (lo32 (R tr0_2) (R tr0_3));
     Set_ tr1_2 (hi32 (R tr0_0) (R tr0_1));
     Set_ tr1_3 (hi32 (R tr0_2) (R tr0_3));
     Set_ tr1_4 (lo32 (R tr0_4) (R tr0_5));
     Set_ tr1_5 (lo32 (R tr0_6) (R tr0_7));
     Set_ tr1_6 (hi32 (R tr0_4) (R tr0_5));
     Set_ tr1_7 (hi32 (R tr0_6) (R tr0_7));
     Set_ (in16 + 3) (lo64 (R tr1_0) (R tr1_4));
     Set_ (in17 + 3) (hi64 (R tr1_0) (R tr1_4));
     Set_ (in18 + 3) (lo64 (R tr1_2) (R tr1_6));
     Set_ (in19 + 3) (hi64 (R tr1_2) (R tr1_6));
     Set_ (in20 + 3) (lo64 (R tr1_1) (R tr1_5));
     Set_ (in21 + 3) (hi64 (R tr1_1) (R tr1_5));
     Set_ (in22 + 3) (lo64 (R tr1_3) (R tr1_7));
     Set_ (in23 + 3) (hi64 (R tr1_3) (R tr1_7));
     Set_ tr0_0 (lo16 (R (res24 + 3)) (R (res25 + 3)));
     Set_ tr0_1 (lo16 (R (res26 + 3)) (R (res27 + 3)));
     Set_ tr0_2 (hi16 (R (res24 + 3)) (R (res25 + 3)));
     Set_ tr0_3 (hi16 (R (res26 + 3)) (R (res27 + 3)));
     Set_ tr0_4 (lo16 (R (res28 + 3)) (R (res29 + 3)));
     Set_ tr0_5 (lo16 (R (res30 + 3)) (R (res31 + 3)));
     Set_ tr0_6 (hi16 (R (res28 + 3)) (R (res29 + 3)));
     Set_ tr0_7 (hi16 (R (res30 + 3)) (R (res31 + 3)));
     Set_ tr1_0 (lo32 (R tr0_0) (R tr0_1));
     Set_ tr1_1 (lo32 (R tr0_2) (R tr0_3));
     Set_ tr1_2 (hi32 (R tr0_0) (R tr0_1));
     Set_ tr1_3 (hi32 (R tr0_2) (R tr0_3));
     Set_ tr1_4 (lo32 (R tr0_4) (R tr0_5));
     Set_ tr1_5 (lo32 (R tr0_6) (R tr0_7));
     Set_ tr1_6 (hi32 (R tr0_4) (R tr0_5));
     Set_ tr1_7 (hi32 (R tr0_6) (R tr0_7));
     Set_ (in24 + 3) (lo64 (R tr1_0) (R tr1_4));
     Set_ (in25 + 3) (hi64 (R tr1_0) (R tr1_4));
     Set_ (in26 + 3) (lo64 (R tr1_2) (R tr1_6));
     Set_ (in27 + 3) (hi64 (R tr1_2) (R tr1_6));
     Set_ (in28 + 3) (lo64 (R tr1_1) (R tr1_5));
     Set_ (in29 + 3) (hi64 (R tr1_1) (R tr1_5));
     Set_ (in30 + 3) (lo64 (R tr1_3) (R tr1_7));
     Set_ (in31 + 3) (hi64 (R tr1_3) (R tr1_7))])
  ++ [Set_ max_val (S16 8 (Q HI2));
   Set_ min_val (S16 8 (Q LO2))]
  ++ loop 4 (fun k =>
    [Set_ (in00 + k) (max16 (min16 (R (in00 + k)) (R max_val)) (R min_val));
     Set_ (in01 + k) (max16 (min16 (R (in01 + k)) (R max_val)) (R min_val));
     Set_ (in02 + k) (max16 (min16 (R (in02 + k)) (R max_val)) (R min_val));
     Set_ (in03 + k) (max16 (min16 (R (in03 + k)) (R max_val)) (R min_val));
     Set_ (in04 + k) (max16 (min16 (R (in04 + k)) (R max_val)) (R min_val));
     Set_ (in05 + k) (max16 (min16 (R (in05 + k)) (R max_val)) (R min_val));
     Set_ (in06 + k) (max16 (min16 (R (in06 + k)) (R max_val)) (R min_val));
     Set_ (in07 + k) (max16 (min16 (R (in07 + k)) (R max_val)) (R min_val));
     Set_ (in08 + k) (max16 (min16 (R (in08 + k)) (R max_val)) (R min_val));
     Set_ (in09 + k) (max16 (min16 (R (in09 + k)) (R max_val)) (R min_val));
     Set_ (in10 + k) (max16 (min16 (R (in10 + k)) (R max_val)) (R min_val));
     Set_ (in11 + k) (max16 (min16 (R (in11 + k)) (R max_val)) (R min_val));
     Set_ (in12 + k) (max16 (min16 (R (in12 + k)) (R max_val)) (R min_val));
     Set_ (in13 + k) (max16 (min16 (R (in13 + k)) (R max_val)) (R min_val));
     Set_ (in14 + k) (max16 (min16 (R (in14 + k)) (R max_val)) (R min_val));
     Set_ (in15 + k) (max16 (min16 (R (in15 + k)) (R max_val)) (R min_val));
     Set_ (in16 + k) (max16 (min16 (R (in16 + k)) (R max_val)) (R min_val));
     Set_ (in17 + k) (max16 (min16 (R (in17 + k)) (R max_val)) (R min_val));
     Set_ (in18 + k) (max16 (min16 (R (in18 + k)) (R max_val)) (R min_val));
     Set_ (in19 + k) (max16 (min16 (R (in19 + k)) (R max_val)) (R min_val));
     Set_ (in20 + k) (max16 (min16 (R (in20 + k)) (R max_val)) (R min_val));
     Set_ (in21 + k) (max16 (min16 (R (in21 + k)) (R max_val)) (R min_val));
     Set_ (in22 + k) (max16 (min16 (R (in22 + k)) (R max_val)) (R min_val));
     Set_ (in23 + k) (max16 (min16 (R (in23 + k)) (R max_val)) (R min_val));
     Set_ (in24 + k) (max16 (min16 (R (in24 + k)) (R max_val)) (R min_val));
     Set_ (in25 + k) (max16 (min16 (R (in25 + k)) (R max_val)) (R min_val));
     Set_ (in26 + k) (max16 (min16 (R (in26 + k)) (R max_val)) (R min_val));
     Set_ (in27 + k) (max16 (min16 (R (in27 + k)) (R max_val)) (R min_val));
     Set_ (in28 + k) (max16 (min16 (R (in28 + k)) (R max_val)) (R min_val));
     Set_ (in29 + k) (max16 (min16 (R (in29 + k)) (R max_val)) (R min_val));
     Set_ (in30 + k) (max16 (min16 (R (in30 + k)) (R max_val)) (R min_val));
     Set_ (in31 + k) (max16 (min16 (R (in31 + k)) (R max_val)) (R min_val))])
  ++ loop 2 (fun i =>
    [St 8 0 0 (16 * i) (R (in00 + 2 * i));
     St 8 0 0 (16 * i + 8) (R (in00 + 2 * i + 1));
     St 8 0 1 (16 * i) (R (in01 + 2 * i));
     St 8 0 1 (16 * i + 8) (R (in01 + 2 * i + 1));
     St 8 0 2 (16 * i) (R (in02 + 2 * i));
     St 8 0 2 (16 * i + 8) (R (in02 + 2 * i + 1));
     St 8 0 3 (16 * i) (R (in03 + 2 * i));
     St 8 0 3 (16 * i + 8) (R (in03 + 2 * i + 1));
     St 8 0 4 (16 * i) (R (in04 + 2 * i));
     St 8 0 4 (16 * i + 8) (R (in04 + 2 * i + 1));
     St 8 0 5 (16 * i) (R (in05 + 2 * i));
     St 8 0 5 (16 * i + 8) (R (in05 + 2 * i + 1));
     St 8 0 6 (16 * i) (R (in06 + 2 * i));
     St 8 0 6 (16 * i + 8) (R (in06 + 2 * i + 1));
     St 8 0 7 (16 * i) (R (in07 + 2 * i));
     St 8 0 7 (16 * i + 8) (R (in07 + 2 * i + 1));
     St 8 0 8 (16 * i) (R (in08 + 2 * i));
     St 8 0 8 (16 * i + 8) (R (in08 + 2 * i + 1));
     St 8 0 9 (16 * i) (R (in09 + 2 * i));
     St 8 0 9 (16 * i + 8) (R (in09 + 2 * i + 1));
     St 8 0 10 (16 * i) (R (in10 + 2 * i));
     St 8 0 10 (16 * i + 8) (R (in10 + 2 * i + 1));
     St 8 0 11 (16 * i) (R (in11 + 2 * i));
     St 8 0 11 (16 * i + 8) (R (in11 + 2 * i + 1));
     St 8 0 12 (16 * i) (R (in12 + 2 * i));
     St 8 0 12 (16 * i + 8) (R (in12 + 2 * i + 1));
     St 8 0 13 (16 * i) (R (in13 + 2 * i));
     St 8 0 13 (16 * i + 8) (R (in13 + 2 * i + 1));
     St 8 0 14 (16 * i) (R (in14 + 2 * i));
     St 8 0 14 (16 * i + 8) (R (in14 + 2 * i + 1));
     St 8 0 15 (16 * i) (R (in15 + 2 * i));
     St 8 0 15 (16 * i + 8) (R (in15 + 2 * i + 1));
     St 8 0 16 (16 * i) (R (in16 + 2 * i));
     St 8 0 16 (16 * i + 8) (R (in16 + 2 * i + 1));
     St 8 0 17 (16 * i) (R (in17 + 2 * i));
     St 8 0 17 (16 * i + 8) (R (in17 + 2 * i + 1));
     St 8 0 18 (16 * i) (R (in18 + 2 * i));
     St 8 0 18 (16 * i + 8) (R (in18 + 2 * i + 1));
     St 8 0 19 (16 * i) (R (in19 + 2 * i));
     St 8 0 19 (16 * i + 8) (R (in19 + 2 * i + 1));
     St 8 0 20 (16 * i) (R (in20 + 2 * i));
     St 8 0 20 (16 * i + 8) (R (in20 + 2 * i + 1));
     St 8 0 21 (16 * i) (R (in21 + 2 * i));
     St 8 0 21 (16 * i + 8) (R (in21 + 2 * i + 1));
     St 8 0 22 (16 * i) (R (in22 + 2 * i));
     St 8 0 22 (16 * i + 8) (R (in22 + 2 * i + 1));
     St 8 0 23 (16 * i) (R (in23 + 2 * i));
     St 8 0 23 (16 * i + 8) (R (in23 + 2 * i + 1));
     St 8 0 24 (16 * i) (R (in24 + 2 * i));
     St 8 0 24 (16 * i + 8) (R (in24 + 2 * i + 1));
     St 8 0 25 (16 * i) (R (in25 + 2 * i));
     St 8 0 25 (16 * i + 8) (R (in25 + 2 * i + 1));
     St 8 0 26 (16 * i) (R (in26 + 2 * i));
     St 8 0 26 (16 * i + 8) (R (in26 + 2 * i + 1));
     St 8 0 27 (16 * i) (R (in27 + 2 * i));
     St 8 0 27 (16 * i + 8) (R (in27 + 2 * i + 1));
     St 8 0 28 (16 * i) (R (in28 + 2 * i));
     St 8 0 28 (16 * i + 8) (R (in28 + 2 * i + 1));
     St 8 0 29 (16 * i) (R (in29 + 2 * i));
     St 8 0 29 (16 * i + 8) (R (in29 + 2 * i + 1));
     St 8 0 30 (16 * i) (R (in30 + 2 * i));
     St 8 0 30 (16 * i + 8) (R (in30 + 2 * i + 1));
     St 8 0 31 (16 * i) (R (in31 + 2 * i));
     St 8 0 31 (16 * i + 8) (R (in31 + 2 * i + 1))]).

