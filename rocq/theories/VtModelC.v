(** The vector kernels of the inverse transforms, 32 points with few coefficients, SSE. Definitions only, for the machine of
    VtModel. Each is the text of the function: the names of its vector variables (an array takes as
    many numbers as it has elements; a name declared again in another block has a number added), its
    macros expanded, its statements in order. *)
From Coq Require Import ZArith List Bool.
From Verif Require Import VtModel.
Import ListNotations.
Open Scope Z_scope.

(** vec/intrinsic_idct.cc:3237-4271 [idct_32x32_half_sse128]. The lowest bit of [i_dst] is a flag that changes shift and limits; the stride is [i_dst & 0xFE]. *)
Definition idct_32x32_half_sse128 : list ins :=
  let c16_p45_p45 := 1 in let c16_p43_p44 := 2 in let c16_p39_p41 := 3 in let c16_p34_p36 := 4 in let c16_p41_p45 := 5 in let c16_p23_p34 := 6 in
  let c16_n02_p11 := 7 in let c16_n27_n15 := 8 in let c16_p34_p44 := 9 in let c16_n07_p15 := 10 in let c16_n41_n27 := 11 in let c16_n39_n45 := 12 in
  let c16_p43_p45 := 13 in let c16_p23_p43 := 14 in let c16_n34_n07 := 15 in let c16_n36_n45 := 16 in let c16_p19_n11 := 17 in
  let c16_p11_p41 := 18 in let c16_n45_n27 := 19 in let c16_p07_n30 := 20 in let c16_p43_p39 := 21 in let c16_n02_p39 := 22 in
  let c16_n36_n41 := 23 in let c16_p43_p07 := 24 in let c16_n11_p34 := 25 in let c16_n15_p36 := 26 in let c16_n11_n45 := 27 in
  let c16_p34_p39 := 28 in let c16_n45_n19 := 29 in let c16_n27_p34 := 30 in let c16_p19_n39 := 31 in let c16_n11_p43 := 32 in
  let c16_p02_n45 := 33 in let c16_n36_p30 := 34 in let c16_p41_n23 := 35 in let c16_n44_p15 := 36 in let c16_p45_n07 := 37 in
  let c16_n43_p27 := 38 in let c16_p44_n02 := 39 in let c16_n30_n23 := 40 in let c16_p07_p41 := 41 in let c16_n45_p23 := 42 in
  let c16_p27_p19 := 43 in let c16_p15_n45 := 44 in let c16_n44_p30 := 45 in let c16_n44_p19 := 46 in let c16_n02_p36 := 47 in
  let c16_p45_n34 := 48 in let c16_n15_n23 := 49 in let c16_n39_p15 := 50 in let c16_n30_p45 := 51 in let c16_p27_p02 := 52 in
  let c16_p41_n44 := 53 in let c16_n30_p11 := 54 in let c16_n45_p43 := 55 in let c16_n19_p36 := 56 in let c16_p23_n02 := 57 in
  let c16_n19_p07 := 58 in let c16_n39_p30 := 59 in let c16_n45_p44 := 60 in let c16_n36_p43 := 61 in let c16_n07_p02 := 62 in
  let c16_n15_p11 := 63 in let c16_n23_p19 := 64 in let c16_n30_p27 := 65 in let c16_p35_p40 := 66 in let c16_p29_p43 := 67 in
  let c16_n21_p04 := 68 in let c16_p04_p40 := 69 in let c16_n43_n35 := 70 in let c16_n21_p35 := 71 in let c16_p04_n43 := 72 in
  let c16_n40_p29 := 73 in let c16_p45_n13 := 74 in let c16_n45_p21 := 75 in let c16_p13_p29 := 76 in let c16_n35_p13 := 77 in
  let c16_n40_p45 := 78 in let c16_n13_p04 := 79 in let c16_n29_p21 := 80 in let c16_p38_p44 := 81 in let c16_n09_p38 := 82 in
  let c16_n44_p25 := 83 in let c16_n25_p09 := 84 in let c16_p17_p42 := 85 in let c16_n42_p17 := 86 in let c16_p32_p32 := 87 in
  let c16_n32_p32 := 88 in let c32_rnd := 89 in let Zero_16 := 90 in let in00 := 91 in let in01 := 95 in let in02 := 99 in let in03 := 103 in
  let in04 := 107 in let in05 := 111 in let in06 := 115 in let in07 := 119 in let in08 := 123 in let in09 := 127 in let in10 := 131 in
  let in11 := 135 in let in12 := 139 in let in13 := 143 in let in14 := 147 in let in15 := 151 in let in16 := 155 in let in17 := 159 in
  let in18 := 163 in let in19 := 167 in let in20 := 171 in let in21 := 175 in let in22 := 179 in let in23 := 183 in let in24 := 187 in
  let in25 := 191 in let in26 := 195 in let in27 := 199 in let in28 := 203 in let in29 := 207 in let in30 := 211 in let in31 := 215 in
  let res00 := 219 in let res01 := 223 in let res02 := 227 in let res03 := 231 in let res04 := 235 in let res05 := 239 in let res06 := 243 in
  let res07 := 247 in let res08 := 251 in let res09 := 255 in let res10 := 259 in let res11 := 263 in let res12 := 267 in let res13 := 271 in
  let res14 := 275 in let res15 := 279 in let res16 := 283 in let res17 := 287 in let res18 := 291 in let res19 := 295 in let res20 := 299 in
  let res21 := 303 in let res22 := 307 in let res23 := 311 in let res24 := 315 in let res25 := 319 in let res26 := 323 in let res27 := 327 in
  let res28 := 331 in let res29 := 335 in let res30 := 339 in let res31 := 343 in let T_00_00A := 347 in let T_00_00B := 348 in let T_00_01A := 349 in
  let T_00_01B := 350 in let T_00_02A := 351 in let T_00_02B := 352 in let T_00_03A := 353 in let T_00_03B := 354 in let T_00_08A := 355 in
  let T_00_08B := 356 in let T_00_09A := 357 in let T_00_09B := 358 in let T_00_12A := 359 in let T_00_12B := 360 in let T_00_14A := 361 in
  let T_00_14B := 362 in let T_00_15A := 363 in let T_00_15B := 364 in let O00A := 365 in let O01A := 366 in let O02A := 367 in let O03A := 368 in
  let O04A := 369 in let O05A := 370 in let O06A := 371 in let O07A := 372 in let O08A := 373 in let O09A := 374 in let O10A := 375 in
  let O11A := 376 in let O12A := 377 in let O13A := 378 in let O14A := 379 in let O15A := 380 in let O00B := 381 in let O01B := 382 in
  let O02B := 383 in let O03B := 384 in let O04B := 385 in let O05B := 386 in let O06B := 387 in let O07B := 388 in let O08B := 389 in
  let O09B := 390 in let O10B := 391 in let O11B := 392 in let O12B := 393 in let O13B := 394 in let O14B := 395 in let O15B := 396 in
  let EO0A := 397 in let EO1A := 398 in let EO2A := 399 in let EO3A := 400 in let EO4A := 401 in let EO5A := 402 in let EO6A := 403 in
  let EO7A := 404 in let EO0B := 405 in let EO1B := 406 in let EO2B := 407 in let EO3B := 408 in let EO4B := 409 in let EO5B := 410 in
  let EO6B := 411 in let EO7B := 412 in let T00 := 413 in let T01 := 414 in let EEO0A := 415 in let EEO1A := 416 in let EEO2A := 417 in
  let EEO3A := 418 in let EEO0B := 419 in let EEO1B := 420 in let EEO2B := 421 in let EEO3B := 422 in let EEEO0A := 423 in let EEEO0B := 424 in
  let EEEO1A := 425 in let EEEO1B := 426 in let EEEE0A := 427 in let EEEE0B := 428 in let EEEE1A := 429 in let EEEE1B := 430 in let EEE0A := 431 in
  let EEE0B := 432 in let EEE1A := 433 in let EEE1B := 434 in let EEE3A := 435 in let EEE3B := 436 in let EEE2A := 437 in let EEE2B := 438 in
  let EE0A := 439 in let EE0B := 440 in let EE1A := 441 in let EE1B := 442 in let EE2A := 443 in let EE2B := 444 in let EE3A := 445 in
  let EE3B := 446 in let EE7A := 447 in let EE7B := 448 in let EE6A := 449 in let EE6B := 450 in let EE5A := 451 in let EE5B := 452 in
  let EE4A := 453 in let EE4B := 454 in let E0A := 455 in let E0B := 456 in let E1A := 457 in let E1B := 458 in let E2A := 459 in let E2B := 460 in
  let E3A := 461 in let E3B := 462 in let E4A := 463 in let E4B := 464 in let E5A := 465 in let E5B := 466 in let E6A := 467 in let E6B := 468 in
  let E7A := 469 in let E7B := 470 in let EFA := 471 in let EFB := 472 in let EEA := 473 in let EEB := 474 in let EDA := 475 in let EDB := 476 in
  let ECA := 477 in let ECB := 478 in let EBA := 479 in let EBB := 480 in let EAA := 481 in let EAB := 482 in let E9A := 483 in let E9B := 484 in
  let E8A := 485 in let E8B := 486 in let T10A := 487 in let T10B := 488 in let T11A := 489 in let T11B := 490 in let T12A := 491 in
  let T12B := 492 in let T13A := 493 in let T13B := 494 in let T14A := 495 in let T14B := 496 in let T15A := 497 in let T15B := 498 in
  let T16A := 499 in let T16B := 500 in let T17A := 501 in let T17B := 502 in let T18A := 503 in let T18B := 504 in let T19A := 505 in
  let T19B := 506 in let T1AA := 507 in let T1AB := 508 in let T1BA := 509 in let T1BB := 510 in let T1CA := 511 in let T1CB := 512 in
  let T1DA := 513 in let T1DB := 514 in let T1EA := 515 in let T1EB := 516 in let T1FA := 517 in let T1FB := 518 in let T2_00A := 519 in
  let T2_00B := 520 in let T2_01A := 521 in let T2_01B := 522 in let T2_02A := 523 in let T2_02B := 524 in let T2_03A := 525 in let T2_03B := 526 in
  let T2_04A := 527 in let T2_04B := 528 in let T2_05A := 529 in let T2_05B := 530 in let T2_06A := 531 in let T2_06B := 532 in let T2_07A := 533 in
  let T2_07B := 534 in let T2_08A := 535 in let T2_08B := 536 in let T2_09A := 537 in let T2_09B := 538 in let T2_10A := 539 in let T2_10B := 540 in
  let T2_11A := 541 in let T2_11B := 542 in let T2_12A := 543 in let T2_12B := 544 in let T2_13A := 545 in let T2_13B := 546 in let T2_14A := 547 in
  let T2_14B := 548 in let T2_15A := 549 in let T2_15B := 550 in let T2_31A := 551 in let T2_31B := 552 in let T2_30A := 553 in let T2_30B := 554 in
  let T2_29A := 555 in let T2_29B := 556 in let T2_28A := 557 in let T2_28B := 558 in let T2_27A := 559 in let T2_27B := 560 in let T2_26A := 561 in
  let T2_26B := 562 in let T2_25A := 563 in let T2_25B := 564 in let T2_24A := 565 in let T2_24B := 566 in let T2_23A := 567 in let T2_23B := 568 in
  let T2_22A := 569 in let T2_22B := 570 in let T2_21A := 571 in let T2_21B := 572 in let T2_20A := 573 in let T2_20B := 574 in let T2_19A := 575 in
  let T2_19B := 576 in let T2_18A := 577 in let T2_18B := 578 in let T2_17A := 579 in let T2_17B := 580 in let T2_16A := 581 in let T2_16B := 582 in
  let T3_00A := 583 in let T3_00B := 584 in let T3_01A := 585 in let T3_01B := 586 in let T3_02A := 587 in let T3_02B := 588 in let T3_03A := 589 in
  let T3_03B := 590 in let T3_04A := 591 in let T3_04B := 592 in let T3_05A := 593 in let T3_05B := 594 in let T3_06A := 595 in let T3_06B := 596 in
  let T3_07A := 597 in let T3_07B := 598 in let T3_08A := 599 in let T3_08B := 600 in let T3_09A := 601 in let T3_09B := 602 in let T3_10A := 603 in
  let T3_10B := 604 in let T3_11A := 605 in let T3_11B := 606 in let T3_12A := 607 in let T3_12B := 608 in let T3_13A := 609 in let T3_13B := 610 in
  let T3_14A := 611 in let T3_14B := 612 in let T3_15A := 613 in let T3_15B := 614 in let T3_16A := 615 in let T3_16B := 616 in let T3_17A := 617 in
  let T3_17B := 618 in let T3_18A := 619 in let T3_18B := 620 in let T3_19A := 621 in let T3_19B := 622 in let T3_20A := 623 in let T3_20B := 624 in
  let T3_21A := 625 in let T3_21B := 626 in let T3_22A := 627 in let T3_22B := 628 in let T3_23A := 629 in let T3_23B := 630 in let T3_24A := 631 in
  let T3_24B := 632 in let T3_25A := 633 in let T3_25B := 634 in let T3_26A := 635 in let T3_26B := 636 in let T3_27A := 637 in let T3_27B := 638 in
  let T3_28A := 639 in let T3_28B := 640 in let T3_29A := 641 in let T3_29B := 642 in let T3_30A := 643 in let T3_30B := 644 in let T3_31A := 645 in
  let T3_31B := 646 in let tr0_0 := 647 in let tr0_1 := 648 in let tr0_2 := 649 in let tr0_3 := 650 in let tr0_4 := 651 in let tr0_5 := 652 in
  let tr0_6 := 653 in let tr0_7 := 654 in let tr1_0 := 655 in let tr1_1 := 656 in let tr1_2 := 657 in let tr1_3 := 658 in let tr1_4 := 659 in
  let tr1_5 := 660 in let tr1_6 := 661 in let tr1_7 := 662 in let T_00_00A_2 := 663 in let T_00_00B_2 := 664 in let T_00_01A_2 := 665 in
  let T_00_01B_2 := 666 in let T_00_02A_2 := 667 in let T_00_02B_2 := 668 in let T_00_03A_2 := 669 in let T_00_03B_2 := 670 in
  let T_00_08A_2 := 671 in let T_00_08B_2 := 672 in let T_00_09A_2 := 673 in let T_00_09B_2 := 674 in let T_00_12A_2 := 675 in
  let T_00_12B_2 := 676 in let T_00_14A_2 := 677 in let T_00_14B_2 := 678 in let T_00_15A_2 := 679 in let T_00_15B_2 := 680 in let O00A_2 := 681 in
  let O01A_2 := 682 in let O02A_2 := 683 in let O03A_2 := 684 in let O04A_2 := 685 in let O05A_2 := 686 in let O06A_2 := 687 in let O07A_2 := 688 in
  let O08A_2 := 689 in let O09A_2 := 690 in let O10A_2 := 691 in let O11A_2 := 692 in let O12A_2 := 693 in let O13A_2 := 694 in let O14A_2 := 695 in
  let O15A_2 := 696 in let O00B_2 := 697 in let O01B_2 := 698 in let O02B_2 := 699 in let O03B_2 := 700 in let O04B_2 := 701 in let O05B_2 := 702 in
  let O06B_2 := 703 in let O07B_2 := 704 in let O08B_2 := 705 in let O09B_2 := 706 in let O10B_2 := 707 in let O11B_2 := 708 in let O12B_2 := 709 in
  let O13B_2 := 710 in let O14B_2 := 711 in let O15B_2 := 712 in let EO0A_2 := 713 in let EO1A_2 := 714 in let EO2A_2 := 715 in let EO3A_2 := 716 in
  let EO4A_2 := 717 in let EO5A_2 := 718 in let EO6A_2 := 719 in let EO7A_2 := 720 in let EO0B_2 := 721 in let EO1B_2 := 722 in let EO2B_2 := 723 in
  let EO3B_2 := 724 in let EO4B_2 := 725 in let EO5B_2 := 726 in let EO6B_2 := 727 in let EO7B_2 := 728 in let T00_2 := 729 in let T01_2 := 730 in
  let EEO0A_2 := 731 in let EEO1A_2 := 732 in let EEO2A_2 := 733 in let EEO3A_2 := 734 in let EEO0B_2 := 735 in let EEO1B_2 := 736 in
  let EEO2B_2 := 737 in let EEO3B_2 := 738 in let EEEO0A_2 := 739 in let EEEO0B_2 := 740 in let EEEO1A_2 := 741 in let EEEO1B_2 := 742 in
  let EEEE0A_2 := 743 in let EEEE0B_2 := 744 in let EEEE1A_2 := 745 in let EEEE1B_2 := 746 in let EEE0A_2 := 747 in let EEE0B_2 := 748 in
  let EEE1A_2 := 749 in let EEE1B_2 := 750 in let EEE3A_2 := 751 in let EEE3B_2 := 752 in let EEE2A_2 := 753 in let EEE2B_2 := 754 in
  let EE0A_2 := 755 in let EE0B_2 := 756 in let EE1A_2 := 757 in let EE1B_2 := 758 in let EE2A_2 := 759 in let EE2B_2 := 760 in let EE3A_2 := 761 in
  let EE3B_2 := 762 in let EE7A_2 := 763 in let EE7B_2 := 764 in let EE6A_2 := 765 in let EE6B_2 := 766 in let EE5A_2 := 767 in let EE5B_2 := 768 in
  let EE4A_2 := 769 in let EE4B_2 := 770 in let E0A_2 := 771 in let E0B_2 := 772 in let E1A_2 := 773 in let E1B_2 := 774 in let E2A_2 := 775 in
  let E2B_2 := 776 in let E3A_2 := 777 in let E3B_2 := 778 in let E4A_2 := 779 in let E4B_2 := 780 in let E5A_2 := 781 in let E5B_2 := 782 in
  let E6A_2 := 783 in let E6B_2 := 784 in let E7A_2 := 785 in let E7B_2 := 786 in let EFA_2 := 787 in let EFB_2 := 788 in let EEA_2 := 789 in
  let EEB_2 := 790 in let EDA_2 := 791 in let EDB_2 := 792 in let ECA_2 := 793 in let ECB_2 := 794 in let EBA_2 := 795 in let EBB_2 := 796 in
  let EAA_2 := 797 in let EAB_2 := 798 in let E9A_2 := 799 in let E9B_2 := 800 in let E8A_2 := 801 in let E8B_2 := 802 in let T10A_2 := 803 in
  let T10B_2 := 804 in let T11A_2 := 805 in let T11B_2 := 806 in let T12A_2 := 807 in let T12B_2 := 808 in let T13A_2 := 809 in let T13B_2 := 810 in
  let T14A_2 := 811 in let T14B_2 := 812 in let T15A_2 := 813 in let T15B_2 := 814 in let T16A_2 := 815 in let T16B_2 := 816 in let T17A_2 := 817 in
  let T17B_2 := 818 in let T18A_2 := 819 in let T18B_2 := 820 in let T19A_2 := 821 in let T19B_2 := 822 in let T1AA_2 := 823 in let T1AB_2 := 824 in
  let T1BA_2 := 825 in let T1BB_2 := 826 in let T1CA_2 := 827 in let T1CB_2 := 828 in let T1DA_2 := 829 in let T1DB_2 := 830 in let T1EA_2 := 831 in
  let T1EB_2 := 832 in let T1FA_2 := 833 in let T1FB_2 := 834 in let T2_00A_2 := 835 in let T2_00B_2 := 836 in let T2_01A_2 := 837 in
  let T2_01B_2 := 838 in let T2_02A_2 := 839 in let T2_02B_2 := 840 in let T2_03A_2 := 841 in let T2_03B_2 := 842 in let T2_04A_2 := 843 in
  let T2_04B_2 := 844 in let T2_05A_2 := 845 in let T2_05B_2 := 846 in let T2_06A_2 := 847 in let T2_06B_2 := 848 in let T2_07A_2 := 849 in
  let T2_07B_2 := 850 in let T2_08A_2 := 851 in let T2_08B_2 := 852 in let T2_09A_2 := 853 in let T2_09B_2 := 854 in let T2_10A_2 := 855 in
  let T2_10B_2 := 856 in let T2_11A_2 := 857 in let T2_11B_2 := 858 in let T2_12A_2 := 859 in let T2_12B_2 := 860 in let T2_13A_2 := 861 in
  let T2_13B_2 := 862 in let T2_14A_2 := 863 in let T2_14B_2 := 864 in let T2_15A_2 := 865 in let T2_15B_2 := 866 in let T2_31A_2 := 867 in
  let T2_31B_2 := 868 in let T2_30A_2 := 869 in let T2_30B_2 := 870 in let T2_29A_2 := 871 in let T2_29B_2 := 872 in let T2_28A_2 := 873 in
  let T2_28B_2 := 874 in let T2_27A_2 := 875 in let T2_27B_2 := 876 in let T2_26A_2 := 877 in let T2_26B_2 := 878 in let T2_25A_2 := 879 in
  let T2_25B_2 := 880 in let T2_24A_2 := 881 in let T2_24B_2 := 882 in let T2_23A_2 := 883 in let T2_23B_2 := 884 in let T2_22A_2 := 885 in
  let T2_22B_2 := 886 in let T2_21A_2 := 887 in let T2_21B_2 := 888 in let T2_20A_2 := 889 in let T2_20B_2 := 890 in let T2_19A_2 := 891 in
  let T2_19B_2 := 892 in let T2_18A_2 := 893 in let T2_18B_2 := 894 in let T2_17A_2 := 895 in let T2_17B_2 := 896 in let T2_16A_2 := 897 in
  let T2_16B_2 := 898 in let T3_00A_2 := 899 in let T3_00B_2 := 900 in let T3_01A_2 := 901 in let T3_01B_2 := 902 in let T3_02A_2 := 903 in
  let T3_02B_2 := 904 in let T3_03A_2 := 905 in let T3_03B_2 := 906 in let T3_04A_2 := 907 in let T3_04B_2 := 908 in let T3_05A_2 := 909 in
  let T3_05B_2 := 910 in let T3_06A_2 := 911 in let T3_06B_2 := 912 in let T3_07A_2 := 913 in let T3_07B_2 := 914 in let T3_08A_2 := 915 in
  let T3_08B_2 := 916 in let T3_09A_2 := 917 in let T3_09B_2 := 918 in let T3_10A_2 := 919 in let T3_10B_2 := 920 in let T3_11A_2 := 921 in
  let T3_11B_2 := 922 in let T3_12A_2 := 923 in let T3_12B_2 := 924 in let T3_13A_2 := 925 in let T3_13B_2 := 926 in let T3_14A_2 := 927 in
  let T3_14B_2 := 928 in let T3_15A_2 := 929 in let T3_15B_2 := 930 in let T3_16A_2 := 931 in let T3_16B_2 := 932 in let T3_17A_2 := 933 in
  let T3_17B_2 := 934 in let T3_18A_2 := 935 in let T3_18B_2 := 936 in let T3_19A_2 := 937 in let T3_19B_2 := 938 in let T3_20A_2 := 939 in
  let T3_20B_2 := 940 in let T3_21A_2 := 941 in let T3_21B_2 := 942 in let T3_22A_2 := 943 in let T3_22B_2 := 944 in let T3_23A_2 := 945 in
  let T3_23B_2 := 946 in let T3_24A_2 := 947 in let T3_24B_2 := 948 in let T3_25A_2 := 949 in let T3_25B_2 := 950 in let T3_26A_2 := 951 in
  let T3_26B_2 := 952 in let T3_27A_2 := 953 in let T3_27B_2 := 954 in let T3_28A_2 := 955 in let T3_28B_2 := 956 in let T3_29A_2 := 957 in
  let T3_29B_2 := 958 in let T3_30A_2 := 959 in let T3_30B_2 := 960 in let T3_31A_2 := 961 in let T3_31B_2 := 962 in let tr0_0_2 := 963 in
  let tr0_1_2 := 964 in let tr0_2_2 := 965 in let tr0_3_2 := 966 in let tr0_4_2 := 967 in let tr0_5_2 := 968 in let tr0_6_2 := 969 in
  let tr0_7_2 := 970 in let tr1_0_2 := 971 in let tr1_1_2 := 972 in let tr1_2_2 := 973 in let tr1_3_2 := 974 in let tr1_4_2 := 975 in
  let tr1_5_2 := 976 in let tr1_6_2 := 977 in let tr1_7_2 := 978 in let max_val := 979 in let min_val := 980 in
  [Set_ c16_p45_p45 (S32 8 (I 2949165));
   Set_ c16_p43_p44 (S32 8 (I 2818092));
   Set_ c16_p39_p41 (S32 8 (I 2555945));
   Set_ c16_p34_p36 (S32 8 (I 2228260));
   Set_ c16_p41_p45 (S32 8 (I 2687021));
   Set_ c16_p23_p34 (S32 8 (I 1507362));
   Set_ c16_n02_p11 (S32 8 (I (-131061)));
   Set_ c16_n27_n15 (S32 8 (I (-1703951)));
   Set_ c16_p34_p44 (S32 8 (I 2228268));
   Set_ c16_n07_p15 (S32 8 (I (-458737)));
   Set_ c16_n41_n27 (S32 8 (I (-2621467)));
   Set_ c16_n39_n45 (S32 8 (I (-2490413)));
   Set_ c16_p43_p45 (S32 8 (I 2818093));
   Set_ c16_p23_p43 (S32 8 (I 1507371));
   Set_ c16_n34_n07 (S32 8 (I (-2162695)));
   Set_ c16_n36_n45 (S32 8 (I (-2293805)));
   Set_ c16_p19_n11 (S32 8 (I 1310709));
   Set_ c16_p11_p41 (S32 8 (I 720937));
   Set_ c16_n45_n27 (S32 8 (I (-2883611)));
   Set_ c16_p07_n30 (S32 8 (I 524258));
   Set_ c16_p43_p39 (S32 8 (I 2818087));
   Set_ c16_n02_p39 (S32 8 (I (-131033)));
   Set_ c16_n36_n41 (S32 8 (I (-2293801)));
   Set_ c16_p43_p07 (S32 8 (I 2818055));
   Set_ c16_n11_p34 (S32 8 (I (-720862)));
   Set_ c16_n15_p36 (S32 8 (I (-983004)));
   Set_ c16_n11_n45 (S32 8 (I (-655405)));
   Set_ c16_p34_p39 (S32 8 (I 2228263));
   Set_ c16_n45_n19 (S32 8 (I (-2883603)));
   Set_ c16_n27_p34 (S32 8 (I (-1769438)));
   Set_ c16_p19_n39 (S32 8 (I 1310681));
   Set_ c16_n11_p43 (S32 8 (I (-720853)));
   Set_ c16_p02_n45 (S32 8 (I 196563));
   Set_ c16_n36_p30 (S32 8 (I (-2359266)));
   Set_ c16_p41_n23 (S32 8 (I 2752489));
   Set_ c16_n44_p15 (S32 8 (I (-2883569)));
   Set_ c16_p45_n07 (S32 8 (I 3014649));
   Set_ c16_n43_p27 (S32 8 (I (-2818021)));
   Set_ c16_p44_n02 (S32 8 (I 2949118));
   Set_ c16_n30_n23 (S32 8 (I (-1900567)));
   Set_ c16_p07_p41 (S32 8 (I 458793));
   Set_ c16_n45_p23 (S32 8 (I (-2949097)));
   Set_ c16_p27_p19 (S32 8 (I 1769491));
   Set_ c16_p15_n45 (S32 8 (I 1048531));
   Set_ c16_n44_p30 (S32 8 (I (-2883554)));
   Set_ c16_n44_p19 (S32 8 (I (-2883565)));
   Set_ c16_n02_p36 (S32 8 (I (-131036)));
   Set_ c16_p45_n34 (S32 8 (I 3014622));
   Set_ c16_n15_n23 (S32 8 (I (-917527)));
   Set_ c16_n39_p15 (S32 8 (I (-2555889)));
   Set_ c16_n30_p45 (S32 8 (I (-1966035)));
   Set_ c16_p27_p02 (S32 8 (I 1769474));
   Set_ c16_p41_n44 (S32 8 (I 2752468));
   Set_ c16_n30_p11 (S32 8 (I (-1966069)));
   Set_ c16_n45_p43 (S32 8 (I (-2949077)));
   Set_ c16_n19_p36 (S32 8 (I (-1245148)));
   Set_ c16_p23_n02 (S32 8 (I 1572862));
   Set_ c16_n19_p07 (S32 8 (I (-1245177)));
   Set_ c16_n39_p30 (S32 8 (I (-2555874)));
   Set_ c16_n45_p44 (S32 8 (I (-2949076)));
   Set_ c16_n36_p43 (S32 8 (I (-2359253)));
   Set_ c16_n07_p02 (S32 8 (I (-458750)));
   Set_ c16_n15_p11 (S32 8 (I (-983029)));
   Set_ c16_n23_p19 (S32 8 (I (-1507309)))]
  ++ [Set_ c16_n30_p27 (S32 8 (I (-1966053)));
   Set_ c16_p35_p40 (S32 8 (I 2293800));
   Set_ c16_p29_p43 (S32 8 (I 1900587));
   Set_ c16_n21_p04 (S32 8 (I (-1376252)));
   Set_ c16_p04_p40 (S32 8 (I 262184));
   Set_ c16_n43_n35 (S32 8 (I (-2752547)));
   Set_ c16_n21_p35 (S32 8 (I (-1376221)));
   Set_ c16_p04_n43 (S32 8 (I 327637));
   Set_ c16_n40_p29 (S32 8 (I (-2621411)));
   Set_ c16_p45_n13 (S32 8 (I 3014643));
   Set_ c16_n45_p21 (S32 8 (I (-2949099)));
   Set_ c16_p13_p29 (S32 8 (I 851997));
   Set_ c16_n35_p13 (S32 8 (I (-2293747)));
   Set_ c16_n40_p45 (S32 8 (I (-2621395)));
   Set_ c16_n13_p04 (S32 8 (I (-851964)));
   Set_ c16_n29_p21 (S32 8 (I (-1900523)));
   Set_ c16_p38_p44 (S32 8 (I 2490412));
   Set_ c16_n09_p38 (S32 8 (I (-589786)));
   Set_ c16_n44_p25 (S32 8 (I (-2883559)));
   Set_ c16_n25_p09 (S32 8 (I (-1638391)));
   Set_ c16_p17_p42 (S32 8 (I 1114154));
   Set_ c16_n42_p17 (S32 8 (I (-2752495)));
   Set_ c16_p32_p32 (S32 8 (I 2097184));
   Set_ c16_n32_p32 (S32 8 (I (-2097120)));
   Set_ c32_rnd (S32 8 (I 16));
   Set_ Zero_16 (S16 8 (I 0));
   SetI 0 (I 5)]
  ++ loop 2 (fun i =>
    [Set_ (in00 + i) (Ld 8 (8 * i));
     Set_ (in01 + i) (Ld 8 (8 * i + 32));
     Set_ (in02 + i) (Ld 8 (8 * i + 64));
     Set_ (in03 + i) (Ld 8 (8 * i + 96));
     Set_ (in04 + i) (Ld 8 (8 * i + 128));
     Set_ (in05 + i) (Ld 8 (8 * i + 160));
     Set_ (in06 + i) (Ld 8 (8 * i + 192));
     Set_ (in07 + i) (Ld 8 (8 * i + 224));
     Set_ (in08 + i) (Ld 8 (8 * i + 256));
     Set_ (in09 + i) (Ld 8 (8 * i + 288));
     Set_ (in10 + i) (Ld 8 (8 * i + 320));
     Set_ (in11 + i) (Ld 8 (8 * i + 352));
     Set_ (in12 + i) (Ld 8 (8 * i + 384));
     Set_ (in13 + i) (Ld 8 (8 * i + 416));
     Set_ (in14 + i) (Ld 8 (8 * i + 448));
     Set_ (in15 + i) (Ld 8 (8 * i + 480))])
  ++ loop 2 (fun part =>
    [Set_ T_00_00A (lo16 (R (in01 + part)) (R (in03 + part)));
     Set_ T_00_00B (hi16 (R (in01 + part)) (R (in03 + part)));
     Set_ T_00_01A (lo16 (R (in05 + part)) (R (in07 + part)));
     Set_ T_00_01B (hi16 (R (in05 + part)) (R (in07 + part)));
     Set_ T_00_02A (lo16 (R (in09 + part)) (R (in11 + part)));
     Set_ T_00_02B (hi16 (R (in09 + part)) (R (in11 + part)));
     Set_ T_00_03A (lo16 (R (in13 + part)) (R (in15 + part)));
     Set_ T_00_03B (hi16 (R (in13 + part)) (R (in15 + part)));
     Set_ T_00_08A (lo16 (R (in02 + part)) (R (in06 + part)));
     Set_ T_00_08B (hi16 (R (in02 + part)) (R (in06 + part)));
     Set_ T_00_09A (lo16 (R (in10 + part)) (R (in14 + part)));
     Set_ T_00_09B (hi16 (R (in10 + part)) (R (in14 + part)));
     Set_ T_00_12A (lo16 (R (in04 + part)) (R (in12 + part)));
     Set_ T_00_12B (hi16 (R (in04 + part)) (R (in12 + part)));
     Set_ T_00_14A (lo16 (R (in08 + part)) (R Zero_16));
     Set_ T_00_14B (hi16 (R (in08 + part)) (R Zero_16));
     Set_ T_00_15A (lo16 (R (in00 + part)) (R Zero_16));
     Set_ T_00_15B (hi16 (R (in00 + part)) (R Zero_16));
     Set_ T00 (add32 (madd (R T_00_00A) (R c16_p45_p45)) (madd (R T_00_01A) (R c16_p43_p44)));
     Set_ T01 (add32 (madd (R T_00_02A) (R c16_p39_p41)) (madd (R T_00_03A) (R c16_p34_p36)));
     Set_ O00A (add32 (R T00) (R T01));
     Set_ T00 (add32 (madd (R T_00_00A) (R c16_p41_p45)) (madd (R T_00_01A) (R c16_p23_p34)));
     Set_ T01 (add32 (madd (R T_00_02A) (R c16_n02_p11)) (madd (R T_00_03A) (R c16_n27_n15)));
     Set_ O01A (add32 (R T00) (R T01));
     Set_ T00 (add32 (madd (R T_00_00A) (R c16_p34_p44)) (madd (R T_00_01A) (R c16_n07_p15)));
     Set_ T01 (add32 (madd (R T_00_02A) (R c16_n41_n27)) (madd (R T_00_03A) (R c16_n39_n45)));
     Set_ O02A (add32 (R T00) (R T01));
     Set_ T00 (add32 (madd (R T_00_00A) (R c16_p23_p43)) (madd (R T_00_01A) (R c16_n34_n07)));
     Set_ T01 (add32 (madd (R T_00_02A) (R c16_n36_n45)) (madd (R T_00_03A) (R c16_p19_n11)));
     Set_ O03A (add32 (R T00) (R T01));
     Set_ T00 (add32 (madd (R T_00_00A) (R c16_p11_p41)) (madd (R T_00_01A) (R c16_n45_n27)));
     Set_ T01 (add32 (madd (R T_00_02A) (R c16_p07_n30)) (madd (R T_00_03A) (R c16_p43_p39)));
     Set_ O04A (add32 (R T00) (R T01));
     Set_ T00 (add32 (madd (R T_00_00A) (R c16_n02_p39)) (madd (R T_00_01A) (R c16_n36_n41)));
     Set_ T01 (add32 (madd (R T_00_02A) (R c16_p43_p07)) (madd (R T_00_03A) (R c16_n11_p34)));
     Set_ O05A (add32 (R T00) (R T01));
     Set_ T00 (add32 (madd (R T_00_00A) (R c16_n15_p36)) (madd (R T_00_01A) (R c16_n11_n45)));
     Set_ T01 (add32 (madd (R T_00_02A) (R c16_p34_p39)) (madd (R T_00_03A) (R c16_n45_n19)));
     Set_ O06A (add32 (R T00) (R T01));
     Set_ T00 (add32 (madd (R T_00_00A) (R c16_n27_p34)) (madd (R T_00_01A) (R c16_p19_n39)));
     Set_ T01 (add32 (madd (R T_00_02A) (R c16_n11_p43)) (madd (R T_00_03A) (R c16_p02_n45)));
     Set_ O07A (add32 (R T00) (R T01));
     Set_ T00 (add32 (madd (R T_00_00A) (R c16_n36_p30)) (madd (R T_00_01A) (R c16_p41_n23)));
     Set_ T01 (add32 (madd (R T_00_02A) (R c16_n44_p15)) (madd (R T_00_03A) (R c16_p45_n07)));
     Set_ O08A (add32 (R T00) (R T01));
     Set_ T00 (add32 (madd (R T_00_00A) (R c16_n43_p27)) (madd (R T_00_01A) (R c16_p44_n02)));
     Set_ T01 (add32 (madd (R T_00_02A) (R c16_n30_n23)) (madd (R T_00_03A) (R c16_p07_p41)));
     Set_ O09A (add32 (R T00) (R T01));
     Set_ T00 (add32 (madd (R T_00_00A) (R c16_n45_p23)) (madd (R T_00_01A) (R c16_p27_p19)));
     Set_ T01 (add32 (madd (R T_00_02A) (R c16_p15_n45)) (madd (R T_00_03A) (R c16_n44_p30)));
     Set_ O10A (add32 (R T00) (R T01));
     Set_ T00 (add32 (madd (R T_00_00A) (R c16_n44_p19)) (madd (R T_00_01A) (R c16_n02_p36)));
     Set_ T01 (add32 (madd (R T_00_02A) (R c16_p45_n34)) (madd (R T_00_03A) (R c16_n15_n23)));
     Set_ O11A (add32 (R T00) (R T01));
     Set_ T00 (add32 (madd (R T_00_00A) (R c16_n39_p15)) (madd (R T_00_01A) (R c16_n30_p45)));
     Set_ T01 (add32 (madd (R T_00_02A) (R c16_p27_p02)) (madd (R T_00_03A) (R c16_p41_n44)));
     Set_ O12A (add32 (R T00) (R T01));
     Set_ T00 (add32 (madd (R T_00_00A) (R c16_n30_p11)) (madd (R T_00_01A) (R c16_n45_p43)));
     Set_ T01 (add32 (madd (R T_00_02A) (R c16_n19_p36)) (madd (R T_00_03A) (R c16_p23_n02)));
     Set_ O13A (add32 (R T00) (R T01));
     Set_ T00 (add32 (madd (R T_00_00A) (R c16_n19_p07)) (madd (R T_00_01A) (R c16_n39_p30)));
     Set_ T01 (add32 (madd (R T_00_02A) (R c16_n45_p44)) (madd (R T_00_03A) (R c16_n36_p43)));
     Set_ O14A (add32 (R T00) (R T01));
     Set_ T00 (add32 (madd (R T_00_00A) (R c16_n07_p02)) (madd (R T_00_01A) (R c16_n15_p11)))]
    ++ [Set_ T01 (add32 (madd (R T_00_02A) (R c16_n23_p19)) (madd (R T_00_03A) (R c16_n30_p27)));
     Set_ O15A (add32 (R T00) (R T01));
     Set_ T00 (add32 (madd (R T_00_00B) (R c16_p45_p45)) (madd (R T_00_01B) (R c16_p43_p44)));
     Set_ T01 (add32 (madd (R T_00_02B) (R c16_p39_p41)) (madd (R T_00_03B) (R c16_p34_p36)));
     Set_ O00B (add32 (R T00) (R T01));
     Set_ T00 (add32 (madd (R T_00_00B) (R c16_p41_p45)) (madd (R T_00_01B) (R c16_p23_p34)));
     Set_ T01 (add32 (madd (R T_00_02B) (R c16_n02_p11)) (madd (R T_00_03B) (R c16_n27_n15)));
     Set_ O01B (add32 (R T00) (R T01));
     Set_ T00 (add32 (madd (R T_00_00B) (R c16_p34_p44)) (madd (R T_00_01B) (R c16_n07_p15)));
     Set_ T01 (add32 (madd (R T_00_02B) (R c16_n41_n27)) (madd (R T_00_03B) (R c16_n39_n45)));
     Set_ O02B (add32 (R T00) (R T01));
     Set_ T00 (add32 (madd (R T_00_00B) (R c16_p23_p43)) (madd (R T_00_01B) (R c16_n34_n07)));
     Set_ T01 (add32 (madd (R T_00_02B) (R c16_n36_n45)) (madd (R T_00_03B) (R c16_p19_n11)));
     Set_ O03B (add32 (R T00) (R T01));
     Set_ T00 (add32 (madd (R T_00_00B) (R c16_p11_p41)) (madd (R T_00_01B) (R c16_n45_n27)));
     Set_ T01 (add32 (madd (R T_00_02B) (R c16_p07_n30)) (madd (R T_00_03B) (R c16_p43_p39)));
     Set_ O04B (add32 (R T00) (R T01));
     Set_ T00 (add32 (madd (R T_00_00B) (R c16_n02_p39)) (madd (R T_00_01B) (R c16_n36_n41)));
     Set_ T01 (add32 (madd (R T_00_02B) (R c16_p43_p07)) (madd (R T_00_03B) (R c16_n11_p34)));
     Set_ O05B (add32 (R T00) (R T01));
     Set_ T00 (add32 (madd (R T_00_00B) (R c16_n15_p36)) (madd (R T_00_01B) (R c16_n11_n45)));
     Set_ T01 (add32 (madd (R T_00_02B) (R c16_p34_p39)) (madd (R T_00_03B) (R c16_n45_n19)));
     Set_ O06B (add32 (R T00) (R T01));
     Set_ T00 (add32 (madd (R T_00_00B) (R c16_n27_p34)) (madd (R T_00_01B) (R c16_p19_n39)));
     Set_ T01 (add32 (madd (R T_00_02B) (R c16_n11_p43)) (madd (R T_00_03B) (R c16_p02_n45)));
     Set_ O07B (add32 (R T00) (R T01));
     Set_ T00 (add32 (madd (R T_00_00B) (R c16_n36_p30)) (madd (R T_00_01B) (R c16_p41_n23)));
     Set_ T01 (add32 (madd (R T_00_02B) (R c16_n44_p15)) (madd (R T_00_03B) (R c16_p45_n07)));
     Set_ O08B (add32 (R T00) (R T01));
     Set_ T00 (add32 (madd (R T_00_00B) (R c16_n43_p27)) (madd (R T_00_01B) (R c16_p44_n02)));
     Set_ T01 (add32 (madd (R T_00_02B) (R c16_n30_n23)) (madd (R T_00_03B) (R c16_p07_p41)));
     Set_ O09B (add32 (R T00) (R T01));
     Set_ T00 (add32 (madd (R T_00_00B) (R c16_n45_p23)) (madd (R T_00_01B) (R c16_p27_p19)));
     Set_ T01 (add32 (madd (R T_00_02B) (R c16_p15_n45)) (madd (R T_00_03B) (R c16_n44_p30)));
     Set_ O10B (add32 (R T00) (R T01));
     Set_ T00 (add32 (madd (R T_00_00B) (R c16_n44_p19)) (madd (R T_00_01B) (R c16_n02_p36)));
     Set_ T01 (add32 (madd (R T_00_02B) (R c16_p45_n34)) (madd (R T_00_03B) (R c16_n15_n23)));
     Set_ O11B (add32 (R T00) (R T01));
     Set_ T00 (add32 (madd (R T_00_00B) (R c16_n39_p15)) (madd (R T_00_01B) (R c16_n30_p45)));
     Set_ T01 (add32 (madd (R T_00_02B) (R c16_p27_p02)) (madd (R T_00_03B) (R c16_p41_n44)));
     Set_ O12B (add32 (R T00) (R T01));
     Set_ T00 (add32 (madd (R T_00_00B) (R c16_n30_p11)) (madd (R T_00_01B) (R c16_n45_p43)));
     Set_ T01 (add32 (madd (R T_00_02B) (R c16_n19_p36)) (madd (R T_00_03B) (R c16_p23_n02)));
     Set_ O13B (add32 (R T00) (R T01));
     Set_ T00 (add32 (madd (R T_00_00B) (R c16_n19_p07)) (madd (R T_00_01B) (R c16_n39_p30)));
     Set_ T01 (add32 (madd (R T_00_02B) (R c16_n45_p44)) (madd (R T_00_03B) (R c16_n36_p43)));
     Set_ O14B (add32 (R T00) (R T01));
     Set_ T00 (add32 (madd (R T_00_00B) (R c16_n07_p02)) (madd (R T_00_01B) (R c16_n15_p11)));
     Set_ T01 (add32 (madd (R T_00_02B) (R c16_n23_p19)) (madd (R T_00_03B) (R c16_n30_p27)));
     Set_ O15B (add32 (R T00) (R T01));
     Set_ EO0A (add32 (madd (R T_00_08A) (R c16_p43_p45)) (madd (R T_00_09A) (R c16_p35_p40)));
     Set_ EO1A (add32 (madd (R T_00_08A) (R c16_p29_p43)) (madd (R T_00_09A) (R c16_n21_p04)));
     Set_ EO2A (add32 (madd (R T_00_08A) (R c16_p04_p40)) (madd (R T_00_09A) (R c16_n43_n35)));
     Set_ EO3A (add32 (madd (R T_00_08A) (R c16_n21_p35)) (madd (R T_00_09A) (R c16_p04_n43)));
     Set_ EO4A (add32 (madd (R T_00_08A) (R c16_n40_p29)) (madd (R T_00_09A) (R c16_p45_n13)));
     Set_ EO5A (add32 (madd (R T_00_08A) (R c16_n45_p21)) (madd (R T_00_09A) (R c16_p13_p29)));
     Set_ EO6A (add32 (madd (R T_00_08A) (R c16_n35_p13)) (madd (R T_00_09A) (R c16_n40_p45)));
     Set_ EO7A (add32 (madd (R T_00_08A) (R c16_n13_p04)) (madd (R T_00_09A) (R c16_n29_p21)));
     Set_ EO0B (add32 (madd (R T_00_08B) (R c16_p43_p45)) (madd (R T_00_09B) (R c16_p35_p40)));
     Set_ EO1B (add32 (madd (R T_00_08B) (R c16_p29_p43)) (madd (R T_00_09B) (R c16_n21_p04)));
     Set_ EO2B (add32 (madd (R T_00_08B) (R c16_p04_p40)) (madd (R T_00_09B) (R c16_n43_n35)));
     Set_ EO3B (add32 (madd (R T_00_08B) (R c16_n21_p35)) (madd (R T_00_09B) (R c16_p04_n43)));
     Set_ EO4B (add32 (madd (R T_00_08B) (R c16_n40_p29)) (madd (R T_00_09B) (R c16_p45_n13)));
     Set_ EO5B (add32 (madd (R T_00_08B) (R c16_n45_p21)) (madd (R T_00_09B) (R c16_p13_p29)))]
    ++ [Set_ EO6B (add32 (madd (R T_00_08B) (R c16_n35_p13)) (madd (R T_00_09B) (R c16_n40_p45)));
     Set_ EO7B (add32 (madd (R T_00_08B) (R c16_n13_p04)) (madd (R T_00_09B) (R c16_n29_p21)));
     Set_ EEO0A (madd (R T_00_12A) (R c16_p38_p44));
     Set_ EEO1A (madd (R T_00_12A) (R c16_n09_p38));
     Set_ EEO2A (madd (R T_00_12A) (R c16_n44_p25));
     Set_ EEO3A (madd (R T_00_12A) (R c16_n25_p09));
     Set_ EEO0B (madd (R T_00_12B) (R c16_p38_p44));
     Set_ EEO1B (madd (R T_00_12B) (R c16_n09_p38));
     Set_ EEO2B (madd (R T_00_12B) (R c16_n44_p25));
     Set_ EEO3B (madd (R T_00_12B) (R c16_n25_p09));
     Set_ EEEO0A (madd (R T_00_14A) (R c16_p17_p42));
     Set_ EEEO0B (madd (R T_00_14B) (R c16_p17_p42));
     Set_ EEEO1A (madd (R T_00_14A) (R c16_n42_p17));
     Set_ EEEO1B (madd (R T_00_14B) (R c16_n42_p17));
     Set_ EEEE0A (madd (R T_00_15A) (R c16_p32_p32));
     Set_ EEEE0B (madd (R T_00_15B) (R c16_p32_p32));
     Set_ EEEE1A (madd (R T_00_15A) (R c16_n32_p32));
     Set_ EEEE1B (madd (R T_00_15B) (R c16_n32_p32));
     Set_ EEE0A (add32 (R EEEE0A) (R EEEO0A));
     Set_ EEE0B (add32 (R EEEE0B) (R EEEO0B));
     Set_ EEE1A (add32 (R EEEE1A) (R EEEO1A));
     Set_ EEE1B (add32 (R EEEE1B) (R EEEO1B));
     Set_ EEE3A (sub32 (R EEEE0A) (R EEEO0A));
     Set_ EEE3B (sub32 (R EEEE0B) (R EEEO0B));
     Set_ EEE2A (sub32 (R EEEE1A) (R EEEO1A));
     Set_ EEE2B (sub32 (R EEEE1B) (R EEEO1B));
     Set_ EE0A (add32 (R EEE0A) (R EEO0A));
     Set_ EE0B (add32 (R EEE0B) (R EEO0B));
     Set_ EE1A (add32 (R EEE1A) (R EEO1A));
     Set_ EE1B (add32 (R EEE1B) (R EEO1B));
     Set_ EE2A (add32 (R EEE2A) (R EEO2A));
     Set_ EE2B (add32 (R EEE2B) (R EEO2B));
     Set_ EE3A (add32 (R EEE3A) (R EEO3A));
     Set_ EE3B (add32 (R EEE3B) (R EEO3B));
     Set_ EE7A (sub32 (R EEE0A) (R EEO0A));
     Set_ EE7B (sub32 (R EEE0B) (R EEO0B));
     Set_ EE6A (sub32 (R EEE1A) (R EEO1A));
     Set_ EE6B (sub32 (R EEE1B) (R EEO1B));
     Set_ EE5A (sub32 (R EEE2A) (R EEO2A));
     Set_ EE5B (sub32 (R EEE2B) (R EEO2B));
     Set_ EE4A (sub32 (R EEE3A) (R EEO3A));
     Set_ EE4B (sub32 (R EEE3B) (R EEO3B));
     Set_ E0A (add32 (R EE0A) (R EO0A));
     Set_ E0B (add32 (R EE0B) (R EO0B));
     Set_ E1A (add32 (R EE1A) (R EO1A));
     Set_ E1B (add32 (R EE1B) (R EO1B));
     Set_ E2A (add32 (R EE2A) (R EO2A));
     Set_ E2B (add32 (R EE2B) (R EO2B));
     Set_ E3A (add32 (R EE3A) (R EO3A));
     Set_ E3B (add32 (R EE3B) (R EO3B));
     Set_ E4A (add32 (R EE4A) (R EO4A));
     Set_ E4B (add32 (R EE4B) (R EO4B));
     Set_ E5A (add32 (R EE5A) (R EO5A));
     Set_ E5B (add32 (R EE5B) (R EO5B));
     Set_ E6A (add32 (R EE6A) (R EO6A));
     Set_ E6B (add32 (R EE6B) (R EO6B));
     Set_ E7A (add32 (R EE7A) (R EO7A));
     Set_ E7B (add32 (R EE7B) (R EO7B));
     Set_ EFA (sub32 (R EE0A) (R EO0A));
     Set_ EFB (sub32 (R EE0B) (R EO0B));
     Set_ EEA (sub32 (R EE1A) (R EO1A));
     Set_ EEB (sub32 (R EE1B) (R EO1B));
     Set_ EDA (sub32 (R EE2A) (R EO2A));
     Set_ EDB (sub32 (R EE2B) (R EO2B))]
    ++ [Set_ ECA (sub32 (R EE3A) (R EO3A));
     Set_ ECB (sub32 (R EE3B) (R EO3B));
     Set_ EBA (sub32 (R EE4A) (R EO4A));
     Set_ EBB (sub32 (R EE4B) (R EO4B));
     Set_ EAA (sub32 (R EE5A) (R EO5A));
     Set_ EAB (sub32 (R EE5B) (R EO5B));
     Set_ E9A (sub32 (R EE6A) (R EO6A));
     Set_ E9B (sub32 (R EE6B) (R EO6B));
     Set_ E8A (sub32 (R EE7A) (R EO7A));
     Set_ E8B (sub32 (R EE7B) (R EO7B));
     Set_ T10A (add32 (R E0A) (R c32_rnd));
     Set_ T10B (add32 (R E0B) (R c32_rnd));
     Set_ T11A (add32 (R E1A) (R c32_rnd));
     Set_ T11B (add32 (R E1B) (R c32_rnd));
     Set_ T12A (add32 (R E2A) (R c32_rnd));
     Set_ T12B (add32 (R E2B) (R c32_rnd));
     Set_ T13A (add32 (R E3A) (R c32_rnd));
     Set_ T13B (add32 (R E3B) (R c32_rnd));
     Set_ T14A (add32 (R E4A) (R c32_rnd));
     Set_ T14B (add32 (R E4B) (R c32_rnd));
     Set_ T15A (add32 (R E5A) (R c32_rnd));
     Set_ T15B (add32 (R E5B) (R c32_rnd));
     Set_ T16A (add32 (R E6A) (R c32_rnd));
     Set_ T16B (add32 (R E6B) (R c32_rnd));
     Set_ T17A (add32 (R E7A) (R c32_rnd));
     Set_ T17B (add32 (R E7B) (R c32_rnd));
     Set_ T18A (add32 (R E8A) (R c32_rnd));
     Set_ T18B (add32 (R E8B) (R c32_rnd));
     Set_ T19A (add32 (R E9A) (R c32_rnd));
     Set_ T19B (add32 (R E9B) (R c32_rnd));
     Set_ T1AA (add32 (R EAA) (R c32_rnd));
     Set_ T1AB (add32 (R EAB) (R c32_rnd));
     Set_ T1BA (add32 (R EBA) (R c32_rnd));
     Set_ T1BB (add32 (R EBB) (R c32_rnd));
     Set_ T1CA (add32 (R ECA) (R c32_rnd));
     Set_ T1CB (add32 (R ECB) (R c32_rnd));
     Set_ T1DA (add32 (R EDA) (R c32_rnd));
     Set_ T1DB (add32 (R EDB) (R c32_rnd));
     Set_ T1EA (add32 (R EEA) (R c32_rnd));
     Set_ T1EB (add32 (R EEB) (R c32_rnd));
     Set_ T1FA (add32 (R EFA) (R c32_rnd));
     Set_ T1FB (add32 (R EFB) (R c32_rnd));
     Set_ T2_00A (add32 (R T10A) (R O00A));
     Set_ T2_00B (add32 (R T10B) (R O00B));
     Set_ T2_01A (add32 (R T11A) (R O01A));
     Set_ T2_01B (add32 (R T11B) (R O01B));
     Set_ T2_02A (add32 (R T12A) (R O02A));
     Set_ T2_02B (add32 (R T12B) (R O02B));
     Set_ T2_03A (add32 (R T13A) (R O03A));
     Set_ T2_03B (add32 (R T13B) (R O03B));
     Set_ T2_04A (add32 (R T14A) (R O04A));
     Set_ T2_04B (add32 (R T14B) (R O04B));
     Set_ T2_05A (add32 (R T15A) (R O05A));
     Set_ T2_05B (add32 (R T15B) (R O05B));
     Set_ T2_06A (add32 (R T16A) (R O06A));
     Set_ T2_06B (add32 (R T16B) (R O06B));
     Set_ T2_07A (add32 (R T17A) (R O07A));
     Set_ T2_07B (add32 (R T17B) (R O07B));
     Set_ T2_08A (add32 (R T18A) (R O08A));
     Set_ T2_08B (add32 (R T18B) (R O08B));
     Set_ T2_09A (add32 (R T19A) (R O09A));
     Set_ T2_09B (add32 (R T19B) (R O09B));
     Set_ T2_10A (add32 (R T1AA) (R O10A));
     Set_ T2_10B (add32 (R T1AB) (R O10B))]
    ++ [Set_ T2_11A (add32 (R T1BA) (R O11A));
     Set_ T2_11B (add32 (R T1BB) (R O11B));
     Set_ T2_12A (add32 (R T1CA) (R O12A));
     Set_ T2_12B (add32 (R T1CB) (R O12B));
     Set_ T2_13A (add32 (R T1DA) (R O13A));
     Set_ T2_13B (add32 (R T1DB) (R O13B));
     Set_ T2_14A (add32 (R T1EA) (R O14A));
     Set_ T2_14B (add32 (R T1EB) (R O14B));
     Set_ T2_15A (add32 (R T1FA) (R O15A));
     Set_ T2_15B (add32 (R T1FB) (R O15B));
     Set_ T2_31A (sub32 (R T10A) (R O00A));
     Set_ T2_31B (sub32 (R T10B) (R O00B));
     Set_ T2_30A (sub32 (R T11A) (R O01A));
     Set_ T2_30B (sub32 (R T11B) (R O01B));
     Set_ T2_29A (sub32 (R T12A) (R O02A));
     Set_ T2_29B (sub32 (R T12B) (R O02B));
     Set_ T2_28A (sub32 (R T13A) (R O03A));
     Set_ T2_28B (sub32 (R T13B) (R O03B));
     Set_ T2_27A (sub32 (R T14A) (R O04A));
     Set_ T2_27B (sub32 (R T14B) (R O04B));
     Set_ T2_26A (sub32 (R T15A) (R O05A));
     Set_ T2_26B (sub32 (R T15B) (R O05B));
     Set_ T2_25A (sub32 (R T16A) (R O06A));
     Set_ T2_25B (sub32 (R T16B) (R O06B));
     Set_ T2_24A (sub32 (R T17A) (R O07A));
     Set_ T2_24B (sub32 (R T17B) (R O07B));
     Set_ T2_23A (sub32 (R T18A) (R O08A));
     Set_ T2_23B (sub32 (R T18B) (R O08B));
     Set_ T2_22A (sub32 (R T19A) (R O09A));
     Set_ T2_22B (sub32 (R T19B) (R O09B));
     Set_ T2_21A (sub32 (R T1AA) (R O10A));
     Set_ T2_21B (sub32 (R T1AB) (R O10B));
     Set_ T2_20A (sub32 (R T1BA) (R O11A));
     Set_ T2_20B (sub32 (R T1BB) (R O11B));
     Set_ T2_19A (sub32 (R T1CA) (R O12A));
     Set_ T2_19B (sub32 (R T1CB) (R O12B));
     Set_ T2_18A (sub32 (R T1DA) (R O13A));
     Set_ T2_18B (sub32 (R T1DB) (R O13B));
     Set_ T2_17A (sub32 (R T1EA) (R O14A));
     Set_ T2_17B (sub32 (R T1EB) (R O14B));
     Set_ T2_16A (sub32 (R T1FA) (R O15A));
     Set_ T2_16B (sub32 (R T1FB) (R O15B));
     Set_ T3_00A (Sra32 (R T2_00A) (X 0));
     Set_ T3_00B (Sra32 (R T2_00B) (X 0));
     Set_ T3_01A (Sra32 (R T2_01A) (X 0));
     Set_ T3_01B (Sra32 (R T2_01B) (X 0));
     Set_ T3_02A (Sra32 (R T2_02A) (X 0));
     Set_ T3_02B (Sra32 (R T2_02B) (X 0));
     Set_ T3_03A (Sra32 (R T2_03A) (X 0));
     Set_ T3_03B (Sra32 (R T2_03B) (X 0));
     Set_ T3_04A (Sra32 (R T2_04A) (X 0));
     Set_ T3_04B (Sra32 (R T2_04B) (X 0));
     Set_ T3_05A (Sra32 (R T2_05A) (X 0));
     Set_ T3_05B (Sra32 (R T2_05B) (X 0));
     Set_ T3_06A (Sra32 (R T2_06A) (X 0));
     Set_ T3_06B (Sra32 (R T2_06B) (X 0));
     Set_ T3_07A (Sra32 (R T2_07A) (X 0));
     Set_ T3_07B (Sra32 (R T2_07B) (X 0));
     Set_ T3_08A (Sra32 (R T2_08A) (X 0));
     Set_ T3_08B (Sra32 (R T2_08B) (X 0));
     Set_ T3_09A (Sra32 (R T2_09A) (X 0));
     Set_ T3_09B (Sra32 (R T2_09B) (X 0));
     Set_ T3_10A (Sra32 (R T2_10A) (X 0));
     Set_ T3_10B (Sra32 (R T2_10B) (X 0))]
    ++ [Set_ T3_11A (Sra32 (R T2_11A) (X 0));
     Set_ T3_11B (Sra32 (R T2_11B) (X 0));
     Set_ T3_12A (Sra32 (R T2_12A) (X 0));
     Set_ T3_12B (Sra32 (R T2_12B) (X 0));
     Set_ T3_13A (Sra32 (R T2_13A) (X 0));
     Set_ T3_13B (Sra32 (R T2_13B) (X 0));
     Set_ T3_14A (Sra32 (R T2_14A) (X 0));
     Set_ T3_14B (Sra32 (R T2_14B) (X 0));
     Set_ T3_15A (Sra32 (R T2_15A) (X 0));
     Set_ T3_15B (Sra32 (R T2_15B) (X 0));
     Set_ T3_16A (Sra32 (R T2_16A) (X 0));
     Set_ T3_16B (Sra32 (R T2_16B) (X 0));
     Set_ T3_17A (Sra32 (R T2_17A) (X 0));
     Set_ T3_17B (Sra32 (R T2_17B) (X 0));
     Set_ T3_18A (Sra32 (R T2_18A) (X 0));
     Set_ T3_18B (Sra32 (R T2_18B) (X 0));
     Set_ T3_19A (Sra32 (R T2_19A) (X 0));
     Set_ T3_19B (Sra32 (R T2_19B) (X 0));
     Set_ T3_20A (Sra32 (R T2_20A) (X 0));
     Set_ T3_20B (Sra32 (R T2_20B) (X 0));
     Set_ T3_21A (Sra32 (R T2_21A) (X 0));
     Set_ T3_21B (Sra32 (R T2_21B) (X 0));
     Set_ T3_22A (Sra32 (R T2_22A) (X 0));
     Set_ T3_22B (Sra32 (R T2_22B) (X 0));
     Set_ T3_23A (Sra32 (R T2_23A) (X 0));
     Set_ T3_23B (Sra32 (R T2_23B) (X 0));
     Set_ T3_24A (Sra32 (R T2_24A) (X 0));
     Set_ T3_24B (Sra32 (R T2_24B) (X 0));
     Set_ T3_25A (Sra32 (R T2_25A) (X 0));
     Set_ T3_25B (Sra32 (R T2_25B) (X 0));
     Set_ T3_26A (Sra32 (R T2_26A) (X 0));
     Set_ T3_26B (Sra32 (R T2_26B) (X 0));
     Set_ T3_27A (Sra32 (R T2_27A) (X 0));
     Set_ T3_27B (Sra32 (R T2_27B) (X 0));
     Set_ T3_28A (Sra32 (R T2_28A) (X 0));
     Set_ T3_28B (Sra32 (R T2_28B) (X 0));
     Set_ T3_29A (Sra32 (R T2_29A) (X 0));
     Set_ T3_29B (Sra32 (R T2_29B) (X 0));
     Set_ T3_30A (Sra32 (R T2_30A) (X 0));
     Set_ T3_30B (Sra32 (R T2_30B) (X 0));
     Set_ T3_31A (Sra32 (R T2_31A) (X 0));
     Set_ T3_31B (Sra32 (R T2_31B) (X 0));
     Set_ (res00 + part) (packs32 (R T3_00A) (R T3_00B));
     Set_ (res01 + part) (packs32 (R T3_01A) (R T3_01B));
     Set_ (res02 + part) (packs32 (R T3_02A) (R T3_02B));
     Set_ (res03 + part) (packs32 (R T3_03A) (R T3_03B));
     Set_ (res04 + part) (packs32 (R T3_04A) (R T3_04B));
     Set_ (res05 + part) (packs32 (R T3_05A) (R T3_05B));
     Set_ (res06 + part) (packs32 (R T3_06A) (R T3_06B));
     Set_ (res07 + part) (packs32 (R T3_07A) (R T3_07B));
     Set_ (res08 + part) (packs32 (R T3_08A) (R T3_08B));
     Set_ (res09 + part) (packs32 (R T3_09A) (R T3_09B));
     Set_ (res10 + part) (packs32 (R T3_10A) (R T3_10B));
     Set_ (res11 + part) (packs32 (R T3_11A) (R T3_11B));
     Set_ (res12 + part) (packs32 (R T3_12A) (R T3_12B));
     Set_ (res13 + part) (packs32 (R T3_13A) (R T3_13B));
     Set_ (res14 + part) (packs32 (R T3_14A) (R T3_14B));
     Set_ (res15 + part) (packs32 (R T3_15A) (R T3_15B));
     Set_ (res16 + part) (packs32 (R T3_16A) (R T3_16B));
     Set_ (res17 + part) (packs32 (R T3_17A) (R T3_17B));
     Set_ (res18 + part) (packs32 (R T3_18A) (R T3_18B));
     Set_ (res19 + part) (packs32 (R T3_19A) (R T3_19B));
     Set_ (res20 + part) (packs32 (R T3_20A) (R T3_20B));
     Set_ (res21 + part) (packs32 (R T3_21A) (R T3_21B))]
    ++ [Set_ (res22 + part) (packs32 (R T3_22A) (R T3_22B));
     Set_ (res23 + part) (packs32 (R T3_23A) (R T3_23B));
     Set_ (res24 + part) (packs32 (R T3_24A) (R T3_24B));
     Set_ (res25 + part) (packs32 (R T3_25A) (R T3_25B));
     Set_ (res26 + part) (packs32 (R T3_26A) (R T3_26B));
     Set_ (res27 + part) (packs32 (R T3_27A) (R T3_27B));
     Set_ (res28 + part) (packs32 (R T3_28A) (R T3_28B));
     Set_ (res29 + part) (packs32 (R T3_29A) (R T3_29B));
     Set_ (res30 + part) (packs32 (R T3_30A) (R T3_30B));
     Set_ (res31 + part) (packs32 (R T3_31A) (R T3_31B))])
  ++ [Set_ tr0_0 (lo16 (R res00) (R res01));
   Set_ tr0_1 (lo16 (R res02) (R res03));
   Set_ tr0_2 (hi16 (R res00) (R res01));
   Set_ tr0_3 (hi16 (R res02) (R res03));
   Set_ tr0_4 (lo16 (R res04) (R res05));
   Set_ tr0_5 (lo16 (R res06) (R res07));
   Set_ tr0_6 (hi16 (R res04) (R res05));
   Set_ tr0_7 (hi16 (R res06) (R res07));
   Set_ tr1_0 (lo32 (R tr0_0) (R tr0_1));
   Set_ tr1_1 (lo32 (R tr0_2) (R tr0_3));
   Set_ tr1_2 (hi32 (R tr0_0) (R tr0_1));
   Set_ tr1_3 (hi32 (R tr0_2) (R tr0_3));
   Set_ tr1_4 (lo32 (R tr0_4) (R tr0_5));
   Set_ tr1_5 (lo32 (R tr0_6) (R tr0_7));
   Set_ tr1_6 (hi32 (R tr0_4) (R tr0_5));
   Set_ tr1_7 (hi32 (R tr0_6) (R tr0_7));
   Set_ in00 (lo64 (R tr1_0) (R tr1_4));
   Set_ in01 (hi64 (R tr1_0) (R tr1_4));
   Set_ in02 (lo64 (R tr1_2) (R tr1_6));
   Set_ in03 (hi64 (R tr1_2) (R tr1_6));
   Set_ in04 (lo64 (R tr1_1) (R tr1_5));
   Set_ in05 (hi64 (R tr1_1) (R tr1_5));
   Set_ in06 (lo64 (R tr1_3) (R tr1_7));
   Set_ in07 (hi64 (R tr1_3) (R tr1_7));
   Set_ tr0_0 (lo16 (R (res00 + 1)) (R (res01 + 1)));
   Set_ tr0_1 (lo16 (R (res02 + 1)) (R (res03 + 1)));
   Set_ tr0_2 (hi16 (R (res00 + 1)) (R (res01 + 1)));
   Set_ tr0_3 (hi16 (R (res02 + 1)) (R (res03 + 1)));
   Set_ tr0_4 (lo16 (R (res04 + 1)) (R (res05 + 1)));
   Set_ tr0_5 (lo16 (R (res06 + 1)) (R (res07 + 1)));
   Set_ tr0_6 (hi16 (R (res04 + 1)) (R (res05 + 1)));
   Set_ tr0_7 (hi16 (R (res06 + 1)) (R (res07 + 1)));
   Set_ tr1_0 (lo32 (R tr0_0) (R tr0_1));
   Set_ tr1_1 (lo32 (R tr0_2) (R tr0_3));
   Set_ tr1_2 (hi32 (R tr0_0) (R tr0_1));
   Set_ tr1_3 (hi32 (R tr0_2) (R tr0_3));
   Set_ tr1_4 (lo32 (R tr0_4) (R tr0_5));
   Set_ tr1_5 (lo32 (R tr0_6) (R tr0_7));
   Set_ tr1_6 (hi32 (R tr0_4) (R tr0_5));
   Set_ tr1_7 (hi32 (R tr0_6) (R tr0_7));
   Set_ in08 (lo64 (R tr1_0) (R tr1_4));
   Set_ in09 (hi64 (R tr1_0) (R tr1_4));
   Set_ in10 (lo64 (R tr1_2) (R tr1_6));
   Set_ in11 (hi64 (R tr1_2) (R tr1_6));
   Set_ in12 (lo64 (R tr1_1) (R tr1_5));
   Set_ in13 (hi64 (R tr1_1) (R tr1_5));
   Set_ in14 (lo64 (R tr1_3) (R tr1_7));
   Set_ in15 (hi64 (R tr1_3) (R tr1_7));
   Set_ tr0_0 (lo16 (R res08) (R res09));
   Set_ tr0_1 (lo16 (R res10) (R res11));
   Set_ tr0_2 (hi16 (R res08) (R res09));
   Set_ tr0_3 (hi16 (R res10) (R res11));
   Set_ tr0_4 (lo16 (R res12) (R res13));
   Set_ tr0_5 (lo16 (R res14) (R res15));
   Set_ tr0_6 (hi16 (R res12) (R res13));
   Set_ tr0_7 (hi16 (R res14) (R res15));
   Set_ tr1_0 (lo32 (R tr0_0) (R tr0_1));
   Set_ tr1_1 (lo32 (R tr0_2) (R tr0_3));
   Set_ tr1_2 (hi32 (R tr0_0) (R tr0_1));
   Set_ tr1_3 (hi32 (R tr0_2) (R tr0_3));
   Set_ tr1_4 (lo32 (R tr0_4) (R tr0_5));
   Set_ tr1_5 (lo32 (R tr0_6) (R tr0_7));
   Set_ tr1_6 (hi32 (R tr0_4) (R tr0_5));
   Set_ tr1_7 (hi32 (R tr0_6) (R tr0_7))]
  ++ [Set_ (in00 + 1) (lo64 (R tr1_0) (R tr1_4));
   Set_ (in01 + 1) (hi64 (R tr1_0) (R tr1_4));
   Set_ (in02 + 1) (lo64 (R tr1_2) (R tr1_6));
   Set_ (in03 + 1) (hi64 (R tr1_2) (R tr1_6));
   Set_ (in04 + 1) (lo64 (R tr1_1) (R tr1_5));
   Set_ (in05 + 1) (hi64 (R tr1_1) (R tr1_5));
   Set_ (in06 + 1) (lo64 (R tr1_3) (R tr1_7));
   Set_ (in07 + 1) (hi64 (R tr1_3) (R tr1_7));
   Set_ tr0_0 (lo16 (R (res08 + 1)) (R (res09 + 1)));
   Set_ tr0_1 (lo16 (R (res10 + 1)) (R (res11 + 1)));
   Set_ tr0_2 (hi16 (R (res08 + 1)) (R (res09 + 1)));
   Set_ tr0_3 (hi16 (R (res10 + 1)) (R (res11 + 1)));
   Set_ tr0_4 (lo16 (R (res12 + 1)) (R (res13 + 1)));
   Set_ tr0_5 (lo16 (R (res14 + 1)) (R (res15 + 1)));
   Set_ tr0_6 (hi16 (R (res12 + 1)) (R (res13 + 1)));
   Set_ tr0_7 (hi16 (R (res14 + 1)) (R (res15 + 1)));
   Set_ tr1_0 (lo32 (R tr0_0) (R tr0_1));
   Set_ tr1_1 (lo32 (R tr0_2) (R tr0_3));
   Set_ tr1_2 (hi32 (R tr0_0) (R tr0_1));
   Set_ tr1_3 (hi32 (R tr0_2) (R tr0_3));
   Set_ tr1_4 (lo32 (R tr0_4) (R tr0_5));
   Set_ tr1_5 (lo32 (R tr0_6) (R tr0_7));
   Set_ tr1_6 (hi32 (R tr0_4) (R tr0_5));
   Set_ tr1_7 (hi32 (R tr0_6) (R tr0_7));
   Set_ (in08 + 1) (lo64 (R tr1_0) (R tr1_4));
   Set_ (in09 + 1) (hi64 (R tr1_0) (R tr1_4));
   Set_ (in10 + 1) (lo64 (R tr1_2) (R tr1_6));
   Set_ (in11 + 1) (hi64 (R tr1_2) (R tr1_6));
   Set_ (in12 + 1) (lo64 (R tr1_1) (R tr1_5));
   Set_ (in13 + 1) (hi64 (R tr1_1) (R tr1_5));
   Set_ (in14 + 1) (lo64 (R tr1_3) (R tr1_7));
   Set_ (in15 + 1) (hi64 (R tr1_3) (R tr1_7));
   Set_ tr0_0 (lo16 (R res16) (R res17));
   Set_ tr0_1 (lo16 (R res18) (R res19));
   Set_ tr0_2 (hi16 (R res16) (R res17));
   Set_ tr0_3 (hi16 (R res18) (R res19));
   Set_ tr0_4 (lo16 (R res20) (R res21));
   Set_ tr0_5 (lo16 (R res22) (R res23));
   Set_ tr0_6 (hi16 (R res20) (R res21));
   Set_ tr0_7 (hi16 (R res22) (R res23));
   Set_ tr1_0 (lo32 (R tr0_0) (R tr0_1));
   Set_ tr1_1 (lo32 (R tr0_2) (R tr0_3));
   Set_ tr1_2 (hi32 (R tr0_0) (R tr0_1));
   Set_ tr1_3 (hi32 (R tr0_2) (R tr0_3));
   Set_ tr1_4 (lo32 (R tr0_4) (R tr0_5));
   Set_ tr1_5 (lo32 (R tr0_6) (R tr0_7));
   Set_ tr1_6 (hi32 (R tr0_4) (R tr0_5));
   Set_ tr1_7 (hi32 (R tr0_6) (R tr0_7));
   Set_ (in00 + 2) (lo64 (R tr1_0) (R tr1_4));
   Set_ (in01 + 2) (hi64 (R tr1_0) (R tr1_4));
   Set_ (in02 + 2) (lo64 (R tr1_2) (R tr1_6));
   Set_ (in03 + 2) (hi64 (R tr1_2) (R tr1_6));
   Set_ (in04 + 2) (lo64 (R tr1_1) (R tr1_5));
   Set_ (in05 + 2) (hi64 (R tr1_1) (R tr1_5));
   Set_ (in06 + 2) (lo64 (R tr1_3) (R tr1_7));
   Set_ (in07 + 2) (hi64 (R tr1_3) (R tr1_7));
   Set_ tr0_0 (lo16 (R (res16 + 1)) (R (res17 + 1)));
   Set_ tr0_1 (lo16 (R (res18 + 1)) (R (res19 + 1)));
   Set_ tr0_2 (hi16 (R (res16 + 1)) (R (res17 + 1)));
   Set_ tr0_3 (hi16 (R (res18 + 1)) (R (res19 + 1)));
   Set_ tr0_4 (lo16 (R (res20 + 1)) (R (res21 + 1)));
   Set_ tr0_5 (lo16 (R (res22 + 1)) (R (res23 + 1)));
   Set_ tr0_6 (hi16 (R (res20 + 1)) (R (res21 + 1)));
   Set_ tr0_7 (hi16 (R (res22 + 1)) (R (res23 + 1)))]
  ++ [Set_ tr1_0 (lo32 (R tr0_0) (R tr0_1));
   Set_ tr1_1 (lo32 (R tr0_2) (R tr0_3));
   Set_ tr1_2 (hi32 (R tr0_0) (R tr0_1));
   Set_ tr1_3 (hi32 (R tr0_2) (R tr0_3));
   Set_ tr1_4 (lo32 (R tr0_4) (R tr0_5));
   Set_ tr1_5 (lo32 (R tr0_6) (R tr0_7));
   Set_ tr1_6 (hi32 (R tr0_4) (R tr0_5));
   Set_ tr1_7 (hi32 (R tr0_6) (R tr0_7));
   Set_ (in08 + 2) (lo64 (R tr1_0) (R tr1_4));
   Set_ (in09 + 2) (hi64 (R tr1_0) (R tr1_4));
   Set_ (in10 + 2) (lo64 (R tr1_2) (R tr1_6));
   Set_ (in11 + 2) (hi64 (R tr1_2) (R tr1_6));
   Set_ (in12 + 2) (lo64 (R tr1_1) (R tr1_5));
   Set_ (in13 + 2) (hi64 (R tr1_1) (R tr1_5));
   Set_ (in14 + 2) (lo64 (R tr1_3) (R tr1_7));
   Set_ (in15 + 2) (hi64 (R tr1_3) (R tr1_7));
   Set_ tr0_0 (lo16 (R res24) (R res25));
   Set_ tr0_1 (lo16 (R res26) (R res27));
   Set_ tr0_2 (hi16 (R res24) (R res25));
   Set_ tr0_3 (hi16 (R res26) (R res27));
   Set_ tr0_4 (lo16 (R res28) (R res29));
   Set_ tr0_5 (lo16 (R res30) (R res31));
   Set_ tr0_6 (hi16 (R res28) (R res29));
   Set_ tr0_7 (hi16 (R res30) (R res31));
   Set_ tr1_0 (lo32 (R tr0_0) (R tr0_1));
   Set_ tr1_1 (lo32 (R tr0_2) (R tr0_3));
   Set_ tr1_2 (hi32 (R tr0_0) (R tr0_1));
   Set_ tr1_3 (hi32 (R tr0_2) (R tr0_3));
   Set_ tr1_4 (lo32 (R tr0_4) (R tr0_5));
   Set_ tr1_5 (lo32 (R tr0_6) (R tr0_7));
   Set_ tr1_6 (hi32 (R tr0_4) (R tr0_5));
   Set_ tr1_7 (hi32 (R tr0_6) (R tr0_7));
   Set_ (in00 + 3) (lo64 (R tr1_0) (R tr1_4));
   Set_ (in01 + 3) (hi64 (R tr1_0) (R tr1_4));
   Set_ (in02 + 3) (lo64 (R tr1_2) (R tr1_6));
   Set_ (in03 + 3) (hi64 (R tr1_2) (R tr1_6));
   Set_ (in04 + 3) (lo64 (R tr1_1) (R tr1_5));
   Set_ (in05 + 3) (hi64 (R tr1_1) (R tr1_5));
   Set_ (in06 + 3) (lo64 (R tr1_3) (R tr1_7));
   Set_ (in07 + 3) (hi64 (R tr1_3) (R tr1_7));
   Set_ tr0_0 (lo16 (R (res24 + 1)) (R (res25 + 1)));
   Set_ tr0_1 (lo16 (R (res26 + 1)) (R (res27 + 1)));
   Set_ tr0_2 (hi16 (R (res24 + 1)) (R (res25 + 1)));
   Set_ tr0_3 (hi16 (R (res26 + 1)) (R (res27 + 1)));
   Set_ tr0_4 (lo16 (R (res28 + 1)) (R (res29 + 1)));
   Set_ tr0_5 (lo16 (R (res30 + 1)) (R (res31 + 1)));
   Set_ tr0_6 (hi16 (R (res28 + 1)) (R (res29 + 1)));
   Set_ tr0_7 (hi16 (R (res30 + 1)) (R (res31 + 1)));
   Set_ tr1_0 (lo32 (R tr0_0) (R tr0_1));
   Set_ tr1_1 (lo32 (R tr0_2) (R tr0_3));
   Set_ tr1_2 (hi32 (R tr0_0) (R tr0_1));
   Set_ tr1_3 (hi32 (R tr0_2) (R tr0_3));
   Set_ tr1_4 (lo32 (R tr0_4) (R tr0_5));
   Set_ tr1_5 (lo32 (R tr0_6) (R tr0_7));
   Set_ tr1_6 (hi32 (R tr0_4) (R tr0_5));
   Set_ tr1_7 (hi32 (R tr0_6) (R tr0_7));
   Set_ (in08 + 3) (lo64 (R tr1_0) (R tr1_4));
   Set_ (in09 + 3) (hi64 (R tr1_0) (R tr1_4));
   Set_ (in10 + 3) (lo64 (R tr1_2) (R tr1_6));
   Set_ (in11 + 3) (hi64 (R tr1_2) (R tr1_6));
   Set_ (in12 + 3) (lo64 (R tr1_1) (R tr1_5));
   Set_ (in13 + 3) (hi64 (R tr1_1) (R tr1_5));
   Set_ (in14 + 3) (lo64 (R tr1_3) (R tr1_7));
   Set_ (in15 + 3) (hi64 (R tr1_3) (R tr1_7))]
  ++ [Set_ c32_rnd (S32 8 (Q RND2));
   SetI 0 (Q SH2)]
  ++ loop 4 (fun part =>
    [Set_ T_00_00A_2 (lo16 (R (in01 + part)) (R (in03 + part)));
     Set_ T_00_00B_2 (hi16 (R (in01 + part)) (R (in03 + part)));
     Set_ T_00_01A_2 (lo16 (R (in05 + part)) (R (in07 + part)));
     Set_ T_00_01B_2 (hi16 (R (in05 + part)) (R (in07 + part)));
     Set_ T_00_02A_2 (lo16 (R (in09 + part)) (R (in11 + part)));
     Set_ T_00_02B_2 (hi16 (R (in09 + part)) (R (in11 + part)));
     Set_ T_00_03A_2 (lo16 (R (in13 + part)) (R (in15 + part)));
     Set_ T_00_03B_2 (hi16 (R (in13 + part)) (R (in15 + part)));
     Set_ T_00_08A_2 (lo16 (R (in02 + part)) (R (in06 + part)));
     Set_ T_00_08B_2 (hi16 (R (in02 + part)) (R (in06 + part)));
     Set_ T_00_09A_2 (lo16 (R (in10 + part)) (R (in14 + part)));
     Set_ T_00_09B_2 (hi16 (R (in10 + part)) (R (in14 + part)));
     Set_ T_00_12A_2 (lo16 (R (in04 + part)) (R (in12 + part)));
     Set_ T_00_12B_2 (hi16 (R (in04 + part)) (R (in12 + part)));
     Set_ T_00_14A_2 (lo16 (R (in08 + part)) (R Zero_16));
     Set_ T_00_14B_2 (hi16 (R (in08 + part)) (R Zero_16));
     Set_ T_00_15A_2 (lo16 (R (in00 + part)) (R Zero_16));
     Set_ T_00_15B_2 (hi16 (R (in00 + part)) (R Zero_16));
     Set_ T00_2 (add32 (madd (R T_00_00A_2) (R c16_p45_p45)) (madd (R T_00_01A_2) (R c16_p43_p44)));
     Set_ T01_2 (add32 (madd (R T_00_02A_2) (R c16_p39_p41)) (madd (R T_00_03A_2) (R c16_p34_p36)));
     Set_ O00A_2 (add32 (R T00_2) (R T01_2));
     Set_ T00_2 (add32 (madd (R T_00_00A_2) (R c16_p41_p45)) (madd (R T_00_01A_2) (R c16_p23_p34)));
     Set_ T01_2 (add32 (madd (R T_00_02A_2) (R c16_n02_p11)) (madd (R T_00_03A_2) (R c16_n27_n15)));
     Set_ O01A_2 (add32 (R T00_2) (R T01_2));
     Set_ T00_2 (add32 (madd (R T_00_00A_2) (R c16_p34_p44)) (madd (R T_00_01A_2) (R c16_n07_p15)));
     Set_ T01_2 (add32 (madd (R T_00_02A_2) (R c16_n41_n27)) (madd (R T_00_03A_2) (R c16_n39_n45)));
     Set_ O02A_2 (add32 (R T00_2) (R T01_2));
     Set_ T00_2 (add32 (madd (R T_00_00A_2) (R c16_p23_p43)) (madd (R T_00_01A_2) (R c16_n34_n07)));
     Set_ T01_2 (add32 (madd (R T_00_02A_2) (R c16_n36_n45)) (madd (R T_00_03A_2) (R c16_p19_n11)));
     Set_ O03A_2 (add32 (R T00_2) (R T01_2));
     Set_ T00_2 (add32 (madd (R T_00_00A_2) (R c16_p11_p41)) (madd (R T_00_01A_2) (R c16_n45_n27)));
     Set_ T01_2 (add32 (madd (R T_00_02A_2) (R c16_p07_n30)) (madd (R T_00_03A_2) (R c16_p43_p39)));
     Set_ O04A_2 (add32 (R T00_2) (R T01_2));
     Set_ T00_2 (add32 (madd (R T_00_00A_2) (R c16_n02_p39)) (madd (R T_00_01A_2) (R c16_n36_n41)));
     Set_ T01_2 (add32 (madd (R T_00_02A_2) (R c16_p43_p07)) (madd (R T_00_03A_2) (R c16_n11_p34)));
     Set_ O05A_2 (add32 (R T00_2) (R T01_2));
     Set_ T00_2 (add32 (madd (R T_00_00A_2) (R c16_n15_p36)) (madd (R T_00_01A_2) (R c16_n11_n45)));
     Set_ T01_2 (add32 (madd (R T_00_02A_2) (R c16_p34_p39)) (madd (R T_00_03A_2) (R c16_n45_n19)));
     Set_ O06A_2 (add32 (R T00_2) (R T01_2));
     Set_ T00_2 (add32 (madd (R T_00_00A_2) (R c16_n27_p34)) (madd (R T_00_01A_2) (R c16_p19_n39)));
     Set_ T01_2 (add32 (madd (R T_00_02A_2) (R c16_n11_p43)) (madd (R T_00_03A_2) (R c16_p02_n45)));
     Set_ O07A_2 (add32 (R T00_2) (R T01_2));
     Set_ T00_2 (add32 (madd (R T_00_00A_2) (R c16_n36_p30)) (madd (R T_00_01A_2) (R c16_p41_n23)));
     Set_ T01_2 (add32 (madd (R T_00_02A_2) (R c16_n44_p15)) (madd (R T_00_03A_2) (R c16_p45_n07)));
     Set_ O08A_2 (add32 (R T00_2) (R T01_2));
     Set_ T00_2 (add32 (madd (R T_00_00A_2) (R c16_n43_p27)) (madd (R T_00_01A_2) (R c16_p44_n02)));
     Set_ T01_2 (add32 (madd (R T_00_02A_2) (R c16_n30_n23)) (madd (R T_00_03A_2) (R c16_p07_p41)));
     Set_ O09A_2 (add32 (R T00_2) (R T01_2));
     Set_ T00_2 (add32 (madd (R T_00_00A_2) (R c16_n45_p23)) (madd (R T_00_01A_2) (R c16_p27_p19)));
     Set_ T01_2 (add32 (madd (R T_00_02A_2) (R c16_p15_n45)) (madd (R T_00_03A_2) (R c16_n44_p30)));
     Set_ O10A_2 (add32 (R T00_2) (R T01_2));
     Set_ T00_2 (add32 (madd (R T_00_00A_2) (R c16_n44_p19)) (madd (R T_00_01A_2) (R c16_n02_p36)));
     Set_ T01_2 (add32 (madd (R T_00_02A_2) (R c16_p45_n34)) (madd (R T_00_03A_2) (R c16_n15_n23)));
     Set_ O11A_2 (add32 (R T00_2) (R T01_2));
     Set_ T00_2 (add32 (madd (R T_00_00A_2) (R c16_n39_p15)) (madd (R T_00_01A_2) (R c16_n30_p45)));
     Set_ T01_2 (add32 (madd (R T_00_02A_2) (R c16_p27_p02)) (madd (R T_00_03A_2) (R c16_p41_n44)));
     Set_ O12A_2 (add32 (R T00_2) (R T01_2));
     Set_ T00_2 (add32 (madd (R T_00_00A_2) (R c16_n30_p11)) (madd (R T_00_01A_2) (R c16_n45_p43)));
     Set_ T01_2 (add32 (madd (R T_00_02A_2) (R c16_n19_p36)) (madd (R T_00_03A_2) (R c16_p23_n02)));
     Set_ O13A_2 (add32 (R T00_2) (R T01_2));
     Set_ T00_2 (add32 (madd (R T_00_00A_2) (R c16_n19_p07)) (madd (R T_00_01A_2) (R c16_n39_p30)));
     Set_ T01_2 (add32 (madd (R T_00_02A_2) (R c16_n45_p44)) (madd (R T_00_03A_2) (R c16_n36_p43)));
     Set_ O14A_2 (add32 (R T00_2) (R T01_2));
     Set_ T00_2 (add32 (madd (R T_00_00A_2) (R c16_n07_p02)) (madd (R T_00_01A_2) (R c16_n15_p11)))]
    ++ [Set_ T01_2 (add32 (madd (R T_00_02A_2) (R c16_n23_p19)) (madd (R T_00_03A_2) (R c16_n30_p27)));
     Set_ O15A_2 (add32 (R T00_2) (R T01_2));
     Set_ T00_2 (add32 (madd (R T_00_00B_2) (R c16_p45_p45)) (madd (R T_00_01B_2) (R c16_p43_p44)));
     Set_ T01_2 (add32 (madd (R T_00_02B_2) (R c16_p39_p41)) (madd (R T_00_03B_2) (R c16_p34_p36)));
     Set_ O00B_2 (add32 (R T00_2) (R T01_2));
     Set_ T00_2 (add32 (madd (R T_00_00B_2) (R c16_p41_p45)) (madd (R T_00_01B_2) (R c16_p23_p34)));
     Set_ T01_2 (add32 (madd (R T_00_02B_2) (R c16_n02_p11)) (madd (R T_00_03B_2) (R c16_n27_n15)));
     Set_ O01B_2 (add32 (R T00_2) (R T01_2));
     Set_ T00_2 (add32 (madd (R T_00_00B_2) (R c16_p34_p44)) (madd (R T_00_01B_2) (R c16_n07_p15)));
     Set_ T01_2 (add32 (madd (R T_00_02B_2) (R c16_n41_n27)) (madd (R T_00_03B_2) (R c16_n39_n45)));
     Set_ O02B_2 (add32 (R T00_2) (R T01_2));
     Set_ T00_2 (add32 (madd (R T_00_00B_2) (R c16_p23_p43)) (madd (R T_00_01B_2) (R c16_n34_n07)));
     Set_ T01_2 (add32 (madd (R T_00_02B_2) (R c16_n36_n45)) (madd (R T_00_03B_2) (R c16_p19_n11)));
     Set_ O03B_2 (add32 (R T00_2) (R T01_2));
     Set_ T00_2 (add32 (madd (R T_00_00B_2) (R c16_p11_p41)) (madd (R T_00_01B_2) (R c16_n45_n27)));
     Set_ T01_2 (add32 (madd (R T_00_02B_2) (R c16_p07_n30)) (madd (R T_00_03B_2) (R c16_p43_p39)));
     Set_ O04B_2 (add32 (R T00_2) (R T01_2));
     Set_ T00_2 (add32 (madd (R T_00_00B_2) (R c16_n02_p39)) (madd (R T_00_01B_2) (R c16_n36_n41)));
     Set_ T01_2 (add32 (madd (R T_00_02B_2) (R c16_p43_p07)) (madd (R T_00_03B_2) (R c16_n11_p34)));
     Set_ O05B_2 (add32 (R T00_2) (R T01_2));
     Set_ T00_2 (add32 (madd (R T_00_00B_2) (R c16_n15_p36)) (madd (R T_00_01B_2) (R c16_n11_n45)));
     Set_ T01_2 (add32 (madd (R T_00_02B_2) (R c16_p34_p39)) (madd (R T_00_03B_2) (R c16_n45_n19)));
     Set_ O06B_2 (add32 (R T00_2) (R T01_2));
     Set_ T00_2 (add32 (madd (R T_00_00B_2) (R c16_n27_p34)) (madd (R T_00_01B_2) (R c16_p19_n39)));
     Set_ T01_2 (add32 (madd (R T_00_02B_2) (R c16_n11_p43)) (madd (R T_00_03B_2) (R c16_p02_n45)));
     Set_ O07B_2 (add32 (R T00_2) (R T01_2));
     Set_ T00_2 (add32 (madd (R T_00_00B_2) (R c16_n36_p30)) (madd (R T_00_01B_2) (R c16_p41_n23)));
     Set_ T01_2 (add32 (madd (R T_00_02B_2) (R c16_n44_p15)) (madd (R T_00_03B_2) (R c16_p45_n07)));
     Set_ O08B_2 (add32 (R T00_2) (R T01_2));
     Set_ T00_2 (add32 (madd (R T_00_00B_2) (R c16_n43_p27)) (madd (R T_00_01B_2) (R c16_p44_n02)));
     Set_ T01_2 (add32 (madd (R T_00_02B_2) (R c16_n30_n23)) (madd (R T_00_03B_2) (R c16_p07_p41)));
     Set_ O09B_2 (add32 (R T00_2) (R T01_2));
     Set_ T00_2 (add32 (madd (R T_00_00B_2) (R c16_n45_p23)) (madd (R T_00_01B_2) (R c16_p27_p19)));
     Set_ T01_2 (add32 (madd (R T_00_02B_2) (R c16_p15_n45)) (madd (R T_00_03B_2) (R c16_n44_p30)));
     Set_ O10B_2 (add32 (R T00_2) (R T01_2));
     Set_ T00_2 (add32 (madd (R T_00_00B_2) (R c16_n44_p19)) (madd (R T_00_01B_2) (R c16_n02_p36)));
     Set_ T01_2 (add32 (madd (R T_00_02B_2) (R c16_p45_n34)) (madd (R T_00_03B_2) (R c16_n15_n23)));
     Set_ O11B_2 (add32 (R T00_2) (R T01_2));
     Set_ T00_2 (add32 (madd (R T_00_00B_2) (R c16_n39_p15)) (madd (R T_00_01B_2) (R c16_n30_p45)));
     Set_ T01_2 (add32 (madd (R T_00_02B_2) (R c16_p27_p02)) (madd (R T_00_03B_2) (R c16_p41_n44)));
     Set_ O12B_2 (add32 (R T00_2) (R T01_2));
     Set_ T00_2 (add32 (madd (R T_00_00B_2) (R c16_n30_p11)) (madd (R T_00_01B_2) (R c16_n45_p43)));
     Set_ T01_2 (add32 (madd (R T_00_02B_2) (R c16_n19_p36)) (madd (R T_00_03B_2) (R c16_p23_n02)));
     Set_ O13B_2 (add32 (R T00_2) (R T01_2));
     Set_ T00_2 (add32 (madd (R T_00_00B_2) (R c16_n19_p07)) (madd (R T_00_01B_2) (R c16_n39_p30)));
     Set_ T01_2 (add32 (madd (R T_00_02B_2) (R c16_n45_p44)) (madd (R T_00_03B_2) (R c16_n36_p43)));
     Set_ O14B_2 (add32 (R T00_2) (R T01_2));
     Set_ T00_2 (add32 (madd (R T_00_00B_2) (R c16_n07_p02)) (madd (R T_00_01B_2) (R c16_n15_p11)));
     Set_ T01_2 (add32 (madd (R T_00_02B_2) (R c16_n23_p19)) (madd (R T_00_03B_2) (R c16_n30_p27)));
     Set_ O15B_2 (add32 (R T00_2) (R T01_2));
     Set_ EO0A_2 (add32 (madd (R T_00_08A_2) (R c16_p43_p45)) (madd (R T_00_09A_2) (R c16_p35_p40)));
     Set_ EO1A_2 (add32 (madd (R T_00_08A_2) (R c16_p29_p43)) (madd (R T_00_09A_2) (R c16_n21_p04)));
     Set_ EO2A_2 (add32 (madd (R T_00_08A_2) (R c16_p04_p40)) (madd (R T_00_09A_2) (R c16_n43_n35)));
     Set_ EO3A_2 (add32 (madd (R T_00_08A_2) (R c16_n21_p35)) (madd (R T_00_09A_2) (R c16_p04_n43)));
     Set_ EO4A_2 (add32 (madd (R T_00_08A_2) (R c16_n40_p29)) (madd (R T_00_09A_2) (R c16_p45_n13)));
     Set_ EO5A_2 (add32 (madd (R T_00_08A_2) (R c16_n45_p21)) (madd (R T_00_09A_2) (R c16_p13_p29)));
     Set_ EO6A_2 (add32 (madd (R T_00_08A_2) (R c16_n35_p13)) (madd (R T_00_09A_2) (R c16_n40_p45)));
     Set_ EO7A_2 (add32 (madd (R T_00_08A_2) (R c16_n13_p04)) (madd (R T_00_09A_2) (R c16_n29_p21)));
     Set_ EO0B_2 (add32 (madd (R T_00_08B_2) (R c16_p43_p45)) (madd (R T_00_09B_2) (R c16_p35_p40)));
     Set_ EO1B_2 (add32 (madd (R T_00_08B_2) (R c16_p29_p43)) (madd (R T_00_09B_2) (R c16_n21_p04)));
     Set_ EO2B_2 (add32 (madd (R T_00_08B_2) (R c16_p04_p40)) (madd (R T_00_09B_2) (R c16_n43_n35)));
     Set_ EO3B_2 (add32 (madd (R T_00_08B_2) (R c16_n21_p35)) (madd (R T_00_09B_2) (R c16_p04_n43)));
     Set_ EO4B_2 (add32 (madd (R T_00_08B_2) (R c16_n40_p29)) (madd (R T_00_09B_2) (R c16_p45_n13)));
     Set_ EO5B_2 (add32 (madd (R T_00_08B_2) (R c16_n45_p21)) (madd (R T_00_09B_2) (R c16_p13_p29)))]
    ++ [Set_ EO6B_2 (add32 (madd (R T_00_08B_2) (R c16_n35_p13)) (madd (R T_00_09B_2) (R c16_n40_p45)));
     Set_ EO7B_2 (add32 (madd (R T_00_08B_2) (R c16_n13_p04)) (madd (R T_00_09B_2) (R c16_n29_p21)));
     Set_ EEO0A_2 (madd (R T_00_12A_2) (R c16_p38_p44));
     Set_ EEO1A_2 (madd (R T_00_12A_2) (R c16_n09_p38));
     Set_ EEO2A_2 (madd (R T_00_12A_2) (R c16_n44_p25));
     Set_ EEO3A_2 (madd (R T_00_12A_2) (R c16_n25_p09));
     Set_ EEO0B_2 (madd (R T_00_12B_2) (R c16_p38_p44));
     Set_ EEO1B_2 (madd (R T_00_12B_2) (R c16_n09_p38));
     Set_ EEO2B_2 (madd (R T_00_12B_2) (R c16_n44_p25));
     Set_ EEO3B_2 (madd (R T_00_12B_2) (R c16_n25_p09));
     Set_ EEEO0A_2 (madd (R T_00_14A_2) (R c16_p17_p42));
     Set_ EEEO0B_2 (madd (R T_00_14B_2) (R c16_p17_p42));
     Set_ EEEO1A_2 (madd (R T_00_14A_2) (R c16_n42_p17));
     Set_ EEEO1B_2 (madd (R T_00_14B_2) (R c16_n42_p17));
     Set_ EEEE0A_2 (madd (R T_00_15A_2) (R c16_p32_p32));
     Set_ EEEE0B_2 (madd (R T_00_15B_2) (R c16_p32_p32));
     Set_ EEEE1A_2 (madd (R T_00_15A_2) (R c16_n32_p32));
     Set_ EEEE1B_2 (madd (R T_00_15B_2) (R c16_n32_p32));
     Set_ EEE0A_2 (add32 (R EEEE0A_2) (R EEEO0A_2));
     Set_ EEE0B_2 (add32 (R EEEE0B_2) (R EEEO0B_2));
     Set_ EEE1A_2 (add32 (R EEEE1A_2) (R EEEO1A_2));
     Set_ EEE1B_2 (add32 (R EEEE1B_2) (R EEEO1B_2));
     Set_ EEE3A_2 (sub32 (R EEEE0A_2) (R EEEO0A_2));
     Set_ EEE3B_2 (sub32 (R EEEE0B_2) (R EEEO0B_2));
     Set_ EEE2A_2 (sub32 (R EEEE1A_2) (R EEEO1A_2));
     Set_ EEE2B_2 (sub32 (R EEEE1B_2) (R EEEO1B_2));
     Set_ EE0A_2 (add32 (R EEE0A_2) (R EEO0A_2));
     Set_ EE0B_2 (add32 (R EEE0B_2) (R EEO0B_2));
     Set_ EE1A_2 (add32 (R EEE1A_2) (R EEO1A_2));
     Set_ EE1B_2 (add32 (R EEE1B_2) (R EEO1B_2));
     Set_ EE2A_2 (add32 (R EEE2A_2) (R EEO2A_2));
     Set_ EE2B_2 (add32 (R EEE2B_2) (R EEO2B_2));
     Set_ EE3A_2 (add32 (R EEE3A_2) (R EEO3A_2));
     Set_ EE3B_2 (add32 (R EEE3B_2) (R EEO3B_2));
     Set_ EE7A_2 (sub32 (R EEE0A_2) (R EEO0A_2));
     Set_ EE7B_2 (sub32 (R EEE0B_2) (R EEO0B_2));
     Set_ EE6A_2 (sub32 (R EEE1A_2) (R EEO1A_2));
     Set_ EE6B_2 (sub32 (R EEE1B_2) (R EEO1B_2));
     Set_ EE5A_2 (sub32 (R EEE2A_2) (R EEO2A_2));
     Set_ EE5B_2 (sub32 (R EEE2B_2) (R EEO2B_2));
     Set_ EE4A_2 (sub32 (R EEE3A_2) (R EEO3A_2));
     Set_ EE4B_2 (sub32 (R EEE3B_2) (R EEO3B_2));
     Set_ E0A_2 (add32 (R EE0A_2) (R EO0A_2));
     Set_ E0B_2 (add32 (R EE0B_2) (R EO0B_2));
     Set_ E1A_2 (add32 (R EE1A_2) (R EO1A_2));
     Set_ E1B_2 (add32 (R EE1B_2) (R EO1B_2));
     Set_ E2A_2 (add32 (R EE2A_2) (R EO2A_2));
     Set_ E2B_2 (add32 (R EE2B_2) (R EO2B_2));
     Set_ E3A_2 (add32 (R EE3A_2) (R EO3A_2));
     Set_ E3B_2 (add32 (R EE3B_2) (R EO3B_2));
     Set_ E4A_2 (add32 (R EE4A_2) (R EO4A_2));
     Set_ E4B_2 (add32 (R EE4B_2) (R EO4B_2));
     Set_ E5A_2 (add32 (R EE5A_2) (R EO5A_2));
     Set_ E5B_2 (add32 (R EE5B_2) (R EO5B_2));
     Set_ E6A_2 (add32 (R EE6A_2) (R EO6A_2));
     Set_ E6B_2 (add32 (R EE6B_2) (R EO6B_2));
     Set_ E7A_2 (add32 (R EE7A_2) (R EO7A_2));
     Set_ E7B_2 (add32 (R EE7B_2) (R EO7B_2));
     Set_ EFA_2 (sub32 (R EE0A_2) (R EO0A_2));
     Set_ EFB_2 (sub32 (R EE0B_2) (R EO0B_2));
     Set_ EEA_2 (sub32 (R EE1A_2) (R EO1A_2));
     Set_ EEB_2 (sub32 (R EE1B_2) (R EO1B_2));
     Set_ EDA_2 (sub32 (R EE2A_2) (R EO2A_2));
     Set_ EDB_2 (sub32 (R EE2B_2) (R EO2B_2))]
    ++ [Set_ ECA_2 (sub32 (R EE3A_2) (R EO3A_2));
     Set_ ECB_2 (sub32 (R EE3B_2) (R EO3B_2));
     Set_ EBA_2 (sub32 (R EE4A_2) (R EO4A_2));
     Set_ EBB_2 (sub32 (R EE4B_2) (R EO4B_2));
     Set_ EAA_2 (sub32 (R EE5A_2) (R EO5A_2));
     Set_ EAB_2 (sub32 (R EE5B_2) (R EO5B_2));
     Set_ E9A_2 (sub32 (R EE6A_2) (R EO6A_2));
     Set_ E9B_2 (sub32 (R EE6B_2) (R EO6B_2));
     Set_ E8A_2 (sub32 (R EE7A_2) (R EO7A_2));
     Set_ E8B_2 (sub32 (R EE7B_2) (R EO7B_2));
     Set_ T10A_2 (add32 (R E0A_2) (R c32_rnd));
     Set_ T10B_2 (add32 (R E0B_2) (R c32_rnd));
     Set_ T11A_2 (add32 (R E1A_2) (R c32_rnd));
     Set_ T11B_2 (add32 (R E1B_2) (R c32_rnd));
     Set_ T12A_2 (add32 (R E2A_2) (R c32_rnd));
     Set_ T12B_2 (add32 (R E2B_2) (R c32_rnd));
     Set_ T13A_2 (add32 (R E3A_2) (R c32_rnd));
     Set_ T13B_2 (add32 (R E3B_2) (R c32_rnd));
     Set_ T14A_2 (add32 (R E4A_2) (R c32_rnd));
     Set_ T14B_2 (add32 (R E4B_2) (R c32_rnd));
     Set_ T15A_2 (add32 (R E5A_2) (R c32_rnd));
     Set_ T15B_2 (add32 (R E5B_2) (R c32_rnd));
     Set_ T16A_2 (add32 (R E6A_2) (R c32_rnd));
     Set_ T16B_2 (add32 (R E6B_2) (R c32_rnd));
     Set_ T17A_2 (add32 (R E7A_2) (R c32_rnd));
     Set_ T17B_2 (add32 (R E7B_2) (R c32_rnd));
     Set_ T18A_2 (add32 (R E8A_2) (R c32_rnd));
     Set_ T18B_2 (add32 (R E8B_2) (R c32_rnd));
     Set_ T19A_2 (add32 (R E9A_2) (R c32_rnd));
     Set_ T19B_2 (add32 (R E9B_2) (R c32_rnd));
     Set_ T1AA_2 (add32 (R EAA_2) (R c32_rnd));
     Set_ T1AB_2 (add32 (R EAB_2) (R c32_rnd));
     Set_ T1BA_2 (add32 (R EBA_2) (R c32_rnd));
     Set_ T1BB_2 (add32 (R EBB_2) (R c32_rnd));
     Set_ T1CA_2 (add32 (R ECA_2) (R c32_rnd));
     Set_ T1CB_2 (add32 (R ECB_2) (R c32_rnd));
     Set_ T1DA_2 (add32 (R EDA_2) (R c32_rnd));
     Set_ T1DB_2 (add32 (R EDB_2) (R c32_rnd));
     Set_ T1EA_2 (add32 (R EEA_2) (R c32_rnd));
     Set_ T1EB_2 (add32 (R EEB_2) (R c32_rnd));
     Set_ T1FA_2 (add32 (R EFA_2) (R c32_rnd));
     Set_ T1FB_2 (add32 (R EFB_2) (R c32_rnd));
     Set_ T2_00A_2 (add32 (R T10A_2) (R O00A_2));
     Set_ T2_00B_2 (add32 (R T10B_2) (R O00B_2));
     Set_ T2_01A_2 (add32 (R T11A_2) (R O01A_2));
     Set_ T2_01B_2 (add32 (R T11B_2) (R O01B_2));
     Set_ T2_02A_2 (add32 (R T12A_2) (R O02A_2));
     Set_ T2_02B_2 (add32 (R T12B_2) (R O02B_2));
     Set_ T2_03A_2 (add32 (R T13A_2) (R O03A_2));
     Set_ T2_03B_2 (add32 (R T13B_2) (R O03B_2));
     Set_ T2_04A_2 (add32 (R T14A_2) (R O04A_2));
     Set_ T2_04B_2 (add32 (R T14B_2) (R O04B_2));
     Set_ T2_05A_2 (add32 (R T15A_2) (R O05A_2));
     Set_ T2_05B_2 (add32 (R T15B_2) (R O05B_2));
     Set_ T2_06A_2 (add32 (R T16A_2) (R O06A_2));
     Set_ T2_06B_2 (add32 (R T16B_2) (R O06B_2));
     Set_ T2_07A_2 (add32 (R T17A_2) (R O07A_2));
     Set_ T2_07B_2 (add32 (R T17B_2) (R O07B_2));
     Set_ T2_08A_2 (add32 (R T18A_2) (R O08A_2));
     Set_ T2_08B_2 (add32 (R T18B_2) (R O08B_2));
     Set_ T2_09A_2 (add32 (R T19A_2) (R O09A_2));
     Set_ T2_09B_2 (add32 (R T19B_2) (R O09B_2));
     Set_ T2_10A_2 (add32 (R T1AA_2) (R O10A_2));
     Set_ T2_10B_2 (add32 (R T1AB_2) (R O10B_2))]
    ++ [Set_ T2_11A_2 (add32 (R T1BA_2) (R O11A_2));
     Set_ T2_11B_2 (add32 (R T1BB_2) (R O11B_2));
     Set_ T2_12A_2 (add32 (R T1CA_2) (R O12A_2));
     Set_ T2_12B_2 (add32 (R T1CB_2) (R O12B_2));
     Set_ T2_13A_2 (add32 (R T1DA_2) (R O13A_2));
     Set_ T2_13B_2 (add32 (R T1DB_2) (R O13B_2));
     Set_ T2_14A_2 (add32 (R T1EA_2) (R O14A_2));
     Set_ T2_14B_2 (add32 (R T1EB_2) (R O14B_2));
     Set_ T2_15A_2 (add32 (R T1FA_2) (R O15A_2));
     Set_ T2_15B_2 (add32 (R T1FB_2) (R O15B_2));
     Set_ T2_31A_2 (sub32 (R T10A_2) (R O00A_2));
     Set_ T2_31B_2 (sub32 (R T10B_2) (R O00B_2));
     Set_ T2_30A_2 (sub32 (R T11A_2) (R O01A_2));
     Set_ T2_30B_2 (sub32 (R T11B_2) (R O01B_2));
     Set_ T2_29A_2 (sub32 (R T12A_2) (R O02A_2));
     Set_ T2_29B_2 (sub32 (R T12B_2) (R O02B_2));
     Set_ T2_28A_2 (sub32 (R T13A_2) (R O03A_2));
     Set_ T2_28B_2 (sub32 (R T13B_2) (R O03B_2));
     Set_ T2_27A_2 (sub32 (R T14A_2) (R O04A_2));
     Set_ T2_27B_2 (sub32 (R T14B_2) (R O04B_2));
     Set_ T2_26A_2 (sub32 (R T15A_2) (R O05A_2));
     Set_ T2_26B_2 (sub32 (R T15B_2) (R O05B_2));
     Set_ T2_25A_2 (sub32 (R T16A_2) (R O06A_2));
     Set_ T2_25B_2 (sub32 (R T16B_2) (R O06B_2));
     Set_ T2_24A_2 (sub32 (R T17A_2) (R O07A_2));
     Set_ T2_24B_2 (sub32 (R T17B_2) (R O07B_2));
     Set_ T2_23A_2 (sub32 (R T18A_2) (R O08A_2));
     Set_ T2_23B_2 (sub32 (R T18B_2) (R O08B_2));
     Set_ T2_22A_2 (sub32 (R T19A_2) (R O09A_2));
     Set_ T2_22B_2 (sub32 (R T19B_2) (R O09B_2));
     Set_ T2_21A_2 (sub32 (R T1AA_2) (R O10A_2));
     Set_ T2_21B_2 (sub32 (R T1AB_2) (R O10B_2));
     Set_ T2_20A_2 (sub32 (R T1BA_2) (R O11A_2));
     Set_ T2_20B_2 (sub32 (R T1BB_2) (R O11B_2));
     Set_ T2_19A_2 (sub32 (R T1CA_2) (R O12A_2));
     Set_ T2_19B_2 (sub32 (R T1CB_2) (R O12B_2));
     Set_ T2_18A_2 (sub32 (R T1DA_2) (R O13A_2));
     Set_ T2_18B_2 (sub32 (R T1DB_2) (R O13B_2));
     Set_ T2_17A_2 (sub32 (R T1EA_2) (R O14A_2));
     Set_ T2_17B_2 (sub32 (R T1EB_2) (R O14B_2));
     Set_ T2_16A_2 (sub32 (R T1FA_2) (R O15A_2));
     Set_ T2_16B_2 (sub32 (R T1FB_2) (R O15B_2));
     Set_ T3_00A_2 (Sra32 (R T2_00A_2) (X 0));
     Set_ T3_00B_2 (Sra32 (R T2_00B_2) (X 0));
     Set_ T3_01A_2 (Sra32 (R T2_01A_2) (X 0));
     Set_ T3_01B_2 (Sra32 (R T2_01B_2) (X 0));
     Set_ T3_02A_2 (Sra32 (R T2_02A_2) (X 0));
     Set_ T3_02B_2 (Sra32 (R T2_02B_2) (X 0));
     Set_ T3_03A_2 (Sra32 (R T2_03A_2) (X 0));
     Set_ T3_03B_2 (Sra32 (R T2_03B_2) (X 0));
     Set_ T3_04A_2 (Sra32 (R T2_04A_2) (X 0));
     Set_ T3_04B_2 (Sra32 (R T2_04B_2) (X 0));
     Set_ T3_05A_2 (Sra32 (R T2_05A_2) (X 0));
     Set_ T3_05B_2 (Sra32 (R T2_05B_2) (X 0));
     Set_ T3_06A_2 (Sra32 (R T2_06A_2) (X 0));
     Set_ T3_06B_2 (Sra32 (R T2_06B_2) (X 0));
     Set_ T3_07A_2 (Sra32 (R T2_07A_2) (X 0));
     Set_ T3_07B_2 (Sra32 (R T2_07B_2) (X 0));
     Set_ T3_08A_2 (Sra32 (R T2_08A_2) (X 0));
     Set_ T3_08B_2 (Sra32 (R T2_08B_2) (X 0));
     Set_ T3_09A_2 (Sra32 (R T2_09A_2) (X 0));
     Set_ T3_09B_2 (Sra32 (R T2_09B_2) (X 0));
     Set_ T3_10A_2 (Sra32 (R T2_10A_2) (X 0));
     Set_ T3_10B_2 (Sra32 (R T2_10B_2) (X 0))]
    ++ [Set_ T3_11A_2 (Sra32 (R T2_11A_2) (X 0));
     Set_ T3_11B_2 (Sra32 (R T2_11B_2) (X 0));
     Set_ T3_12A_2 (Sra32 (R T2_12A_2) (X 0));
     Set_ T3_12B_2 (Sra32 (R T2_12B_2) (X 0));
     Set_ T3_13A_2 (Sra32 (R T2_13A_2) (X 0));
     Set_ T3_13B_2 (Sra32 (R T2_13B_2) (X 0));
     Set_ T3_14A_2 (Sra32 (R T2_14A_2) (X 0));
     Set_ T3_14B_2 (Sra32 (R T2_14B_2) (X 0));
     Set_ T3_15A_2 (Sra32 (R T2_15A_2) (X 0));
     Set_ T3_15B_2 (Sra32 (R T2_15B_2) (X 0));
     Set_ T3_16A_2 (Sra32 (R T2_16A_2) (X 0));
     Set_ T3_16B_2 (Sra32 (R T2_16B_2) (X 0));
     Set_ T3_17A_2 (Sra32 (R T2_17A_2) (X 0));
     Set_ T3_17B_2 (Sra32 (R T2_17B_2) (X 0));
     Set_ T3_18A_2 (Sra32 (R T2_18A_2) (X 0));
     Set_ T3_18B_2 (Sra32 (R T2_18B_2) (X 0));
     Set_ T3_19A_2 (Sra32 (R T2_19A_2) (X 0));
     Set_ T3_19B_2 (Sra32 (R T2_19B_2) (X 0));
     Set_ T3_20A_2 (Sra32 (R T2_20A_2) (X 0));
     Set_ T3_20B_2 (Sra32 (R T2_20B_2) (X 0));
     Set_ T3_21A_2 (Sra32 (R T2_21A_2) (X 0));
     Set_ T3_21B_2 (Sra32 (R T2_21B_2) (X 0));
     Set_ T3_22A_2 (Sra32 (R T2_22A_2) (X 0));
     Set_ T3_22B_2 (Sra32 (R T2_22B_2) (X 0));
     Set_ T3_23A_2 (Sra32 (R T2_23A_2) (X 0));
     Set_ T3_23B_2 (Sra32 (R T2_23B_2) (X 0));
     Set_ T3_24A_2 (Sra32 (R T2_24A_2) (X 0));
     Set_ T3_24B_2 (Sra32 (R T2_24B_2) (X 0));
     Set_ T3_25A_2 (Sra32 (R T2_25A_2) (X 0));
     Set_ T3_25B_2 (Sra32 (R T2_25B_2) (X 0));
     Set_ T3_26A_2 (Sra32 (R T2_26A_2) (X 0));
     Set_ T3_26B_2 (Sra32 (R T2_26B_2) (X 0));
     Set_ T3_27A_2 (Sra32 (R T2_27A_2) (X 0));
     Set_ T3_27B_2 (Sra32 (R T2_27B_2) (X 0));
     Set_ T3_28A_2 (Sra32 (R T2_28A_2) (X 0));
     Set_ T3_28B_2 (Sra32 (R T2_28B_2) (X 0));
     Set_ T3_29A_2 (Sra32 (R T2_29A_2) (X 0));
     Set_ T3_29B_2 (Sra32 (R T2_29B_2) (X 0));
     Set_ T3_30A_2 (Sra32 (R T2_30A_2) (X 0));
     Set_ T3_30B_2 (Sra32 (R T2_30B_2) (X 0));
     Set_ T3_31A_2 (Sra32 (R T2_31A_2) (X 0));
     Set_ T3_31B_2 (Sra32 (R T2_31B_2) (X 0));
     Set_ (res00 + part) (packs32 (R T3_00A_2) (R T3_00B_2));
     Set_ (res01 + part) (packs32 (R T3_01A_2) (R T3_01B_2));
     Set_ (res02 + part) (packs32 (R T3_02A_2) (R T3_02B_2));
     Set_ (res03 + part) (packs32 (R T3_03A_2) (R T3_03B_2));
     Set_ (res04 + part) (packs32 (R T3_04A_2) (R T3_04B_2));
     Set_ (res05 + part) (packs32 (R T3_05A_2) (R T3_05B_2));
     Set_ (res06 + part) (packs32 (R T3_06A_2) (R T3_06B_2));
     Set_ (res07 + part) (packs32 (R T3_07A_2) (R T3_07B_2));
     Set_ (res08 + part) (packs32 (R T3_08A_2) (R T3_08B_2));
     Set_ (res09 + part) (packs32 (R T3_09A_2) (R T3_09B_2));
     Set_ (res10 + part) (packs32 (R T3_10A_2) (R T3_10B_2));
     Set_ (res11 + part) (packs32 (R T3_11A_2) (R T3_11B_2));
     Set_ (res12 + part) (packs32 (R T3_12A_2) (R T3_12B_2));
     Set_ (res13 + part) (packs32 (R T3_13A_2) (R T3_13B_2));
     Set_ (res14 + part) (packs32 (R T3_14A_2) (R T3_14B_2));
     Set_ (res15 + part) (packs32 (R T3_15A_2) (R T3_15B_2));
     Set_ (res16 + part) (packs32 (R T3_16A_2) (R T3_16B_2));
     Set_ (res17 + part) (packs32 (R T3_17A_2) (R T3_17B_2));
     Set_ (res18 + part) (packs32 (R T3_18A_2) (R T3_18B_2));
     Set_ (res19 + part) (packs32 (R T3_19A_2) (R T3_19B_2));
     Set_ (res20 + part) (packs32 (R T3_20A_2) (R T3_20B_2));
     Set_ (res21 + part) (packs32 (R T3_21A_2) (R T3_21B_2))]
    ++ [Set_ (res22 + part) (packs32 (R T3_22A_2) (R T3_22B_2));
     Set_ (res23 + part) (packs32 (R T3_23A_2) (R T3_23B_2));
     Set_ (res24 + part) (packs32 (R T3_24A_2) (R T3_24B_2));
     Set_ (res25 + part) (packs32 (R T3_25A_2) (R T3_25B_2));
     Set_ (res26 + part) (packs32 (R T3_26A_2) (R T3_26B_2));
     Set_ (res27 + part) (packs32 (R T3_27A_2) (R T3_27B_2));
     Set_ (res28 + part) (packs32 (R T3_28A_2) (R T3_28B_2));
     Set_ (res29 + part) (packs32 (R T3_29A_2) (R T3_29B_2));
     Set_ (res30 + part) (packs32 (R T3_30A_2) (R T3_30B_2));
     Set_ (res31 + part) (packs32 (R T3_31A_2) (R T3_31B_2))])
  ++ [Set_ tr0_0_2 (lo16 (R res00) (R res01));
   Set_ tr0_1_2 (lo16 (R res02) (R res03));
   Set_ tr0_2_2 (hi16 (R res00) (R res01));
   Set_ tr0_3_2 (hi16 (R res02) (R res03));
   Set_ tr0_4_2 (lo16 (R res04) (R res05));
   Set_ tr0_5_2 (lo16 (R res06) (R res07));
   Set_ tr0_6_2 (hi16 (R res04) (R res05));
   Set_ tr0_7_2 (hi16 (R res06) (R res07));
   Set_ tr1_0_2 (lo32 (R tr0_0_2) (R tr0_1_2));
   Set_ tr1_1_2 (lo32 (R tr0_2_2) (R tr0_3_2));
   Set_ tr1_2_2 (hi32 (R tr0_0_2) (R tr0_1_2));
   Set_ tr1_3_2 (hi32 (R tr0_2_2) (R tr0_3_2));
   Set_ tr1_4_2 (lo32 (R tr0_4_2) (R tr0_5_2));
   Set_ tr1_5_2 (lo32 (R tr0_6_2) (R tr0_7_2));
   Set_ tr1_6_2 (hi32 (R tr0_4_2) (R tr0_5_2));
   Set_ tr1_7_2 (hi32 (R tr0_6_2) (R tr0_7_2));
   Set_ in00 (lo64 (R tr1_0_2) (R tr1_4_2));
   Set_ in01 (hi64 (R tr1_0_2) (R tr1_4_2));
   Set_ in02 (lo64 (R tr1_2_2) (R tr1_6_2));
   Set_ in03 (hi64 (R tr1_2_2) (R tr1_6_2));
   Set_ in04 (lo64 (R tr1_1_2) (R tr1_5_2));
   Set_ in05 (hi64 (R tr1_1_2) (R tr1_5_2));
   Set_ in06 (lo64 (R tr1_3_2) (R tr1_7_2));
   Set_ in07 (hi64 (R tr1_3_2) (R tr1_7_2));
   Set_ tr0_0_2 (lo16 (R (res00 + 1)) (R (res01 + 1)));
   Set_ tr0_1_2 (lo16 (R (res02 + 1)) (R (res03 + 1)));
   Set_ tr0_2_2 (hi16 (R (res00 + 1)) (R (res01 + 1)));
   Set_ tr0_3_2 (hi16 (R (res02 + 1)) (R (res03 + 1)));
   Set_ tr0_4_2 (lo16 (R (res04 + 1)) (R (res05 + 1)));
   Set_ tr0_5_2 (lo16 (R (res06 + 1)) (R (res07 + 1)));
   Set_ tr0_6_2 (hi16 (R (res04 + 1)) (R (res05 + 1)));
   Set_ tr0_7_2 (hi16 (R (res06 + 1)) (R (res07 + 1)));
   Set_ tr1_0_2 (lo32 (R tr0_0_2) (R tr0_1_2));
   Set_ tr1_1_2 (lo32 (R tr0_2_2) (R tr0_3_2));
   Set_ tr1_2_2 (hi32 (R tr0_0_2) (R tr0_1_2));
   Set_ tr1_3_2 (hi32 (R tr0_2_2) (R tr0_3_2));
   Set_ tr1_4_2 (lo32 (R tr0_4_2) (R tr0_5_2));
   Set_ tr1_5_2 (lo32 (R tr0_6_2) (R tr0_7_2));
   Set_ tr1_6_2 (hi32 (R tr0_4_2) (R tr0_5_2));
   Set_ tr1_7_2 (hi32 (R tr0_6_2) (R tr0_7_2));
   Set_ in08 (lo64 (R tr1_0_2) (R tr1_4_2));
   Set_ in09 (hi64 (R tr1_0_2) (R tr1_4_2));
   Set_ in10 (lo64 (R tr1_2_2) (R tr1_6_2));
   Set_ in11 (hi64 (R tr1_2_2) (R tr1_6_2));
   Set_ in12 (lo64 (R tr1_1_2) (R tr1_5_2));
   Set_ in13 (hi64 (R tr1_1_2) (R tr1_5_2));
   Set_ in14 (lo64 (R tr1_3_2) (R tr1_7_2));
   Set_ in15 (hi64 (R tr1_3_2) (R tr1_7_2));
   Set_ tr0_0_2 (lo16 (R (res00 + 2)) (R (res01 + 2)));
   Set_ tr0_1_2 (lo16 (R (res02 + 2)) (R (res03 + 2)));
   Set_ tr0_2_2 (hi16 (R (res00 + 2)) (R (res01 + 2)));
   Set_ tr0_3_2 (hi16 (R (res02 + 2)) (R (res03 + 2)));
   Set_ tr0_4_2 (lo16 (R (res04 + 2)) (R (res05 + 2)));
   Set_ tr0_5_2 (lo16 (R (res06 + 2)) (R (res07 + 2)));
   Set_ tr0_6_2 (hi16 (R (res04 + 2)) (R (res05 + 2)));
   Set_ tr0_7_2 (hi16 (R (res06 + 2)) (R (res07 + 2)));
   Set_ tr1_0_2 (lo32 (R tr0_0_2) (R tr0_1_2));
   Set_ tr1_1_2 (lo32 (R tr0_2_2) (R tr0_3_2));
   Set_ tr1_2_2 (hi32 (R tr0_0_2) (R tr0_1_2));
   Set_ tr1_3_2 (hi32 (R tr0_2_2) (R tr0_3_2));
   Set_ tr1_4_2 (lo32 (R tr0_4_2) (R tr0_5_2));
   Set_ tr1_5_2 (lo32 (R tr0_6_2) (R tr0_7_2));
   Set_ tr1_6_2 (hi32 (R tr0_4_2) (R tr0_5_2));
   Set_ tr1_7_2 (hi32 (R tr0_6_2) (R tr0_7_2))]
  ++ [Set_ in16 (lo64 (R tr1_0_2) (R tr1_4_2));
   Set_ in17 (hi64 (R tr1_0_2) (R tr1_4_2));
   Set_ in18 (lo64 (R tr1_2_2) (R tr1_6_2));
   Set_ in19 (hi64 (R tr1_2_2) (R tr1_6_2));
   Set_ in20 (lo64 (R tr1_1_2) (R tr1_5_2));
   Set_ in21 (hi64 (R tr1_1_2) (R tr1_5_2));
   Set_ in22 (lo64 (R tr1_3_2) (R tr1_7_2));
   Set_ in23 (hi64 (R tr1_3_2) (R tr1_7_2));
   Set_ tr0_0_2 (lo16 (R (res00 + 3)) (R (res01 + 3)));
   Set_ tr0_1_2 (lo16 (R (res02 + 3)) (R (res03 + 3)));
   Set_ tr0_2_2 (hi16 (R (res00 + 3)) (R (res01 + 3)));
   Set_ tr0_3_2 (hi16 (R (res02 + 3)) (R (res03 + 3)));
   Set_ tr0_4_2 (lo16 (R (res04 + 3)) (R (res05 + 3)));
   Set_ tr0_5_2 (lo16 (R (res06 + 3)) (R (res07 + 3)));
   Set_ tr0_6_2 (hi16 (R (res04 + 3)) (R (res05 + 3)));
   Set_ tr0_7_2 (hi16 (R (res06 + 3)) (R (res07 + 3)));
   Set_ tr1_0_2 (lo32 (R tr0_0_2) (R tr0_1_2));
   Set_ tr1_1_2 (lo32 (R tr0_2_2) (R tr0_3_2));
   Set_ tr1_2_2 (hi32 (R tr0_0_2) (R tr0_1_2));
   Set_ tr1_3_2 (hi32 (R tr0_2_2) (R tr0_3_2));
   Set_ tr1_4_2 (lo32 (R tr0_4_2) (R tr0_5_2));
   Set_ tr1_5_2 (lo32 (R tr0_6_2) (R tr0_7_2));
   Set_ tr1_6_2 (hi32 (R tr0_4_2) (R tr0_5_2));
   Set_ tr1_7_2 (hi32 (R tr0_6_2) (R tr0_7_2));
   Set_ in24 (lo64 (R tr1_0_2) (R tr1_4_2));
   Set_ in25 (hi64 (R tr1_0_2) (R tr1_4_2));
   Set_ in26 (lo64 (R tr1_2_2) (R tr1_6_2));
   Set_ in27 (hi64 (R tr1_2_2) (R tr1_6_2));
   Set_ in28 (lo64 (R tr1_1_2) (R tr1_5_2));
   Set_ in29 (hi64 (R tr1_1_2) (R tr1_5_2));
   Set_ in30 (lo64 (R tr1_3_2) (R tr1_7_2));
   Set_ in31 (hi64 (R tr1_3_2) (R tr1_7_2));
   Set_ tr0_0_2 (lo16 (R res08) (R res09));
   Set_ tr0_1_2 (lo16 (R res10) (R res11));
   Set_ tr0_2_2 (hi16 (R res08) (R res09));
   Set_ tr0_3_2 (hi16 (R res10) (R res11));
   Set_ tr0_4_2 (lo16 (R res12) (R res13));
   Set_ tr0_5_2 (lo16 (R res14) (R res15));
   Set_ tr0_6_2 (hi16 (R res12) (R res13));
   Set_ tr0_7_2 (hi16 (R res14) (R res15));
   Set_ tr1_0_2 (lo32 (R tr0_0_2) (R tr0_1_2));
   Set_ tr1_1_2 (lo32 (R tr0_2_2) (R tr0_3_2));
   Set_ tr1_2_2 (hi32 (R tr0_0_2) (R tr0_1_2));
   Set_ tr1_3_2 (hi32 (R tr0_2_2) (R tr0_3_2));
   Set_ tr1_4_2 (lo32 (R tr0_4_2) (R tr0_5_2));
   Set_ tr1_5_2 (lo32 (R tr0_6_2) (R tr0_7_2));
   Set_ tr1_6_2 (hi32 (R tr0_4_2) (R tr0_5_2));
   Set_ tr1_7_2 (hi32 (R tr0_6_2) (R tr0_7_2));
   Set_ (in00 + 1) (lo64 (R tr1_0_2) (R tr1_4_2));
   Set_ (in01 + 1) (hi64 (R tr1_0_2) (R tr1_4_2));
   Set_ (in02 + 1) (lo64 (R tr1_2_2) (R tr1_6_2));
   Set_ (in03 + 1) (hi64 (R tr1_2_2) (R tr1_6_2));
   Set_ (in04 + 1) (lo64 (R tr1_1_2) (R tr1_5_2));
   Set_ (in05 + 1) (hi64 (R tr1_1_2) (R tr1_5_2));
   Set_ (in06 + 1) (lo64 (R tr1_3_2) (R tr1_7_2));
   Set_ (in07 + 1) (hi64 (R tr1_3_2) (R tr1_7_2));
   Set_ tr0_0_2 (lo16 (R (res08 + 1)) (R (res09 + 1)));
   Set_ tr0_1_2 (lo16 (R (res10 + 1)) (R (res11 + 1)));
   Set_ tr0_2_2 (hi16 (R (res08 + 1)) (R (res09 + 1)));
   Set_ tr0_3_2 (hi16 (R (res10 + 1)) (R (res11 + 1)));
   Set_ tr0_4_2 (lo16 (R (res12 + 1)) (R (res13 + 1)));
   Set_ tr0_5_2 (lo16 (R (res14 + 1)) (R (res15 + 1)));
   Set_ tr0_6_2 (hi16 (R (res12 + 1)) (R (res13 + 1)));
   Set_ tr0_7_2 (hi16 (R (res14 + 1)) (R (res15 + 1)))]
  ++ [Set_ tr1_0_2 (lo32 (R tr0_0_2) (R tr0_1_2));
   Set_ tr1_1_2 (lo32 (R tr0_2_2) (R tr0_3_2));
   Set_ tr1_2_2 (hi32 (R tr0_0_2) (R tr0_1_2));
   Set_ tr1_3_2 (hi32 (R tr0_2_2) (R tr0_3_2));
   Set_ tr1_4_2 (lo32 (R tr0_4_2) (R tr0_5_2));
   Set_ tr1_5_2 (lo32 (R tr0_6_2) (R tr0_7_2));
   Set_ tr1_6_2 (hi32 (R tr0_4_2) (R tr0_5_2));
   Set_ tr1_7_2 (hi32 (R tr0_6_2) (R tr0_7_2));
   Set_ (in08 + 1) (lo64 (R tr1_0_2) (R tr1_4_2));
   Set_ (in09 + 1) (hi64 (R tr1_0_2) (R tr1_4_2));
   Set_ (in10 + 1) (lo64 (R tr1_2_2) (R tr1_6_2));
   Set_ (in11 + 1) (hi64 (R tr1_2_2) (R tr1_6_2));
   Set_ (in12 + 1) (lo64 (R tr1_1_2) (R tr1_5_2));
   Set_ (in13 + 1) (hi64 (R tr1_1_2) (R tr1_5_2));
   Set_ (in14 + 1) (lo64 (R tr1_3_2) (R tr1_7_2));
   Set_ (in15 + 1) (hi64 (R tr1_3_2) (R tr1_7_2));
   Set_ tr0_0_2 (lo16 (R (res08 + 2)) (R (res09 + 2)));
   Set_ tr0_1_2 (lo16 (R (res10 + 2)) (R (res11 + 2)));
   Set_ tr0_2_2 (hi16 (R (res08 + 2)) (R (res09 + 2)));
   Set_ tr0_3_2 (hi16 (R (res10 + 2)) (R (res11 + 2)));
   Set_ tr0_4_2 (lo16 (R (res12 + 2)) (R (res13 + 2)));
   Set_ tr0_5_2 (lo16 (R (res14 + 2)) (R (res15 + 2)));
   Set_ tr0_6_2 (hi16 (R (res12 + 2)) (R (res13 + 2)));
   Set_ tr0_7_2 (hi16 (R (res14 + 2)) (R (res15 + 2)));
   Set_ tr1_0_2 (lo32 (R tr0_0_2) (R tr0_1_2));
   Set_ tr1_1_2 (lo32 (R tr0_2_2) (R tr0_3_2));
   Set_ tr1_2_2 (hi32 (R tr0_0_2) (R tr0_1_2));
   Set_ tr1_3_2 (hi32 (R tr0_2_2) (R tr0_3_2));
   Set_ tr1_4_2 (lo32 (R tr0_4_2) (R tr0_5_2));
   Set_ tr1_5_2 (lo32 (R tr0_6_2) (R tr0_7_2));
   Set_ tr1_6_2 (hi32 (R tr0_4_2) (R tr0_5_2));
   Set_ tr1_7_2 (hi32 (R tr0_6_2) (R tr0_7_2));
   Set_ (in16 + 1) (lo64 (R tr1_0_2) (R tr1_4_2));
   Set_ (in17 + 1) (hi64 (R tr1_0_2) (R tr1_4_2));
   Set_ (in18 + 1) (lo64 (R tr1_2_2) (R tr1_6_2));
   Set_ (in19 + 1) (hi64 (R tr1_2_2) (R tr1_6_2));
   Set_ (in20 + 1) (lo64 (R tr1_1_2) (R tr1_5_2));
   Set_ (in21 + 1) (hi64 (R tr1_1_2) (R tr1_5_2));
   Set_ (in22 + 1) (lo64 (R tr1_3_2) (R tr1_7_2));
   Set_ (in23 + 1) (hi64 (R tr1_3_2) (R tr1_7_2));
   Set_ tr0_0_2 (lo16 (R (res08 + 3)) (R (res09 + 3)));
   Set_ tr0_1_2 (lo16 (R (res10 + 3)) (R (res11 + 3)));
   Set_ tr0_2_2 (hi16 (R (res08 + 3)) (R (res09 + 3)));
   Set_ tr0_3_2 (hi16 (R (res10 + 3)) (R (res11 + 3)));
   Set_ tr0_4_2 (lo16 (R (res12 + 3)) (R (res13 + 3)));
   Set_ tr0_5_2 (lo16 (R (res14 + 3)) (R (res15 + 3)));
   Set_ tr0_6_2 (hi16 (R (res12 + 3)) (R (res13 + 3)));
   Set_ tr0_7_2 (hi16 (R (res14 + 3)) (R (res15 + 3)));
   Set_ tr1_0_2 (lo32 (R tr0_0_2) (R tr0_1_2));
   Set_ tr1_1_2 (lo32 (R tr0_2_2) (R tr0_3_2));
   Set_ tr1_2_2 (hi32 (R tr0_0_2) (R tr0_1_2));
   Set_ tr1_3_2 (hi32 (R tr0_2_2) (R tr0_3_2));
   Set_ tr1_4_2 (lo32 (R tr0_4_2) (R tr0_5_2));
   Set_ tr1_5_2 (lo32 (R tr0_6_2) (R tr0_7_2));
   Set_ tr1_6_2 (hi32 (R tr0_4_2) (R tr0_5_2));
   Set_ tr1_7_2 (hi32 (R tr0_6_2) (R tr0_7_2));
   Set_ (in24 + 1) (lo64 (R tr1_0_2) (R tr1_4_2));
   Set_ (in25 + 1) (hi64 (R tr1_0_2) (R tr1_4_2));
   Set_ (in26 + 1) (lo64 (R tr1_2_2) (R tr1_6_2));
   Set_ (in27 + 1) (hi64 (R tr1_2_2) (R tr1_6_2));
   Set_ (in28 + 1) (lo64 (R tr1_1_2) (R tr1_5_2));
   Set_ (in29 + 1) (hi64 (R tr1_1_2) (R tr1_5_2));
   Set_ (in30 + 1) (lo64 (R tr1_3_2) (R tr1_7_2));
   Set_ (in31 + 1) (hi64 (R tr1_3_2) (R tr1_7_2))]
  ++ [Set_ tr0_0_2 (lo16 (R res16) (R res17));
   Set_ tr0_1_2 (lo16 (R res18) (R res19));
   Set_ tr0_2_2 (hi16 (R res16) (R res17));
   Set_ tr0_3_2 (hi16 (R res18) (R res19));
   Set_ tr0_4_2 (lo16 (R res20) (R res21));
   Set_ tr0_5_2 (lo16 (R res22) (R res23));
   Set_ tr0_6_2 (hi16 (R res20) (R res21));
   Set_ tr0_7_2 (hi16 (R res22) (R res23));
   Set_ tr1_0_2 (lo32 (R tr0_0_2) (R tr0_1_2));
   Set_ tr1_1_2 (lo32 (R tr0_2_2) (R tr0_3_2));
   Set_ tr1_2_2 (hi32 (R tr0_0_2) (R tr0_1_2));
   Set_ tr1_3_2 (hi32 (R tr0_2_2) (R tr0_3_2));
   Set_ tr1_4_2 (lo32 (R tr0_4_2) (R tr0_5_2));
   Set_ tr1_5_2 (lo32 (R tr0_6_2) (R tr0_7_2));
   Set_ tr1_6_2 (hi32 (R tr0_4_2) (R tr0_5_2));
   Set_ tr1_7_2 (hi32 (R tr0_6_2) (R tr0_7_2));
   Set_ (in00 + 2) (lo64 (R tr1_0_2) (R tr1_4_2));
   Set_ (in01 + 2) (hi64 (R tr1_0_2) (R tr1_4_2));
   Set_ (in02 + 2) (lo64 (R tr1_2_2) (R tr1_6_2));
   Set_ (in03 + 2) (hi64 (R tr1_2_2) (R tr1_6_2));
   Set_ (in04 + 2) (lo64 (R tr1_1_2) (R tr1_5_2));
   Set_ (in05 + 2) (hi64 (R tr1_1_2) (R tr1_5_2));
   Set_ (in06 + 2) (lo64 (R tr1_3_2) (R tr1_7_2));
   Set_ (in07 + 2) (hi64 (R tr1_3_2) (R tr1_7_2));
   Set_ tr0_0_2 (lo16 (R (res16 + 1)) (R (res17 + 1)));
   Set_ tr0_1_2 (lo16 (R (res18 + 1)) (R (res19 + 1)));
   Set_ tr0_2_2 (hi16 (R (res16 + 1)) (R (res17 + 1)));
   Set_ tr0_3_2 (hi16 (R (res18 + 1)) (R (res19 + 1)));
   Set_ tr0_4_2 (lo16 (R (res20 + 1)) (R (res21 + 1)));
   Set_ tr0_5_2 (lo16 (R (res22 + 1)) (R (res23 + 1)));
   Set_ tr0_6_2 (hi16 (R (res20 + 1)) (R (res21 + 1)));
   Set_ tr0_7_2 (hi16 (R (res22 + 1)) (R (res23 + 1)));
   Set_ tr1_0_2 (lo32 (R tr0_0_2) (R tr0_1_2));
   Set_ tr1_1_2 (lo32 (R tr0_2_2) (R tr0_3_2));
   Set_ tr1_2_2 (hi32 (R tr0_0_2) (R tr0_1_2));
   Set_ tr1_3_2 (hi32 (R tr0_2_2) (R tr0_3_2));
   Set_ tr1_4_2 (lo32 (R tr0_4_2) (R tr0_5_2));
   Set_ tr1_5_2 (lo32 (R tr0_6_2) (R tr0_7_2));
   Set_ tr1_6_2 (hi32 (R tr0_4_2) (R tr0_5_2));
   Set_ tr1_7_2 (hi32 (R tr0_6_2) (R tr0_7_2));
   Set_ (in08 + 2) (lo64 (R tr1_0_2) (R tr1_4_2));
   Set_ (in09 + 2) (hi64 (R tr1_0_2) (R tr1_4_2));
   Set_ (in10 + 2) (lo64 (R tr1_2_2) (R tr1_6_2));
   Set_ (in11 + 2) (hi64 (R tr1_2_2) (R tr1_6_2));
   Set_ (in12 + 2) (lo64 (R tr1_1_2) (R tr1_5_2));
   Set_ (in13 + 2) (hi64 (R tr1_1_2) (R tr1_5_2));
   Set_ (in14 + 2) (lo64 (R tr1_3_2) (R tr1_7_2));
   Set_ (in15 + 2) (hi64 (R tr1_3_2) (R tr1_7_2));
   Set_ tr0_0_2 (lo16 (R (res16 + 2)) (R (res17 + 2)));
   Set_ tr0_1_2 (lo16 (R (res18 + 2)) (R (res19 + 2)));
   Set_ tr0_2_2 (hi16 (R (res16 + 2)) (R (res17 + 2)));
   Set_ tr0_3_2 (hi16 (R (res18 + 2)) (R (res19 + 2)));
   Set_ tr0_4_2 (lo16 (R (res20 + 2)) (R (res21 + 2)));
   Set_ tr0_5_2 (lo16 (R (res22 + 2)) (R (res23 + 2)));
   Set_ tr0_6_2 (hi16 (R (res20 + 2)) (R (res21 + 2)));
   Set_ tr0_7_2 (hi16 (R (res22 + 2)) (R (res23 + 2)));
   Set_ tr1_0_2 (lo32 (R tr0_0_2) (R tr0_1_2));
   Set_ tr1_1_2 (lo32 (R tr0_2_2) (R tr0_3_2));
   Set_ tr1_2_2 (hi32 (R tr0_0_2) (R tr0_1_2));
   Set_ tr1_3_2 (hi32 (R tr0_2_2) (R tr0_3_2));
   Set_ tr1_4_2 (lo32 (R tr0_4_2) (R tr0_5_2));
   Set_ tr1_5_2 (lo32 (R tr0_6_2) (R tr0_7_2));
   Set_ tr1_6_2 (hi32 (R tr0_4_2) (R tr0_5_2));
   Set_ tr1_7_2 (hi32 (R tr0_6_2) (R tr0_7_2))]
  ++ [Set_ (in16 + 2) (lo64 (R tr1_0_2) (R tr1_4_2));
   Set_ (in17 + 2) (hi64 (R tr1_0_2) (R tr1_4_2));
   Set_ (in18 + 2) (lo64 (R tr1_2_2) (R tr1_6_2));
   Set_ (in19 + 2) (hi64 (R tr1_2_2) (R tr1_6_2));
   Set_ (in20 + 2) (lo64 (R tr1_1_2) (R tr1_5_2));
   Set_ (in21 + 2) (hi64 (R tr1_1_2) (R tr1_5_2));
   Set_ (in22 + 2) (lo64 (R tr1_3_2) (R tr1_7_2));
   Set_ (in23 + 2) (hi64 (R tr1_3_2) (R tr1_7_2));
   Set_ tr0_0_2 (lo16 (R (res16 + 3)) (R (res17 + 3)));
   Set_ tr0_1_2 (lo16 (R (res18 + 3)) (R (res19 + 3)));
   Set_ tr0_2_2 (hi16 (R (res16 + 3)) (R (res17 + 3)));
   Set_ tr0_3_2 (hi16 (R (res18 + 3)) (R (res19 + 3)));
   Set_ tr0_4_2 (lo16 (R (res20 + 3)) (R (res21 + 3)));
   Set_ tr0_5_2 (lo16 (R (res22 + 3)) (R (res23 + 3)));
   Set_ tr0_6_2 (hi16 (R (res20 + 3)) (R (res21 + 3)));
   Set_ tr0_7_2 (hi16 (R (res22 + 3)) (R (res23 + 3)));
   Set_ tr1_0_2 (lo32 (R tr0_0_2) (R tr0_1_2));
   Set_ tr1_1_2 (lo32 (R tr0_2_2) (R tr0_3_2));
   Set_ tr1_2_2 (hi32 (R tr0_0_2) (R tr0_1_2));
   Set_ tr1_3_2 (hi32 (R tr0_2_2) (R tr0_3_2));
   Set_ tr1_4_2 (lo32 (R tr0_4_2) (R tr0_5_2));
   Set_ tr1_5_2 (lo32 (R tr0_6_2) (R tr0_7_2));
   Set_ tr1_6_2 (hi32 (R tr0_4_2) (R tr0_5_2));
   Set_ tr1_7_2 (hi32 (R tr0_6_2) (R tr0_7_2));
   Set_ (in24 + 2) (lo64 (R tr1_0_2) (R tr1_4_2));
   Set_ (in25 + 2) (hi64 (R tr1_0_2) (R tr1_4_2));
   Set_ (in26 + 2) (lo64 (R tr1_2_2) (R tr1_6_2));
   Set_ (in27 + 2) (hi64 (R tr1_2_2) (R tr1_6_2));
   Set_ (in28 + 2) (lo64 (R tr1_1_2) (R tr1_5_2));
   Set_ (in29 + 2) (hi64 (R tr1_1_2) (R tr1_5_2));
   Set_ (in30 + 2) (lo64 (R tr1_3_2) (R tr1_7_2));
   Set_ (in31 + 2) (hi64 (R tr1_3_2) (R tr1_7_2));
   Set_ tr0_0_2 (lo16 (R res24) (R res25));
   Set_ tr0_1_2 (lo16 (R res26) (R res27));
   Set_ tr0_2_2 (hi16 (R res24) (R res25));
   Set_ tr0_3_2 (hi16 (R res26) (R res27));
   Set_ tr0_4_2 (lo16 (R res28) (R res29));
   Set_ tr0_5_2 (lo16 (R res30) (R res31));
   Set_ tr0_6_2 (hi16 (R res28) (R res29));
   Set_ tr0_7_2 (hi16 (R res30) (R res31));
   Set_ tr1_0_2 (lo32 (R tr0_0_2) (R tr0_1_2));
   Set_ tr1_1_2 (lo32 (R tr0_2_2) (R tr0_3_2));
   Set_ tr1_2_2 (hi32 (R tr0_0_2) (R tr0_1_2));
   Set_ tr1_3_2 (hi32 (R tr0_2_2) (R tr0_3_2));
   Set_ tr1_4_2 (lo32 (R tr0_4_2) (R tr0_5_2));
   Set_ tr1_5_2 (lo32 (R tr0_6_2) (R tr0_7_2));
   Set_ tr1_6_2 (hi32 (R tr0_4_2) (R tr0_5_2));
   Set_ tr1_7_2 (hi32 (R tr0_6_2) (R tr0_7_2));
   Set_ (in00 + 3) (lo64 (R tr1_0_2) (R tr1_4_2));
   Set_ (in01 + 3) (hi64 (R tr1_0_2) (R tr1_4_2));
   Set_ (in02 + 3) (lo64 (R tr1_2_2) (R tr1_6_2));
   Set_ (in03 + 3) (hi64 (R tr1_2_2) (R tr1_6_2));
   Set_ (in04 + 3) (lo64 (R tr1_1_2) (R tr1_5_2));
   Set_ (in05 + 3) (hi64 (R tr1_1_2) (R tr1_5_2));
   Set_ (in06 + 3) (lo64 (R tr1_3_2) (R tr1_7_2));
   Set_ (in07 + 3) (hi64 (R tr1_3_2) (R tr1_7_2));
   Set_ tr0_0_2 (lo16 (R (res24 + 1)) (R (res25 + 1)));
   Set_ tr0_1_2 (lo16 (R (res26 + 1)) (R (res27 + 1)));
   Set_ tr0_2_2 (hi16 (R (res24 + 1)) (R (res25 + 1)));
   Set_ tr0_3_2 (hi16 (R (res26 + 1)) (R (res27 + 1)));
   Set_ tr0_4_2 (lo16 (R (res28 + 1)) (R (res29 + 1)));
   Set_ tr0_5_2 (lo16 (R (res30 + 1)) (R (res31 + 1)));
   Set_ tr0_6_2 (hi16 (R (res28 + 1)) (R (res29 + 1)));
   Set_ tr0_7_2 (hi16 (R (res30 + 1)) (R (res31 + 1)))]
  ++ [Set_ tr1_0_2 (lo32 (R tr0_0_2) (R tr0_1_2));
   Set_ tr1_1_2 (lo32 (R tr0_2_2) (R tr0_3_2));
   Set_ tr1_2_2 (hi32 (R tr0_0_2) (R tr0_1_2));
   Set_ tr1_3_2 (hi32 (R tr0_2_2) (R tr0_3_2));
   Set_ tr1_4_2 (lo32 (R tr0_4_2) (R tr0_5_2));
   Set_ tr1_5_2 (lo32 (R tr0_6_2) (R tr0_7_2));
   Set_ tr1_6_2 (hi32 (R tr0_4_2) (R tr0_5_2));
   Set_ tr1_7_2 (hi32 (R tr0_6_2) (R tr0_7_2));
   Set_ (in08 + 3) (lo64 (R tr1_0_2) (R tr1_4_2));
   Set_ (in09 + 3) (hi64 (R tr1_0_2) (R tr1_4_2));
   Set_ (in10 + 3) (lo64 (R tr1_2_2) (R tr1_6_2));
   Set_ (in11 + 3) (hi64 (R tr1_2_2) (R tr1_6_2));
   Set_ (in12 + 3) (lo64 (R tr1_1_2) (R tr1_5_2));
   Set_ (in13 + 3) (hi64 (R tr1_1_2) (R tr1_5_2));
   Set_ (in14 + 3) (lo64 (R tr1_3_2) (R tr1_7_2));
   Set_ (in15 + 3) (hi64 (R tr1_3_2) (R tr1_7_2));
   Set_ tr0_0_2 (lo16 (R (res24 + 2)) (R (res25 + 2)));
   Set_ tr0_1_2 (lo16 (R (res26 + 2)) (R (res27 + 2)));
   Set_ tr0_2_2 (hi16 (R (res24 + 2)) (R (res25 + 2)));
   Set_ tr0_3_2 (hi16 (R (res26 + 2)) (R (res27 + 2)));
   Set_ tr0_4_2 (lo16 (R (res28 + 2)) (R (res29 + 2)));
   Set_ tr0_5_2 (lo16 (R (res30 + 2)) (R (res31 + 2)));
   Set_ tr0_6_2 (hi16 (R (res28 + 2)) (R (res29 + 2)));
   Set_ tr0_7_2 (hi16 (R (res30 + 2)) (R (res31 + 2)));
   Set_ tr1_0_2 (lo32 (R tr0_0_2) (R tr0_1_2));
   Set_ tr1_1_2 (lo32 (R tr0_2_2) (R tr0_3_2));
   Set_ tr1_2_2 (hi32 (R tr0_0_2) (R tr0_1_2));
   Set_ tr1_3_2 (hi32 (R tr0_2_2) (R tr0_3_2));
   Set_ tr1_4_2 (lo32 (R tr0_4_2) (R tr0_5_2));
   Set_ tr1_5_2 (lo32 (R tr0_6_2) (R tr0_7_2));
   Set_ tr1_6_2 (hi32 (R tr0_4_2) (R tr0_5_2));
   Set_ tr1_7_2 (hi32 (R tr0_6_2) (R tr0_7_2));
   Set_ (in16 + 3) (lo64 (R tr1_0_2) (R tr1_4_2));
   Set_ (in17 + 3) (hi64 (R tr1_0_2) (R tr1_4_2));
   Set_ (in18 + 3) (lo64 (R tr1_2_2) (R tr1_6_2));
   Set_ (in19 + 3) (hi64 (R tr1_2_2) (R tr1_6_2));
   Set_ (in20 + 3) (lo64 (R tr1_1_2) (R tr1_5_2));
   Set_ (in21 + 3) (hi64 (R tr1_1_2) (R tr1_5_2));
   Set_ (in22 + 3) (lo64 (R tr1_3_2) (R tr1_7_2));
   Set_ (in23 + 3) (hi64 (R tr1_3_2) (R tr1_7_2));
   Set_ tr0_0_2 (lo16 (R (res24 + 3)) (R (res25 + 3)));
   Set_ tr0_1_2 (lo16 (R (res26 + 3)) (R (res27 + 3)));
   Set_ tr0_2_2 (hi16 (R (res24 + 3)) (R (res25 + 3)));
   Set_ tr0_3_2 (hi16 (R (res26 + 3)) (R (res27 + 3)));
   Set_ tr0_4_2 (lo16 (R (res28 + 3)) (R (res29 + 3)));
   Set_ tr0_5_2 (lo16 (R (res30 + 3)) (R (res31 + 3)));
   Set_ tr0_6_2 (hi16 (R (res28 + 3)) (R (res29 + 3)));
   Set_ tr0_7_2 (hi16 (R (res30 + 3)) (R (res31 + 3)));
   Set_ tr1_0_2 (lo32 (R tr0_0_2) (R tr0_1_2));
   Set_ tr1_1_2 (lo32 (R tr0_2_2) (R tr0_3_2));
   Set_ tr1_2_2 (hi32 (R tr0_0_2) (R tr0_1_2));
   Set_ tr1_3_2 (hi32 (R tr0_2_2) (R tr0_3_2));
   Set_ tr1_4_2 (lo32 (R tr0_4_2) (R tr0_5_2));
   Set_ tr1_5_2 (lo32 (R tr0_6_2) (R tr0_7_2));
   Set_ tr1_6_2 (hi32 (R tr0_4_2) (R tr0_5_2));
   Set_ tr1_7_2 (hi32 (R tr0_6_2) (R tr0_7_2));
   Set_ (in24 + 3) (lo64 (R tr1_0_2) (R tr1_4_2));
   Set_ (in25 + 3) (hi64 (R tr1_0_2) (R tr1_4_2));
   Set_ (in26 + 3) (lo64 (R tr1_2_2) (R tr1_6_2));
   Set_ (in27 + 3) (hi64 (R tr1_2_2) (R tr1_6_2));
   Set_ (in28 + 3) (lo64 (R tr1_1_2) (R tr1_5_2));
   Set_ (in29 + 3) (hi64 (R tr1_1_2) (R tr1_5_2));
   Set_ (in30 + 3) (lo64 (R tr1_3_2) (R tr1_7_2));
   Set_ (in31 + 3) (hi64 (R tr1_3_2) (R tr1_7_2))]
  ++ [Set_ max_val (S16 8 (Q HI2));
   Set_ min_val (S16 8 (Q LO2))]
  ++ loop 4 (fun k =>
    [Set_ (in00 + k) (max16 (min16 (R (in00 + k)) (R max_val)) (R min_val));
     Set_ (in01 + k) (max16 (min16 (R (in01 + k)) (R max_val)) (R min_val));
     Set_ (in02 + k) (max16 (min16 (R (in02 + k)) (R max_val)) (R min_val));
     Set_ (in03 + k) (max16 (min16 (R (in03 + k)) (R max_val)) (R min_val));
     Set_ (in04 + k) (max16 (min16 (R (in04 + k)) (R max_val)) (R min_val));
     Set_ (in05 + k) (max16 (min16 (R (in05 + k)) (R max_val)) (R min_val));
     Set_ (in06 + k) (max16 (min16 (R (in06 + k)) (R max_val)) (R min_val));
     Set_ (in07 + k) (max16 (min16 (R (in07 + k)) (R max_val)) (R min_val));
     Set_ (in08 + k) (max16 (min16 (R (in08 + k)) (R max_val)) (R min_val));
     Set_ (in09 + k) (max16 (min16 (R (in09 + k)) (R max_val)) (R min_val));
     Set_ (in10 + k) (max16 (min16 (R (in10 + k)) (R max_val)) (R min_val));
     Set_ (in11 + k) (max16 (min16 (R (in11 + k)) (R max_val)) (R min_val));
     Set_ (in12 + k) (max16 (min16 (R (in12 + k)) (R max_val)) (R min_val));
     Set_ (in13 + k) (max16 (min16 (R (in13 + k)) (R max_val)) (R min_val));
     Set_ (in14 + k) (max16 (min16 (R (in14 + k)) (R max_val)) (R min_val));
     Set_ (in15 + k) (max16 (min16 (R (in15 + k)) (R max_val)) (R min_val));
     Set_ (in16 + k) (max16 (min16 (R (in16 + k)) (R max_val)) (R min_val));
     Set_ (in17 + k) (max16 (min16 (R (in17 + k)) (R max_val)) (R min_val));
     Set_ (in18 + k) (max16 (min16 (R (in18 + k)) (R max_val)) (R min_val));
     Set_ (in19 + k) (max16 (min16 (R (in19 + k)) (R max_val)) (R min_val));
     Set_ (in20 + k) (max16 (min16 (R (in20 + k)) (R max_val)) (R min_val));
     Set_ (in21 + k) (max16 (min16 (R (in21 + k)) (R max_val)) (R min_val));
     Set_ (in22 + k) (max16 (min16 (R (in22 + k)) (R max_val)) (R min_val));
     Set_ (in23 + k) (max16 (min16 (R (in23 + k)) (R max_val)) (R min_val));
     Set_ (in24 + k) (max16 (min16 (R (in24 + k)) (R max_val)) (R min_val));
     Set_ (in25 + k) (max16 (min16 (R (in25 + k)) (R max_val)) (R min_val));
     Set_ (in26 + k) (max16 (min16 (R (in26 + k)) (R max_val)) (R min_val));
     Set_ (in27 + k) (max16 (min16 (R (in27 + k)) (R max_val)) (R min_val));
     Set_ (in28 + k) (max16 (min16 (R (in28 + k)) (R max_val)) (R min_val));
     Set_ (in29 + k) (max16 (min16 (R (in29 + k)) (R max_val)) (R min_val));
     Set_ (in30 + k) (max16 (min16 (R (in30 + k)) (R max_val)) (R min_val));
     Set_ (in31 + k) (max16 (min16 (R (in31 + k)) (R max_val)) (R min_val))])
  ++ loop 2 (fun i =>
    [St 8 0 0 (16 * i) (R (in00 + 2 * i));
     St 8 0 0 (16 * i + 8) (R (in00 + 2 * i + 1));
     St 8 0 1 (16 * i) (R (in01 + 2 * i));
     St 8 0 1 (16 * i + 8) (R (in01 + 2 * i + 1));
     St 8 0 2 (16 * i) (R (in02 + 2 * i));
     St 8 0 2 (16 * i + 8) (R (in02 + 2 * i + 1));
     St 8 0 3 (16 * i) (R (in03 + 2 * i));
     St 8 0 3 (16 * i + 8) (R (in03 + 2 * i + 1));
     St 8 0 4 (16 * i) (R (in04 + 2 * i));
     St 8 0 4 (16 * i + 8) (R (in04 + 2 * i + 1));
     St 8 0 5 (16 * i) (R (in05 + 2 * i));
     St 8 0 5 (16 * i + 8) (R (in05 + 2 * i + 1));
     St 8 0 6 (16 * i) (R (in06 + 2 * i));
     St 8 0 6 (16 * i + 8) (R (in06 + 2 * i + 1));
     St 8 0 7 (16 * i) (R (in07 + 2 * i));
     St 8 0 7 (16 * i + 8) (R (in07 + 2 * i + 1));
     St 8 0 8 (16 * i) (R (in08 + 2 * i));
     St 8 0 8 (16 * i + 8) (R (in08 + 2 * i + 1));
     St 8 0 9 (16 * i) (R (in09 + 2 * i));
     St 8 0 9 (16 * i + 8) (R (in09 + 2 * i + 1));
     St 8 0 10 (16 * i) (R (in10 + 2 * i));
     St 8 0 10 (16 * i + 8) (R (in10 + 2 * i + 1));
     St 8 0 11 (16 * i) (R (in11 + 2 * i));
     St 8 0 11 (16 * i + 8) (R (in11 + 2 * i + 1));
     St 8 0 12 (16 * i) (R (in12 + 2 * i));
     St 8 0 12 (16 * i + 8) (R (in12 + 2 * i + 1));
     St 8 0 13 (16 * i) (R (in13 + 2 * i));
     St 8 0 13 (16 * i + 8) (R (in13 + 2 * i + 1));
     St 8 0 14 (16 * i) (R (in14 + 2 * i));
     St 8 0 14 (16 * i + 8) (R (in14 + 2 * i + 1));
     St 8 0 15 (16 * i) (R (in15 + 2 * i));
     St 8 0 15 (16 * i + 8) (R (in15 + 2 * i + 1));
     St 8 0 16 (16 * i) (R (in16 + 2 * i));
     St 8 0 16 (16 * i + 8) (R (in16 + 2 * i + 1));
     St 8 0 17 (16 * i) (R (in17 + 2 * i));
     St 8 0 17 (16 * i + 8) (R (in17 + 2 * i + 1));
     St 8 0 18 (16 * i) (R (in18 + 2 * i));
     St 8 0 18 (16 * i + 8) (R (in18 + 2 * i + 1));
     St 8 0 19 (16 * i) (R (in19 + 2 * i));
     St 8 0 19 (16 * i + 8) (R (in19 + 2 * i + 1));
     St 8 0 20 (16 * i) (R (in20 + 2 * i));
     St 8 0 20 (16 * i + 8) (R (in20 + 2 * i + 1));
     St 8 0 21 (16 * i) (R (in21 + 2 * i));
     St 8 0 21 (16 * i + 8) (R (in21 + 2 * i + 1));
     St 8 0 22 (16 * i) (R (in22 + 2 * i));
     St 8 0 22 (16 * i + 8) (R (in22 + 2 * i + 1));
     St 8 0 23 (16 * i) (R (in23 + 2 * i));
     St 8 0 23 (16 * i + 8) (R (in23 + 2 * i + 1));
     St 8 0 24 (16 * i) (R (in24 + 2 * i));
     St 8 0 24 (16 * i + 8) (R (in24 + 2 * i + 1));
     St 8 0 25 (16 * i) (R (in25 + 2 * i));
     St 8 0 25 (16 * i + 8) (R (in25 + 2 * i + 1));
     St 8 0 26 (16 * i) (R (in26 + 2 * i));
     St 8 0 26 (16 * i + 8) (R (in26 + 2 * i + 1));
     St 8 0 27 (16 * i) (R (in27 + 2 * i));
     St 8 0 27 (16 * i + 8) (R (in27 + 2 * i + 1));
     St 8 0 28 (16 * i) (R (in28 + 2 * i));
     St 8 0 28 (16 * i + 8) (R (in28 + 2 * i + 1));
     St 8 0 29 (16 * i) (R (in29 + 2 * i));
     St 8 0 29 (16 * i + 8) (R (in29 + 2 * i + 1));
     St 8 0 30 (16 * i) (R (in30 + 2 * i));
     St 8 0 30 (16 * i + 8) (R (in30 + 2 * i + 1));
     St 8 0 31 (16 * i) (R (in31 + 2 * i));
     St 8 0 31 (16 * i + 8) (R (in31 + 2 * i + 1))]).

(** vec/intrinsic_idct.cc:4275-5209 [idct_32x32_quad_sse128]. The lowest bit of [i_dst] is a flag that changes shift and limits; the stride is [i_dst & 0xFE]. *)
Definition idct_32x32_quad_sse128 : list ins :=
  let c16_p45_p45 := 1 in let c16_p43_p44 := 2 in let c16_p41_p45 := 3 in let c16_p23_p34 := 4 in let c16_p34_p44 := 5 in let c16_n07_p15 := 6 in
  let c16_p43_p45 := 7 in let c16_p23_p43 := 8 in let c16_n34_n07 := 9 in let c16_p11_p41 := 10 in let c16_n45_n27 := 11 in let c16_n02_p39 := 12 in
  let c16_n36_n41 := 13 in let c16_n15_p36 := 14 in let c16_n11_n45 := 15 in let c16_n27_p34 := 16 in let c16_p19_n39 := 17 in
  let c16_n36_p30 := 18 in let c16_p41_n23 := 19 in let c16_n43_p27 := 20 in let c16_p44_n02 := 21 in let c16_n45_p23 := 22 in
  let c16_p27_p19 := 23 in let c16_n44_p19 := 24 in let c16_n02_p36 := 25 in let c16_n39_p15 := 26 in let c16_n30_p45 := 27 in
  let c16_n30_p11 := 28 in let c16_n45_p43 := 29 in let c16_n19_p07 := 30 in let c16_n39_p30 := 31 in let c16_n07_p02 := 32 in
  let c16_n15_p11 := 33 in let c16_p29_p43 := 34 in let c16_p04_p40 := 35 in let c16_n21_p35 := 36 in let c16_n40_p29 := 37 in
  let c16_n45_p21 := 38 in let c16_n35_p13 := 39 in let c16_n13_p04 := 40 in let c16_p38_p44 := 41 in let c16_n09_p38 := 42 in
  let c16_n44_p25 := 43 in let c16_n25_p09 := 44 in let c16_p32_p32 := 45 in let c16_n32_p32 := 46 in let c32_rnd := 47 in let Zero_16 := 48 in
  let in00 := 49 in let in01 := 53 in let in02 := 57 in let in03 := 61 in let in04 := 65 in let in05 := 69 in let in06 := 73 in let in07 := 77 in
  let in08 := 81 in let in09 := 85 in let in10 := 89 in let in11 := 93 in let in12 := 97 in let in13 := 101 in let in14 := 105 in let in15 := 109 in
  let in16 := 113 in let in17 := 117 in let in18 := 121 in let in19 := 125 in let in20 := 129 in let in21 := 133 in let in22 := 137 in
  let in23 := 141 in let in24 := 145 in let in25 := 149 in let in26 := 153 in let in27 := 157 in let in28 := 161 in let in29 := 165 in
  let in30 := 169 in let in31 := 173 in let res00 := 177 in let res01 := 181 in let res02 := 185 in let res03 := 189 in let res04 := 193 in
  let res05 := 197 in let res06 := 201 in let res07 := 205 in let res08 := 209 in let res09 := 213 in let res10 := 217 in let res11 := 221 in
  let res12 := 225 in let res13 := 229 in let res14 := 233 in let res15 := 237 in let res16 := 241 in let res17 := 245 in let res18 := 249 in
  let res19 := 253 in let res20 := 257 in let res21 := 261 in let res22 := 265 in let res23 := 269 in let res24 := 273 in let res25 := 277 in
  let res26 := 281 in let res27 := 285 in let res28 := 289 in let res29 := 293 in let res30 := 297 in let res31 := 301 in let T_00_00A := 305 in
  let T_00_00B := 306 in let T_00_01A := 307 in let T_00_01B := 308 in let T_00_08A := 309 in let T_00_08B := 310 in let T_00_12A := 311 in
  let T_00_12B := 312 in let T_00_15A := 313 in let T_00_15B := 314 in let O00A := 315 in let O01A := 316 in let O02A := 317 in let O03A := 318 in
  let O04A := 319 in let O05A := 320 in let O06A := 321 in let O07A := 322 in let O08A := 323 in let O09A := 324 in let O10A := 325 in
  let O11A := 326 in let O12A := 327 in let O13A := 328 in let O14A := 329 in let O15A := 330 in let O00B := 331 in let O01B := 332 in
  let O02B := 333 in let O03B := 334 in let O04B := 335 in let O05B := 336 in let O06B := 337 in let O07B := 338 in let O08B := 339 in
  let O09B := 340 in let O10B := 341 in let O11B := 342 in let O12B := 343 in let O13B := 344 in let O14B := 345 in let O15B := 346 in
  let EO0A := 347 in let EO1A := 348 in let EO2A := 349 in let EO3A := 350 in let EO4A := 351 in let EO5A := 352 in let EO6A := 353 in
  let EO7A := 354 in let EO0B := 355 in let EO1B := 356 in let EO2B := 357 in let EO3B := 358 in let EO4B := 359 in let EO5B := 360 in
  let EO6B := 361 in let EO7B := 362 in let EEO0A := 363 in let EEO1A := 364 in let EEO2A := 365 in let EEO3A := 366 in let EEO0B := 367 in
  let EEO1B := 368 in let EEO2B := 369 in let EEO3B := 370 in let EEEE0A := 371 in let EEEE0B := 372 in let EEEE1A := 373 in let EEEE1B := 374 in
  let EEE0A := 375 in let EEE0B := 376 in let EEE1A := 377 in let EEE1B := 378 in let EEE3A := 379 in let EEE3B := 380 in let EEE2A := 381 in
  let EEE2B := 382 in let EE0A := 383 in let EE0B := 384 in let EE1A := 385 in let EE1B := 386 in let EE2A := 387 in let EE2B := 388 in
  let EE3A := 389 in let EE3B := 390 in let EE7A := 391 in let EE7B := 392 in let EE6A := 393 in let EE6B := 394 in let EE5A := 395 in
  let EE5B := 396 in let EE4A := 397 in let EE4B := 398 in let E0A := 399 in let E0B := 400 in let E1A := 401 in let E1B := 402 in let E2A := 403 in
  let E2B := 404 in let E3A := 405 in let E3B := 406 in let E4A := 407 in let E4B := 408 in let E5A := 409 in let E5B := 410 in let E6A := 411 in
  let E6B := 412 in let E7A := 413 in let E7B := 414 in let EFA := 415 in let EFB := 416 in let EEA := 417 in let EEB := 418 in let EDA := 419 in
  let EDB := 420 in let ECA := 421 in let ECB := 422 in let EBA := 423 in let EBB := 424 in let EAA := 425 in let EAB := 426 in let E9A := 427 in
  let E9B := 428 in let E8A := 429 in let E8B := 430 in let T10A := 431 in let T10B := 432 in let T11A := 433 in let T11B := 434 in let T12A := 435 in
  let T12B := 436 in let T13A := 437 in let T13B := 438 in let T14A := 439 in let T14B := 440 in let T15A := 441 in let T15B := 442 in
  let T16A := 443 in let T16B := 444 in let T17A := 445 in let T17B := 446 in let T18A := 447 in let T18B := 448 in let T19A := 449 in
  let T19B := 450 in let T1AA := 451 in let T1AB := 452 in let T1BA := 453 in let T1BB := 454 in let T1CA := 455 in let T1CB := 456 in
  let T1DA := 457 in let T1DB := 458 in let T1EA := 459 in let T1EB := 460 in let T1FA := 461 in let T1FB := 462 in let T2_00A := 463 in
  let T2_00B := 464 in let T2_01A := 465 in let T2_01B := 466 in let T2_02A := 467 in let T2_02B := 468 in let T2_03A := 469 in let T2_03B := 470 in
  let T2_04A := 471 in let T2_04B := 472 in let T2_05A := 473 in let T2_05B := 474 in let T2_06A := 475 in let T2_06B := 476 in let T2_07A := 477 in
  let T2_07B := 478 in let T2_08A := 479 in let T2_08B := 480 in let T2_09A := 481 in let T2_09B := 482 in let T2_10A := 483 in let T2_10B := 484 in
  let T2_11A := 485 in let T2_11B := 486 in let T2_12A := 487 in let T2_12B := 488 in let T2_13A := 489 in let T2_13B := 490 in let T2_14A := 491 in
  let T2_14B := 492 in let T2_15A := 493 in let T2_15B := 494 in let T2_31A := 495 in let T2_31B := 496 in let T2_30A := 497 in let T2_30B := 498 in
  let T2_29A := 499 in let T2_29B := 500 in let T2_28A := 501 in let T2_28B := 502 in let T2_27A := 503 in let T2_27B := 504 in let T2_26A := 505 in
  let T2_26B := 506 in let T2_25A := 507 in let T2_25B := 508 in let T2_24A := 509 in let T2_24B := 510 in let T2_23A := 511 in let T2_23B := 512 in
  let T2_22A := 513 in let T2_22B := 514 in let T2_21A := 515 in let T2_21B := 516 in let T2_20A := 517 in let T2_20B := 518 in let T2_19A := 519 in
  let T2_19B := 520 in let T2_18A := 521 in let T2_18B := 522 in let T2_17A := 523 in let T2_17B := 524 in let T2_16A := 525 in let T2_16B := 526 in
  let T3_00A := 527 in let T3_00B := 528 in let T3_01A := 529 in let T3_01B := 530 in let T3_02A := 531 in let T3_02B := 532 in let T3_03A := 533 in
  let T3_03B := 534 in let T3_04A := 535 in let T3_04B := 536 in let T3_05A := 537 in let T3_05B := 538 in let T3_06A := 539 in let T3_06B := 540 in
  let T3_07A := 541 in let T3_07B := 542 in let T3_08A := 543 in let T3_08B := 544 in let T3_09A := 545 in let T3_09B := 546 in let T3_10A := 547 in
  let T3_10B := 548 in let T3_11A := 549 in let T3_11B := 550 in let T3_12A := 551 in let T3_12B := 552 in let T3_13A := 553 in let T3_13B := 554 in
  let T3_14A := 555 in let T3_14B := 556 in let T3_15A := 557 in let T3_15B := 558 in let T3_16A := 559 in let T3_16B := 560 in let T3_17A := 561 in
  let T3_17B := 562 in let T3_18A := 563 in let T3_18B := 564 in let T3_19A := 565 in let T3_19B := 566 in let T3_20A := 567 in let T3_20B := 568 in
  let T3_21A := 569 in let T3_21B := 570 in let T3_22A := 571 in let T3_22B := 572 in let T3_23A := 573 in let T3_23B := 574 in let T3_24A := 575 in
  let T3_24B := 576 in let T3_25A := 577 in let T3_25B := 578 in let T3_26A := 579 in let T3_26B := 580 in let T3_27A := 581 in let T3_27B := 582 in
  let T3_28A := 583 in let T3_28B := 584 in let T3_29A := 585 in let T3_29B := 586 in let T3_30A := 587 in let T3_30B := 588 in let T3_31A := 589 in
  let T3_31B := 590 in let tr0_0 := 591 in let tr0_1 := 592 in let tr0_2 := 593 in let tr0_3 := 594 in let tr0_4 := 595 in let tr0_5 := 596 in
  let tr0_6 := 597 in let tr0_7 := 598 in let tr1_0 := 599 in let tr1_1 := 600 in let tr1_2 := 601 in let tr1_3 := 602 in let tr1_4 := 603 in
  let tr1_5 := 604 in let tr1_6 := 605 in let tr1_7 := 606 in let T_00_00_A := 607 in let T_00_00_B := 608 in let T_00_01_A := 609 in
  let T_00_01_B := 610 in let T_00_08_A := 611 in let T_00_08_B := 612 in let T_00_12_A := 613 in let T_00_12_B := 614 in let T_00_15_A := 615 in
  let T_00_15_B := 616 in let EEO0A_2 := 617 in let EEO1A_2 := 618 in let EEO2A_2 := 619 in let EEO3A_2 := 620 in let EEO0B_2 := 621 in
  let EEO1B_2 := 622 in let EEO2B_2 := 623 in let EEO3B_2 := 624 in let EEEE0A_2 := 625 in let EEEE0B_2 := 626 in let EEEE1A_2 := 627 in
  let EEEE1B_2 := 628 in let EEE0A_2 := 629 in let EEE0B_2 := 630 in let EEE1A_2 := 631 in let EEE1B_2 := 632 in let EEE3A_2 := 633 in
  let EEE3B_2 := 634 in let EEE2A_2 := 635 in let EEE2B_2 := 636 in let EE0A_2 := 637 in let EE0B_2 := 638 in let EE1A_2 := 639 in
  let EE1B_2 := 640 in let EE2A_2 := 641 in let EE2B_2 := 642 in let EE3A_2 := 643 in let EE3B_2 := 644 in let EE7A_2 := 645 in let EE7B_2 := 646 in
  let EE6A_2 := 647 in let EE6B_2 := 648 in let EE5A_2 := 649 in let EE5B_2 := 650 in let EE4A_2 := 651 in let EE4B_2 := 652 in let E0A_2 := 653 in
  let E0B_2 := 654 in let E1A_2 := 655 in let E1B_2 := 656 in let E2A_2 := 657 in let E2B_2 := 658 in let E3A_2 := 659 in let E3B_2 := 660 in
  let E4A_2 := 661 in let E4B_2 := 662 in let E5A_2 := 663 in let E5B_2 := 664 in let E6A_2 := 665 in let E6B_2 := 666 in let E7A_2 := 667 in
  let E7B_2 := 668 in let EFA_2 := 669 in let EFB_2 := 670 in let EEA_2 := 671 in let EEB_2 := 672 in let EDA_2 := 673 in let EDB_2 := 674 in
  let ECA_2 := 675 in let ECB_2 := 676 in let EBA_2 := 677 in let EBB_2 := 678 in let EAA_2 := 679 in let EAB_2 := 680 in let E9A_2 := 681 in
  let E9B_2 := 682 in let E8A_2 := 683 in let E8B_2 := 684 in let T10A_2 := 685 in let T10B_2 := 686 in let T11A_2 := 687 in let T11B_2 := 688 in
  let T12A_2 := 689 in let T12B_2 := 690 in let T13A_2 := 691 in let T13B_2 := 692 in let T14A_2 := 693 in let T14B_2 := 694 in let T15A_2 := 695 in
  let T15B_2 := 696 in let T16A_2 := 697 in let T16B_2 := 698 in let T17A_2 := 699 in let T17B_2 := 700 in let T18A_2 := 701 in let T18B_2 := 702 in
  let T19A_2 := 703 in let T19B_2 := 704 in let T1AA_2 := 705 in let T1AB_2 := 706 in let T1BA_2 := 707 in let T1BB_2 := 708 in let T1CA_2 := 709 in
  let T1CB_2 := 710 in let T1DA_2 := 711 in let T1DB_2 := 712 in let T1EA_2 := 713 in let T1EB_2 := 714 in let T1FA_2 := 715 in let T1FB_2 := 716 in
  let T2_00A_2 := 717 in let T2_00B_2 := 718 in let T2_01A_2 := 719 in let T2_01B_2 := 720 in let T2_02A_2 := 721 in let T2_02B_2 := 722 in
  let T2_03A_2 := 723 in let T2_03B_2 := 724 in let T2_04A_2 := 725 in let T2_04B_2 := 726 in let T2_05A_2 := 727 in let T2_05B_2 := 728 in
  let T2_06A_2 := 729 in let T2_06B_2 := 730 in let T2_07A_2 := 731 in let T2_07B_2 := 732 in let T2_08A_2 := 733 in let T2_08B_2 := 734 in
  let T2_09A_2 := 735 in let T2_09B_2 := 736 in let T2_10A_2 := 737 in let T2_10B_2 := 738 in let T2_11A_2 := 739 in let T2_11B_2 := 740 in
  let T2_12A_2 := 741 in let T2_12B_2 := 742 in let T2_13A_2 := 743 in let T2_13B_2 := 744 in let T2_14A_2 := 745 in let T2_14B_2 := 746 in
  let T2_15A_2 := 747 in let T2_15B_2 := 748 in let T2_31A_2 := 749 in let T2_31B_2 := 750 in let T2_30A_2 := 751 in let T2_30B_2 := 752 in
  let T2_29A_2 := 753 in let T2_29B_2 := 754 in let T2_28A_2 := 755 in let T2_28B_2 := 756 in let T2_27A_2 := 757 in let T2_27B_2 := 758 in
  let T2_26A_2 := 759 in let T2_26B_2 := 760 in let T2_25A_2 := 761 in let T2_25B_2 := 762 in let T2_24A_2 := 763 in let T2_24B_2 := 764 in
  let T2_23A_2 := 765 in let T2_23B_2 := 766 in let T2_22A_2 := 767 in let T2_22B_2 := 768 in let T2_21A_2 := 769 in let T2_21B_2 := 770 in
  let T2_20A_2 := 771 in let T2_20B_2 := 772 in let T2_19A_2 := 773 in let T2_19B_2 := 774 in let T2_18A_2 := 775 in let T2_18B_2 := 776 in
  let T2_17A_2 := 777 in let T2_17B_2 := 778 in let T2_16A_2 := 779 in let T2_16B_2 := 780 in let T3_00A_2 := 781 in let T3_00B_2 := 782 in
  let T3_01A_2 := 783 in let T3_01B_2 := 784 in let T3_02A_2 := 785 in let T3_02B_2 := 786 in let T3_03A_2 := 787 in let T3_03B_2 := 788 in
  let T3_04A_2 := 789 in let T3_04B_2 := 790 in let T3_05A_2 := 791 in let T3_05B_2 := 792 in let T3_06A_2 := 793 in let T3_06B_2 := 794 in
  let T3_07A_2 := 795 in let T3_07B_2 := 796 in let T3_08A_2 := 797 in let T3_08B_2 := 798 in let T3_09A_2 := 799 in let T3_09B_2 := 800 in
  let T3_10A_2 := 801 in let T3_10B_2 := 802 in let T3_11A_2 := 803 in let T3_11B_2 := 804 in let T3_12A_2 := 805 in let T3_12B_2 := 806 in
  let T3_13A_2 := 807 in let T3_13B_2 := 808 in let T3_14A_2 := 809 in let T3_14B_2 := 810 in let T3_15A_2 := 811 in let T3_15B_2 := 812 in
  let T3_16A_2 := 813 in let T3_16B_2 := 814 in let T3_17A_2 := 815 in let T3_17B_2 := 816 in let T3_18A_2 := 817 in let T3_18B_2 := 818 in
  let T3_19A_2 := 819 in let T3_19B_2 := 820 in let T3_20A_2 := 821 in let T3_20B_2 := 822 in let T3_21A_2 := 823 in let T3_21B_2 := 824 in
  let T3_22A_2 := 825 in let T3_22B_2 := 826 in let T3_23A_2 := 827 in let T3_23B_2 := 828 in let T3_24A_2 := 829 in let T3_24B_2 := 830 in
  let T3_25A_2 := 831 in let T3_25B_2 := 832 in let T3_26A_2 := 833 in let T3_26B_2 := 834 in let T3_27A_2 := 835 in let T3_27B_2 := 836 in
  let T3_28A_2 := 837 in let T3_28B_2 := 838 in let T3_29A_2 := 839 in let T3_29B_2 := 840 in let T3_30A_2 := 841 in let T3_30B_2 := 842 in
  let T3_31A_2 := 843 in let T3_31B_2 := 844 in let tr0_0_2 := 845 in let tr0_1_2 := 846 in let tr0_2_2 := 847 in let tr0_3_2 := 848 in
  let tr0_4_2 := 849 in let tr0_5_2 := 850 in let tr0_6_2 := 851 in let tr0_7_2 := 852 in let tr1_0_2 := 853 in let tr1_1_2 := 854 in
  let tr1_2_2 := 855 in let tr1_3_2 := 856 in let tr1_4_2 := 857 in let tr1_5_2 := 858 in let tr1_6_2 := 859 in let tr1_7_2 := 860 in
  let max_val := 861 in let min_val := 862 in
  [Set_ c16_p45_p45 (S32 8 (I 2949165));
   Set_ c16_p43_p44 (S32 8 (I 2818092));
   Set_ c16_p41_p45 (S32 8 (I 2687021));
   Set_ c16_p23_p34 (S32 8 (I 1507362));
   Set_ c16_p34_p44 (S32 8 (I 2228268));
   Set_ c16_n07_p15 (S32 8 (I (-458737)));
   Set_ c16_p43_p45 (S32 8 (I 2818093));
   Set_ c16_p23_p43 (S32 8 (I 1507371));
   Set_ c16_n34_n07 (S32 8 (I (-2162695)));
   Set_ c16_p11_p41 (S32 8 (I 720937));
   Set_ c16_n45_n27 (S32 8 (I (-2883611)));
   Set_ c16_n02_p39 (S32 8 (I (-131033)));
   Set_ c16_n36_n41 (S32 8 (I (-2293801)));
   Set_ c16_n15_p36 (S32 8 (I (-983004)));
   Set_ c16_n11_n45 (S32 8 (I (-655405)));
   Set_ c16_n27_p34 (S32 8 (I (-1769438)));
   Set_ c16_p19_n39 (S32 8 (I 1310681));
   Set_ c16_n36_p30 (S32 8 (I (-2359266)));
   Set_ c16_p41_n23 (S32 8 (I 2752489));
   Set_ c16_n43_p27 (S32 8 (I (-2818021)));
   Set_ c16_p44_n02 (S32 8 (I 2949118));
   Set_ c16_n45_p23 (S32 8 (I (-2949097)));
   Set_ c16_p27_p19 (S32 8 (I 1769491));
   Set_ c16_n44_p19 (S32 8 (I (-2883565)));
   Set_ c16_n02_p36 (S32 8 (I (-131036)));
   Set_ c16_n39_p15 (S32 8 (I (-2555889)));
   Set_ c16_n30_p45 (S32 8 (I (-1966035)));
   Set_ c16_n30_p11 (S32 8 (I (-1966069)));
   Set_ c16_n45_p43 (S32 8 (I (-2949077)));
   Set_ c16_n19_p07 (S32 8 (I (-1245177)));
   Set_ c16_n39_p30 (S32 8 (I (-2555874)));
   Set_ c16_n07_p02 (S32 8 (I (-458750)));
   Set_ c16_n15_p11 (S32 8 (I (-983029)));
   Set_ c16_p29_p43 (S32 8 (I 1900587));
   Set_ c16_p04_p40 (S32 8 (I 262184));
   Set_ c16_n21_p35 (S32 8 (I (-1376221)));
   Set_ c16_n40_p29 (S32 8 (I (-2621411)));
   Set_ c16_n45_p21 (S32 8 (I (-2949099)));
   Set_ c16_n35_p13 (S32 8 (I (-2293747)));
   Set_ c16_n13_p04 (S32 8 (I (-851964)));
   Set_ c16_p38_p44 (S32 8 (I 2490412));
   Set_ c16_n09_p38 (S32 8 (I (-589786)));
   Set_ c16_n44_p25 (S32 8 (I (-2883559)));
   Set_ c16_n25_p09 (S32 8 (I (-1638391)));
   Set_ c16_p32_p32 (S32 8 (I 2097184));
   Set_ c16_n32_p32 (S32 8 (I (-2097120)));
   Set_ c32_rnd (S32 8 (I 16));
   Set_ Zero_16 (S16 8 (I 0));
   SetI 0 (I 5);
   Set_ in00 (Ld 8 0);
   Set_ in01 (Ld 8 32);
   Set_ in02 (Ld 8 64);
   Set_ in03 (Ld 8 96);
   Set_ in04 (Ld 8 128);
   Set_ in05 (Ld 8 160);
   Set_ in06 (Ld 8 192);
   Set_ in07 (Ld 8 224);
   Set_ T_00_00A (lo16 (R in01) (R in03));
   Set_ T_00_00B (hi16 (R in01) (R in03));
   Set_ T_00_01A (lo16 (R in05) (R in07));
   Set_ T_00_01B (hi16 (R in05) (R in07));
   Set_ T_00_08A (lo16 (R in02) (R in06));
   Set_ T_00_08B (hi16 (R in02) (R in06));
   Set_ T_00_12A (lo16 (R in04) (R Zero_16))]
  ++ [Set_ T_00_12B (hi16 (R in04) (R Zero_16));
   Set_ T_00_15A (lo16 (R in00) (R Zero_16));
   Set_ T_00_15B (hi16 (R in00) (R Zero_16));
   Set_ O00A (add32 (madd (R T_00_00A) (R c16_p45_p45)) (madd (R T_00_01A) (R c16_p43_p44)));
   Set_ O01A (add32 (madd (R T_00_00A) (R c16_p41_p45)) (madd (R T_00_01A) (R c16_p23_p34)));
   Set_ O02A (add32 (madd (R T_00_00A) (R c16_p34_p44)) (madd (R T_00_01A) (R c16_n07_p15)));
   Set_ O03A (add32 (madd (R T_00_00A) (R c16_p23_p43)) (madd (R T_00_01A) (R c16_n34_n07)));
   Set_ O04A (add32 (madd (R T_00_00A) (R c16_p11_p41)) (madd (R T_00_01A) (R c16_n45_n27)));
   Set_ O05A (add32 (madd (R T_00_00A) (R c16_n02_p39)) (madd (R T_00_01A) (R c16_n36_n41)));
   Set_ O06A (add32 (madd (R T_00_00A) (R c16_n15_p36)) (madd (R T_00_01A) (R c16_n11_n45)));
   Set_ O07A (add32 (madd (R T_00_00A) (R c16_n27_p34)) (madd (R T_00_01A) (R c16_p19_n39)));
   Set_ O08A (add32 (madd (R T_00_00A) (R c16_n36_p30)) (madd (R T_00_01A) (R c16_p41_n23)));
   Set_ O09A (add32 (madd (R T_00_00A) (R c16_n43_p27)) (madd (R T_00_01A) (R c16_p44_n02)));
   Set_ O10A (add32 (madd (R T_00_00A) (R c16_n45_p23)) (madd (R T_00_01A) (R c16_p27_p19)));
   Set_ O11A (add32 (madd (R T_00_00A) (R c16_n44_p19)) (madd (R T_00_01A) (R c16_n02_p36)));
   Set_ O12A (add32 (madd (R T_00_00A) (R c16_n39_p15)) (madd (R T_00_01A) (R c16_n30_p45)));
   Set_ O13A (add32 (madd (R T_00_00A) (R c16_n30_p11)) (madd (R T_00_01A) (R c16_n45_p43)));
   Set_ O14A (add32 (madd (R T_00_00A) (R c16_n19_p07)) (madd (R T_00_01A) (R c16_n39_p30)));
   Set_ O15A (add32 (madd (R T_00_00A) (R c16_n07_p02)) (madd (R T_00_01A) (R c16_n15_p11)));
   Set_ O00B (add32 (madd (R T_00_00B) (R c16_p45_p45)) (madd (R T_00_01B) (R c16_p43_p44)));
   Set_ O01B (add32 (madd (R T_00_00B) (R c16_p41_p45)) (madd (R T_00_01B) (R c16_p23_p34)));
   Set_ O02B (add32 (madd (R T_00_00B) (R c16_p34_p44)) (madd (R T_00_01B) (R c16_n07_p15)));
   Set_ O03B (add32 (madd (R T_00_00B) (R c16_p23_p43)) (madd (R T_00_01B) (R c16_n34_n07)));
   Set_ O04B (add32 (madd (R T_00_00B) (R c16_p11_p41)) (madd (R T_00_01B) (R c16_n45_n27)));
   Set_ O05B (add32 (madd (R T_00_00B) (R c16_n02_p39)) (madd (R T_00_01B) (R c16_n36_n41)));
   Set_ O06B (add32 (madd (R T_00_00B) (R c16_n15_p36)) (madd (R T_00_01B) (R c16_n11_n45)));
   Set_ O07B (add32 (madd (R T_00_00B) (R c16_n27_p34)) (madd (R T_00_01B) (R c16_p19_n39)));
   Set_ O08B (add32 (madd (R T_00_00B) (R c16_n36_p30)) (madd (R T_00_01B) (R c16_p41_n23)));
   Set_ O09B (add32 (madd (R T_00_00B) (R c16_n43_p27)) (madd (R T_00_01B) (R c16_p44_n02)));
   Set_ O10B (add32 (madd (R T_00_00B) (R c16_n45_p23)) (madd (R T_00_01B) (R c16_p27_p19)));
   Set_ O11B (add32 (madd (R T_00_00B) (R c16_n44_p19)) (madd (R T_00_01B) (R c16_n02_p36)));
   Set_ O12B (add32 (madd (R T_00_00B) (R c16_n39_p15)) (madd (R T_00_01B) (R c16_n30_p45)));
   Set_ O13B (add32 (madd (R T_00_00B) (R c16_n30_p11)) (madd (R T_00_01B) (R c16_n45_p43)));
   Set_ O14B (add32 (madd (R T_00_00B) (R c16_n19_p07)) (madd (R T_00_01B) (R c16_n39_p30)));
   Set_ O15B (add32 (madd (R T_00_00B) (R c16_n07_p02)) (madd (R T_00_01B) (R c16_n15_p11)));
   Set_ EO0A (madd (R T_00_08A) (R c16_p43_p45));
   Set_ EO1A (madd (R T_00_08A) (R c16_p29_p43));
   Set_ EO2A (madd (R T_00_08A) (R c16_p04_p40));
   Set_ EO3A (madd (R T_00_08A) (R c16_n21_p35));
   Set_ EO4A (madd (R T_00_08A) (R c16_n40_p29));
   Set_ EO5A (madd (R T_00_08A) (R c16_n45_p21));
   Set_ EO6A (madd (R T_00_08A) (R c16_n35_p13));
   Set_ EO7A (madd (R T_00_08A) (R c16_n13_p04));
   Set_ EO0B (madd (R T_00_08B) (R c16_p43_p45));
   Set_ EO1B (madd (R T_00_08B) (R c16_p29_p43));
   Set_ EO2B (madd (R T_00_08B) (R c16_p04_p40));
   Set_ EO3B (madd (R T_00_08B) (R c16_n21_p35));
   Set_ EO4B (madd (R T_00_08B) (R c16_n40_p29));
   Set_ EO5B (madd (R T_00_08B) (R c16_n45_p21));
   Set_ EO6B (madd (R T_00_08B) (R c16_n35_p13));
   Set_ EO7B (madd (R T_00_08B) (R c16_n13_p04));
   Set_ EEO0A (madd (R T_00_12A) (R c16_p38_p44));
   Set_ EEO1A (madd (R T_00_12A) (R c16_n09_p38));
   Set_ EEO2A (madd (R T_00_12A) (R c16_n44_p25));
   Set_ EEO3A (madd (R T_00_12A) (R c16_n25_p09));
   Set_ EEO0B (madd (R T_00_12B) (R c16_p38_p44));
   Set_ EEO1B (madd (R T_00_12B) (R c16_n09_p38));
   Set_ EEO2B (madd (R T_00_12B) (R c16_n44_p25));
   Set_ EEO3B (madd (R T_00_12B) (R c16_n25_p09));
   Set_ EEEE0A (madd (R T_00_15A) (R c16_p32_p32));
   Set_ EEEE0B (madd (R T_00_15B) (R c16_p32_p32));
   Set_ EEEE1A (madd (R T_00_15A) (R c16_n32_p32));
   Set_ EEEE1B (madd (R T_00_15B) (R c16_n32_p32));
   Set_ EEE0A (R EEEE0A)]
  ++ [Set_ EEE0B (R EEEE0B);
   Set_ EEE1A (R EEEE1A);
   Set_ EEE1B (R EEEE1B);
   Set_ EEE3A (R EEEE0A);
   Set_ EEE3B (R EEEE0B);
   Set_ EEE2A (R EEEE1A);
   Set_ EEE2B (R EEEE1B);
   Set_ EE0A (add32 (R EEE0A) (R EEO0A));
   Set_ EE0B (add32 (R EEE0B) (R EEO0B));
   Set_ EE1A (add32 (R EEE1A) (R EEO1A));
   Set_ EE1B (add32 (R EEE1B) (R EEO1B));
   Set_ EE2A (add32 (R EEE2A) (R EEO2A));
   Set_ EE2B (add32 (R EEE2B) (R EEO2B));
   Set_ EE3A (add32 (R EEE3A) (R EEO3A));
   Set_ EE3B (add32 (R EEE3B) (R EEO3B));
   Set_ EE7A (sub32 (R EEE0A) (R EEO0A));
   Set_ EE7B (sub32 (R EEE0B) (R EEO0B));
   Set_ EE6A (sub32 (R EEE1A) (R EEO1A));
   Set_ EE6B (sub32 (R EEE1B) (R EEO1B));
   Set_ EE5A (sub32 (R EEE2A) (R EEO2A));
   Set_ EE5B (sub32 (R EEE2B) (R EEO2B));
   Set_ EE4A (sub32 (R EEE3A) (R EEO3A));
   Set_ EE4B (sub32 (R EEE3B) (R EEO3B));
   Set_ E0A (add32 (R EE0A) (R EO0A));
   Set_ E0B (add32 (R EE0B) (R EO0B));
   Set_ E1A (add32 (R EE1A) (R EO1A));
   Set_ E1B (add32 (R EE1B) (R EO1B));
   Set_ E2A (add32 (R EE2A) (R EO2A));
   Set_ E2B (add32 (R EE2B) (R EO2B));
   Set_ E3A (add32 (R EE3A) (R EO3A));
   Set_ E3B (add32 (R EE3B) (R EO3B));
   Set_ E4A (add32 (R EE4A) (R EO4A));
   Set_ E4B (add32 (R EE4B) (R EO4B));
   Set_ E5A (add32 (R EE5A) (R EO5A));
   Set_ E5B (add32 (R EE5B) (R EO5B));
   Set_ E6A (add32 (R EE6A) (R EO6A));
   Set_ E6B (add32 (R EE6B) (R EO6B));
   Set_ E7A (add32 (R EE7A) (R EO7A));
   Set_ E7B (add32 (R EE7B) (R EO7B));
   Set_ EFA (sub32 (R EE0A) (R EO0A));
   Set_ EFB (sub32 (R EE0B) (R EO0B));
   Set_ EEA (sub32 (R EE1A) (R EO1A));
   Set_ EEB (sub32 (R EE1B) (R EO1B));
   Set_ EDA (sub32 (R EE2A) (R EO2A));
   Set_ EDB (sub32 (R EE2B) (R EO2B));
   Set_ ECA (sub32 (R EE3A) (R EO3A));
   Set_ ECB (sub32 (R EE3B) (R EO3B));
   Set_ EBA (sub32 (R EE4A) (R EO4A));
   Set_ EBB (sub32 (R EE4B) (R EO4B));
   Set_ EAA (sub32 (R EE5A) (R EO5A));
   Set_ EAB (sub32 (R EE5B) (R EO5B));
   Set_ E9A (sub32 (R EE6A) (R EO6A));
   Set_ E9B (sub32 (R EE6B) (R EO6B));
   Set_ E8A (sub32 (R EE7A) (R EO7A));
   Set_ E8B (sub32 (R EE7B) (R EO7B));
   Set_ T10A (add32 (R E0A) (R c32_rnd));
   Set_ T10B (add32 (R E0B) (R c32_rnd));
   Set_ T11A (add32 (R E1A) (R c32_rnd));
   Set_ T11B (add32 (R E1B) (R c32_rnd));
   Set_ T12A (add32 (R E2A) (R c32_rnd));
   Set_ T12B (add32 (R E2B) (R c32_rnd));
   Set_ T13A (add32 (R E3A) (R c32_rnd));
   Set_ T13B (add32 (R E3B) (R c32_rnd));
   Set_ T14A (add32 (R E4A) (R c32_rnd))]
  ++ [Set_ T14B (add32 (R E4B) (R c32_rnd));
   Set_ T15A (add32 (R E5A) (R c32_rnd));
   Set_ T15B (add32 (R E5B) (R c32_rnd));
   Set_ T16A (add32 (R E6A) (R c32_rnd));
   Set_ T16B (add32 (R E6B) (R c32_rnd));
   Set_ T17A (add32 (R E7A) (R c32_rnd));
   Set_ T17B (add32 (R E7B) (R c32_rnd));
   Set_ T18A (add32 (R E8A) (R c32_rnd));
   Set_ T18B (add32 (R E8B) (R c32_rnd));
   Set_ T19A (add32 (R E9A) (R c32_rnd));
   Set_ T19B (add32 (R E9B) (R c32_rnd));
   Set_ T1AA (add32 (R EAA) (R c32_rnd));
   Set_ T1AB (add32 (R EAB) (R c32_rnd));
   Set_ T1BA (add32 (R EBA) (R c32_rnd));
   Set_ T1BB (add32 (R EBB) (R c32_rnd));
   Set_ T1CA (add32 (R ECA) (R c32_rnd));
   Set_ T1CB (add32 (R ECB) (R c32_rnd));
   Set_ T1DA (add32 (R EDA) (R c32_rnd));
   Set_ T1DB (add32 (R EDB) (R c32_rnd));
   Set_ T1EA (add32 (R EEA) (R c32_rnd));
   Set_ T1EB (add32 (R EEB) (R c32_rnd));
   Set_ T1FA (add32 (R EFA) (R c32_rnd));
   Set_ T1FB (add32 (R EFB) (R c32_rnd));
   Set_ T2_00A (add32 (R T10A) (R O00A));
   Set_ T2_00B (add32 (R T10B) (R O00B));
   Set_ T2_01A (add32 (R T11A) (R O01A));
   Set_ T2_01B (add32 (R T11B) (R O01B));
   Set_ T2_02A (add32 (R T12A) (R O02A));
   Set_ T2_02B (add32 (R T12B) (R O02B));
   Set_ T2_03A (add32 (R T13A) (R O03A));
   Set_ T2_03B (add32 (R T13B) (R O03B));
   Set_ T2_04A (add32 (R T14A) (R O04A));
   Set_ T2_04B (add32 (R T14B) (R O04B));
   Set_ T2_05A (add32 (R T15A) (R O05A));
   Set_ T2_05B (add32 (R T15B) (R O05B));
   Set_ T2_06A (add32 (R T16A) (R O06A));
   Set_ T2_06B (add32 (R T16B) (R O06B));
   Set_ T2_07A (add32 (R T17A) (R O07A));
   Set_ T2_07B (add32 (R T17B) (R O07B));
   Set_ T2_08A (add32 (R T18A) (R O08A));
   Set_ T2_08B (add32 (R T18B) (R O08B));
   Set_ T2_09A (add32 (R T19A) (R O09A));
   Set_ T2_09B (add32 (R T19B) (R O09B));
   Set_ T2_10A (add32 (R T1AA) (R O10A));
   Set_ T2_10B (add32 (R T1AB) (R O10B));
   Set_ T2_11A (add32 (R T1BA) (R O11A));
   Set_ T2_11B (add32 (R T1BB) (R O11B));
   Set_ T2_12A (add32 (R T1CA) (R O12A));
   Set_ T2_12B (add32 (R T1CB) (R O12B));
   Set_ T2_13A (add32 (R T1DA) (R O13A));
   Set_ T2_13B (add32 (R T1DB) (R O13B));
   Set_ T2_14A (add32 (R T1EA) (R O14A));
   Set_ T2_14B (add32 (R T1EB) (R O14B));
   Set_ T2_15A (add32 (R T1FA) (R O15A));
   Set_ T2_15B (add32 (R T1FB) (R O15B));
   Set_ T2_31A (sub32 (R T10A) (R O00A));
   Set_ T2_31B (sub32 (R T10B) (R O00B));
   Set_ T2_30A (sub32 (R T11A) (R O01A));
   Set_ T2_30B (sub32 (R T11B) (R O01B));
   Set_ T2_29A (sub32 (R T12A) (R O02A));
   Set_ T2_29B (sub32 (R T12B) (R O02B));
   Set_ T2_28A (sub32 (R T13A) (R O03A));
   Set_ T2_28B (sub32 (R T13B) (R O03B));
   Set_ T2_27A (sub32 (R T14A) (R O04A))]
  ++ [Set_ T2_27B (sub32 (R T14B) (R O04B));
   Set_ T2_26A (sub32 (R T15A) (R O05A));
   Set_ T2_26B (sub32 (R T15B) (R O05B));
   Set_ T2_25A (sub32 (R T16A) (R O06A));
   Set_ T2_25B (sub32 (R T16B) (R O06B));
   Set_ T2_24A (sub32 (R T17A) (R O07A));
   Set_ T2_24B (sub32 (R T17B) (R O07B));
   Set_ T2_23A (sub32 (R T18A) (R O08A));
   Set_ T2_23B (sub32 (R T18B) (R O08B));
   Set_ T2_22A (sub32 (R T19A) (R O09A));
   Set_ T2_22B (sub32 (R T19B) (R O09B));
   Set_ T2_21A (sub32 (R T1AA) (R O10A));
   Set_ T2_21B (sub32 (R T1AB) (R O10B));
   Set_ T2_20A (sub32 (R T1BA) (R O11A));
   Set_ T2_20B (sub32 (R T1BB) (R O11B));
   Set_ T2_19A (sub32 (R T1CA) (R O12A));
   Set_ T2_19B (sub32 (R T1CB) (R O12B));
   Set_ T2_18A (sub32 (R T1DA) (R O13A));
   Set_ T2_18B (sub32 (R T1DB) (R O13B));
   Set_ T2_17A (sub32 (R T1EA) (R O14A));
   Set_ T2_17B (sub32 (R T1EB) (R O14B));
   Set_ T2_16A (sub32 (R T1FA) (R O15A));
   Set_ T2_16B (sub32 (R T1FB) (R O15B));
   Set_ T3_00A (Sra32 (R T2_00A) (X 0));
   Set_ T3_00B (Sra32 (R T2_00B) (X 0));
   Set_ T3_01A (Sra32 (R T2_01A) (X 0));
   Set_ T3_01B (Sra32 (R T2_01B) (X 0));
   Set_ T3_02A (Sra32 (R T2_02A) (X 0));
   Set_ T3_02B (Sra32 (R T2_02B) (X 0));
   Set_ T3_03A (Sra32 (R T2_03A) (X 0));
   Set_ T3_03B (Sra32 (R T2_03B) (X 0));
   Set_ T3_04A (Sra32 (R T2_04A) (X 0));
   Set_ T3_04B (Sra32 (R T2_04B) (X 0));
   Set_ T3_05A (Sra32 (R T2_05A) (X 0));
   Set_ T3_05B (Sra32 (R T2_05B) (X 0));
   Set_ T3_06A (Sra32 (R T2_06A) (X 0));
   Set_ T3_06B (Sra32 (R T2_06B) (X 0));
   Set_ T3_07A (Sra32 (R T2_07A) (X 0));
   Set_ T3_07B (Sra32 (R T2_07B) (X 0));
   Set_ T3_08A (Sra32 (R T2_08A) (X 0));
   Set_ T3_08B (Sra32 (R T2_08B) (X 0));
   Set_ T3_09A (Sra32 (R T2_09A) (X 0));
   Set_ T3_09B (Sra32 (R T2_09B) (X 0));
   Set_ T3_10A (Sra32 (R T2_10A) (X 0));
   Set_ T3_10B (Sra32 (R T2_10B) (X 0));
   Set_ T3_11A (Sra32 (R T2_11A) (X 0));
   Set_ T3_11B (Sra32 (R T2_11B) (X 0));
   Set_ T3_12A (Sra32 (R T2_12A) (X 0));
   Set_ T3_12B (Sra32 (R T2_12B) (X 0));
   Set_ T3_13A (Sra32 (R T2_13A) (X 0));
   Set_ T3_13B (Sra32 (R T2_13B) (X 0));
   Set_ T3_14A (Sra32 (R T2_14A) (X 0));
   Set_ T3_14B (Sra32 (R T2_14B) (X 0));
   Set_ T3_15A (Sra32 (R T2_15A) (X 0));
   Set_ T3_15B (Sra32 (R T2_15B) (X 0));
   Set_ T3_16A (Sra32 (R T2_16A) (X 0));
   Set_ T3_16B (Sra32 (R T2_16B) (X 0));
   Set_ T3_17A (Sra32 (R T2_17A) (X 0));
   Set_ T3_17B (Sra32 (R T2_17B) (X 0));
   Set_ T3_18A (Sra32 (R T2_18A) (X 0));
   Set_ T3_18B (Sra32 (R T2_18B) (X 0));
   Set_ T3_19A (Sra32 (R T2_19A) (X 0));
   Set_ T3_19B (Sra32 (R T2_19B) (X 0));
   Set_ T3_20A (Sra32 (R T2_20A) (X 0))]
  ++ [Set_ T3_20B (Sra32 (R T2_20B) (X 0));
   Set_ T3_21A (Sra32 (R T2_21A) (X 0));
   Set_ T3_21B (Sra32 (R T2_21B) (X 0));
   Set_ T3_22A (Sra32 (R T2_22A) (X 0));
   Set_ T3_22B (Sra32 (R T2_22B) (X 0));
   Set_ T3_23A (Sra32 (R T2_23A) (X 0));
   Set_ T3_23B (Sra32 (R T2_23B) (X 0));
   Set_ T3_24A (Sra32 (R T2_24A) (X 0));
   Set_ T3_24B (Sra32 (R T2_24B) (X 0));
   Set_ T3_25A (Sra32 (R T2_25A) (X 0));
   Set_ T3_25B (Sra32 (R T2_25B) (X 0));
   Set_ T3_26A (Sra32 (R T2_26A) (X 0));
   Set_ T3_26B (Sra32 (R T2_26B) (X 0));
   Set_ T3_27A (Sra32 (R T2_27A) (X 0));
   Set_ T3_27B (Sra32 (R T2_27B) (X 0));
   Set_ T3_28A (Sra32 (R T2_28A) (X 0));
   Set_ T3_28B (Sra32 (R T2_28B) (X 0));
   Set_ T3_29A (Sra32 (R T2_29A) (X 0));
   Set_ T3_29B (Sra32 (R T2_29B) (X 0));
   Set_ T3_30A (Sra32 (R T2_30A) (X 0));
   Set_ T3_30B (Sra32 (R T2_30B) (X 0));
   Set_ T3_31A (Sra32 (R T2_31A) (X 0));
   Set_ T3_31B (Sra32 (R T2_31B) (X 0));
   Set_ res00 (packs32 (R T3_00A) (R T3_00B));
   Set_ res01 (packs32 (R T3_01A) (R T3_01B));
   Set_ res02 (packs32 (R T3_02A) (R T3_02B));
   Set_ res03 (packs32 (R T3_03A) (R T3_03B));
   Set_ res04 (packs32 (R T3_04A) (R T3_04B));
   Set_ res05 (packs32 (R T3_05A) (R T3_05B));
   Set_ res06 (packs32 (R T3_06A) (R T3_06B));
   Set_ res07 (packs32 (R T3_07A) (R T3_07B));
   Set_ res08 (packs32 (R T3_08A) (R T3_08B));
   Set_ res09 (packs32 (R T3_09A) (R T3_09B));
   Set_ res10 (packs32 (R T3_10A) (R T3_10B));
   Set_ res11 (packs32 (R T3_11A) (R T3_11B));
   Set_ res12 (packs32 (R T3_12A) (R T3_12B));
   Set_ res13 (packs32 (R T3_13A) (R T3_13B));
   Set_ res14 (packs32 (R T3_14A) (R T3_14B));
   Set_ res15 (packs32 (R T3_15A) (R T3_15B));
   Set_ res16 (packs32 (R T3_16A) (R T3_16B));
   Set_ res17 (packs32 (R T3_17A) (R T3_17B));
   Set_ res18 (packs32 (R T3_18A) (R T3_18B));
   Set_ res19 (packs32 (R T3_19A) (R T3_19B));
   Set_ res20 (packs32 (R T3_20A) (R T3_20B));
   Set_ res21 (packs32 (R T3_21A) (R T3_21B));
   Set_ res22 (packs32 (R T3_22A) (R T3_22B));
   Set_ res23 (packs32 (R T3_23A) (R T3_23B));
   Set_ res24 (packs32 (R T3_24A) (R T3_24B));
   Set_ res25 (packs32 (R T3_25A) (R T3_25B));
   Set_ res26 (packs32 (R T3_26A) (R T3_26B));
   Set_ res27 (packs32 (R T3_27A) (R T3_27B));
   Set_ res28 (packs32 (R T3_28A) (R T3_28B));
   Set_ res29 (packs32 (R T3_29A) (R T3_29B));
   Set_ res30 (packs32 (R T3_30A) (R T3_30B));
   Set_ res31 (packs32 (R T3_31A) (R T3_31B));
   Set_ tr0_0 (lo16 (R res00) (R res01));
   Set_ tr0_1 (lo16 (R res02) (R res03));
   Set_ tr0_2 (hi16 (R res00) (R res01));
   Set_ tr0_3 (hi16 (R res02) (R res03));
   Set_ tr0_4 (lo16 (R res04) (R res05));
   Set_ tr0_5 (lo16 (R res06) (R res07));
   Set_ tr0_6 (hi16 (R res04) (R res05));
   Set_ tr0_7 (hi16 (R res06) (R res07));
   Set_ tr1_0 (lo32 (R tr0_0) (R tr0_1))]
  ++ [Set_ tr1_1 (lo32 (R tr0_2) (R tr0_3));
   Set_ tr1_2 (hi32 (R tr0_0) (R tr0_1));
   Set_ tr1_3 (hi32 (R tr0_2) (R tr0_3));
   Set_ tr1_4 (lo32 (R tr0_4) (R tr0_5));
   Set_ tr1_5 (lo32 (R tr0_6) (R tr0_7));
   Set_ tr1_6 (hi32 (R tr0_4) (R tr0_5));
   Set_ tr1_7 (hi32 (R tr0_6) (R tr0_7));
   Set_ in00 (lo64 (R tr1_0) (R tr1_4));
   Set_ in01 (hi64 (R tr1_0) (R tr1_4));
   Set_ in02 (lo64 (R tr1_2) (R tr1_6));
   Set_ in03 (hi64 (R tr1_2) (R tr1_6));
   Set_ in04 (lo64 (R tr1_1) (R tr1_5));
   Set_ in05 (hi64 (R tr1_1) (R tr1_5));
   Set_ in06 (lo64 (R tr1_3) (R tr1_7));
   Set_ in07 (hi64 (R tr1_3) (R tr1_7));
   Set_ tr0_0 (lo16 (R res08) (R res09));
   Set_ tr0_1 (lo16 (R res10) (R res11));
   Set_ tr0_2 (hi16 (R res08) (R res09));
   Set_ tr0_3 (hi16 (R res10) (R res11));
   Set_ tr0_4 (lo16 (R res12) (R res13));
   Set_ tr0_5 (lo16 (R res14) (R res15));
   Set_ tr0_6 (hi16 (R res12) (R res13));
   Set_ tr0_7 (hi16 (R res14) (R res15));
   Set_ tr1_0 (lo32 (R tr0_0) (R tr0_1));
   Set_ tr1_1 (lo32 (R tr0_2) (R tr0_3));
   Set_ tr1_2 (hi32 (R tr0_0) (R tr0_1));
   Set_ tr1_3 (hi32 (R tr0_2) (R tr0_3));
   Set_ tr1_4 (lo32 (R tr0_4) (R tr0_5));
   Set_ tr1_5 (lo32 (R tr0_6) (R tr0_7));
   Set_ tr1_6 (hi32 (R tr0_4) (R tr0_5));
   Set_ tr1_7 (hi32 (R tr0_6) (R tr0_7));
   Set_ (in00 + 1) (lo64 (R tr1_0) (R tr1_4));
   Set_ (in01 + 1) (hi64 (R tr1_0) (R tr1_4));
   Set_ (in02 + 1) (lo64 (R tr1_2) (R tr1_6));
   Set_ (in03 + 1) (hi64 (R tr1_2) (R tr1_6));
   Set_ (in04 + 1) (lo64 (R tr1_1) (R tr1_5));
   Set_ (in05 + 1) (hi64 (R tr1_1) (R tr1_5));
   Set_ (in06 + 1) (lo64 (R tr1_3) (R tr1_7));
   Set_ (in07 + 1) (hi64 (R tr1_3) (R tr1_7));
   Set_ tr0_0 (lo16 (R res16) (R res17));
   Set_ tr0_1 (lo16 (R res18) (R res19));
   Set_ tr0_2 (hi16 (R res16) (R res17));
   Set_ tr0_3 (hi16 (R res18) (R res19));
   Set_ tr0_4 (lo16 (R res20) (R res21));
   Set_ tr0_5 (lo16 (R res22) (R res23));
   Set_ tr0_6 (hi16 (R res20) (R res21));
   Set_ tr0_7 (hi16 (R res22) (R res23));
   Set_ tr1_0 (lo32 (R tr0_0) (R tr0_1));
   Set_ tr1_1 (lo32 (R tr0_2) (R tr0_3));
   Set_ tr1_2 (hi32 (R tr0_0) (R tr0_1));
   Set_ tr1_3 (hi32 (R tr0_2) (R tr0_3));
   Set_ tr1_4 (lo32 (R tr0_4) (R tr0_5));
   Set_ tr1_5 (lo32 (R tr0_6) (R tr0_7));
   Set_ tr1_6 (hi32 (R tr0_4) (R tr0_5));
   Set_ tr1_7 (hi32 (R tr0_6) (R tr0_7));
   Set_ (in00 + 2) (lo64 (R tr1_0) (R tr1_4));
   Set_ (in01 + 2) (hi64 (R tr1_0) (R tr1_4));
   Set_ (in02 + 2) (lo64 (R tr1_2) (R tr1_6));
   Set_ (in03 + 2) (hi64 (R tr1_2) (R tr1_6));
   Set_ (in04 + 2) (lo64 (R tr1_1) (R tr1_5));
   Set_ (in05 + 2) (hi64 (R tr1_1) (R tr1_5));
   Set_ (in06 + 2) (lo64 (R tr1_3) (R tr1_7));
   Set_ (in07 + 2) (hi64 (R tr1_3) (R tr1_7));
   Set_ tr0_0 (lo16 (R res24) (R res25))]
  ++ [Set_ tr0_1 (lo16 (R res26) (R res27));
   Set_ tr0_2 (hi16 (R res24) (R res25));
   Set_ tr0_3 (hi16 (R res26) (R res27));
   Set_ tr0_4 (lo16 (R res28) (R res29));
   Set_ tr0_5 (lo16 (R res30) (R res31));
   Set_ tr0_6 (hi16 (R res28) (R res29));
   Set_ tr0_7 (hi16 (R res30) (R res31));
   Set_ tr1_0 (lo32 (R tr0_0) (R tr0_1));
   Set_ tr1_1 (lo32 (R tr0_2) (R tr0_3));
   Set_ tr1_2 (hi32 (R tr0_0) (R tr0_1));
   Set_ tr1_3 (hi32 (R tr0_2) (R tr0_3));
   Set_ tr1_4 (lo32 (R tr0_4) (R tr0_5));
   Set_ tr1_5 (lo32 (R tr0_6) (R tr0_7));
   Set_ tr1_6 (hi32 (R tr0_4) (R tr0_5));
   Set_ tr1_7 (hi32 (R tr0_6) (R tr0_7));
   Set_ (in00 + 3) (lo64 (R tr1_0) (R tr1_4));
   Set_ (in01 + 3) (hi64 (R tr1_0) (R tr1_4));
   Set_ (in02 + 3) (lo64 (R tr1_2) (R tr1_6));
   Set_ (in03 + 3) (hi64 (R tr1_2) (R tr1_6));
   Set_ (in04 + 3) (lo64 (R tr1_1) (R tr1_5));
   Set_ (in05 + 3) (hi64 (R tr1_1) (R tr1_5));
   Set_ (in06 + 3) (lo64 (R tr1_3) (R tr1_7));
   Set_ (in07 + 3) (hi64 (R tr1_3) (R tr1_7));
   Set_ c32_rnd (S32 8 (Q RND2));
   SetI 0 (Q SH2)]
  ++ loop 4 (fun part =>
    [Set_ T_00_00_A (lo16 (R (in01 + part)) (R (in03 + part)));
     Set_ T_00_00_B (hi16 (R (in01 + part)) (R (in03 + part)));
     Set_ T_00_01_A (lo16 (R (in05 + part)) (R (in07 + part)));
     Set_ T_00_01_B (hi16 (R (in05 + part)) (R (in07 + part)));
     Set_ T_00_08_A (lo16 (R (in02 + part)) (R (in06 + part)));
     Set_ T_00_08_B (hi16 (R (in02 + part)) (R (in06 + part)));
     Set_ T_00_12_A (lo16 (R (in04 + part)) (R Zero_16));
     Set_ T_00_12_B (hi16 (R (in04 + part)) (R Zero_16));
     Set_ T_00_15_A (lo16 (R (in00 + part)) (R Zero_16));
     Set_ T_00_15_B (hi16 (R (in00 + part)) (R Zero_16));
     Set_ O00A (add32 (madd (R T_00_00_A) (R c16_p45_p45)) (madd (R T_00_01_A) (R c16_p43_p44)));
     Set_ O01A (add32 (madd (R T_00_00_A) (R c16_p41_p45)) (madd (R T_00_01_A) (R c16_p23_p34)));
     Set_ O02A (add32 (madd (R T_00_00_A) (R c16_p34_p44)) (madd (R T_00_01_A) (R c16_n07_p15)));
     Set_ O03A (add32 (madd (R T_00_00_A) (R c16_p23_p43)) (madd (R T_00_01_A) (R c16_n34_n07)));
     Set_ O04A (add32 (madd (R T_00_00_A) (R c16_p11_p41)) (madd (R T_00_01_A) (R c16_n45_n27)));
     Set_ O05A (add32 (madd (R T_00_00_A) (R c16_n02_p39)) (madd (R T_00_01_A) (R c16_n36_n41)));
     Set_ O06A (add32 (madd (R T_00_00_A) (R c16_n15_p36)) (madd (R T_00_01_A) (R c16_n11_n45)));
     Set_ O07A (add32 (madd (R T_00_00_A) (R c16_n27_p34)) (madd (R T_00_01_A) (R c16_p19_n39)));
     Set_ O08A (add32 (madd (R T_00_00_A) (R c16_n36_p30)) (madd (R T_00_01_A) (R c16_p41_n23)));
     Set_ O09A (add32 (madd (R T_00_00_A) (R c16_n43_p27)) (madd (R T_00_01_A) (R c16_p44_n02)));
     Set_ O10A (add32 (madd (R T_00_00_A) (R c16_n45_p23)) (madd (R T_00_01_A) (R c16_p27_p19)));
     Set_ O11A (add32 (madd (R T_00_00_A) (R c16_n44_p19)) (madd (R T_00_01_A) (R c16_n02_p36)));
     Set_ O12A (add32 (madd (R T_00_00_A) (R c16_n39_p15)) (madd (R T_00_01_A) (R c16_n30_p45)));
     Set_ O13A (add32 (madd (R T_00_00_A) (R c16_n30_p11)) (madd (R T_00_01_A) (R c16_n45_p43)));
     Set_ O14A (add32 (madd (R T_00_00_A) (R c16_n19_p07)) (madd (R T_00_01_A) (R c16_n39_p30)));
     Set_ O15A (add32 (madd (R T_00_00_A) (R c16_n07_p02)) (madd (R T_00_01_A) (R c16_n15_p11)));
     Set_ O00B (add32 (madd (R T_00_00_B) (R c16_p45_p45)) (madd (R T_00_01_B) (R c16_p43_p44)));
     Set_ O01B (add32 (madd (R T_00_00_B) (R c16_p41_p45)) (madd (R T_00_01_B) (R c16_p23_p34)));
     Set_ O02B (add32 (madd (R T_00_00_B) (R c16_p34_p44)) (madd (R T_00_01_B) (R c16_n07_p15)));
     Set_ O03B (add32 (madd (R T_00_00_B) (R c16_p23_p43)) (madd (R T_00_01_B) (R c16_n34_n07)));
     Set_ O04B (add32 (madd (R T_00_00_B) (R c16_p11_p41)) (madd (R T_00_01_B) (R c16_n45_n27)));
     Set_ O05B (add32 (madd (R T_00_00_B) (R c16_n02_p39)) (madd (R T_00_01_B) (R c16_n36_n41)));
     Set_ O06B (add32 (madd (R T_00_00_B) (R c16_n15_p36)) (madd (R T_00_01_B) (R c16_n11_n45)));
     Set_ O07B (add32 (madd (R T_00_00_B) (R c16_n27_p34)) (madd (R T_00_01_B) (R c16_p19_n39)));
     Set_ O08B (add32 (madd (R T_00_00_B) (R c16_n36_p30)) (madd (R T_00_01_B) (R c16_p41_n23)));
     Set_ O09B (add32 (madd (R T_00_00_B) (R c16_n43_p27)) (madd (R T_00_01_B) (R c16_p44_n02)));
     Set_ O10B (add32 (madd (R T_00_00_B) (R c16_n45_p23)) (madd (R T_00_01_B) (R c16_p27_p19)));
     Set_ O11B (add32 (madd (R T_00_00_B) (R c16_n44_p19)) (madd (R T_00_01_B) (R c16_n02_p36)));
     Set_ O12B (add32 (madd (R T_00_00_B) (R c16_n39_p15)) (madd (R T_00_01_B) (R c16_n30_p45)));
     Set_ O13B (add32 (madd (R T_00_00_B) (R c16_n30_p11)) (madd (R T_00_01_B) (R c16_n45_p43)));
     Set_ O14B (add32 (madd (R T_00_00_B) (R c16_n19_p07)) (madd (R T_00_01_B) (R c16_n39_p30)));
     Set_ O15B (add32 (madd (R T_00_00_B) (R c16_n07_p02)) (madd (R T_00_01_B) (R c16_n15_p11)));
     Set_ EO0A (madd (R T_00_08_A) (R c16_p43_p45));
     Set_ EO1A (madd (R T_00_08_A) (R c16_p29_p43));
     Set_ EO2A (madd (R T_00_08_A) (R c16_p04_p40));
     Set_ EO3A (madd (R T_00_08_A) (R c16_n21_p35));
     Set_ EO4A (madd (R T_00_08_A) (R c16_n40_p29));
     Set_ EO5A (madd (R T_00_08_A) (R c16_n45_p21));
     Set_ EO6A (madd (R T_00_08_A) (R c16_n35_p13));
     Set_ EO7A (madd (R T_00_08_A) (R c16_n13_p04));
     Set_ EO0B (madd (R T_00_08_B) (R c16_p43_p45));
     Set_ EO1B (madd (R T_00_08_B) (R c16_p29_p43));
     Set_ EO2B (madd (R T_00_08_B) (R c16_p04_p40));
     Set_ EO3B (madd (R T_00_08_B) (R c16_n21_p35));
     Set_ EO4B (madd (R T_00_08_B) (R c16_n40_p29));
     Set_ EO5B (madd (R T_00_08_B) (R c16_n45_p21));
     Set_ EO6B (madd (R T_00_08_B) (R c16_n35_p13));
     Set_ EO7B (madd (R T_00_08_B) (R c16_n13_p04));
     Set_ EEO0A_2 (madd (R T_00_12_A) (R c16_p38_p44));
     Set_ EEO1A_2 (madd (R T_00_12_A) (R c16_n09_p38));
     Set_ EEO2A_2 (madd (R T_00_12_A) (R c16_n44_p25));
     Set_ EEO3A_2 (madd (R T_00_12_A) (R c16_n25_p09));
     Set_ EEO0B_2 (madd (R T_00_12_B) (R c16_p38_p44));
     Set_ EEO1B_2 (madd (R T_00_12_B) (R c16_n09_p38))]
    ++ [Set_ EEO2B_2 (madd (R T_00_12_B) (R c16_n44_p25));
     Set_ EEO3B_2 (madd (R T_00_12_B) (R c16_n25_p09));
     Set_ EEEE0A_2 (madd (R T_00_15_A) (R c16_p32_p32));
     Set_ EEEE0B_2 (madd (R T_00_15_B) (R c16_p32_p32));
     Set_ EEEE1A_2 (madd (R T_00_15_A) (R c16_n32_p32));
     Set_ EEEE1B_2 (madd (R T_00_15_B) (R c16_n32_p32));
     Set_ EEE0A_2 (R EEEE0A_2);
     Set_ EEE0B_2 (R EEEE0B_2);
     Set_ EEE1A_2 (R EEEE1A_2);
     Set_ EEE1B_2 (R EEEE1B_2);
     Set_ EEE3A_2 (R EEEE0A_2);
     Set_ EEE3B_2 (R EEEE0B_2);
     Set_ EEE2A_2 (R EEEE1A_2);
     Set_ EEE2B_2 (R EEEE1B_2);
     Set_ EE0A_2 (add32 (R EEE0A_2) (R EEO0A_2));
     Set_ EE0B_2 (add32 (R EEE0B_2) (R EEO0B_2));
     Set_ EE1A_2 (add32 (R EEE1A_2) (R EEO1A_2));
     Set_ EE1B_2 (add32 (R EEE1B_2) (R EEO1B_2));
     Set_ EE2A_2 (add32 (R EEE2A_2) (R EEO2A_2));
     Set_ EE2B_2 (add32 (R EEE2B_2) (R EEO2B_2));
     Set_ EE3A_2 (add32 (R EEE3A_2) (R EEO3A_2));
     Set_ EE3B_2 (add32 (R EEE3B_2) (R EEO3B_2));
     Set_ EE7A_2 (sub32 (R EEE0A_2) (R EEO0A_2));
     Set_ EE7B_2 (sub32 (R EEE0B_2) (R EEO0B_2));
     Set_ EE6A_2 (sub32 (R EEE1A_2) (R EEO1A_2));
     Set_ EE6B_2 (sub32 (R EEE1B_2) (R EEO1B_2));
     Set_ EE5A_2 (sub32 (R EEE2A_2) (R EEO2A_2));
     Set_ EE5B_2 (sub32 (R EEE2B_2) (R EEO2B_2));
     Set_ EE4A_2 (sub32 (R EEE3A_2) (R EEO3A_2));
     Set_ EE4B_2 (sub32 (R EEE3B_2) (R EEO3B_2));
     Set_ E0A_2 (add32 (R EE0A_2) (R EO0A));
     Set_ E0B_2 (add32 (R EE0B_2) (R EO0B));
     Set_ E1A_2 (add32 (R EE1A_2) (R EO1A));
     Set_ E1B_2 (add32 (R EE1B_2) (R EO1B));
     Set_ E2A_2 (add32 (R EE2A_2) (R EO2A));
     Set_ E2B_2 (add32 (R EE2B_2) (R EO2B));
     Set_ E3A_2 (add32 (R EE3A_2) (R EO3A));
     Set_ E3B_2 (add32 (R EE3B_2) (R EO3B));
     Set_ E4A_2 (add32 (R EE4A_2) (R EO4A));
     Set_ E4B_2 (add32 (R EE4B_2) (R EO4B));
     Set_ E5A_2 (add32 (R EE5A_2) (R EO5A));
     Set_ E5B_2 (add32 (R EE5B_2) (R EO5B));
     Set_ E6A_2 (add32 (R EE6A_2) (R EO6A));
     Set_ E6B_2 (add32 (R EE6B_2) (R EO6B));
     Set_ E7A_2 (add32 (R EE7A_2) (R EO7A));
     Set_ E7B_2 (add32 (R EE7B_2) (R EO7B));
     Set_ EFA_2 (sub32 (R EE0A_2) (R EO0A));
     Set_ EFB_2 (sub32 (R EE0B_2) (R EO0B));
     Set_ EEA_2 (sub32 (R EE1A_2) (R EO1A));
     Set_ EEB_2 (sub32 (R EE1B_2) (R EO1B));
     Set_ EDA_2 (sub32 (R EE2A_2) (R EO2A));
     Set_ EDB_2 (sub32 (R EE2B_2) (R EO2B));
     Set_ ECA_2 (sub32 (R EE3A_2) (R EO3A));
     Set_ ECB_2 (sub32 (R EE3B_2) (R EO3B));
     Set_ EBA_2 (sub32 (R EE4A_2) (R EO4A));
     Set_ EBB_2 (sub32 (R EE4B_2) (R EO4B));
     Set_ EAA_2 (sub32 (R EE5A_2) (R EO5A));
     Set_ EAB_2 (sub32 (R EE5B_2) (R EO5B));
     Set_ E9A_2 (sub32 (R EE6A_2) (R EO6A));
     Set_ E9B_2 (sub32 (R EE6B_2) (R EO6B));
     Set_ E8A_2 (sub32 (R EE7A_2) (R EO7A));
     Set_ E8B_2 (sub32 (R EE7B_2) (R EO7B));
     Set_ T10A_2 (add32 (R E0A_2) (R c32_rnd));
     Set_ T10B_2 (add32 (R E0B_2) (R c32_rnd))]
    ++ [Set_ T11A_2 (add32 (R E1A_2) (R c32_rnd));
     Set_ T11B_2 (add32 (R E1B_2) (R c32_rnd));
     Set_ T12A_2 (add32 (R E2A_2) (R c32_rnd));
     Set_ T12B_2 (add32 (R E2B_2) (R c32_rnd));
     Set_ T13A_2 (add32 (R E3A_2) (R c32_rnd));
     Set_ T13B_2 (add32 (R E3B_2) (R c32_rnd));
     Set_ T14A_2 (add32 (R E4A_2) (R c32_rnd));
     Set_ T14B_2 (add32 (R E4B_2) (R c32_rnd));
     Set_ T15A_2 (add32 (R E5A_2) (R c32_rnd));
     Set_ T15B_2 (add32 (R E5B_2) (R c32_rnd));
     Set_ T16A_2 (add32 (R E6A_2) (R c32_rnd));
     Set_ T16B_2 (add32 (R E6B_2) (R c32_rnd));
     Set_ T17A_2 (add32 (R E7A_2) (R c32_rnd));
     Set_ T17B_2 (add32 (R E7B_2) (R c32_rnd));
     Set_ T18A_2 (add32 (R E8A_2) (R c32_rnd));
     Set_ T18B_2 (add32 (R E8B_2) (R c32_rnd));
     Set_ T19A_2 (add32 (R E9A_2) (R c32_rnd));
     Set_ T19B_2 (add32 (R E9B_2) (R c32_rnd));
     Set_ T1AA_2 (add32 (R EAA_2) (R c32_rnd));
     Set_ T1AB_2 (add32 (R EAB_2) (R c32_rnd));
     Set_ T1BA_2 (add32 (R EBA_2) (R c32_rnd));
     Set_ T1BB_2 (add32 (R EBB_2) (R c32_rnd));
     Set_ T1CA_2 (add32 (R ECA_2) (R c32_rnd));
     Set_ T1CB_2 (add32 (R ECB_2) (R c32_rnd));
     Set_ T1DA_2 (add32 (R EDA_2) (R c32_rnd));
     Set_ T1DB_2 (add32 (R EDB_2) (R c32_rnd));
     Set_ T1EA_2 (add32 (R EEA_2) (R c32_rnd));
     Set_ T1EB_2 (add32 (R EEB_2) (R c32_rnd));
     Set_ T1FA_2 (add32 (R EFA_2) (R c32_rnd));
     Set_ T1FB_2 (add32 (R EFB_2) (R c32_rnd));
     Set_ T2_00A_2 (add32 (R T10A_2) (R O00A));
     Set_ T2_00B_2 (add32 (R T10B_2) (R O00B));
     Set_ T2_01A_2 (add32 (R T11A_2) (R O01A));
     Set_ T2_01B_2 (add32 (R T11B_2) (R O01B));
     Set_ T2_02A_2 (add32 (R T12A_2) (R O02A));
     Set_ T2_02B_2 (add32 (R T12B_2) (R O02B));
     Set_ T2_03A_2 (add32 (R T13A_2) (R O03A));
     Set_ T2_03B_2 (add32 (R T13B_2) (R O03B));
     Set_ T2_04A_2 (add32 (R T14A_2) (R O04A));
     Set_ T2_04B_2 (add32 (R T14B_2) (R O04B));
     Set_ T2_05A_2 (add32 (R T15A_2) (R O05A));
     Set_ T2_05B_2 (add32 (R T15B_2) (R O05B));
     Set_ T2_06A_2 (add32 (R T16A_2) (R O06A));
     Set_ T2_06B_2 (add32 (R T16B_2) (R O06B));
     Set_ T2_07A_2 (add32 (R T17A_2) (R O07A));
     Set_ T2_07B_2 (add32 (R T17B_2) (R O07B));
     Set_ T2_08A_2 (add32 (R T18A_2) (R O08A));
     Set_ T2_08B_2 (add32 (R T18B_2) (R O08B));
     Set_ T2_09A_2 (add32 (R T19A_2) (R O09A));
     Set_ T2_09B_2 (add32 (R T19B_2) (R O09B));
     Set_ T2_10A_2 (add32 (R T1AA_2) (R O10A));
     Set_ T2_10B_2 (add32 (R T1AB_2) (R O10B));
     Set_ T2_11A_2 (add32 (R T1BA_2) (R O11A));
     Set_ T2_11B_2 (add32 (R T1BB_2) (R O11B));
     Set_ T2_12A_2 (add32 (R T1CA_2) (R O12A));
     Set_ T2_12B_2 (add32 (R T1CB_2) (R O12B));
     Set_ T2_13A_2 (add32 (R T1DA_2) (R O13A));
     Set_ T2_13B_2 (add32 (R T1DB_2) (R O13B));
     Set_ T2_14A_2 (add32 (R T1EA_2) (R O14A));
     Set_ T2_14B_2 (add32 (R T1EB_2) (R O14B));
     Set_ T2_15A_2 (add32 (R T1FA_2) (R O15A));
     Set_ T2_15B_2 (add32 (R T1FB_2) (R O15B));
     Set_ T2_31A_2 (sub32 (R T10A_2) (R O00A));
     Set_ T2_31B_2 (sub32 (R T10B_2) (R O00B))]
    ++ [Set_ T2_30A_2 (sub32 (R T11A_2) (R O01A));
     Set_ T2_30B_2 (sub32 (R T11B_2) (R O01B));
     Set_ T2_29A_2 (sub32 (R T12A_2) (R O02A));
     Set_ T2_29B_2 (sub32 (R T12B_2) (R O02B));
     Set_ T2_28A_2 (sub32 (R T13A_2) (R O03A));
     Set_ T2_28B_2 (sub32 (R T13B_2) (R O03B));
     Set_ T2_27A_2 (sub32 (R T14A_2) (R O04A));
     Set_ T2_27B_2 (sub32 (R T14B_2) (R O04B));
     Set_ T2_26A_2 (sub32 (R T15A_2) (R O05A));
     Set_ T2_26B_2 (sub32 (R T15B_2) (R O05B));
     Set_ T2_25A_2 (sub32 (R T16A_2) (R O06A));
     Set_ T2_25B_2 (sub32 (R T16B_2) (R O06B));
     Set_ T2_24A_2 (sub32 (R T17A_2) (R O07A));
     Set_ T2_24B_2 (sub32 (R T17B_2) (R O07B));
     Set_ T2_23A_2 (sub32 (R T18A_2) (R O08A));
     Set_ T2_23B_2 (sub32 (R T18B_2) (R O08B));
     Set_ T2_22A_2 (sub32 (R T19A_2) (R O09A));
     Set_ T2_22B_2 (sub32 (R T19B_2) (R O09B));
     Set_ T2_21A_2 (sub32 (R T1AA_2) (R O10A));
     Set_ T2_21B_2 (sub32 (R T1AB_2) (R O10B));
     Set_ T2_20A_2 (sub32 (R T1BA_2) (R O11A));
     Set_ T2_20B_2 (sub32 (R T1BB_2) (R O11B));
     Set_ T2_19A_2 (sub32 (R T1CA_2) (R O12A));
     Set_ T2_19B_2 (sub32 (R T1CB_2) (R O12B));
     Set_ T2_18A_2 (sub32 (R T1DA_2) (R O13A));
     Set_ T2_18B_2 (sub32 (R T1DB_2) (R O13B));
     Set_ T2_17A_2 (sub32 (R T1EA_2) (R O14A));
     Set_ T2_17B_2 (sub32 (R T1EB_2) (R O14B));
     Set_ T2_16A_2 (sub32 (R T1FA_2) (R O15A));
     Set_ T2_16B_2 (sub32 (R T1FB_2) (R O15B));
     Set_ T3_00A_2 (Sra32 (R T2_00A_2) (X 0));
     Set_ T3_00B_2 (Sra32 (R T2_00B_2) (X 0));
     Set_ T3_01A_2 (Sra32 (R T2_01A_2) (X 0));
     Set_ T3_01B_2 (Sra32 (R T2_01B_2) (X 0));
     Set_ T3_02A_2 (Sra32 (R T2_02A_2) (X 0));
     Set_ T3_02B_2 (Sra32 (R T2_02B_2) (X 0));
     Set_ T3_03A_2 (Sra32 (R T2_03A_2) (X 0));
     Set_ T3_03B_2 (Sra32 (R T2_03B_2) (X 0));
     Set_ T3_04A_2 (Sra32 (R T2_04A_2) (X 0));
     Set_ T3_04B_2 (Sra32 (R T2_04B_2) (X 0));
     Set_ T3_05A_2 (Sra32 (R T2_05A_2) (X 0));
     Set_ T3_05B_2 (Sra32 (R T2_05B_2) (X 0));
     Set_ T3_06A_2 (Sra32 (R T2_06A_2) (X 0));
     Set_ T3_06B_2 (Sra32 (R T2_06B_2) (X 0));
     Set_ T3_07A_2 (Sra32 (R T2_07A_2) (X 0));
     Set_ T3_07B_2 (Sra32 (R T2_07B_2) (X 0));
     Set_ T3_08A_2 (Sra32 (R T2_08A_2) (X 0));
     Set_ T3_08B_2 (Sra32 (R T2_08B_2) (X 0));
     Set_ T3_09A_2 (Sra32 (R T2_09A_2) (X 0));
     Set_ T3_09B_2 (Sra32 (R T2_09B_2) (X 0));
     Set_ T3_10A_2 (Sra32 (R T2_10A_2) (X 0));
     Set_ T3_10B_2 (Sra32 (R T2_10B_2) (X 0));
     Set_ T3_11A_2 (Sra32 (R T2_11A_2) (X 0));
     Set_ T3_11B_2 (Sra32 (R T2_11B_2) (X 0));
     Set_ T3_12A_2 (Sra32 (R T2_12A_2) (X 0));
     Set_ T3_12B_2 (Sra32 (R T2_12B_2) (X 0));
     Set_ T3_13A_2 (Sra32 (R T2_13A_2) (X 0));
     Set_ T3_13B_2 (Sra32 (R T2_13B_2) (X 0));
     Set_ T3_14A_2 (Sra32 (R T2_14A_2) (X 0));
     Set_ T3_14B_2 (Sra32 (R T2_14B_2) (X 0));
     Set_ T3_15A_2 (Sra32 (R T2_15A_2) (X 0));
     Set_ T3_15B_2 (Sra32 (R T2_15B_2) (X 0));
     Set_ T3_16A_2 (Sra32 (R T2_16A_2) (X 0));
     Set_ T3_16B_2 (Sra32 (R T2_16B_2) (X 0))]
    ++ [Set_ T3_17A_2 (Sra32 (R T2_17A_2) (X 0));
     Set_ T3_17B_2 (Sra32 (R T2_17B_2) (X 0));
     Set_ T3_18A_2 (Sra32 (R T2_18A_2) (X 0));
     Set_ T3_18B_2 (Sra32 (R T2_18B_2) (X 0));
     Set_ T3_19A_2 (Sra32 (R T2_19A_2) (X 0));
     Set_ T3_19B_2 (Sra32 (R T2_19B_2) (X 0));
     Set_ T3_20A_2 (Sra32 (R T2_20A_2) (X 0));
     Set_ T3_20B_2 (Sra32 (R T2_20B_2) (X 0));
     Set_ T3_21A_2 (Sra32 (R T2_21A_2) (X 0));
     Set_ T3_21B_2 (Sra32 (R T2_21B_2) (X 0));
     Set_ T3_22A_2 (Sra32 (R T2_22A_2) (X 0));
     Set_ T3_22B_2 (Sra32 (R T2_22B_2) (X 0));
     Set_ T3_23A_2 (Sra32 (R T2_23A_2) (X 0));
     Set_ T3_23B_2 (Sra32 (R T2_23B_2) (X 0));
     Set_ T3_24A_2 (Sra32 (R T2_24A_2) (X 0));
     Set_ T3_24B_2 (Sra32 (R T2_24B_2) (X 0));
     Set_ T3_25A_2 (Sra32 (R T2_25A_2) (X 0));
     Set_ T3_25B_2 (Sra32 (R T2_25B_2) (X 0));
     Set_ T3_26A_2 (Sra32 (R T2_26A_2) (X 0));
     Set_ T3_26B_2 (Sra32 (R T2_26B_2) (X 0));
     Set_ T3_27A_2 (Sra32 (R T2_27A_2) (X 0));
     Set_ T3_27B_2 (Sra32 (R T2_27B_2) (X 0));
     Set_ T3_28A_2 (Sra32 (R T2_28A_2) (X 0));
     Set_ T3_28B_2 (Sra32 (R T2_28B_2) (X 0));
     Set_ T3_29A_2 (Sra32 (R T2_29A_2) (X 0));
     Set_ T3_29B_2 (Sra32 (R T2_29B_2) (X 0));
     Set_ T3_30A_2 (Sra32 (R T2_30A_2) (X 0));
     Set_ T3_30B_2 (Sra32 (R T2_30B_2) (X 0));
     Set_ T3_31A_2 (Sra32 (R T2_31A_2) (X 0));
     Set_ T3_31B_2 (Sra32 (R T2_31B_2) (X 0));
     Set_ (res00 + part) (packs32 (R T3_00A_2) (R T3_00B_2));
     Set_ (res01 + part) (packs32 (R T3_01A_2) (R T3_01B_2));
     Set_ (res02 + part) (packs32 (R T3_02A_2) (R T3_02B_2));
     Set_ (res03 + part) (packs32 (R T3_03A_2) (R T3_03B_2));
     Set_ (res04 + part) (packs32 (R T3_04A_2) (R T3_04B_2));
     Set_ (res05 + part) (packs32 (R T3_05A_2) (R T3_05B_2));
     Set_ (res06 + part) (packs32 (R T3_06A_2) (R T3_06B_2));
     Set_ (res07 + part) (packs32 (R T3_07A_2) (R T3_07B_2));
     Set_ (res08 + part) (packs32 (R T3_08A_2) (R T3_08B_2));
     Set_ (res09 + part) (packs32 (R T3_09A_2) (R T3_09B_2));
     Set_ (res10 + part) (packs32 (R T3_10A_2) (R T3_10B_2));
     Set_ (res11 + part) (packs32 (R T3_11A_2) (R T3_11B_2));
     Set_ (res12 + part) (packs32 (R T3_12A_2) (R T3_12B_2));
     Set_ (res13 + part) (packs32 (R T3_13A_2) (R T3_13B_2));
     Set_ (res14 + part) (packs32 (R T3_14A_2) (R T3_14B_2));
     Set_ (res15 + part) (packs32 (R T3_15A_2) (R T3_15B_2));
     Set_ (res16 + part) (packs32 (R T3_16A_2) (R T3_16B_2));
     Set_ (res17 + part) (packs32 (R T3_17A_2) (R T3_17B_2));
     Set_ (res18 + part) (packs32 (R T3_18A_2) (R T3_18B_2));
     Set_ (res19 + part) (packs32 (R T3_19A_2) (R T3_19B_2));
     Set_ (res20 + part) (packs32 (R T3_20A_2) (R T3_20B_2));
     Set_ (res21 + part) (packs32 (R T3_21A_2) (R T3_21B_2));
     Set_ (res22 + part) (packs32 (R T3_22A_2) (R T3_22B_2));
     Set_ (res23 + part) (packs32 (R T3_23A_2) (R T3_23B_2));
     Set_ (res24 + part) (packs32 (R T3_24A_2) (R T3_24B_2));
     Set_ (res25 + part) (packs32 (R T3_25A_2) (R T3_25B_2));
     Set_ (res26 + part) (packs32 (R T3_26A_2) (R T3_26B_2));
     Set_ (res27 + part) (packs32 (R T3_27A_2) (R T3_27B_2));
     Set_ (res28 + part) (packs32 (R T3_28A_2) (R T3_28B_2));
     Set_ (res29 + part) (packs32 (R T3_29A_2) (R T3_29B_2));
     Set_ (res30 + part) (packs32 (R T3_30A_2) (R T3_30B_2));
     Set_ (res31 + part) (packs32 (R T3_31A_2) (R T3_31B_2))])
  ++ [Set_ tr0_0_2 (lo16 (R res00) (R res01));
   Set_ tr0_1_2 (lo16 (R res02) (R res03));
   Set_ tr0_2_2 (hi16 (R res00) (R res01));
   Set_ tr0_3_2 (hi16 (R res02) (R res03));
   Set_ tr0_4_2 (lo16 (R res04) (R res05));
   Set_ tr0_5_2 (lo16 (R res06) (R res07));
   Set_ tr0_6_2 (hi16 (R res04) (R res05));
   Set_ tr0_7_2 (hi16 (R res06) (R res07));
   Set_ tr1_0_2 (lo32 (R tr0_0_2) (R tr0_1_2));
   Set_ tr1_1_2 (lo32 (R tr0_2_2) (R tr0_3_2));
   Set_ tr1_2_2 (hi32 (R tr0_0_2) (R tr0_1_2));
   Set_ tr1_3_2 (hi32 (R tr0_2_2) (R tr0_3_2));
   Set_ tr1_4_2 (lo32 (R tr0_4_2) (R tr0_5_2));
   Set_ tr1_5_2 (lo32 (R tr0_6_2) (R tr0_7_2));
   Set_ tr1_6_2 (hi32 (R tr0_4_2) (R tr0_5_2));
   Set_ tr1_7_2 (hi32 (R tr0_6_2) (R tr0_7_2));
   Set_ in00 (lo64 (R tr1_0_2) (R tr1_4_2));
   Set_ in01 (hi64 (R tr1_0_2) (R tr1_4_2));
   Set_ in02 (lo64 (R tr1_2_2) (R tr1_6_2));
   Set_ in03 (hi64 (R tr1_2_2) (R tr1_6_2));
   Set_ in04 (lo64 (R tr1_1_2) (R tr1_5_2));
   Set_ in05 (hi64 (R tr1_1_2) (R tr1_5_2));
   Set_ in06 (lo64 (R tr1_3_2) (R tr1_7_2));
   Set_ in07 (hi64 (R tr1_3_2) (R tr1_7_2));
   Set_ tr0_0_2 (lo16 (R (res00 + 1)) (R (res01 + 1)));
   Set_ tr0_1_2 (lo16 (R (res02 + 1)) (R (res03 + 1)));
   Set_ tr0_2_2 (hi16 (R (res00 + 1)) (R (res01 + 1)));
   Set_ tr0_3_2 (hi16 (R (res02 + 1)) (R (res03 + 1)));
   Set_ tr0_4_2 (lo16 (R (res04 + 1)) (R (res05 + 1)));
   Set_ tr0_5_2 (lo16 (R (res06 + 1)) (R (res07 + 1)));
   Set_ tr0_6_2 (hi16 (R (res04 + 1)) (R (res05 + 1)));
   Set_ tr0_7_2 (hi16 (R (res06 + 1)) (R (res07 + 1)));
   Set_ tr1_0_2 (lo32 (R tr0_0_2) (R tr0_1_2));
   Set_ tr1_1_2 (lo32 (R tr0_2_2) (R tr0_3_2));
   Set_ tr1_2_2 (hi32 (R tr0_0_2) (R tr0_1_2));
   Set_ tr1_3_2 (hi32 (R tr0_2_2) (R tr0_3_2));
   Set_ tr1_4_2 (lo32 (R tr0_4_2) (R tr0_5_2));
   Set_ tr1_5_2 (lo32 (R tr0_6_2) (R tr0_7_2));
   Set_ tr1_6_2 (hi32 (R tr0_4_2) (R tr0_5_2));
   Set_ tr1_7_2 (hi32 (R tr0_6_2) (R tr0_7_2));
   Set_ in08 (lo64 (R tr1_0_2) (R tr1_4_2));
   Set_ in09 (hi64 (R tr1_0_2) (R tr1_4_2));
   Set_ in10 (lo64 (R tr1_2_2) (R tr1_6_2));
   Set_ in11 (hi64 (R tr1_2_2) (R tr1_6_2));
   Set_ in12 (lo64 (R tr1_1_2) (R tr1_5_2));
   Set_ in13 (hi64 (R tr1_1_2) (R tr1_5_2));
   Set_ in14 (lo64 (R tr1_3_2) (R tr1_7_2));
   Set_ in15 (hi64 (R tr1_3_2) (R tr1_7_2));
   Set_ tr0_0_2 (lo16 (R (res00 + 2)) (R (res01 + 2)));
   Set_ tr0_1_2 (lo16 (R (res02 + 2)) (R (res03 + 2)));
   Set_ tr0_2_2 (hi16 (R (res00 + 2)) (R (res01 + 2)));
   Set_ tr0_3_2 (hi16 (R (res02 + 2)) (R (res03 + 2)));
   Set_ tr0_4_2 (lo16 (R (res04 + 2)) (R (res05 + 2)));
   Set_ tr0_5_2 (lo16 (R (res06 + 2)) (R (res07 + 2)));
   Set_ tr0_6_2 (hi16 (R (res04 + 2)) (R (res05 + 2)));
   Set_ tr0_7_2 (hi16 (R (res06 + 2)) (R (res07 + 2)));
   Set_ tr1_0_2 (lo32 (R tr0_0_2) (R tr0_1_2));
   Set_ tr1_1_2 (lo32 (R tr0_2_2) (R tr0_3_2));
   Set_ tr1_2_2 (hi32 (R tr0_0_2) (R tr0_1_2));
   Set_ tr1_3_2 (hi32 (R tr0_2_2) (R tr0_3_2));
   Set_ tr1_4_2 (lo32 (R tr0_4_2) (R tr0_5_2));
   Set_ tr1_5_2 (lo32 (R tr0_6_2) (R tr0_7_2));
   Set_ tr1_6_2 (hi32 (R tr0_4_2) (R tr0_5_2));
   Set_ tr1_7_2 (hi32 (R tr0_6_2) (R tr0_7_2))]
  ++ [Set_ in16 (lo64 (R tr1_0_2) (R tr1_4_2));
   Set_ in17 (hi64 (R tr1_0_2) (R tr1_4_2));
   Set_ in18 (lo64 (R tr1_2_2) (R tr1_6_2));
   Set_ in19 (hi64 (R tr1_2_2) (R tr1_6_2));
   Set_ in20 (lo64 (R tr1_1_2) (R tr1_5_2));
   Set_ in21 (hi64 (R tr1_1_2) (R tr1_5_2));
   Set_ in22 (lo64 (R tr1_3_2) (R tr1_7_2));
   Set_ in23 (hi64 (R tr1_3_2) (R tr1_7_2));
   Set_ tr0_0_2 (lo16 (R (res00 + 3)) (R (res01 + 3)));
   Set_ tr0_1_2 (lo16 (R (res02 + 3)) (R (res03 + 3)));
   Set_ tr0_2_2 (hi16 (R (res00 + 3)) (R (res01 + 3)));
   Set_ tr0_3_2 (hi16 (R (res02 + 3)) (R (res03 + 3)));
   Set_ tr0_4_2 (lo16 (R (res04 + 3)) (R (res05 + 3)));
   Set_ tr0_5_2 (lo16 (R (res06 + 3)) (R (res07 + 3)));
   Set_ tr0_6_2 (hi16 (R (res04 + 3)) (R (res05 + 3)));
   Set_ tr0_7_2 (hi16 (R (res06 + 3)) (R (res07 + 3)));
   Set_ tr1_0_2 (lo32 (R tr0_0_2) (R tr0_1_2));
   Set_ tr1_1_2 (lo32 (R tr0_2_2) (R tr0_3_2));
   Set_ tr1_2_2 (hi32 (R tr0_0_2) (R tr0_1_2));
   Set_ tr1_3_2 (hi32 (R tr0_2_2) (R tr0_3_2));
   Set_ tr1_4_2 (lo32 (R tr0_4_2) (R tr0_5_2));
   Set_ tr1_5_2 (lo32 (R tr0_6_2) (R tr0_7_2));
   Set_ tr1_6_2 (hi32 (R tr0_4_2) (R tr0_5_2));
   Set_ tr1_7_2 (hi32 (R tr0_6_2) (R tr0_7_2));
   Set_ in24 (lo64 (R tr1_0_2) (R tr1_4_2));
   Set_ in25 (hi64 (R tr1_0_2) (R tr1_4_2));
   Set_ in26 (lo64 (R tr1_2_2) (R tr1_6_2));
   Set_ in27 (hi64 (R tr1_2_2) (R tr1_6_2));
   Set_ in28 (lo64 (R tr1_1_2) (R tr1_5_2));
   Set_ in29 (hi64 (R tr1_1_2) (R tr1_5_2));
   Set_ in30 (lo64 (R tr1_3_2) (R tr1_7_2));
   Set_ in31 (hi64 (R tr1_3_2) (R tr1_7_2));
   Set_ tr0_0_2 (lo16 (R res08) (R res09));
   Set_ tr0_1_2 (lo16 (R res10) (R res11));
   Set_ tr0_2_2 (hi16 (R res08) (R res09));
   Set_ tr0_3_2 (hi16 (R res10) (R res11));
   Set_ tr0_4_2 (lo16 (R res12) (R res13));
   Set_ tr0_5_2 (lo16 (R res14) (R res15));
   Set_ tr0_6_2 (hi16 (R res12) (R res13));
   Set_ tr0_7_2 (hi16 (R res14) (R res15));
   Set_ tr1_0_2 (lo32 (R tr0_0_2) (R tr0_1_2));
   Set_ tr1_1_2 (lo32 (R tr0_2_2) (R tr0_3_2));
   Set_ tr1_2_2 (hi32 (R tr0_0_2) (R tr0_1_2));
   Set_ tr1_3_2 (hi32 (R tr0_2_2) (R tr0_3_2));
   Set_ tr1_4_2 (lo32 (R tr0_4_2) (R tr0_5_2));
   Set_ tr1_5_2 (lo32 (R tr0_6_2) (R tr0_7_2));
   Set_ tr1_6_2 (hi32 (R tr0_4_2) (R tr0_5_2));
   Set_ tr1_7_2 (hi32 (R tr0_6_2) (R tr0_7_2));
   Set_ (in00 + 1) (lo64 (R tr1_0_2) (R tr1_4_2));
   Set_ (in01 + 1) (hi64 (R tr1_0_2) (R tr1_4_2));
   Set_ (in02 + 1) (lo64 (R tr1_2_2) (R tr1_6_2));
   Set_ (in03 + 1) (hi64 (R tr1_2_2) (R tr1_6_2));
   Set_ (in04 + 1) (lo64 (R tr1_1_2) (R tr1_5_2));
   Set_ (in05 + 1) (hi64 (R tr1_1_2) (R tr1_5_2));
   Set_ (in06 + 1) (lo64 (R tr1_3_2) (R tr1_7_2));
   Set_ (in07 + 1) (hi64 (R tr1_3_2) (R tr1_7_2));
   Set_ tr0_0_2 (lo16 (R (res08 + 1)) (R (res09 + 1)));
   Set_ tr0_1_2 (lo16 (R (res10 + 1)) (R (res11 + 1)));
   Set_ tr0_2_2 (hi16 (R (res08 + 1)) (R (res09 + 1)));
   Set_ tr0_3_2 (hi16 (R (res10 + 1)) (R (res11 + 1)));
   Set_ tr0_4_2 (lo16 (R (res12 + 1)) (R (res13 + 1)));
   Set_ tr0_5_2 (lo16 (R (res14 + 1)) (R (res15 + 1)));
   Set_ tr0_6_2 (hi16 (R (res12 + 1)) (R (res13 + 1)));
   Set_ tr0_7_2 (hi16 (R (res14 + 1)) (R (res15 + 1)))]
  ++ [Set_ tr1_0_2 (lo32 (R tr0_0_2) (R tr0_1_2));
   Set_ tr1_1_2 (lo32 (R tr0_2_2) (R tr0_3_2));
   Set_ tr1_2_2 (hi32 (R tr0_0_2) (R tr0_1_2));
   Set_ tr1_3_2 (hi32 (R tr0_2_2) (R tr0_3_2));
   Set_ tr1_4_2 (lo32 (R tr0_4_2) (R tr0_5_2));
   Set_ tr1_5_2 (lo32 (R tr0_6_2) (R tr0_7_2));
   Set_ tr1_6_2 (hi32 (R tr0_4_2) (R tr0_5_2));
   Set_ tr1_7_2 (hi32 (R tr0_6_2) (R tr0_7_2));
   Set_ (in08 + 1) (lo64 (R tr1_0_2) (R tr1_4_2));
   Set_ (in09 + 1) (hi64 (R tr1_0_2) (R tr1_4_2));
   Set_ (in10 + 1) (lo64 (R tr1_2_2) (R tr1_6_2));
   Set_ (in11 + 1) (hi64 (R tr1_2_2) (R tr1_6_2));
   Set_ (in12 + 1) (lo64 (R tr1_1_2) (R tr1_5_2));
   Set_ (in13 + 1) (hi64 (R tr1_1_2) (R tr1_5_2));
   Set_ (in14 + 1) (lo64 (R tr1_3_2) (R tr1_7_2));
   Set_ (in15 + 1) (hi64 (R tr1_3_2) (R tr1_7_2));
   Set_ tr0_0_2 (lo16 (R (res08 + 2)) (R (res09 + 2)));
   Set_ tr0_1_2 (lo16 (R (res10 + 2)) (R (res11 + 2)));
   Set_ tr0_2_2 (hi16 (R (res08 + 2)) (R (res09 + 2)));
   Set_ tr0_3_2 (hi16 (R (res10 + 2)) (R (res11 + 2)));
   Set_ tr0_4_2 (lo16 (R (res12 + 2)) (R (res13 + 2)));
   Set_ tr0_5_2 (lo16 (R (res14 + 2)) (R (res15 + 2)));
   Set_ tr0_6_2 (hi16 (R (res12 + 2)) (R (res13 + 2)));
   Set_ tr0_7_2 (hi16 (R (res14 + 2)) (R (res15 + 2)));
   Set_ tr1_0_2 (lo32 (R tr0_0_2) (R tr0_1_2));
   Set_ tr1_1_2 (lo32 (R tr0_2_2) (R tr0_3_2));
   Set_ tr1_2_2 (hi32 (R tr0_0_2) (R tr0_1_2));
   Set_ tr1_3_2 (hi32 (R tr0_2_2) (R tr0_3_2));
   Set_ tr1_4_2 (lo32 (R tr0_4_2) (R tr0_5_2));
   Set_ tr1_5_2 (lo32 (R tr0_6_2) (R tr0_7_2));
   Set_ tr1_6_2 (hi32 (R tr0_4_2) (R tr0_5_2));
   Set_ tr1_7_2 (hi32 (R tr0_6_2) (R tr0_7_2));
   Set_ (in16 + 1) (lo64 (R tr1_0_2) (R tr1_4_2));
   Set_ (in17 + 1) (hi64 (R tr1_0_2) (R tr1_4_2));
   Set_ (in18 + 1) (lo64 (R tr1_2_2) (R tr1_6_2));
   Set_ (in19 + 1) (hi64 (R tr1_2_2) (R tr1_6_2));
   Set_ (in20 + 1) (lo64 (R tr1_1_2) (R tr1_5_2));
   Set_ (in21 + 1) (hi64 (R tr1_1_2) (R tr1_5_2));
   Set_ (in22 + 1) (lo64 (R tr1_3_2) (R tr1_7_2));
   Set_ (in23 + 1) (hi64 (R tr1_3_2) (R tr1_7_2));
   Set_ tr0_0_2 (lo16 (R (res08 + 3)) (R (res09 + 3)));
   Set_ tr0_1_2 (lo16 (R (res10 + 3)) (R (res11 + 3)));
   Set_ tr0_2_2 (hi16 (R (res08 + 3)) (R (res09 + 3)));
   Set_ tr0_3_2 (hi16 (R (res10 + 3)) (R (res11 + 3)));
   Set_ tr0_4_2 (lo16 (R (res12 + 3)) (R (res13 + 3)));
   Set_ tr0_5_2 (lo16 (R (res14 + 3)) (R (res15 + 3)));
   Set_ tr0_6_2 (hi16 (R (res12 + 3)) (R (res13 + 3)));
   Set_ tr0_7_2 (hi16 (R (res14 + 3)) (R (res15 + 3)));
   Set_ tr1_0_2 (lo32 (R tr0_0_2) (R tr0_1_2));
   Set_ tr1_1_2 (lo32 (R tr0_2_2) (R tr0_3_2));
   Set_ tr1_2_2 (hi32 (R tr0_0_2) (R tr0_1_2));
   Set_ tr1_3_2 (hi32 (R tr0_2_2) (R tr0_3_2));
   Set_ tr1_4_2 (lo32 (R tr0_4_2) (R tr0_5_2));
   Set_ tr1_5_2 (lo32 (R tr0_6_2) (R tr0_7_2));
   Set_ tr1_6_2 (hi32 (R tr0_4_2) (R tr0_5_2));
   Set_ tr1_7_2 (hi32 (R tr0_6_2) (R tr0_7_2));
   Set_ (in24 + 1) (lo64 (R tr1_0_2) (R tr1_4_2));
   Set_ (in25 + 1) (hi64 (R tr1_0_2) (R tr1_4_2));
   Set_ (in26 + 1) (lo64 (R tr1_2_2) (R tr1_6_2));
   Set_ (in27 + 1) (hi64 (R tr1_2_2) (R tr1_6_2));
   Set_ (in28 + 1) (lo64 (R tr1_1_2) (R tr1_5_2));
   Set_ (in29 + 1) (hi64 (R tr1_1_2) (R tr1_5_2));
   Set_ (in30 + 1) (lo64 (R tr1_3_2) (R tr1_7_2));
   Set_ (in31 + 1) (hi64 (R tr1_3_2) (R tr1_7_2))]
  ++ [Set_ tr0_0_2 (lo16 (R res16) (R res17));
   Set_ tr0_1_2 (lo16 (R res18) (R res19));
   Set_ tr0_2_2 (hi16 (R res16) (R res17));
   Set_ tr0_3_2 (hi16 (R res18) (R res19));
   Set_ tr0_4_2 (lo16 (R res20) (R res21));
   Set_ tr0_5_2 (lo16 (R res22) (R res23));
   Set_ tr0_6_2 (hi16 (R res20) (R res21));
   Set_ tr0_7_2 (hi16 (R res22) (R res23));
   Set_ tr1_0_2 (lo32 (R tr0_0_2) (R tr0_1_2));
   Set_ tr1_1_2 (lo32 (R tr0_2_2) (R tr0_3_2));
   Set_ tr1_2_2 (hi32 (R tr0_0_2) (R tr0_1_2));
   Set_ tr1_3_2 (hi32 (R tr0_2_2) (R tr0_3_2));
   Set_ tr1_4_2 (lo32 (R tr0_4_2) (R tr0_5_2));
   Set_ tr1_5_2 (lo32 (R tr0_6_2) (R tr0_7_2));
   Set_ tr1_6_2 (hi32 (R tr0_4_2) (R tr0_5_2));
   Set_ tr1_7_2 (hi32 (R tr0_6_2) (R tr0_7_2));
   Set_ (in00 + 2) (lo64 (R tr1_0_2) (R tr1_4_2));
   Set_ (in01 + 2) (hi64 (R tr1_0_2) (R tr1_4_2));
   Set_ (in02 + 2) (lo64 (R tr1_2_2) (R tr1_6_2));
   Set_ (in03 + 2) (hi64 (R tr1_2_2) (R tr1_6_2));
   Set_ (in04 + 2) (lo64 (R tr1_1_2) (R tr1_5_2));
   Set_ (in05 + 2) (hi64 (R tr1_1_2) (R tr1_5_2));
   Set_ (in06 + 2) (lo64 (R tr1_3_2) (R tr1_7_2));
   Set_ (in07 + 2) (hi64 (R tr1_3_2) (R tr1_7_2));
   Set_ tr0_0_2 (lo16 (R (res16 + 1)) (R (res17 + 1)));
   Set_ tr0_1_2 (lo16 (R (res18 + 1)) (R (res19 + 1)));
   Set_ tr0_2_2 (hi16 (R (res16 + 1)) (R (res17 + 1)));
   Set_ tr0_3_2 (hi16 (R (res18 + 1)) (R (res19 + 1)));
   Set_ tr0_4_2 (lo16 (R (res20 + 1)) (R (res21 + 1)));
   Set_ tr0_5_2 (lo16 (R (res22 + 1)) (R (res23 + 1)));
   Set_ tr0_6_2 (hi16 (R (res20 + 1)) (R (res21 + 1)));
   Set_ tr0_7_2 (hi16 (R (res22 + 1)) (R (res23 + 1)));
   Set_ tr1_0_2 (lo32 (R tr0_0_2) (R tr0_1_2));
   Set_ tr1_1_2 (lo32 (R tr0_2_2) (R tr0_3_2));
   Set_ tr1_2_2 (hi32 (R tr0_0_2) (R tr0_1_2));
   Set_ tr1_3_2 (hi32 (R tr0_2_2) (R tr0_3_2));
   Set_ tr1_4_2 (lo32 (R tr0_4_2) (R tr0_5_2));
   Set_ tr1_5_2 (lo32 (R tr0_6_2) (R tr0_7_2));
   Set_ tr1_6_2 (hi32 (R tr0_4_2) (R tr0_5_2));
   Set_ tr1_7_2 (hi32 (R tr0_6_2) (R tr0_7_2));
   Set_ (in08 + 2) (lo64 (R tr1_0_2) (R tr1_4_2));
   Set_ (in09 + 2) (hi64 (R tr1_0_2) (R tr1_4_2));
   Set_ (in10 + 2) (lo64 (R tr1_2_2) (R tr1_6_2));
   Set_ (in11 + 2) (hi64 (R tr1_2_2) (R tr1_6_2));
   Set_ (in12 + 2) (lo64 (R tr1_1_2) (R tr1_5_2));
   Set_ (in13 + 2) (hi64 (R tr1_1_2) (R tr1_5_2));
   Set_ (in14 + 2) (lo64 (R tr1_3_2) (R tr1_7_2));
   Set_ (in15 + 2) (hi64 (R tr1_3_2) (R tr1_7_2));
   Set_ tr0_0_2 (lo16 (R (res16 + 2)) (R (res17 + 2)));
   Set_ tr0_1_2 (lo16 (R (res18 + 2)) (R (res19 + 2)));
   Set_ tr0_2_2 (hi16 (R (res16 + 2)) (R (res17 + 2)));
   Set_ tr0_3_2 (hi16 (R (res18 + 2)) (R (res19 + 2)));
   Set_ tr0_4_2 (lo16 (R (res20 + 2)) (R (res21 + 2)));
   Set_ tr0_5_2 (lo16 (R (res22 + 2)) (R (res23 + 2)));
   Set_ tr0_6_2 (hi16 (R (res20 + 2)) (R (res21 + 2)));
   Set_ tr0_7_2 (hi16 (R (res22 + 2)) (R (res23 + 2)));
   Set_ tr1_0_2 (lo32 (R tr0_0_2) (R tr0_1_2));
   Set_ tr1_1_2 (lo32 (R tr0_2_2) (R tr0_3_2));
   Set_ tr1_2_2 (hi32 (R tr0_0_2) (R tr0_1_2));
   Set_ tr1_3_2 (hi32 (R tr0_2_2) (R tr0_3_2));
   Set_ tr1_4_2 (lo32 (R tr0_4_2) (R tr0_5_2));
   Set_ tr1_5_2 (lo32 (R tr0_6_2) (R tr0_7_2));
   Set_ tr1_6_2 (hi32 (R tr0_4_2) (R tr0_5_2));
   Set_ tr1_7_2 (hi32 (R tr0_6_2) (R tr0_7_2))]
  ++ [Set_ (in16 + 2) (lo64 (R tr1_0_2) (R tr1_4_2));
   Set_ (in17 + 2) (hi64 (R tr1_0_2) (R tr1_4_2));
   Set_ (in18 + 2) (lo64 (R tr1_2_2) (R tr1_6_2));
   Set_ (in19 + 2) (hi64 (R tr1_2_2) (R tr1_6_2));
   Set_ (in20 + 2) (lo64 (R tr1_1_2) (R tr1_5_2));
   Set_ (in21 + 2) (hi64 (R tr1_1_2) (R tr1_5_2));
   Set_ (in22 + 2) (lo64 (R tr1_3_2) (R tr1_7_2));
   Set_ (in23 + 2) (hi64 (R tr1_3_2) (R tr1_7_2));
   Set_ tr0_0_2 (lo16 (R (res16 + 3)) (R (res17 + 3)));
   Set_ tr0_1_2 (lo16 (R (res18 + 3)) (R (res19 + 3)));
   Set_ tr0_2_2 (hi16 (R (res16 + 3)) (R (res17 + 3)));
   Set_ tr0_3_2 (hi16 (R (res18 + 3)) (R (res19 + 3)));
   Set_ tr0_4_2 (lo16 (R (res20 + 3)) (R (res21 + 3)));
   Set_ tr0_5_2 (lo16 (R (res22 + 3)) (R (res23 + 3)));
   Set_ tr0_6_2 (hi16 (R (res20 + 3)) (R (res21 + 3)));
   Set_ tr0_7_2 (hi16 (R (res22 + 3)) (R (res23 + 3)));
   Set_ tr1_0_2 (lo32 (R tr0_0_2) (R tr0_1_2));
   Set_ tr1_1_2 (lo32 (R tr0_2_2) (R tr0_3_2));
   Set_ tr1_2_2 (hi32 (R tr0_0_2) (R tr0_1_2));
   Set_ tr1_3_2 (hi32 (R tr0_2_2) (R tr0_3_2));
   Set_ tr1_4_2 (lo32 (R tr0_4_2) (R tr0_5_2));
   Set_ tr1_5_2 (lo32 (R tr0_6_2) (R tr0_7_2));
   Set_ tr1_6_2 (hi32 (R tr0_4_2) (R tr0_5_2));
   Set_ tr1_7_2 (hi32 (R tr0_6_2) (R tr0_7_2));
   Set_ (in24 + 2) (lo64 (R tr1_0_2) (R tr1_4_2));
   Set_ (in25 + 2) (hi64 (R tr1_0_2) (R tr1_4_2));
   Set_ (in26 + 2) (lo64 (R tr1_2_2) (R tr1_6_2));
   Set_ (in27 + 2) (hi64 (R tr1_2_2) (R tr1_6_2));
   Set_ (in28 + 2) (lo64 (R tr1_1_2) (R tr1_5_2));
   Set_ (in29 + 2) (hi64 (R tr1_1_2) (R tr1_5_2));
   Set_ (in30 + 2) (lo64 (R tr1_3_2) (R tr1_7_2));
   Set_ (in31 + 2) (hi64 (R tr1_3_2) (R tr1_7_2));
   Set_ tr0_0_2 (lo16 (R res24) (R res25));
   Set_ tr0_1_2 (lo16 (R res26) (R res27));
   Set_ tr0_2_2 (hi16 (R res24) (R res25));
   Set_ tr0_3_2 (hi16 (R res26) (R res27));
   Set_ tr0_4_2 (lo16 (R res28) (R res29));
   Set_ tr0_5_2 (lo16 (R res30) (R res31));
   Set_ tr0_6_2 (hi16 (R res28) (R res29));
   Set_ tr0_7_2 (hi16 (R res30) (R res31));
   Set_ tr1_0_2 (lo32 (R tr0_0_2) (R tr0_1_2));
   Set_ tr1_1_2 (lo32 (R tr0_2_2) (R tr0_3_2));
   Set_ tr1_2_2 (hi32 (R tr0_0_2) (R tr0_1_2));
   Set_ tr1_3_2 (hi32 (R tr0_2_2) (R tr0_3_2));
   Set_ tr1_4_2 (lo32 (R tr0_4_2) (R tr0_5_2));
   Set_ tr1_5_2 (lo32 (R tr0_6_2) (R tr0_7_2));
   Set_ tr1_6_2 (hi32 (R tr0_4_2) (R tr0_5_2));
   Set_ tr1_7_2 (hi32 (R tr0_6_2) (R tr0_7_2));
   Set_ (in00 + 3) (lo64 (R tr1_0_2) (R tr1_4_2));
   Set_ (in01 + 3) (hi64 (R tr1_0_2) (R tr1_4_2));
   Set_ (in02 + 3) (lo64 (R tr1_2_2) (R tr1_6_2));
   Set_ (in03 + 3) (hi64 (R tr1_2_2) (R tr1_6_2));
   Set_ (in04 + 3) (lo64 (R tr1_1_2) (R tr1_5_2));
   Set_ (in05 + 3) (hi64 (R tr1_1_2) (R tr1_5_2));
   Set_ (in06 + 3) (lo64 (R tr1_3_2) (R tr1_7_2));
   Set_ (in07 + 3) (hi64 (R tr1_3_2) (R tr1_7_2));
   Set_ tr0_0_2 (lo16 (R (res24 + 1)) (R (res25 + 1)));
   Set_ tr0_1_2 (lo16 (R (res26 + 1)) (R (res27 + 1)));
   Set_ tr0_2_2 (hi16 (R (res24 + 1)) (R (res25 + 1)));
   Set_ tr0_3_2 (hi16 (R (res26 + 1)) (R (res27 + 1)));
   Set_ tr0_4_2 (lo16 (R (res28 + 1)) (R (res29 + 1)));
   Set_ tr0_5_2 (lo16 (R (res30 + 1)) (R (res31 + 1)));
   Set_ tr0_6_2 (hi16 (R (res28 + 1)) (R (res29 + 1)));
   Set_ tr0_7_2 (hi16 (R (res30 + 1)) (R (res31 + 1)))]
  ++ [Set_ tr1_0_2 (lo32 (R tr0_0_2) (R tr0_1_2));
   Set_ tr1_1_2 (lo32 (R tr0_2_2) (R tr0_3_2));
   Set_ tr1_2_2 (hi32 (R tr0_0_2) (R tr0_1_2));
   Set_ tr1_3_2 (hi32 (R tr0_2_2) (R tr0_3_2));
   Set_ tr1_4_2 (lo32 (R tr0_4_2) (R tr0_5_2));
   Set_ tr1_5_2 (lo32 (R tr0_6_2) (R tr0_7_2));
   Set_ tr1_6_2 (hi32 (R tr0_4_2) (R tr0_5_2));
   Set_ tr1_7_2 (hi32 (R tr0_6_2) (R tr0_7_2));
   Set_ (in08 + 3) (lo64 (R tr1_0_2) (R tr1_4_2));
   Set_ (in09 + 3) (hi64 (R tr1_0_2) (R tr1_4_2));
   Set_ (in10 + 3) (lo64 (R tr1_2_2) (R tr1_6_2));
   Set_ (in11 + 3) (hi64 (R tr1_2_2) (R tr1_6_2));
   Set_ (in12 + 3) (lo64 (R tr1_1_2) (R tr1_5_2));
   Set_ (in13 + 3) (hi64 (R tr1_1_2) (R tr1_5_2));
   Set_ (in14 + 3) (lo64 (R tr1_3_2) (R tr1_7_2));
   Set_ (in15 + 3) (hi64 (R tr1_3_2) (R tr1_7_2));
   Set_ tr0_0_2 (lo16 (R (res24 + 2)) (R (res25 + 2)));
   Set_ tr0_1_2 (lo16 (R (res26 + 2)) (R (res27 + 2)));
   Set_ tr0_2_2 (hi16 (R (res24 + 2)) (R (res25 + 2)));
   Set_ tr0_3_2 (hi16 (R (res26 + 2)) (R (res27 + 2)));
   Set_ tr0_4_2 (lo16 (R (res28 + 2)) (R (res29 + 2)));
   Set_ tr0_5_2 (lo16 (R (res30 + 2)) (R (res31 + 2)));
   Set_ tr0_6_2 (hi16 (R (res28 + 2)) (R (res29 + 2)));
   Set_ tr0_7_2 (hi16 (R (res30 + 2)) (R (res31 + 2)));
   Set_ tr1_0_2 (lo32 (R tr0_0_2) (R tr0_1_2));
   Set_ tr1_1_2 (lo32 (R tr0_2_2) (R tr0_3_2));
   Set_ tr1_2_2 (hi32 (R tr0_0_2) (R tr0_1_2));
   Set_ tr1_3_2 (hi32 (R tr0_2_2) (R tr0_3_2));
   Set_ tr1_4_2 (lo32 (R tr0_4_2) (R tr0_5_2));
   Set_ tr1_5_2 (lo32 (R tr0_6_2) (R tr0_7_2));
   Set_ tr1_6_2 (hi32 (R tr0_4_2) (R tr0_5_2));
   Set_ tr1_7_2 (hi32 (R tr0_6_2) (R tr0_7_2));
   Set_ (in16 + 3) (lo64 (R tr1_0_2) (R tr1_4_2));
   Set_ (in17 + 3) (hi64 (R tr1_0_2) (R tr1_4_2));
   Set_ (in18 + 3) (lo64 (R tr1_2_2) (R tr1_6_2));
   Set_ (in19 + 3) (hi64 (R tr1_2_2) (R tr1_6_2));
   Set_ (in20 + 3) (lo64 (R tr1_1_2) (R tr1_5_2));
   Set_ (in21 + 3) (hi64 (R tr1_1_2) (R tr1_5_2));
   Set_ (in22 + 3) (lo64 (R tr1_3_2) (R tr1_7_2));
   Set_ (in23 + 3) (hi64 (R tr1_3_2) (R tr1_7_2));
   Set_ tr0_0_2 (lo16 (R (res24 + 3)) (R (res25 + 3)));
   Set_ tr0_1_2 (lo16 (R (res26 + 3)) (R (res27 + 3)));
   Set_ tr0_2_2 (hi16 (R (res24 + 3)) (R (res25 + 3)));
   Set_ tr0_3_2 (hi16 (R (res26 + 3)) (R (res27 + 3)));
   Set_ tr0_4_2 (lo16 (R (res28 + 3)) (R (res29 + 3)));
   Set_ tr0_5_2 (lo16 (R (res30 + 3)) (R (res31 + 3)));
   Set_ tr0_6_2 (hi16 (R (res28 + 3)) (R (res29 + 3)));
   Set_ tr0_7_2 (hi16 (R (res30 + 3)) (R (res31 + 3)));
   Set_ tr1_0_2 (lo32 (R tr0_0_2) (R tr0_1_2));
   Set_ tr1_1_2 (lo32 (R tr0_2_2) (R tr0_3_2));
   Set_ tr1_2_2 (hi32 (R tr0_0_2) (R tr0_1_2));
   Set_ tr1_3_2 (hi32 (R tr0_2_2) (R tr0_3_2));
   Set_ tr1_4_2 (lo32 (R tr0_4_2) (R tr0_5_2));
   Set_ tr1_5_2 (lo32 (R tr0_6_2) (R tr0_7_2));
   Set_ tr1_6_2 (hi32 (R tr0_4_2) (R tr0_5_2));
   Set_ tr1_7_2 (hi32 (R tr0_6_2) (R tr0_7_2));
   Set_ (in24 + 3) (lo64 (R tr1_0_2) (R tr1_4_2));
   Set_ (in25 + 3) (hi64 (R tr1_0_2) (R tr1_4_2));
   Set_ (in26 + 3) (lo64 (R tr1_2_2) (R tr1_6_2));
   Set_ (in27 + 3) (hi64 (R tr1_2_2) (R tr1_6_2));
   Set_ (in28 + 3) (lo64 (R tr1_1_2) (R tr1_5_2));
   Set_ (in29 + 3) (hi64 (R tr1_1_2) (R tr1_5_2));
   Set_ (in30 + 3) (lo64 (R tr1_3_2) (R tr1_7_2));
   Set_ (in31 + 3) (hi64 (R tr1_3_2) (R tr1_7_2))]
  ++ [Set_ max_val (S16 8 (Q HI2));
   Set_ min_val (S16 8 (Q LO2))]
  ++ loop 4 (fun k =>
    [Set_ (in00 + k) (max16 (min16 (R (in00 + k)) (R max_val)) (R min_val));
     Set_ (in01 + k) (max16 (min16 (R (in01 + k)) (R max_val)) (R min_val));
     Set_ (in02 + k) (max16 (min16 (R (in02 + k)) (R max_val)) (R min_val));
     Set_ (in03 + k) (max16 (min16 (R (in03 + k)) (R max_val)) (R min_val));
     Set_ (in04 + k) (max16 (min16 (R (in04 + k)) (R max_val)) (R min_val));
     Set_ (in05 + k) (max16 (min16 (R (in05 + k)) (R max_val)) (R min_val));
     Set_ (in06 + k) (max16 (min16 (R (in06 + k)) (R max_val)) (R min_val));
     Set_ (in07 + k) (max16 (min16 (R (in07 + k)) (R max_val)) (R min_val));
     Set_ (in08 + k) (max16 (min16 (R (in08 + k)) (R max_val)) (R min_val));
     Set_ (in09 + k) (max16 (min16 (R (in09 + k)) (R max_val)) (R min_val));
     Set_ (in10 + k) (max16 (min16 (R (in10 + k)) (R max_val)) (R min_val));
     Set_ (in11 + k) (max16 (min16 (R (in11 + k)) (R max_val)) (R min_val));
     Set_ (in12 + k) (max16 (min16 (R (in12 + k)) (R max_val)) (R min_val));
     Set_ (in13 + k) (max16 (min16 (R (in13 + k)) (R max_val)) (R min_val));
     Set_ (in14 + k) (max16 (min16 (R (in14 + k)) (R max_val)) (R min_val));
     Set_ (in15 + k) (max16 (min16 (R (in15 + k)) (R max_val)) (R min_val));
     Set_ (in16 + k) (max16 (min16 (R (in16 + k)) (R max_val)) (R min_val));
     Set_ (in17 + k) (max16 (min16 (R (in17 + k)) (R max_val)) (R min_val));
     Set_ (in18 + k) (max16 (min16 (R (in18 + k)) (R max_val)) (R min_val));
     Set_ (in19 + k) (max16 (min16 (R (in19 + k)) (R max_val)) (R min_val));
     Set_ (in20 + k) (max16 (min16 (R (in20 + k)) (R max_val)) (R min_val));
     Set_ (in21 + k) (max16 (min16 (R (in21 + k)) (R max_val)) (R min_val));
     Set_ (in22 + k) (max16 (min16 (R (in22 + k)) (R max_val)) (R min_val));
     Set_ (in23 + k) (max16 (min16 (R (in23 + k)) (R max_val)) (R min_val));
     Set_ (in24 + k) (max16 (min16 (R (in24 + k)) (R max_val)) (R min_val));
     Set_ (in25 + k) (max16 (min16 (R (in25 + k)) (R max_val)) (R min_val));
     Set_ (in26 + k) (max16 (min16 (R (in26 + k)) (R max_val)) (R min_val));
     Set_ (in27 + k) (max16 (min16 (R (in27 + k)) (R max_val)) (R min_val));
     Set_ (in28 + k) (max16 (min16 (R (in28 + k)) (R max_val)) (R min_val));
     Set_ (in29 + k) (max16 (min16 (R (in29 + k)) (R max_val)) (R min_val));
     Set_ (in30 + k) (max16 (min16 (R (in30 + k)) (R max_val)) (R min_val));
     Set_ (in31 + k) (max16 (min16 (R (in31 + k)) (R max_val)) (R min_val))])
  ++ loop 2 (fun i =>
    [St 8 0 0 (16 * i) (R (in00 + 2 * i));
     St 8 0 0 (16 * i + 8) (R (in00 + 2 * i + 1));
     St 8 0 1 (16 * i) (R (in01 + 2 * i));
     St 8 0 1 (16 * i + 8) (R (in01 + 2 * i + 1));
     St 8 0 2 (16 * i) (R (in02 + 2 * i));
     St 8 0 2 (16 * i + 8) (R (in02 + 2 * i + 1));
     St 8 0 3 (16 * i) (R (in03 + 2 * i));
     St 8 0 3 (16 * i + 8) (R (in03 + 2 * i + 1));
     St 8 0 4 (16 * i) (R (in04 + 2 * i));
     St 8 0 4 (16 * i + 8) (R (in04 + 2 * i + 1));
     St 8 0 5 (16 * i) (R (in05 + 2 * i));
     St 8 0 5 (16 * i + 8) (R (in05 + 2 * i + 1));
     St 8 0 6 (16 * i) (R (in06 + 2 * i));
     St 8 0 6 (16 * i + 8) (R (in06 + 2 * i + 1));
     St 8 0 7 (16 * i) (R (in07 + 2 * i));
     St 8 0 7 (16 * i + 8) (R (in07 + 2 * i + 1));
     St 8 0 8 (16 * i) (R (in08 + 2 * i));
     St 8 0 8 (16 * i + 8) (R (in08 + 2 * i + 1));
     St 8 0 9 (16 * i) (R (in09 + 2 * i));
     St 8 0 9 (16 * i + 8) (R (in09 + 2 * i + 1));
     St 8 0 10 (16 * i) (R (in10 + 2 * i));
     St 8 0 10 (16 * i + 8) (R (in10 + 2 * i + 1));
     St 8 0 11 (16 * i) (R (in11 + 2 * i));
     St 8 0 11 (16 * i + 8) (R (in11 + 2 * i + 1));
     St 8 0 12 (16 * i) (R (in12 + 2 * i));
     St 8 0 12 (16 * i + 8) (R (in12 + 2 * i + 1));
     St 8 0 13 (16 * i) (R (in13 + 2 * i));
     St 8 0 13 (16 * i + 8) (R (in13 + 2 * i + 1));
     St 8 0 14 (16 * i) (R (in14 + 2 * i));
     St 8 0 14 (16 * i + 8) (R (in14 + 2 * i + 1));
     St 8 0 15 (16 * i) (R (in15 + 2 * i));
     St 8 0 15 (16 * i + 8) (R (in15 + 2 * i + 1));
     St 8 0 16 (16 * i) (R (in16 + 2 * i));
     St 8 0 16 (16 * i + 8) (R (in16 + 2 * i + 1));
     St 8 0 17 (16 * i) (R (in17 + 2 * i));
     St 8 0 17 (16 * i + 8) (R (in17 + 2 * i + 1));
     St 8 0 18 (16 * i) (R (in18 + 2 * i));
     St 8 0 18 (16 * i + 8) (R (in18 + 2 * i + 1));
     St 8 0 19 (16 * i) (R (in19 + 2 * i));
     St 8 0 19 (16 * i + 8) (R (in19 + 2 * i + 1));
     St 8 0 20 (16 * i) (R (in20 + 2 * i));
     St 8 0 20 (16 * i + 8) (R (in20 + 2 * i + 1));
     St 8 0 21 (16 * i) (R (in21 + 2 * i));
     St 8 0 21 (16 * i + 8) (R (in21 + 2 * i + 1));
     St 8 0 22 (16 * i) (R (in22 + 2 * i));
     St 8 0 22 (16 * i + 8) (R (in22 + 2 * i + 1));
     St 8 0 23 (16 * i) (R (in23 + 2 * i));
     St 8 0 23 (16 * i + 8) (R (in23 + 2 * i + 1));
     St 8 0 24 (16 * i) (R (in24 + 2 * i));
     St 8 0 24 (16 * i + 8) (R (in24 + 2 * i + 1));
     St 8 0 25 (16 * i) (R (in25 + 2 * i));
     St 8 0 25 (16 * i + 8) (R (in25 + 2 * i + 1));
     St 8 0 26 (16 * i) (R (in26 + 2 * i));
     St 8 0 26 (16 * i + 8) (R (in26 + 2 * i + 1));
     St 8 0 27 (16 * i) (R (in27 + 2 * i));
     St 8 0 27 (16 * i + 8) (R (in27 + 2 * i + 1));
     St 8 0 28 (16 * i) (R (in28 + 2 * i));
     St 8 0 28 (16 * i + 8) (R (in28 + 2 * i + 1));
     St 8 0 29 (16 * i) (R (in29 + 2 * i));
     St 8 0 29 (16 * i + 8) (R (in29 + 2 * i + 1));
     St 8 0 30 (16 * i) (R (in30 + 2 * i));
     St 8 0 30 (16 * i + 8) (R (in30 + 2 * i + 1));
     St 8 0 31 (16 * i) (R (in31 + 2 * i));
     St 8 0 31 (16 * i + 8) (R (in31 + 2 * i + 1))]).

