(* The amd64 routines of dh/sidh/internal/p503/arith_amd64.s, with its macros expanded; the number before an instruction is its
   line (that of the macro call for a macro).  MOVQ/ADDQ/... lose their size suffix; RET is the end of a list; CMPB flag, $1
   followed by JE is JFLAG, with the code at its label as a separate list; MOVB followed by MOVBLZX is MOVZXB. *)
From Coq Require Import ZArith List.
From Verif Require Import X86 SIDH_Asm434.
Import ListNotations.
Open Scope Z_scope.

(* modP503, arith_amd64.s from line 464, frame of 0 bytes *)
Definition modP503Asm : list instr := [
  (* 465 *) MOV (A 0) (R DI);
  (* 468 *) XOR (R AX) (R AX);
  (* 471 *) MOV (Imm 18446744073709551615) (R R8);
  (* 473 *) MOV (Imm 12393906174523604991) (R R9);
  (* 474 *) MOV (Imm 1371447078966912928) (R R10);
  (* 475 *) MOV (Imm 1989455001339985327) (R R11);
  (* 476 *) MOV (Imm 6937169319750509776) (R R12);
  (* 477 *) MOV (Imm 18127602061483550) (R R13);
  (* 480 *) SUB (R R8) (M DI 0);
  (* 481 *) SBB (R R8) (M DI 8);
  (* 482 *) SBB (R R8) (M DI 16);
  (* 483 *) SBB (R R9) (M DI 24);
  (* 484 *) SBB (R R10) (M DI 32);
  (* 485 *) SBB (R R11) (M DI 40);
  (* 486 *) SBB (R R12) (M DI 48);
  (* 487 *) SBB (R R13) (M DI 56);
  (* 490 *) SBB (Imm 0) (R AX);
  (* 493 *) AND (R AX) (R R8);
  (* 494 *) AND (R AX) (R R9);
  (* 495 *) AND (R AX) (R R10);
  (* 496 *) AND (R AX) (R R11);
  (* 497 *) AND (R AX) (R R12);
  (* 498 *) AND (R AX) (R R13);
  (* 500 *) ADD (R R8) (M DI 0);
  (* 501 *) ADC (R R8) (M DI 8);
  (* 502 *) ADC (R R8) (M DI 16);
  (* 503 *) ADC (R R9) (M DI 24);
  (* 504 *) ADC (R R10) (M DI 32);
  (* 505 *) ADC (R R11) (M DI 40);
  (* 506 *) ADC (R R12) (M DI 48);
  (* 507 *) ADC (R R13) (M DI 56) ].

(* cswapP503, arith_amd64.s from line 511, frame of 0 bytes *)
Definition cswapP503Asm : list instr := [
  (* 513 *) MOV (A 0) (R DI);
  (* 514 *) MOV (A 8) (R SI);
  (* 515 *) MOVZXB (A 16) AX;
  (* 517 *) NEG (R AX);
  (* 532 *) MOV (M DI 0) (R BX); MOV (M SI 0) (R CX); MOV (R CX) (R DX); XOR (R BX) (R DX); AND (R AX) (R DX); XOR (R DX) (R BX); XOR (R DX) (R CX); MOV (R BX) (M DI 0);
    MOV (R CX) (M SI 0);
  (* 533 *) MOV (M DI 8) (R BX); MOV (M SI 8) (R CX); MOV (R CX) (R DX); XOR (R BX) (R DX); AND (R AX) (R DX); XOR (R DX) (R BX); XOR (R DX) (R CX); MOV (R BX) (M DI 8);
    MOV (R CX) (M SI 8);
  (* 534 *) MOV (M DI 16) (R BX); MOV (M SI 16) (R CX); MOV (R CX) (R DX); XOR (R BX) (R DX); AND (R AX) (R DX); XOR (R DX) (R BX); XOR (R DX) (R CX); MOV (R BX) (M DI 16);
    MOV (R CX) (M SI 16);
  (* 535 *) MOV (M DI 24) (R BX); MOV (M SI 24) (R CX); MOV (R CX) (R DX); XOR (R BX) (R DX); AND (R AX) (R DX); XOR (R DX) (R BX); XOR (R DX) (R CX); MOV (R BX) (M DI 24);
    MOV (R CX) (M SI 24);
  (* 536 *) MOV (M DI 32) (R BX); MOV (M SI 32) (R CX); MOV (R CX) (R DX); XOR (R BX) (R DX); AND (R AX) (R DX); XOR (R DX) (R BX); XOR (R DX) (R CX); MOV (R BX) (M DI 32);
    MOV (R CX) (M SI 32);
  (* 537 *) MOV (M DI 40) (R BX); MOV (M SI 40) (R CX); MOV (R CX) (R DX); XOR (R BX) (R DX); AND (R AX) (R DX); XOR (R DX) (R BX); XOR (R DX) (R CX); MOV (R BX) (M DI 40);
    MOV (R CX) (M SI 40);
  (* 538 *) MOV (M DI 48) (R BX); MOV (M SI 48) (R CX); MOV (R CX) (R DX); XOR (R BX) (R DX); AND (R AX) (R DX); XOR (R DX) (R BX); XOR (R DX) (R CX); MOV (R BX) (M DI 48);
    MOV (R CX) (M SI 48);
  (* 539 *) MOV (M DI 56) (R BX); MOV (M SI 56) (R CX); MOV (R CX) (R DX); XOR (R BX) (R DX); AND (R AX) (R DX); XOR (R DX) (R BX); XOR (R DX) (R CX); MOV (R BX) (M DI 56);
    MOV (R CX) (M SI 56) ].

(* addP503, arith_amd64.s from line 547, frame of 0 bytes *)
Definition addP503Asm : list instr := [
  (* 549 *) MOV (A 0) (R DX);
  (* 550 *) MOV (A 8) (R DI);
  (* 551 *) MOV (A 16) (R SI);
  (* 554 *) XOR (R CX) (R CX);
  (* 557 *) MOV (M DI 0) (R R8);
  (* 558 *) MOV (M DI 8) (R R9);
  (* 559 *) MOV (M DI 16) (R R10);
  (* 560 *) MOV (M DI 24) (R R11);
  (* 561 *) MOV (M DI 32) (R R12);
  (* 562 *) MOV (M DI 40) (R R13);
  (* 563 *) MOV (M DI 48) (R R14);
  (* 564 *) MOV (M DI 56) (R R15);
  (* 565 *) ADD (M SI 0) (R R8);
  (* 566 *) ADC (M SI 8) (R R9);
  (* 567 *) ADC (M SI 16) (R R10);
  (* 568 *) ADC (M SI 24) (R R11);
  (* 569 *) ADC (M SI 32) (R R12);
  (* 570 *) ADC (M SI 40) (R R13);
  (* 571 *) ADC (M SI 48) (R R14);
  (* 572 *) ADC (M SI 56) (R R15);
  (* 574 *) MOV (Imm 18446744073709551614) (R AX);
  (* 575 *) SUB (R AX) (R R8);
  (* 576 *) MOV (Imm 18446744073709551615) (R AX);
  (* 577 *) SBB (R AX) (R R9);
  (* 578 *) SBB (R AX) (R R10);
  (* 579 *) MOV (Imm 6341068275337658367) (R AX);
  (* 580 *) SBB (R AX) (R R11);
  (* 581 *) MOV (Imm 2742894157933825857) (R AX);
  (* 582 *) SBB (R AX) (R R12);
  (* 583 *) MOV (Imm 3978910002679970654) (R AX);
  (* 584 *) SBB (R AX) (R R13);
  (* 585 *) MOV (Imm 13874338639501019552) (R AX);
  (* 586 *) SBB (R AX) (R R14);
  (* 587 *) MOV (Imm 36255204122967100) (R AX);
  (* 588 *) SBB (R AX) (R R15);
  (* 591 *) SBB (Imm 0) (R CX);
  (* 594 *) MOV (R R8) (M DX 0);
  (* 595 *) MOV (R R9) (M DX 8);
  (* 596 *) MOV (R R10) (M DX 16);
  (* 597 *) MOV (R R11) (M DX 24);
  (* 598 *) MOV (R R12) (M DX 32);
  (* 599 *) MOV (R R13) (M DX 40);
  (* 600 *) MOV (R R14) (M DX 48);
  (* 601 *) MOV (R R15) (M DX 56);
  (* 604 *) MOV (Imm 18446744073709551614) (R R8);
  (* 605 *) MOV (Imm 18446744073709551615) (R R9);
  (* 606 *) MOV (Imm 6341068275337658367) (R R10);
  (* 607 *) MOV (Imm 2742894157933825857) (R R11);
  (* 608 *) MOV (Imm 3978910002679970654) (R R12);
  (* 609 *) MOV (Imm 13874338639501019552) (R R13);
  (* 610 *) MOV (Imm 36255204122967100) (R R14);
  (* 611 *) AND (R CX) (R R8);
  (* 612 *) AND (R CX) (R R9);
  (* 613 *) AND (R CX) (R R10);
  (* 614 *) AND (R CX) (R R11);
  (* 615 *) AND (R CX) (R R12);
  (* 616 *) AND (R CX) (R R13);
  (* 617 *) AND (R CX) (R R14);
  (* 618 *) MOV (M DX 0) (R AX); ADD (R R8) (R AX); MOV (R AX) (M DX 0);
  (* 619 *) MOV (M DX 8) (R AX); ADC (R R9) (R AX); MOV (R AX) (M DX 8);
  (* 620 *) MOV (M DX 16) (R AX); ADC (R R9) (R AX); MOV (R AX) (M DX 16);
  (* 621 *) MOV (M DX 24) (R AX); ADC (R R10) (R AX); MOV (R AX) (M DX 24);
  (* 622 *) MOV (M DX 32) (R AX); ADC (R R11) (R AX); MOV (R AX) (M DX 32);
  (* 623 *) MOV (M DX 40) (R AX); ADC (R R12) (R AX); MOV (R AX) (M DX 40);
  (* 624 *) MOV (M DX 48) (R AX); ADC (R R13) (R AX); MOV (R AX) (M DX 48);
  (* 625 *) MOV (M DX 56) (R AX); ADC (R R14) (R AX); MOV (R AX) (M DX 56) ].

(* subP503, arith_amd64.s from line 628, frame of 0 bytes *)
Definition subP503Asm : list instr := [
  (* 630 *) MOV (A 0) (R DX);
  (* 631 *) MOV (A 8) (R DI);
  (* 632 *) MOV (A 16) (R SI);
  (* 635 *) XOR (R CX) (R CX);
  (* 637 *) MOV (M DI 0) (R R8);
  (* 638 *) MOV (M DI 8) (R R9);
  (* 639 *) MOV (M DI 16) (R R10);
  (* 640 *) MOV (M DI 24) (R R11);
  (* 641 *) MOV (M DI 32) (R R12);
  (* 642 *) MOV (M DI 40) (R R13);
  (* 643 *) MOV (M DI 48) (R R14);
  (* 644 *) MOV (M DI 56) (R R15);
  (* 646 *) SUB (M SI 0) (R R8);
  (* 647 *) SBB (M SI 8) (R R9);
  (* 648 *) SBB (M SI 16) (R R10);
  (* 649 *) SBB (M SI 24) (R R11);
  (* 650 *) SBB (M SI 32) (R R12);
  (* 651 *) SBB (M SI 40) (R R13);
  (* 652 *) SBB (M SI 48) (R R14);
  (* 653 *) SBB (M SI 56) (R R15);
  (* 656 *) SBB (Imm 0) (R CX);
  (* 659 *) MOV (R R8) (M DX 0);
  (* 660 *) MOV (R R9) (M DX 8);
  (* 661 *) MOV (R R10) (M DX 16);
  (* 662 *) MOV (R R11) (M DX 24);
  (* 663 *) MOV (R R12) (M DX 32);
  (* 664 *) MOV (R R13) (M DX 40);
  (* 665 *) MOV (R R14) (M DX 48);
  (* 666 *) MOV (R R15) (M DX 56);
  (* 669 *) MOV (Imm 18446744073709551614) (R R8);
  (* 670 *) MOV (Imm 18446744073709551615) (R R9);
  (* 671 *) MOV (Imm 6341068275337658367) (R R10);
  (* 672 *) MOV (Imm 2742894157933825857) (R R11);
  (* 673 *) MOV (Imm 3978910002679970654) (R R12);
  (* 674 *) MOV (Imm 13874338639501019552) (R R13);
  (* 675 *) MOV (Imm 36255204122967100) (R R14);
  (* 676 *) AND (R CX) (R R8);
  (* 677 *) AND (R CX) (R R9);
  (* 678 *) AND (R CX) (R R10);
  (* 679 *) AND (R CX) (R R11);
  (* 680 *) AND (R CX) (R R12);
  (* 681 *) AND (R CX) (R R13);
  (* 682 *) AND (R CX) (R R14);
  (* 683 *) MOV (M DX 0) (R AX); ADD (R R8) (R AX); MOV (R AX) (M DX 0);
  (* 684 *) MOV (M DX 8) (R AX); ADC (R R9) (R AX); MOV (R AX) (M DX 8);
  (* 685 *) MOV (M DX 16) (R AX); ADC (R R9) (R AX); MOV (R AX) (M DX 16);
  (* 686 *) MOV (M DX 24) (R AX); ADC (R R10) (R AX); MOV (R AX) (M DX 24);
  (* 687 *) MOV (M DX 32) (R AX); ADC (R R11) (R AX); MOV (R AX) (M DX 32);
  (* 688 *) MOV (M DX 40) (R AX); ADC (R R12) (R AX); MOV (R AX) (M DX 40);
  (* 689 *) MOV (M DX 48) (R AX); ADC (R R13) (R AX); MOV (R AX) (M DX 48);
  (* 690 *) MOV (M DX 56) (R AX); ADC (R R14) (R AX); MOV (R AX) (M DX 56) ].

(* mulP503, arith_amd64.s from line 1184, frame of 104 bytes *)
Definition mulP503Asm_mul_with_mulx_adcx_adox : list instr := [
  (* 1184 *) XOR (R AX) (R AX); MOV (M DI 0) (R R8); MOV (M DI 8) (R R9); MOV (M DI 16) (R R10); MOV (M DI 24) (R R11); ADD (M DI 32) (R R8); ADC (M DI 40) (R R9);
    ADC (M DI 48) (R R10); ADC (M DI 56) (R R11); SBB (Imm 0) (R AX); MOV (R R8) (M SP 0); MOV (R R9) (M SP 8); MOV (R R10) (M SP 16); MOV (R R11) (M SP 24);
    XOR (R BX) (R BX); MOV (M SI 0) (R R12); MOV (M SI 8) (R R13); MOV (M SI 16) (R R14); MOV (M SI 24) (R R15); ADD (M SI 32) (R R12); ADC (M SI 40) (R R13);
    ADC (M SI 48) (R R14); ADC (M SI 56) (R R15); SBB (Imm 0) (R BX); MOV (R R12) (M SP 32); MOV (R R13) (M SP 40); MOV (R R14) (M SP 48); MOV (R R15) (M SP 56);
    AND (R AX) (R R12); AND (R AX) (R R13); AND (R AX) (R R14); AND (R AX) (R R15); AND (R BX) (R R8); AND (R BX) (R R9); AND (R BX) (R R10); AND (R BX) (R R11);
    ADD (R R12) (R R8); ADC (R R13) (R R9); ADC (R R14) (R R10); ADC (R R15) (R R11); MOV (R R8) (M SP 64); MOV (R R9) (M SP 72); MOV (R R10) (M SP 80);
    MOV (R R11) (M SP 88); MOV (R BP) (M SP 96); MOV (M SP 0) (R DX); MULX (M SP 32) R9 R8; MOV (R R9) (M CX 64); MULX (M SP 40) R10 R9; XOR (R AX) (R AX);
    ADOX (R R10) R8; MULX (M SP 48) R11 R10; ADOX (R R11) R9; MULX (M SP 56) R12 R11; ADOX (R R12) R10; MOV (M SP 8) (R DX); MULX (M SP 32) R12 R13; ADOX (R AX) R11;
    XOR (R AX) (R AX); MULX (M SP 40) R15 R14; ADOX (R R8) R12; MOV (R R12) (M CX 72); ADCX (R R15) R13; MULX (M SP 48) BX R15; ADCX (R BX) R14; ADOX (R R9) R13;
    MULX (M SP 56) BP BX; ADCX (R BP) R15; ADCX (R AX) BX; ADOX (R R10) R14; MOV (M SP 16) (R DX); MULX (M SP 32) R8 R9; ADOX (R R11) R15; ADOX (R AX) BX;
    XOR (R AX) (R AX); MULX (M SP 40) R11 R10; ADOX (R R13) R8; MOV (R R8) (M CX 80); ADCX (R R11) R9; MULX (M SP 48) R12 R11; ADCX (R R12) R10; ADOX (R R14) R9;
    MULX (M SP 56) BP R12; ADCX (R BP) R11; MOV (M SP 24) (R DX); ADCX (R AX) R12; ADOX (R R15) R10; ADOX (R BX) R11; ADOX (R AX) R12; MULX (M SP 32) R8 R13;
    XOR (R AX) (R AX); MULX (M SP 40) R15 R14; ADCX (R R15) R13; ADOX (R R8) R9; MULX (M SP 48) BX R15; ADCX (R BX) R14; ADOX (R R13) R10; MULX (M SP 56) BP BX;
    ADCX (R BP) R15; ADCX (R AX) BX; ADOX (R R14) R11; ADOX (R R15) R12; ADOX (R AX) BX; MOV (R R9) (M CX 88); MOV (R R10) (M CX 96); MOV (R R11) (M CX 104);
    MOV (R R12) (M CX 112); MOV (R BX) (M CX 120); MOV (M DI 0) (R DX); MULX (M SI 0) R9 R8; MOV (R R9) (M CX 0); MULX (M SI 8) R10 R9; XOR (R AX) (R AX);
    ADOX (R R10) R8; MULX (M SI 16) R11 R10; ADOX (R R11) R9; MULX (M SI 24) R12 R11; ADOX (R R12) R10; MOV (M DI 8) (R DX); MULX (M SI 0) R12 R13; ADOX (R AX) R11;
    XOR (R AX) (R AX); MULX (M SI 8) R15 R14; ADOX (R R8) R12; MOV (R R12) (M CX 8); ADCX (R R15) R13; MULX (M SI 16) BX R15; ADCX (R BX) R14; ADOX (R R9) R13;
    MULX (M SI 24) BP BX; ADCX (R BP) R15; ADCX (R AX) BX; ADOX (R R10) R14; MOV (M DI 16) (R DX); MULX (M SI 0) R8 R9; ADOX (R R11) R15; ADOX (R AX) BX;
    XOR (R AX) (R AX); MULX (M SI 8) R11 R10; ADOX (R R13) R8; MOV (R R8) (M CX 16); ADCX (R R11) R9; MULX (M SI 16) R12 R11; ADCX (R R12) R10; ADOX (R R14) R9;
    MULX (M SI 24) BP R12; ADCX (R BP) R11; MOV (M DI 24) (R DX); ADCX (R AX) R12; ADOX (R R15) R10; ADOX (R BX) R11; ADOX (R AX) R12; MULX (M SI 0) R8 R13;
    XOR (R AX) (R AX); MULX (M SI 8) R15 R14; ADCX (R R15) R13; ADOX (R R8) R9; MULX (M SI 16) BX R15; ADCX (R BX) R14; ADOX (R R13) R10; MULX (M SI 24) BP BX;
    ADCX (R BP) R15; ADCX (R AX) BX; ADOX (R R14) R11; ADOX (R R15) R12; ADOX (R AX) BX; MOV (R R9) (M CX 24); MOV (R R10) (M CX 32); MOV (R R11) (M CX 40);
    MOV (R R12) (M CX 48); MOV (R BX) (M CX 56); MOV (M DI 32) (R DX); MULX (M SI 32) R9 R8; MOV (R R9) (M SP 0); MULX (M SI 40) R10 R9; XOR (R AX) (R AX);
    ADOX (R R10) R8; MULX (M SI 48) R11 R10; ADOX (R R11) R9; MULX (M SI 56) R12 R11; ADOX (R R12) R10; MOV (M DI 40) (R DX); MULX (M SI 32) R12 R13; ADOX (R AX) R11;
    XOR (R AX) (R AX); MULX (M SI 40) R15 R14; ADOX (R R8) R12; MOV (R R12) (M SP 8); ADCX (R R15) R13; MULX (M SI 48) BX R15; ADCX (R BX) R14; ADOX (R R9) R13;
    MULX (M SI 56) BP BX; ADCX (R BP) R15; ADCX (R AX) BX; ADOX (R R10) R14; MOV (M DI 48) (R DX); MULX (M SI 32) R8 R9; ADOX (R R11) R15; ADOX (R AX) BX;
    XOR (R AX) (R AX); MULX (M SI 40) R11 R10; ADOX (R R13) R8; MOV (R R8) (M SP 16); ADCX (R R11) R9; MULX (M SI 48) R12 R11; ADCX (R R12) R10; ADOX (R R14) R9;
    MULX (M SI 56) BP R12; ADCX (R BP) R11; MOV (M DI 56) (R DX); ADCX (R AX) R12; ADOX (R R15) R10; ADOX (R BX) R11; ADOX (R AX) R12; MULX (M SI 32) R8 R13;
    XOR (R AX) (R AX); MULX (M SI 40) R15 R14; ADCX (R R15) R13; ADOX (R R8) R9; MULX (M SI 48) BX R15; ADCX (R BX) R14; ADOX (R R13) R10; MULX (M SI 56) BP BX;
    ADCX (R BP) R15; ADCX (R AX) BX; ADOX (R R14) R11; ADOX (R R15) R12; ADOX (R AX) BX; MOV (R R9) (M SP 24); MOV (R R10) (M SP 32); MOV (R R11) (M SP 40);
    MOV (R R12) (M SP 48); MOV (R BX) (M SP 56); MOV (M SP 96) (R BP); MOV (M SP 64) (R R8); MOV (M SP 72) (R R9); MOV (M SP 80) (R R10); MOV (M SP 88) (R R11);
    MOV (M CX 96) (R AX); ADD (R AX) (R R8); MOV (M CX 104) (R AX); ADC (R AX) (R R9); MOV (M CX 112) (R AX); ADC (R AX) (R R10); MOV (M CX 120) (R AX);
    ADC (R AX) (R R11); MOV (M CX 64) (R R12); MOV (M CX 72) (R R13); MOV (M CX 80) (R R14); MOV (M CX 88) (R R15); SUB (M CX 0) (R R12); SBB (M CX 8) (R R13);
    SBB (M CX 16) (R R14); SBB (M CX 24) (R R15); SBB (M CX 32) (R R8); SBB (M CX 40) (R R9); SBB (M CX 48) (R R10); SBB (M CX 56) (R R11); SUB (M SP 0) (R R12);
    SBB (M SP 8) (R R13); SBB (M SP 16) (R R14); SBB (M SP 24) (R R15); SBB (M SP 32) (R R8); SBB (M SP 40) (R R9); SBB (M SP 48) (R R10); SBB (M SP 56) (R R11);
    ADD (M CX 32) (R R12); MOV (R R12) (M CX 32); ADC (M CX 40) (R R13); MOV (R R13) (M CX 40); ADC (M CX 48) (R R14); MOV (R R14) (M CX 48); ADC (M CX 56) (R R15);
    MOV (R R15) (M CX 56); MOV (M SP 0) (R AX); ADC (R AX) (R R8); MOV (R R8) (M CX 64); MOV (M SP 8) (R AX); ADC (R AX) (R R9); MOV (R R9) (M CX 72); MOV (M SP 16) (R AX);
    ADC (R AX) (R R10); MOV (R R10) (M CX 80); MOV (M SP 24) (R AX); ADC (R AX) (R R11); MOV (R R11) (M CX 88); MOV (M SP 32) (R R12); ADC (Imm 0) (R R12);
    MOV (R R12) (M CX 96); MOV (M SP 40) (R R13); ADC (Imm 0) (R R13); MOV (R R13) (M CX 104); MOV (M SP 48) (R R14); ADC (Imm 0) (R R14); MOV (R R14) (M CX 112);
    MOV (M SP 56) (R R15); ADC (Imm 0) (R R15); MOV (R R15) (M CX 120) ].

(* mulP503, arith_amd64.s from line 1189, frame of 104 bytes *)
Definition mulP503Asm_mul_with_mulx : list instr := [
  (* 1189 *) XOR (R AX) (R AX); MOV (M DI 0) (R R8); MOV (M DI 8) (R R9); MOV (M DI 16) (R R10); MOV (M DI 24) (R R11); ADD (M DI 32) (R R8); ADC (M DI 40) (R R9);
    ADC (M DI 48) (R R10); ADC (M DI 56) (R R11); SBB (Imm 0) (R AX); MOV (R R8) (M SP 0); MOV (R R9) (M SP 8); MOV (R R10) (M SP 16); MOV (R R11) (M SP 24);
    XOR (R BX) (R BX); MOV (M SI 0) (R R12); MOV (M SI 8) (R R13); MOV (M SI 16) (R R14); MOV (M SI 24) (R R15); ADD (M SI 32) (R R12); ADC (M SI 40) (R R13);
    ADC (M SI 48) (R R14); ADC (M SI 56) (R R15); SBB (Imm 0) (R BX); MOV (R R12) (M SP 32); MOV (R R13) (M SP 40); MOV (R R14) (M SP 48); MOV (R R15) (M SP 56);
    AND (R AX) (R R12); AND (R AX) (R R13); AND (R AX) (R R14); AND (R AX) (R R15); AND (R BX) (R R8); AND (R BX) (R R9); AND (R BX) (R R10); AND (R BX) (R R11);
    ADD (R R12) (R R8); ADC (R R13) (R R9); ADC (R R14) (R R10); ADC (R R15) (R R11); MOV (R R8) (M SP 64); MOV (R R9) (M SP 72); MOV (R R10) (M SP 80);
    MOV (R R11) (M SP 88); MOV (R BP) (M SP 96); MOV (M SP 0) (R DX); MULX (M SP 32) R9 R8; MOV (R R9) (M CX 64); MULX (M SP 40) R10 R9; ADD (R R10) (R R8);
    MULX (M SP 48) R11 R10; ADC (R R11) (R R9); MULX (M SP 56) R12 R11; ADC (R R12) (R R10); MOV (M SP 8) (R DX); ADC (Imm 0) (R R11); MULX (M SP 32) R12 R13;
    MULX (M SP 40) R15 R14; ADD (R R15) (R R13); MULX (M SP 48) BX R15; ADC (R BX) (R R14); MULX (M SP 56) BP BX; ADC (R BP) (R R15); ADC (Imm 0) (R BX);
    ADD (R R8) (R R12); MOV (R R12) (M CX 72); ADC (R R9) (R R13); ADC (R R10) (R R14); ADC (R R11) (R R15); MOV (M SP 16) (R DX); ADC (Imm 0) (R BX); MULX (M SP 32) R8 R9;
    MULX (M SP 40) R11 R10; ADD (R R11) (R R9); MULX (M SP 48) R12 R11; ADC (R R12) (R R10); MULX (M SP 56) BP R12; ADC (R BP) (R R11); MOV (M SP 24) (R DX);
    ADC (Imm 0) (R R12); ADD (R R13) (R R8); MOV (R R8) (M CX 80); ADC (R R14) (R R9); ADC (R R15) (R R10); ADC (R BX) (R R11); ADC (Imm 0) (R R12); MULX (M SP 32) R8 R13;
    MULX (M SP 40) R15 R14; ADD (R R15) (R R13); MULX (M SP 48) BX R15; ADC (R BX) (R R14); MULX (M SP 56) BP BX; ADC (R BP) (R R15); ADC (Imm 0) (R BX);
    ADD (R R8) (R R9); MOV (R R9) (M CX 88); ADC (R R13) (R R10); MOV (R R10) (M CX 96); ADC (R R14) (R R11); MOV (R R11) (M CX 104); ADC (R R15) (R R12);
    MOV (R R12) (M CX 112); ADC (Imm 0) (R BX); MOV (R BX) (M CX 120); MOV (M DI 0) (R DX); MULX (M SI 0) R9 R8; MOV (R R9) (M CX 0); MULX (M SI 8) R10 R9;
    ADD (R R10) (R R8); MULX (M SI 16) R11 R10; ADC (R R11) (R R9); MULX (M SI 24) R12 R11; ADC (R R12) (R R10); MOV (M DI 8) (R DX); ADC (Imm 0) (R R11);
    MULX (M SI 0) R12 R13; MULX (M SI 8) R15 R14; ADD (R R15) (R R13); MULX (M SI 16) BX R15; ADC (R BX) (R R14); MULX (M SI 24) BP BX; ADC (R BP) (R R15);
    ADC (Imm 0) (R BX); ADD (R R8) (R R12); MOV (R R12) (M CX 8); ADC (R R9) (R R13); ADC (R R10) (R R14); ADC (R R11) (R R15); MOV (M DI 16) (R DX); ADC (Imm 0) (R BX);
    MULX (M SI 0) R8 R9; MULX (M SI 8) R11 R10; ADD (R R11) (R R9); MULX (M SI 16) R12 R11; ADC (R R12) (R R10); MULX (M SI 24) BP R12; ADC (R BP) (R R11);
    MOV (M DI 24) (R DX); ADC (Imm 0) (R R12); ADD (R R13) (R R8); MOV (R R8) (M CX 16); ADC (R R14) (R R9); ADC (R R15) (R R10); ADC (R BX) (R R11); ADC (Imm 0) (R R12);
    MULX (M SI 0) R8 R13; MULX (M SI 8) R15 R14; ADD (R R15) (R R13); MULX (M SI 16) BX R15; ADC (R BX) (R R14); MULX (M SI 24) BP BX; ADC (R BP) (R R15);
    ADC (Imm 0) (R BX); ADD (R R8) (R R9); MOV (R R9) (M CX 24); ADC (R R13) (R R10); MOV (R R10) (M CX 32); ADC (R R14) (R R11); MOV (R R11) (M CX 40);
    ADC (R R15) (R R12); MOV (R R12) (M CX 48); ADC (Imm 0) (R BX); MOV (R BX) (M CX 56); MOV (M DI 32) (R DX); MULX (M SI 32) R9 R8; MOV (R R9) (M SP 0);
    MULX (M SI 40) R10 R9; ADD (R R10) (R R8); MULX (M SI 48) R11 R10; ADC (R R11) (R R9); MULX (M SI 56) R12 R11; ADC (R R12) (R R10); MOV (M DI 40) (R DX);
    ADC (Imm 0) (R R11); MULX (M SI 32) R12 R13; MULX (M SI 40) R15 R14; ADD (R R15) (R R13); MULX (M SI 48) BX R15; ADC (R BX) (R R14); MULX (M SI 56) BP BX;
    ADC (R BP) (R R15); ADC (Imm 0) (R BX); ADD (R R8) (R R12); MOV (R R12) (M SP 8); ADC (R R9) (R R13); ADC (R R10) (R R14); ADC (R R11) (R R15); MOV (M DI 48) (R DX);
    ADC (Imm 0) (R BX); MULX (M SI 32) R8 R9; MULX (M SI 40) R11 R10; ADD (R R11) (R R9); MULX (M SI 48) R12 R11; ADC (R R12) (R R10); MULX (M SI 56) BP R12;
    ADC (R BP) (R R11); MOV (M DI 56) (R DX); ADC (Imm 0) (R R12); ADD (R R13) (R R8); MOV (R R8) (M SP 16); ADC (R R14) (R R9); ADC (R R15) (R R10); ADC (R BX) (R R11);
    ADC (Imm 0) (R R12); MULX (M SI 32) R8 R13; MULX (M SI 40) R15 R14; ADD (R R15) (R R13); MULX (M SI 48) BX R15; ADC (R BX) (R R14); MULX (M SI 56) BP BX;
    ADC (R BP) (R R15); ADC (Imm 0) (R BX); ADD (R R8) (R R9); MOV (R R9) (M SP 24); ADC (R R13) (R R10); MOV (R R10) (M SP 32); ADC (R R14) (R R11); MOV (R R11) (M SP 40);
    ADC (R R15) (R R12); MOV (R R12) (M SP 48); ADC (Imm 0) (R BX); MOV (R BX) (M SP 56); MOV (M SP 96) (R BP); MOV (M SP 64) (R R8); MOV (M SP 72) (R R9);
    MOV (M SP 80) (R R10); MOV (M SP 88) (R R11); MOV (M CX 96) (R AX); ADD (R AX) (R R8); MOV (M CX 104) (R AX); ADC (R AX) (R R9); MOV (M CX 112) (R AX);
    ADC (R AX) (R R10); MOV (M CX 120) (R AX); ADC (R AX) (R R11); MOV (M CX 64) (R R12); MOV (M CX 72) (R R13); MOV (M CX 80) (R R14); MOV (M CX 88) (R R15);
    SUB (M CX 0) (R R12); SBB (M CX 8) (R R13); SBB (M CX 16) (R R14); SBB (M CX 24) (R R15); SBB (M CX 32) (R R8); SBB (M CX 40) (R R9); SBB (M CX 48) (R R10);
    SBB (M CX 56) (R R11); SUB (M SP 0) (R R12); SBB (M SP 8) (R R13); SBB (M SP 16) (R R14); SBB (M SP 24) (R R15); SBB (M SP 32) (R R8); SBB (M SP 40) (R R9);
    SBB (M SP 48) (R R10); SBB (M SP 56) (R R11); ADD (M CX 32) (R R12); MOV (R R12) (M CX 32); ADC (M CX 40) (R R13); MOV (R R13) (M CX 40); ADC (M CX 48) (R R14);
    MOV (R R14) (M CX 48); ADC (M CX 56) (R R15); MOV (R R15) (M CX 56); MOV (M SP 0) (R AX); ADC (R AX) (R R8); MOV (R R8) (M CX 64); MOV (M SP 8) (R AX);
    ADC (R AX) (R R9); MOV (R R9) (M CX 72); MOV (M SP 16) (R AX); ADC (R AX) (R R10); MOV (R R10) (M CX 80); MOV (M SP 24) (R AX); ADC (R AX) (R R11);
    MOV (R R11) (M CX 88); MOV (M SP 32) (R R12); ADC (Imm 0) (R R12); MOV (R R12) (M CX 96); MOV (M SP 40) (R R13); ADC (Imm 0) (R R13); MOV (R R13) (M CX 104);
    MOV (M SP 48) (R R14); ADC (Imm 0) (R R14); MOV (R R14) (M CX 112); MOV (M SP 56) (R R15); ADC (Imm 0) (R R15); MOV (R R15) (M CX 120) ].

(* mulP503, arith_amd64.s from line 694, frame of 104 bytes *)
Definition mulP503Asm : list instr := [
  (* 695 *) MOV (A 0) (R CX);
  (* 696 *) MOV (A 8) (R DI);
  (* 697 *) MOV (A 16) (R SI);
  (* 700 *) JFLAG g_HasADXandBMI2 mulP503Asm_mul_with_mulx_adcx_adox;
  (* 702 *) JFLAG g_HasBMI2 mulP503Asm_mul_with_mulx;
  (* 712 *) XOR (R AX) (R AX);
  (* 715 *) MOV (M DI 32) (R R8);
  (* 716 *) MOV (M DI 40) (R R9);
  (* 717 *) MOV (M DI 48) (R R10);
  (* 718 *) MOV (M DI 56) (R R11);
  (* 719 *) ADD (M DI 0) (R R8);
  (* 720 *) ADC (M DI 8) (R R9);
  (* 721 *) ADC (M DI 16) (R R10);
  (* 722 *) ADC (M DI 24) (R R11);
  (* 723 *) MOV (R R8) (M CX 0);
  (* 724 *) MOV (R R9) (M CX 8);
  (* 725 *) MOV (R R10) (M CX 16);
  (* 726 *) MOV (R R11) (M CX 24);
  (* 728 *) SBB (Imm 0) (R AX);
  (* 731 *) XOR (R DX) (R DX);
  (* 732 *) MOV (M SI 32) (R R12);
  (* 733 *) MOV (M SI 40) (R R13);
  (* 734 *) MOV (M SI 48) (R R14);
  (* 735 *) MOV (M SI 56) (R R15);
  (* 736 *) ADD (M SI 0) (R R12);
  (* 737 *) ADC (M SI 8) (R R13);
  (* 738 *) ADC (M SI 16) (R R14);
  (* 739 *) ADC (M SI 24) (R R15);
  (* 741 *) SBB (Imm 0) (R DX);
  (* 744 *) MOV (R AX) (M SP 64);
  (* 745 *) MOV (R DX) (M SP 72);
  (* 751 *) MOV (M CX 0) (R AX);
  (* 752 *) MUL (R R12);
  (* 753 *) MOV (R AX) (M SP 0);
  (* 754 *) MOV (R DX) (R R8);
  (* 757 *) XOR (R R9) (R R9);
  (* 758 *) MOV (M CX 0) (R AX);
  (* 759 *) MUL (R R13);
  (* 760 *) ADD (R AX) (R R8);
  (* 761 *) ADC (R DX) (R R9);
  (* 764 *) XOR (R R10) (R R10);
  (* 765 *) MOV (M CX 8) (R AX);
  (* 766 *) MUL (R R12);
  (* 767 *) ADD (R AX) (R R8);
  (* 768 *) MOV (R R8) (M SP 8);
  (* 769 *) ADC (R DX) (R R9);
  (* 770 *) ADC (Imm 0) (R R10);
  (* 773 *) XOR (R R8) (R R8);
  (* 774 *) MOV (M CX 0) (R AX);
  (* 775 *) MUL (R R14);
  (* 776 *) ADD (R AX) (R R9);
  (* 777 *) ADC (R DX) (R R10);
  (* 778 *) ADC (Imm 0) (R R8);
  (* 781 *) MOV (M CX 16) (R AX);
  (* 782 *) MUL (R R12);
  (* 783 *) ADD (R AX) (R R9);
  (* 784 *) ADC (R DX) (R R10);
  (* 785 *) ADC (Imm 0) (R R8);
  (* 788 *) MOV (M CX 8) (R AX);
  (* 789 *) MUL (R R13);
  (* 790 *) ADD (R AX) (R R9);
  (* 791 *) MOV (R R9) (M SP 16);
  (* 792 *) ADC (R DX) (R R10);
  (* 793 *) ADC (Imm 0) (R R8);
  (* 796 *) XOR (R R9) (R R9);
  (* 797 *) MOV (M CX 0) (R AX);
  (* 798 *) MUL (R R15);
  (* 799 *) ADD (R AX) (R R10);
  (* 800 *) ADC (R DX) (R R8);
  (* 801 *) ADC (Imm 0) (R R9);
  (* 804 *) MOV (M CX 24) (R AX);
  (* 805 *) MUL (R R12);
  (* 806 *) ADD (R AX) (R R10);
  (* 807 *) ADC (R DX) (R R8);
  (* 808 *) ADC (Imm 0) (R R9);
  (* 811 *) MOV (M CX 8) (R AX);
  (* 812 *) MUL (R R14);
  (* 813 *) ADD (R AX) (R R10);
  (* 814 *) ADC (R DX) (R R8);
  (* 815 *) ADC (Imm 0) (R R9);
  (* 818 *) MOV (M CX 16) (R AX);
  (* 819 *) MUL (R R13);
  (* 820 *) ADD (R AX) (R R10);
  (* 821 *) MOV (R R10) (M SP 24);
  (* 822 *) ADC (R DX) (R R8);
  (* 823 *) ADC (Imm 0) (R R9);
  (* 826 *) XOR (R R10) (R R10);
  (* 827 *) MOV (M CX 8) (R AX);
  (* 828 *) MUL (R R15);
  (* 829 *) ADD (R AX) (R R8);
  (* 830 *) ADC (R DX) (R R9);
  (* 831 *) ADC (Imm 0) (R R10);
  (* 834 *) MOV (M CX 24) (R AX);
  (* 835 *) MUL (R R13);
  (* 836 *) ADD (R AX) (R R8);
  (* 837 *) ADC (R DX) (R R9);
  (* 838 *) ADC (Imm 0) (R R10);
  (* 841 *) MOV (M CX 16) (R AX);
  (* 842 *) MUL (R R14);
  (* 843 *) ADD (R AX) (R R8);
  (* 844 *) MOV (R R8) (M SP 32);
  (* 845 *) ADC (R DX) (R R9);
  (* 846 *) ADC (Imm 0) (R R10);
  (* 849 *) XOR (R R11) (R R11);
  (* 850 *) MOV (M CX 16) (R AX);
  (* 851 *) MUL (R R15);
  (* 852 *) ADD (R AX) (R R9);
  (* 853 *) ADC (R DX) (R R10);
  (* 854 *) ADC (Imm 0) (R R11);
  (* 857 *) MOV (M CX 24) (R AX);
  (* 858 *) MUL (R R14);
  (* 859 *) ADD (R AX) (R R9);
  (* 860 *) ADC (R DX) (R R10);
  (* 861 *) ADC (Imm 0) (R R11);
  (* 864 *) MOV (M CX 24) (R AX);
  (* 865 *) MUL (R R15);
  (* 866 *) ADD (R AX) (R R10);
  (* 867 *) ADC (R DX) (R R11);
  (* 869 *) MOV (M SP 64) (R AX);
  (* 870 *) AND (R AX) (R R12);
  (* 871 *) AND (R AX) (R R13);
  (* 872 *) AND (R AX) (R R14);
  (* 873 *) AND (R AX) (R R15);
  (* 874 *) ADD (R R8) (R R12);
  (* 875 *) ADC (R R9) (R R13);
  (* 876 *) ADC (R R10) (R R14);
  (* 877 *) ADC (R R11) (R R15);
  (* 879 *) MOV (M SP 72) (R AX);
  (* 880 *) MOV (M CX 0) (R R8);
  (* 881 *) MOV (M CX 8) (R R9);
  (* 882 *) MOV (M CX 16) (R R10);
  (* 883 *) MOV (M CX 24) (R R11);
  (* 884 *) AND (R AX) (R R8);
  (* 885 *) AND (R AX) (R R9);
  (* 886 *) AND (R AX) (R R10);
  (* 887 *) AND (R AX) (R R11);
  (* 888 *) ADD (R R12) (R R8);
  (* 889 *) ADC (R R13) (R R9);
  (* 890 *) ADC (R R14) (R R10);
  (* 891 *) ADC (R R15) (R R11);
  (* 892 *) MOV (R R8) (M SP 32);
  (* 893 *) MOV (R R9) (M SP 40);
  (* 894 *) MOV (R R10) (M SP 48);
  (* 895 *) MOV (R R11) (M SP 56);
  (* 900 *) MOV (M DI 0) (R R11);
  (* 901 *) MOV (M SI 0) (R AX);
  (* 902 *) MUL (R R11);
  (* 903 *) XOR (R R9) (R R9);
  (* 904 *) MOV (R AX) (M CX 0);
  (* 905 *) MOV (R DX) (R R8);
  (* 908 *) MOV (M DI 16) (R R14);
  (* 909 *) MOV (M SI 8) (R AX);
  (* 910 *) MUL (R R11);
  (* 911 *) XOR (R R10) (R R10);
  (* 912 *) ADD (R AX) (R R8);
  (* 913 *) ADC (R DX) (R R9);
  (* 916 *) MOV (M DI 8) (R R12);
  (* 917 *) MOV (M SI 0) (R AX);
  (* 918 *) MUL (R R12);
  (* 919 *) ADD (R AX) (R R8);
  (* 920 *) MOV (R R8) (M CX 8);
  (* 921 *) ADC (R DX) (R R9);
  (* 922 *) ADC (Imm 0) (R R10);
  (* 925 *) XOR (R R8) (R R8);
  (* 926 *) MOV (M SI 16) (R AX);
  (* 927 *) MUL (R R11);
  (* 928 *) ADD (R AX) (R R9);
  (* 929 *) ADC (R DX) (R R10);
  (* 930 *) ADC (Imm 0) (R R8);
  (* 933 *) MOV (M SI 0) (R R13);
  (* 934 *) MOV (R R14) (R AX);
  (* 935 *) MUL (R R13);
  (* 936 *) ADD (R AX) (R R9);
  (* 937 *) ADC (R DX) (R R10);
  (* 938 *) ADC (Imm 0) (R R8);
  (* 941 *) MOV (M SI 8) (R AX);
  (* 942 *) MUL (R R12);
  (* 943 *) ADD (R AX) (R R9);
  (* 944 *) MOV (R R9) (M CX 16);
  (* 945 *) ADC (R DX) (R R10);
  (* 946 *) ADC (Imm 0) (R R8);
  (* 949 *) XOR (R R9) (R R9);
  (* 950 *) MOV (M SI 24) (R AX);
  (* 951 *) MUL (R R11);
  (* 952 *) MOV (M DI 24) (R R15);
  (* 953 *) ADD (R AX) (R R10);
  (* 954 *) ADC (R DX) (R R8);
  (* 955 *) ADC (Imm 0) (R R9);
  (* 958 *) MOV (R R15) (R AX);
  (* 959 *) MUL (R R13);
  (* 960 *) ADD (R AX) (R R10);
  (* 961 *) ADC (R DX) (R R8);
  (* 962 *) ADC (Imm 0) (R R9);
  (* 965 *) MOV (M SI 16) (R AX);
  (* 966 *) MUL (R R12);
  (* 967 *) ADD (R AX) (R R10);
  (* 968 *) ADC (R DX) (R R8);
  (* 969 *) ADC (Imm 0) (R R9);
  (* 972 *) MOV (M SI 8) (R AX);
  (* 973 *) MUL (R R14);
  (* 974 *) ADD (R AX) (R R10);
  (* 975 *) MOV (R R10) (M CX 24);
  (* 976 *) ADC (R DX) (R R8);
  (* 977 *) ADC (Imm 0) (R R9);
  (* 980 *) XOR (R R10) (R R10);
  (* 981 *) MOV (M SI 24) (R AX);
  (* 982 *) MUL (R R12);
  (* 983 *) ADD (R AX) (R R8);
  (* 984 *) ADC (R DX) (R R9);
  (* 985 *) ADC (Imm 0) (R R10);
  (* 988 *) MOV (M SI 8) (R AX);
  (* 989 *) MUL (R R15);
  (* 990 *) ADD (R AX) (R R8);
  (* 991 *) ADC (R DX) (R R9);
  (* 992 *) ADC (Imm 0) (R R10);
  (* 995 *) MOV (M SI 16) (R AX);
  (* 996 *) MUL (R R14);
  (* 997 *) ADD (R AX) (R R8);
  (* 998 *) MOV (R R8) (M CX 32);
  (* 999 *) ADC (R DX) (R R9);
  (* 1000 *) ADC (Imm 0) (R R10);
  (* 1003 *) XOR (R R8) (R R8);
  (* 1004 *) MOV (M SI 24) (R AX);
  (* 1005 *) MUL (R R14);
  (* 1006 *) ADD (R AX) (R R9);
  (* 1007 *) ADC (R DX) (R R10);
  (* 1008 *) ADC (Imm 0) (R R8);
  (* 1011 *) MOV (M SI 16) (R AX);
  (* 1012 *) MUL (R R15);
  (* 1013 *) ADD (R AX) (R R9);
  (* 1014 *) MOV (R R9) (M CX 40);
  (* 1015 *) ADC (R DX) (R R10);
  (* 1016 *) ADC (Imm 0) (R R8);
  (* 1019 *) MOV (M SI 24) (R AX);
  (* 1020 *) MUL (R R15);
  (* 1021 *) ADD (R AX) (R R10);
  (* 1022 *) MOV (R R10) (M CX 48);
  (* 1023 *) ADC (R DX) (R R8);
  (* 1024 *) MOV (R R8) (M CX 56);
  (* 1027 *) MOV (M DI 32) (R R11);
  (* 1028 *) MOV (M SI 32) (R AX);
  (* 1029 *) MUL (R R11);
  (* 1030 *) XOR (R R9) (R R9);
  (* 1031 *) MOV (R AX) (M CX 64);
  (* 1032 *) MOV (R DX) (R R8);
  (* 1034 *) MOV (M DI 48) (R R14);
  (* 1035 *) MOV (M SI 40) (R AX);
  (* 1036 *) MUL (R R11);
  (* 1037 *) XOR (R R10) (R R10);
  (* 1038 *) ADD (R AX) (R R8);
  (* 1039 *) ADC (R DX) (R R9);
  (* 1041 *) MOV (M DI 40) (R R12);
  (* 1042 *) MOV (M SI 32) (R AX);
  (* 1043 *) MUL (R R12);
  (* 1044 *) ADD (R AX) (R R8);
  (* 1045 *) MOV (R R8) (M CX 72);
  (* 1046 *) ADC (R DX) (R R9);
  (* 1047 *) ADC (Imm 0) (R R10);
  (* 1049 *) XOR (R R8) (R R8);
  (* 1050 *) MOV (M SI 48) (R AX);
  (* 1051 *) MUL (R R11);
  (* 1052 *) ADD (R AX) (R R9);
  (* 1053 *) ADC (R DX) (R R10);
  (* 1054 *) ADC (Imm 0) (R R8);
  (* 1056 *) MOV (M SI 32) (R R13);
  (* 1057 *) MOV (R R14) (R AX);
  (* 1058 *) MUL (R R13);
  (* 1059 *) ADD (R AX) (R R9);
  (* 1060 *) ADC (R DX) (R R10);
  (* 1061 *) ADC (Imm 0) (R R8);
  (* 1063 *) MOV (M SI 40) (R AX);
  (* 1064 *) MUL (R R12);
  (* 1065 *) ADD (R AX) (R R9);
  (* 1066 *) MOV (R R9) (M CX 80);
  (* 1067 *) ADC (R DX) (R R10);
  (* 1068 *) ADC (Imm 0) (R R8);
  (* 1070 *) XOR (R R9) (R R9);
  (* 1071 *) MOV (M SI 56) (R AX);
  (* 1072 *) MUL (R R11);
  (* 1073 *) MOV (M DI 56) (R R15);
  (* 1074 *) ADD (R AX) (R R10);
  (* 1075 *) ADC (R DX) (R R8);
  (* 1076 *) ADC (Imm 0) (R R9);
  (* 1078 *) MOV (R R15) (R AX);
  (* 1079 *) MUL (R R13);
  (* 1080 *) ADD (R AX) (R R10);
  (* 1081 *) ADC (R DX) (R R8);
  (* 1082 *) ADC (Imm 0) (R R9);
  (* 1084 *) MOV (M SI 48) (R AX);
  (* 1085 *) MUL (R R12);
  (* 1086 *) ADD (R AX) (R R10);
  (* 1087 *) ADC (R DX) (R R8);
  (* 1088 *) ADC (Imm 0) (R R9);
  (* 1090 *) MOV (M SI 40) (R AX);
  (* 1091 *) MUL (R R14);
  (* 1092 *) ADD (R AX) (R R10);
  (* 1093 *) MOV (R R10) (M CX 88);
  (* 1094 *) ADC (R DX) (R R8);
  (* 1095 *) ADC (Imm 0) (R R9);
  (* 1097 *) XOR (R R10) (R R10);
  (* 1098 *) MOV (M SI 56) (R AX);
  (* 1099 *) MUL (R R12);
  (* 1100 *) ADD (R AX) (R R8);
  (* 1101 *) ADC (R DX) (R R9);
  (* 1102 *) ADC (Imm 0) (R R10);
  (* 1104 *) MOV (M SI 40) (R AX);
  (* 1105 *) MUL (R R15);
  (* 1106 *) ADD (R AX) (R R8);
  (* 1107 *) ADC (R DX) (R R9);
  (* 1108 *) ADC (Imm 0) (R R10);
  (* 1110 *) MOV (M SI 48) (R AX);
  (* 1111 *) MUL (R R14);
  (* 1112 *) ADD (R AX) (R R8);
  (* 1113 *) MOV (R R8) (M CX 96);
  (* 1114 *) ADC (R DX) (R R9);
  (* 1115 *) ADC (Imm 0) (R R10);
  (* 1117 *) XOR (R R8) (R R8);
  (* 1118 *) MOV (M SI 56) (R AX);
  (* 1119 *) MUL (R R14);
  (* 1120 *) ADD (R AX) (R R9);
  (* 1121 *) ADC (R DX) (R R10);
  (* 1122 *) ADC (Imm 0) (R R8);
  (* 1124 *) MOV (M SI 48) (R AX);
  (* 1125 *) MUL (R R15);
  (* 1126 *) ADD (R AX) (R R9);
  (* 1127 *) MOV (R R9) (M CX 104);
  (* 1128 *) ADC (R DX) (R R10);
  (* 1129 *) ADC (Imm 0) (R R8);
  (* 1131 *) MOV (M SI 56) (R AX);
  (* 1132 *) MUL (R R15);
  (* 1133 *) ADD (R AX) (R R10);
  (* 1134 *) MOV (R R10) (M CX 112);
  (* 1135 *) ADC (R DX) (R R8);
  (* 1136 *) MOV (R R8) (M CX 120);
  (* 1139 *) MOV (M SP 0) (R R8);
  (* 1140 *) SUB (M CX 0) (R R8);
  (* 1141 *) MOV (M SP 8) (R R9);
  (* 1142 *) SBB (M CX 8) (R R9);
  (* 1143 *) MOV (M SP 16) (R R10);
  (* 1144 *) SBB (M CX 16) (R R10);
  (* 1145 *) MOV (M SP 24) (R R11);
  (* 1146 *) SBB (M CX 24) (R R11);
  (* 1147 *) MOV (M SP 32) (R R12);
  (* 1148 *) SBB (M CX 32) (R R12);
  (* 1149 *) MOV (M SP 40) (R R13);
  (* 1150 *) SBB (M CX 40) (R R13);
  (* 1151 *) MOV (M SP 48) (R R14);
  (* 1152 *) SBB (M CX 48) (R R14);
  (* 1153 *) MOV (M SP 56) (R R15);
  (* 1154 *) SBB (M CX 56) (R R15);
  (* 1157 *) MOV (M CX 64) (R AX); SUB (R AX) (R R8);
  (* 1158 *) MOV (M CX 72) (R AX); SBB (R AX) (R R9);
  (* 1159 *) MOV (M CX 80) (R AX); SBB (R AX) (R R10);
  (* 1160 *) MOV (M CX 88) (R AX); SBB (R AX) (R R11);
  (* 1161 *) MOV (M CX 96) (R AX); SBB (R AX) (R R12);
  (* 1162 *) MOV (M CX 104) (R DX); SBB (R DX) (R R13);
  (* 1163 *) MOV (M CX 112) (R DI); SBB (R DI) (R R14);
  (* 1164 *) MOV (M CX 120) (R SI); SBB (R SI) (R R15);
  (* 1167 *) ADD (M CX 32) (R R8); MOV (R R8) (M CX 32);
  (* 1168 *) ADC (M CX 40) (R R9); MOV (R R9) (M CX 40);
  (* 1169 *) ADC (M CX 48) (R R10); MOV (R R10) (M CX 48);
  (* 1170 *) ADC (M CX 56) (R R11); MOV (R R11) (M CX 56);
  (* 1171 *) ADC (M CX 64) (R R12); MOV (R R12) (M CX 64);
  (* 1172 *) ADC (M CX 72) (R R13); MOV (R R13) (M CX 72);
  (* 1173 *) ADC (M CX 80) (R R14); MOV (R R14) (M CX 80);
  (* 1174 *) ADC (M CX 88) (R R15); MOV (R R15) (M CX 88);
  (* 1175 *) ADC (Imm 0) (R AX); MOV (R AX) (M CX 96);
  (* 1176 *) ADC (Imm 0) (R DX); MOV (R DX) (M CX 104);
  (* 1177 *) ADC (Imm 0) (R DI); MOV (R DI) (M CX 112);
  (* 1178 *) ADC (Imm 0) (R SI); MOV (R SI) (M CX 120) ].

(* rdcP503, arith_amd64.s from line 1510, frame of 0 bytes *)
Definition rdcP503Asm_redc_with_mulx_adcx_adox : list instr := [
  (* 1510 *) MOV (M DI 0) (R DX); MULX (G g_p1 24) R8 R9; MULX (G g_p1 32) R12 R10; XOR (R AX) (R AX); MULX (G g_p1 40) R13 R11; ADOX (R R12) R9; ADOX (R R13) R10;
    MULX (G g_p1 48) BX R12; ADOX (R BX) R11; MULX (G g_p1 56) R14 R13; ADOX (R R14) R12; ADOX (R AX) R13; MOV (M DI 8) (R DX); MULX (G g_p1 24) R14 BX;
    ADCX (R R14) R9; ADCX (R BX) R10; MULX (G g_p1 32) CX R14; ADCX (R R14) R11; MULX (G g_p1 40) BX R15; ADCX (R R15) R12; MULX (G g_p1 48) R15 R14; ADCX (R R14) R13;
    MULX (G g_p1 56) DX R14; ADCX (R AX) R14; XOR (R AX) (R AX); ADOX (R CX) R10; ADOX (R BX) R11; ADOX (R R15) R12; ADOX (R DX) R13; ADOX (R AX) R14; XOR (R R15) (R R15);
    ADD (M DI 24) (R R8); ADC (M DI 32) (R R9); ADC (M DI 40) (R R10); ADC (M DI 48) (R R11); ADC (M DI 56) (R R12); ADC (M DI 64) (R R13); ADC (M DI 72) (R R14);
    ADC (M DI 80) (R R15); MOV (R R8) (M DI 24); MOV (R R9) (M DI 32); MOV (R R10) (M DI 40); MOV (R R11) (M DI 48); MOV (R R12) (M DI 56); MOV (R R13) (M DI 64);
    MOV (R R14) (M DI 72); MOV (R R15) (M DI 80); MOV (M DI 88) (R R8); MOV (M DI 96) (R R9); MOV (M DI 104) (R R10); MOV (M DI 112) (R R11); MOV (M DI 120) (R R12);
    ADC (Imm 0) (R R8); ADC (Imm 0) (R R9); ADC (Imm 0) (R R10); ADC (Imm 0) (R R11); ADC (Imm 0) (R R12); MOV (R R8) (M DI 88); MOV (R R9) (M DI 96); MOV (R R10) (M DI 104);
    MOV (R R11) (M DI 112); MOV (R R12) (M DI 120); MOV (M DI 16) (R DX); MULX (G g_p1 24) R8 R9; MULX (G g_p1 32) R12 R10; XOR (R AX) (R AX); MULX (G g_p1 40) R13 R11;
    ADOX (R R12) R9; ADOX (R R13) R10; MULX (G g_p1 48) BX R12; ADOX (R BX) R11; MULX (G g_p1 56) R14 R13; ADOX (R R14) R12; ADOX (R AX) R13; MOV (M DI 24) (R DX);
    MULX (G g_p1 24) R14 BX; ADCX (R R14) R9; ADCX (R BX) R10; MULX (G g_p1 32) CX R14; ADCX (R R14) R11; MULX (G g_p1 40) BX R15; ADCX (R R15) R12; MULX (G g_p1 48) R15 R14;
    ADCX (R R14) R13; MULX (G g_p1 56) DX R14; ADCX (R AX) R14; XOR (R AX) (R AX); ADOX (R CX) R10; ADOX (R BX) R11; ADOX (R R15) R12; ADOX (R DX) R13;
    ADOX (R AX) R14; XOR (R R15) (R R15); ADD (M DI 40) (R R8); ADC (M DI 48) (R R9); ADC (M DI 56) (R R10); ADC (M DI 64) (R R11); ADC (M DI 72) (R R12);
    ADC (M DI 80) (R R13); ADC (M DI 88) (R R14); ADC (M DI 96) (R R15); MOV (R R8) (M DI 40); MOV (R R9) (M DI 48); MOV (R R10) (M DI 56); MOV (R R11) (M DI 64);
    MOV (R R12) (M DI 72); MOV (R R13) (M DI 80); MOV (R R14) (M DI 88); MOV (R R15) (M DI 96); MOV (M DI 104) (R R8); MOV (M DI 112) (R R9); MOV (M DI 120) (R R10);
    ADC (Imm 0) (R R8); ADC (Imm 0) (R R9); ADC (Imm 0) (R R10); MOV (R R8) (M DI 104); MOV (R R9) (M DI 112); MOV (R R10) (M DI 120); MOV (M DI 32) (R DX);
    MULX (G g_p1 24) R8 R9; MULX (G g_p1 32) R12 R10; XOR (R AX) (R AX); MULX (G g_p1 40) R13 R11; ADOX (R R12) R9; ADOX (R R13) R10; MULX (G g_p1 48) BX R12;
    ADOX (R BX) R11; MULX (G g_p1 56) R14 R13; ADOX (R R14) R12; ADOX (R AX) R13; MOV (M DI 40) (R DX); MULX (G g_p1 24) R14 BX; ADCX (R R14) R9; ADCX (R BX) R10;
    MULX (G g_p1 32) CX R14; ADCX (R R14) R11; MULX (G g_p1 40) BX R15; ADCX (R R15) R12; MULX (G g_p1 48) R15 R14; ADCX (R R14) R13; MULX (G g_p1 56) DX R14;
    ADCX (R AX) R14; XOR (R AX) (R AX); ADOX (R CX) R10; ADOX (R BX) R11; ADOX (R R15) R12; ADOX (R DX) R13; ADOX (R AX) R14; XOR (R R15) (R R15); XOR (R BX) (R BX);
    ADD (M DI 56) (R R8); ADC (M DI 64) (R R9); ADC (M DI 72) (R R10); ADC (M DI 80) (R R11); ADC (M DI 88) (R R12); ADC (M DI 96) (R R13); ADC (M DI 104) (R R14);
    ADC (M DI 112) (R R15); ADC (M DI 120) (R BX); MOV (R R8) (M DI 56); MOV (R R10) (M DI 72); MOV (R R11) (M DI 80); MOV (R R12) (M DI 88); MOV (R R13) (M DI 96);
    MOV (R R14) (M DI 104); MOV (R R15) (M DI 112); MOV (R BX) (M DI 120); MOV (R R9) (M SI 0); MOV (M DI 48) (R DX); MULX (G g_p1 24) R8 R9; MULX (G g_p1 32) R12 R10;
    XOR (R AX) (R AX); MULX (G g_p1 40) R13 R11; ADOX (R R12) R9; ADOX (R R13) R10; MULX (G g_p1 48) BX R12; ADOX (R BX) R11; MULX (G g_p1 56) R14 R13;
    ADOX (R R14) R12; ADOX (R AX) R13; MOV (M DI 56) (R DX); MULX (G g_p1 24) R14 BX; ADCX (R R14) R9; ADCX (R BX) R10; MULX (G g_p1 32) CX R14; ADCX (R R14) R11;
    MULX (G g_p1 40) BX R15; ADCX (R R15) R12; MULX (G g_p1 48) R15 R14; ADCX (R R14) R13; MULX (G g_p1 56) DX R14; ADCX (R AX) R14; XOR (R AX) (R AX);
    ADOX (R CX) R10; ADOX (R BX) R11; ADOX (R R15) R12; ADOX (R DX) R13; ADOX (R AX) R14; ADD (M DI 72) (R R8); ADC (M DI 80) (R R9); ADC (M DI 88) (R R10);
    ADC (M DI 96) (R R11); ADC (M DI 104) (R R12); ADC (M DI 112) (R R13); ADC (M DI 120) (R R14); MOV (R R8) (M SI 8); MOV (R R9) (M SI 16); MOV (R R10) (M SI 24);
    MOV (R R11) (M SI 32); MOV (R R12) (M SI 40); MOV (R R13) (M SI 48); MOV (R R14) (M SI 56) ].

(* rdcP503, arith_amd64.s from line 1516, frame of 0 bytes *)
Definition rdcP503Asm_redc_with_mulx : list instr := [
  (* 1516 *) MOV (M DI 0) (R DX); MULX (G g_p1 24) R8 R9; MULX (G g_p1 32) R12 R10; XOR (R AX) (R AX); MULX (G g_p1 40) R13 R11; ADD (R R12) (R R9); ADC (R R13) (R R10);
    MULX (G g_p1 48) BX R12; ADC (R BX) (R R11); MULX (G g_p1 56) R14 R13; ADC (R R14) (R R12); ADC (R AX) (R R13); MOV (M DI 8) (R DX); MULX (G g_p1 24) R14 BX;
    ADD (R R14) (R R9); ADC (R BX) (R R10); MULX (G g_p1 32) CX R14; ADC (R R14) (R R11); MULX (G g_p1 40) BX R15; ADC (R R15) (R R12); MULX (G g_p1 48) R15 R14;
    ADC (R R14) (R R13); MULX (G g_p1 56) DX R14; ADC (R AX) (R R14); XOR (R AX) (R AX); ADD (R CX) (R R10); ADC (R BX) (R R11); ADC (R R15) (R R12); ADC (R DX) (R R13);
    ADC (R AX) (R R14); XOR (R R15) (R R15); ADD (M DI 24) (R R8); ADC (M DI 32) (R R9); ADC (M DI 40) (R R10); ADC (M DI 48) (R R11); ADC (M DI 56) (R R12);
    ADC (M DI 64) (R R13); ADC (M DI 72) (R R14); ADC (M DI 80) (R R15); MOV (R R8) (M DI 24); MOV (R R9) (M DI 32); MOV (R R10) (M DI 40); MOV (R R11) (M DI 48);
    MOV (R R12) (M DI 56); MOV (R R13) (M DI 64); MOV (R R14) (M DI 72); MOV (R R15) (M DI 80); MOV (M DI 88) (R R8); MOV (M DI 96) (R R9); MOV (M DI 104) (R R10);
    MOV (M DI 112) (R R11); MOV (M DI 120) (R R12); ADC (Imm 0) (R R8); ADC (Imm 0) (R R9); ADC (Imm 0) (R R10); ADC (Imm 0) (R R11); ADC (Imm 0) (R R12);
    MOV (R R8) (M DI 88); MOV (R R9) (M DI 96); MOV (R R10) (M DI 104); MOV (R R11) (M DI 112); MOV (R R12) (M DI 120); MOV (M DI 16) (R DX); MULX (G g_p1 24) R8 R9;
    MULX (G g_p1 32) R12 R10; XOR (R AX) (R AX); MULX (G g_p1 40) R13 R11; ADD (R R12) (R R9); ADC (R R13) (R R10); MULX (G g_p1 48) BX R12; ADC (R BX) (R R11);
    MULX (G g_p1 56) R14 R13; ADC (R R14) (R R12); ADC (R AX) (R R13); MOV (M DI 24) (R DX); MULX (G g_p1 24) R14 BX; ADD (R R14) (R R9); ADC (R BX) (R R10);
    MULX (G g_p1 32) CX R14; ADC (R R14) (R R11); MULX (G g_p1 40) BX R15; ADC (R R15) (R R12); MULX (G g_p1 48) R15 R14; ADC (R R14) (R R13); MULX (G g_p1 56) DX R14;
    ADC (R AX) (R R14); XOR (R AX) (R AX); ADD (R CX) (R R10); ADC (R BX) (R R11); ADC (R R15) (R R12); ADC (R DX) (R R13); ADC (R AX) (R R14); XOR (R R15) (R R15);
    ADD (M DI 40) (R R8); ADC (M DI 48) (R R9); ADC (M DI 56) (R R10); ADC (M DI 64) (R R11); ADC (M DI 72) (R R12); ADC (M DI 80) (R R13); ADC (M DI 88) (R R14);
    ADC (M DI 96) (R R15); MOV (R R8) (M DI 40); MOV (R R9) (M DI 48); MOV (R R10) (M DI 56); MOV (R R11) (M DI 64); MOV (R R12) (M DI 72); MOV (R R13) (M DI 80);
    MOV (R R14) (M DI 88); MOV (R R15) (M DI 96); MOV (M DI 104) (R R8); MOV (M DI 112) (R R9); MOV (M DI 120) (R R10); ADC (Imm 0) (R R8); ADC (Imm 0) (R R9);
    ADC (Imm 0) (R R10); MOV (R R8) (M DI 104); MOV (R R9) (M DI 112); MOV (R R10) (M DI 120); MOV (M DI 32) (R DX); MULX (G g_p1 24) R8 R9; MULX (G g_p1 32) R12 R10;
    XOR (R AX) (R AX); MULX (G g_p1 40) R13 R11; ADD (R R12) (R R9); ADC (R R13) (R R10); MULX (G g_p1 48) BX R12; ADC (R BX) (R R11); MULX (G g_p1 56) R14 R13;
    ADC (R R14) (R R12); ADC (R AX) (R R13); MOV (M DI 40) (R DX); MULX (G g_p1 24) R14 BX; ADD (R R14) (R R9); ADC (R BX) (R R10); MULX (G g_p1 32) CX R14;
    ADC (R R14) (R R11); MULX (G g_p1 40) BX R15; ADC (R R15) (R R12); MULX (G g_p1 48) R15 R14; ADC (R R14) (R R13); MULX (G g_p1 56) DX R14; ADC (R AX) (R R14);
    XOR (R AX) (R AX); ADD (R CX) (R R10); ADC (R BX) (R R11); ADC (R R15) (R R12); ADC (R DX) (R R13); ADC (R AX) (R R14); XOR (R R15) (R R15); XOR (R BX) (R BX);
    ADD (M DI 56) (R R8); ADC (M DI 64) (R R9); ADC (M DI 72) (R R10); ADC (M DI 80) (R R11); ADC (M DI 88) (R R12); ADC (M DI 96) (R R13); ADC (M DI 104) (R R14);
    ADC (M DI 112) (R R15); ADC (M DI 120) (R BX); MOV (R R8) (M DI 56); MOV (R R10) (M DI 72); MOV (R R11) (M DI 80); MOV (R R12) (M DI 88); MOV (R R13) (M DI 96);
    MOV (R R14) (M DI 104); MOV (R R15) (M DI 112); MOV (R BX) (M DI 120); MOV (R R9) (M SI 0); MOV (M DI 48) (R DX); MULX (G g_p1 24) R8 R9; MULX (G g_p1 32) R12 R10;
    XOR (R AX) (R AX); MULX (G g_p1 40) R13 R11; ADD (R R12) (R R9); ADC (R R13) (R R10); MULX (G g_p1 48) BX R12; ADC (R BX) (R R11); MULX (G g_p1 56) R14 R13;
    ADC (R R14) (R R12); ADC (R AX) (R R13); MOV (M DI 56) (R DX); MULX (G g_p1 24) R14 BX; ADD (R R14) (R R9); ADC (R BX) (R R10); MULX (G g_p1 32) CX R14;
    ADC (R R14) (R R11); MULX (G g_p1 40) BX R15; ADC (R R15) (R R12); MULX (G g_p1 48) R15 R14; ADC (R R14) (R R13); MULX (G g_p1 56) DX R14; ADC (R AX) (R R14);
    XOR (R AX) (R AX); ADD (R CX) (R R10); ADC (R BX) (R R11); ADC (R R15) (R R12); ADC (R DX) (R R13); ADC (R AX) (R R14); ADD (M DI 72) (R R8); ADC (M DI 80) (R R9);
    ADC (M DI 88) (R R10); ADC (M DI 96) (R R11); ADC (M DI 104) (R R12); ADC (M DI 112) (R R13); ADC (M DI 120) (R R14); MOV (R R8) (M SI 8); MOV (R R9) (M SI 16);
    MOV (R R10) (M SI 24); MOV (R R11) (M SI 32); MOV (R R12) (M SI 40); MOV (R R13) (M SI 48); MOV (R R14) (M SI 56) ].

(* rdcP503, arith_amd64.s from line 1192, frame of 0 bytes *)
Definition rdcP503Asm : list instr := [
  (* 1193 *) MOV (A 0) (R SI);
  (* 1194 *) MOV (A 8) (R DI);
  (* 1197 *) JFLAG g_HasADXandBMI2 rdcP503Asm_redc_with_mulx_adcx_adox;
  (* 1199 *) JFLAG g_HasBMI2 rdcP503Asm_redc_with_mulx;
  (* 1202 *) MOV (M DI 0) (R R11);
  (* 1203 *) MOV (Imm 12393906174523604992) (R AX);
  (* 1204 *) MUL (R R11);
  (* 1205 *) XOR (R R8) (R R8);
  (* 1206 *) ADD (M DI 24) (R AX);
  (* 1207 *) MOV (R AX) (M SI 24);
  (* 1208 *) ADC (R DX) (R R8);
  (* 1210 *) XOR (R R9) (R R9);
  (* 1211 *) MOV (Imm 1371447078966912928) (R AX);
  (* 1212 *) MUL (R R11);
  (* 1213 *) XOR (R R10) (R R10);
  (* 1214 *) ADD (R AX) (R R8);
  (* 1215 *) ADC (R DX) (R R9);
  (* 1217 *) MOV (M DI 8) (R R12);
  (* 1218 *) MOV (Imm 12393906174523604992) (R AX);
  (* 1219 *) MUL (R R12);
  (* 1220 *) ADD (R AX) (R R8);
  (* 1221 *) ADC (R DX) (R R9);
  (* 1222 *) ADC (Imm 0) (R R10);
  (* 1223 *) ADD (M DI 32) (R R8);
  (* 1224 *) MOV (R R8) (M SI 32);
  (* 1225 *) ADC (Imm 0) (R R9);
  (* 1226 *) ADC (Imm 0) (R R10);
  (* 1228 *) XOR (R R8) (R R8);
  (* 1229 *) MOV (Imm 1989455001339985327) (R AX);
  (* 1230 *) MUL (R R11);
  (* 1231 *) ADD (R AX) (R R9);
  (* 1232 *) ADC (R DX) (R R10);
  (* 1233 *) ADC (Imm 0) (R R8);
  (* 1235 *) MOV (Imm 1371447078966912928) (R AX);
  (* 1236 *) MUL (R R12);
  (* 1237 *) ADD (R AX) (R R9);
  (* 1238 *) ADC (R DX) (R R10);
  (* 1239 *) ADC (Imm 0) (R R8);
  (* 1241 *) MOV (M DI 16) (R R13);
  (* 1242 *) MOV (Imm 12393906174523604992) (R AX);
  (* 1243 *) MUL (R R13);
  (* 1244 *) ADD (R AX) (R R9);
  (* 1245 *) ADC (R DX) (R R10);
  (* 1246 *) ADC (Imm 0) (R R8);
  (* 1247 *) ADD (M DI 40) (R R9);
  (* 1248 *) MOV (R R9) (M SI 40);
  (* 1249 *) ADC (Imm 0) (R R10);
  (* 1250 *) ADC (Imm 0) (R R8);
  (* 1252 *) XOR (R R9) (R R9);
  (* 1253 *) MOV (Imm 6937169319750509776) (R AX);
  (* 1254 *) MUL (R R11);
  (* 1255 *) ADD (R AX) (R R10);
  (* 1256 *) ADC (R DX) (R R8);
  (* 1257 *) ADC (Imm 0) (R R9);
  (* 1259 *) MOV (Imm 1989455001339985327) (R AX);
  (* 1260 *) MUL (R R12);
  (* 1261 *) ADD (R AX) (R R10);
  (* 1262 *) ADC (R DX) (R R8);
  (* 1263 *) ADC (Imm 0) (R R9);
  (* 1265 *) MOV (Imm 1371447078966912928) (R AX);
  (* 1266 *) MUL (R R13);
  (* 1267 *) ADD (R AX) (R R10);
  (* 1268 *) ADC (R DX) (R R8);
  (* 1269 *) ADC (Imm 0) (R R9);
  (* 1271 *) MOV (M SI 24) (R R14);
  (* 1272 *) MOV (Imm 12393906174523604992) (R AX);
  (* 1273 *) MUL (R R14);
  (* 1274 *) ADD (R AX) (R R10);
  (* 1275 *) ADC (R DX) (R R8);
  (* 1276 *) ADC (Imm 0) (R R9);
  (* 1277 *) ADD (M DI 48) (R R10);
  (* 1278 *) MOV (R R10) (M SI 48);
  (* 1279 *) ADC (Imm 0) (R R8);
  (* 1280 *) ADC (Imm 0) (R R9);
  (* 1282 *) XOR (R R10) (R R10);
  (* 1283 *) MOV (Imm 18127602061483550) (R AX);
  (* 1284 *) MUL (R R11);
  (* 1285 *) ADD (R AX) (R R8);
  (* 1286 *) ADC (R DX) (R R9);
  (* 1287 *) ADC (Imm 0) (R R10);
  (* 1289 *) MOV (Imm 6937169319750509776) (R AX);
  (* 1290 *) MUL (R R12);
  (* 1291 *) ADD (R AX) (R R8);
  (* 1292 *) ADC (R DX) (R R9);
  (* 1293 *) ADC (Imm 0) (R R10);
  (* 1295 *) MOV (Imm 1989455001339985327) (R AX);
  (* 1296 *) MUL (R R13);
  (* 1297 *) ADD (R AX) (R R8);
  (* 1298 *) ADC (R DX) (R R9);
  (* 1299 *) ADC (Imm 0) (R R10);
  (* 1301 *) MOV (Imm 1371447078966912928) (R AX);
  (* 1302 *) MUL (R R14);
  (* 1303 *) ADD (R AX) (R R8);
  (* 1304 *) ADC (R DX) (R R9);
  (* 1305 *) ADC (Imm 0) (R R10);
  (* 1307 *) MOV (M SI 32) (R R15);
  (* 1308 *) MOV (Imm 12393906174523604992) (R AX);
  (* 1309 *) MUL (R R15);
  (* 1310 *) ADD (R AX) (R R8);
  (* 1311 *) ADC (R DX) (R R9);
  (* 1312 *) ADC (Imm 0) (R R10);
  (* 1313 *) ADD (M DI 56) (R R8);
  (* 1314 *) MOV (R R8) (M SI 56);
  (* 1315 *) ADC (Imm 0) (R R9);
  (* 1316 *) ADC (Imm 0) (R R10);
  (* 1318 *) XOR (R R8) (R R8);
  (* 1319 *) MOV (Imm 18127602061483550) (R AX);
  (* 1320 *) MUL (R R12);
  (* 1321 *) ADD (R AX) (R R9);
  (* 1322 *) ADC (R DX) (R R10);
  (* 1323 *) ADC (Imm 0) (R R8);
  (* 1325 *) MOV (Imm 6937169319750509776) (R AX);
  (* 1326 *) MUL (R R13);
  (* 1327 *) ADD (R AX) (R R9);
  (* 1328 *) ADC (R DX) (R R10);
  (* 1329 *) ADC (Imm 0) (R R8);
  (* 1331 *) MOV (Imm 1989455001339985327) (R AX);
  (* 1332 *) MUL (R R14);
  (* 1333 *) ADD (R AX) (R R9);
  (* 1334 *) ADC (R DX) (R R10);
  (* 1335 *) ADC (Imm 0) (R R8);
  (* 1337 *) MOV (Imm 1371447078966912928) (R AX);
  (* 1338 *) MUL (R R15);
  (* 1339 *) ADD (R AX) (R R9);
  (* 1340 *) ADC (R DX) (R R10);
  (* 1341 *) ADC (Imm 0) (R R8);
  (* 1343 *) MOV (M SI 40) (R CX);
  (* 1344 *) MOV (Imm 12393906174523604992) (R AX);
  (* 1345 *) MUL (R CX);
  (* 1346 *) ADD (R AX) (R R9);
  (* 1347 *) ADC (R DX) (R R10);
  (* 1348 *) ADC (Imm 0) (R R8);
  (* 1349 *) ADD (M DI 64) (R R9);
  (* 1350 *) MOV (R R9) (M SI 0);
  (* 1351 *) ADC (Imm 0) (R R10);
  (* 1352 *) ADC (Imm 0) (R R8);
  (* 1354 *) XOR (R R9) (R R9);
  (* 1355 *) MOV (Imm 18127602061483550) (R AX);
  (* 1356 *) MUL (R R13);
  (* 1357 *) ADD (R AX) (R R10);
  (* 1358 *) ADC (R DX) (R R8);
  (* 1359 *) ADC (Imm 0) (R R9);
  (* 1361 *) MOV (Imm 6937169319750509776) (R AX);
  (* 1362 *) MUL (R R14);
  (* 1363 *) ADD (R AX) (R R10);
  (* 1364 *) ADC (R DX) (R R8);
  (* 1365 *) ADC (Imm 0) (R R9);
  (* 1367 *) MOV (Imm 1989455001339985327) (R AX);
  (* 1368 *) MUL (R R15);
  (* 1369 *) ADD (R AX) (R R10);
  (* 1370 *) ADC (R DX) (R R8);
  (* 1371 *) ADC (Imm 0) (R R9);
  (* 1373 *) MOV (Imm 1371447078966912928) (R AX);
  (* 1374 *) MUL (R CX);
  (* 1375 *) ADD (R AX) (R R10);
  (* 1376 *) ADC (R DX) (R R8);
  (* 1377 *) ADC (Imm 0) (R R9);
  (* 1379 *) MOV (M SI 48) (R R13);
  (* 1380 *) MOV (Imm 12393906174523604992) (R AX);
  (* 1381 *) MUL (R R13);
  (* 1382 *) ADD (R AX) (R R10);
  (* 1383 *) ADC (R DX) (R R8);
  (* 1384 *) ADC (Imm 0) (R R9);
  (* 1385 *) ADD (M DI 72) (R R10);
  (* 1386 *) MOV (R R10) (M SI 8);
  (* 1387 *) ADC (Imm 0) (R R8);
  (* 1388 *) ADC (Imm 0) (R R9);
  (* 1390 *) XOR (R R10) (R R10);
  (* 1391 *) MOV (Imm 18127602061483550) (R AX);
  (* 1392 *) MUL (R R14);
  (* 1393 *) ADD (R AX) (R R8);
  (* 1394 *) ADC (R DX) (R R9);
  (* 1395 *) ADC (Imm 0) (R R10);
  (* 1397 *) MOV (Imm 6937169319750509776) (R AX);
  (* 1398 *) MUL (R R15);
  (* 1399 *) ADD (R AX) (R R8);
  (* 1400 *) ADC (R DX) (R R9);
  (* 1401 *) ADC (Imm 0) (R R10);
  (* 1403 *) MOV (Imm 1989455001339985327) (R AX);
  (* 1404 *) MUL (R CX);
  (* 1405 *) ADD (R AX) (R R8);
  (* 1406 *) ADC (R DX) (R R9);
  (* 1407 *) ADC (Imm 0) (R R10);
  (* 1409 *) MOV (Imm 1371447078966912928) (R AX);
  (* 1410 *) MUL (R R13);
  (* 1411 *) ADD (R AX) (R R8);
  (* 1412 *) ADC (R DX) (R R9);
  (* 1413 *) ADC (Imm 0) (R R10);
  (* 1415 *) MOV (M SI 56) (R R14);
  (* 1416 *) MOV (Imm 12393906174523604992) (R AX);
  (* 1417 *) MUL (R R14);
  (* 1418 *) ADD (R AX) (R R8);
  (* 1419 *) ADC (R DX) (R R9);
  (* 1420 *) ADC (Imm 0) (R R10);
  (* 1421 *) ADD (M DI 80) (R R8);
  (* 1422 *) MOV (R R8) (M SI 16);
  (* 1423 *) ADC (Imm 0) (R R9);
  (* 1424 *) ADC (Imm 0) (R R10);
  (* 1426 *) XOR (R R8) (R R8);
  (* 1427 *) MOV (Imm 18127602061483550) (R AX);
  (* 1428 *) MUL (R R15);
  (* 1429 *) ADD (R AX) (R R9);
  (* 1430 *) ADC (R DX) (R R10);
  (* 1431 *) ADC (Imm 0) (R R8);
  (* 1433 *) MOV (Imm 6937169319750509776) (R AX);
  (* 1434 *) MUL (R CX);
  (* 1435 *) ADD (R AX) (R R9);
  (* 1436 *) ADC (R DX) (R R10);
  (* 1437 *) ADC (Imm 0) (R R8);
  (* 1439 *) MOV (Imm 1989455001339985327) (R AX);
  (* 1440 *) MUL (R R13);
  (* 1441 *) ADD (R AX) (R R9);
  (* 1442 *) ADC (R DX) (R R10);
  (* 1443 *) ADC (Imm 0) (R R8);
  (* 1445 *) MOV (Imm 1371447078966912928) (R AX);
  (* 1446 *) MUL (R R14);
  (* 1447 *) ADD (R AX) (R R9);
  (* 1448 *) ADC (R DX) (R R10);
  (* 1449 *) ADC (Imm 0) (R R8);
  (* 1450 *) ADD (M DI 88) (R R9);
  (* 1451 *) MOV (R R9) (M SI 24);
  (* 1452 *) ADC (Imm 0) (R R10);
  (* 1453 *) ADC (Imm 0) (R R8);
  (* 1455 *) XOR (R R9) (R R9);
  (* 1456 *) MOV (Imm 18127602061483550) (R AX);
  (* 1457 *) MUL (R CX);
  (* 1458 *) ADD (R AX) (R R10);
  (* 1459 *) ADC (R DX) (R R8);
  (* 1460 *) ADC (Imm 0) (R R9);
  (* 1462 *) MOV (Imm 6937169319750509776) (R AX);
  (* 1463 *) MUL (R R13);
  (* 1464 *) ADD (R AX) (R R10);
  (* 1465 *) ADC (R DX) (R R8);
  (* 1466 *) ADC (Imm 0) (R R9);
  (* 1468 *) MOV (Imm 1989455001339985327) (R AX);
  (* 1469 *) MUL (R R14);
  (* 1470 *) ADD (R AX) (R R10);
  (* 1471 *) ADC (R DX) (R R8);
  (* 1472 *) ADC (Imm 0) (R R9);
  (* 1473 *) ADD (M DI 96) (R R10);
  (* 1474 *) MOV (R R10) (M SI 32);
  (* 1475 *) ADC (Imm 0) (R R8);
  (* 1476 *) ADC (Imm 0) (R R9);
  (* 1478 *) XOR (R R10) (R R10);
  (* 1479 *) MOV (Imm 18127602061483550) (R AX);
  (* 1480 *) MUL (R R13);
  (* 1481 *) ADD (R AX) (R R8);
  (* 1482 *) ADC (R DX) (R R9);
  (* 1483 *) ADC (Imm 0) (R R10);
  (* 1485 *) MOV (Imm 6937169319750509776) (R AX);
  (* 1486 *) MUL (R R14);
  (* 1487 *) ADD (R AX) (R R8);
  (* 1488 *) ADC (R DX) (R R9);
  (* 1489 *) ADC (Imm 0) (R R10);
  (* 1490 *) ADD (M DI 104) (R R8);
  (* 1491 *) MOV (R R8) (M SI 40);
  (* 1492 *) ADC (Imm 0) (R R9);
  (* 1493 *) ADC (Imm 0) (R R10);
  (* 1495 *) MOV (Imm 18127602061483550) (R AX);
  (* 1496 *) MUL (R R14);
  (* 1497 *) ADD (R AX) (R R9);
  (* 1498 *) ADC (R DX) (R R10);
  (* 1499 *) ADD (M DI 112) (R R9);
  (* 1500 *) MOV (R R9) (M SI 48);
  (* 1501 *) ADC (Imm 0) (R R10);
  (* 1502 *) ADD (M DI 120) (R R10);
  (* 1503 *) MOV (R R10) (M SI 56) ].

(* adlP503, arith_amd64.s from line 1519, frame of 0 bytes *)
Definition adlP503Asm : list instr := [
  (* 1521 *) MOV (A 0) (R DX);
  (* 1522 *) MOV (A 8) (R DI);
  (* 1523 *) MOV (A 16) (R SI);
  (* 1525 *) MOV (M DI 0) (R R8);
  (* 1526 *) MOV (M DI 8) (R R9);
  (* 1527 *) MOV (M DI 16) (R R10);
  (* 1528 *) MOV (M DI 24) (R R11);
  (* 1529 *) MOV (M DI 32) (R R12);
  (* 1530 *) MOV (M DI 40) (R R13);
  (* 1531 *) MOV (M DI 48) (R R14);
  (* 1532 *) MOV (M DI 56) (R R15);
  (* 1533 *) MOV (M DI 64) (R AX);
  (* 1534 *) MOV (M DI 72) (R BX);
  (* 1535 *) MOV (M DI 80) (R CX);
  (* 1537 *) ADD (M SI 0) (R R8);
  (* 1538 *) ADC (M SI 8) (R R9);
  (* 1539 *) ADC (M SI 16) (R R10);
  (* 1540 *) ADC (M SI 24) (R R11);
  (* 1541 *) ADC (M SI 32) (R R12);
  (* 1542 *) ADC (M SI 40) (R R13);
  (* 1543 *) ADC (M SI 48) (R R14);
  (* 1544 *) ADC (M SI 56) (R R15);
  (* 1545 *) ADC (M SI 64) (R AX);
  (* 1546 *) ADC (M SI 72) (R BX);
  (* 1547 *) ADC (M SI 80) (R CX);
  (* 1549 *) MOV (R R8) (M DX 0);
  (* 1550 *) MOV (R R9) (M DX 8);
  (* 1551 *) MOV (R R10) (M DX 16);
  (* 1552 *) MOV (R R11) (M DX 24);
  (* 1553 *) MOV (R R12) (M DX 32);
  (* 1554 *) MOV (R R13) (M DX 40);
  (* 1555 *) MOV (R R14) (M DX 48);
  (* 1556 *) MOV (R R15) (M DX 56);
  (* 1557 *) MOV (R AX) (M DX 64);
  (* 1558 *) MOV (R BX) (M DX 72);
  (* 1559 *) MOV (R CX) (M DX 80);
  (* 1561 *) MOV (M DI 88) (R R8);
  (* 1562 *) MOV (M DI 96) (R R9);
  (* 1563 *) MOV (M DI 104) (R R10);
  (* 1564 *) MOV (M DI 112) (R R11);
  (* 1565 *) MOV (M DI 120) (R R12);
  (* 1567 *) ADC (M SI 88) (R R8);
  (* 1568 *) ADC (M SI 96) (R R9);
  (* 1569 *) ADC (M SI 104) (R R10);
  (* 1570 *) ADC (M SI 112) (R R11);
  (* 1571 *) ADC (M SI 120) (R R12);
  (* 1573 *) MOV (R R8) (M DX 88);
  (* 1574 *) MOV (R R9) (M DX 96);
  (* 1575 *) MOV (R R10) (M DX 104);
  (* 1576 *) MOV (R R11) (M DX 112);
  (* 1577 *) MOV (R R12) (M DX 120) ].

(* sulP503, arith_amd64.s from line 1581, frame of 0 bytes *)
Definition sulP503Asm : list instr := [
  (* 1583 *) MOV (A 0) (R DX);
  (* 1584 *) MOV (A 8) (R DI);
  (* 1585 *) MOV (A 16) (R SI);
  (* 1587 *) XOR (R CX) (R CX);
  (* 1590 *) MOV (M DI 0) (R R8);
  (* 1591 *) MOV (M DI 8) (R R9);
  (* 1592 *) MOV (M DI 16) (R R10);
  (* 1593 *) MOV (M DI 24) (R R11);
  (* 1594 *) MOV (M DI 32) (R R12);
  (* 1595 *) MOV (M DI 40) (R R13);
  (* 1596 *) MOV (M DI 48) (R R14);
  (* 1597 *) MOV (M DI 56) (R R15);
  (* 1598 *) MOV (M DI 64) (R AX);
  (* 1599 *) MOV (M DI 72) (R BX);
  (* 1601 *) SUB (M SI 0) (R R8);
  (* 1602 *) SBB (M SI 8) (R R9);
  (* 1603 *) SBB (M SI 16) (R R10);
  (* 1604 *) SBB (M SI 24) (R R11);
  (* 1605 *) SBB (M SI 32) (R R12);
  (* 1606 *) SBB (M SI 40) (R R13);
  (* 1607 *) SBB (M SI 48) (R R14);
  (* 1608 *) SBB (M SI 56) (R R15);
  (* 1609 *) SBB (M SI 64) (R AX);
  (* 1610 *) SBB (M SI 72) (R BX);
  (* 1612 *) MOV (R R8) (M DX 0);
  (* 1613 *) MOV (R R9) (M DX 8);
  (* 1614 *) MOV (R R10) (M DX 16);
  (* 1615 *) MOV (R R11) (M DX 24);
  (* 1616 *) MOV (R R12) (M DX 32);
  (* 1617 *) MOV (R R13) (M DX 40);
  (* 1618 *) MOV (R R14) (M DX 48);
  (* 1619 *) MOV (R R15) (M DX 56);
  (* 1620 *) MOV (R AX) (M DX 64);
  (* 1621 *) MOV (R BX) (M DX 72);
  (* 1624 *) MOV (M DI 80) (R R8);
  (* 1625 *) MOV (M DI 88) (R R9);
  (* 1626 *) MOV (M DI 96) (R R10);
  (* 1627 *) MOV (M DI 104) (R R11);
  (* 1628 *) MOV (M DI 112) (R R12);
  (* 1629 *) MOV (M DI 120) (R R13);
  (* 1631 *) SBB (M SI 80) (R R8);
  (* 1632 *) SBB (M SI 88) (R R9);
  (* 1633 *) SBB (M SI 96) (R R10);
  (* 1634 *) SBB (M SI 104) (R R11);
  (* 1635 *) SBB (M SI 112) (R R12);
  (* 1636 *) SBB (M SI 120) (R R13);
  (* 1638 *) MOV (R R8) (M DX 80);
  (* 1639 *) MOV (R R9) (M DX 88);
  (* 1640 *) MOV (R R10) (M DX 96);
  (* 1641 *) MOV (R R11) (M DX 104);
  (* 1642 *) MOV (R R12) (M DX 112);
  (* 1643 *) MOV (R R13) (M DX 120);
  (* 1646 *) SBB (Imm 0) (R CX);
  (* 1649 *) MOV (Imm 18446744073709551615) (R R8);
  (* 1651 *) MOV (Imm 12393906174523604991) (R R9);
  (* 1652 *) MOV (Imm 1371447078966912928) (R R10);
  (* 1653 *) MOV (Imm 1989455001339985327) (R R11);
  (* 1654 *) MOV (Imm 6937169319750509776) (R R12);
  (* 1655 *) MOV (Imm 18127602061483550) (R R13);
  (* 1657 *) AND (R CX) (R R8);
  (* 1658 *) AND (R CX) (R R9);
  (* 1659 *) AND (R CX) (R R10);
  (* 1660 *) AND (R CX) (R R11);
  (* 1661 *) AND (R CX) (R R12);
  (* 1662 *) AND (R CX) (R R13);
  (* 1664 *) MOV (M DX 64) (R AX); ADD (R R8) (R AX); MOV (R AX) (M DX 64);
  (* 1665 *) MOV (M DX 72) (R AX); ADC (R R8) (R AX); MOV (R AX) (M DX 72);
  (* 1666 *) MOV (M DX 80) (R AX); ADC (R R8) (R AX); MOV (R AX) (M DX 80);
  (* 1667 *) MOV (M DX 88) (R AX); ADC (R R9) (R AX); MOV (R AX) (M DX 88);
  (* 1668 *) MOV (M DX 96) (R AX); ADC (R R10) (R AX); MOV (R AX) (M DX 96);
  (* 1669 *) MOV (M DX 104) (R AX); ADC (R R11) (R AX); MOV (R AX) (M DX 104);
  (* 1670 *) MOV (M DX 112) (R AX); ADC (R R12) (R AX); MOV (R AX) (M DX 112);
  (* 1671 *) MOV (M DX 120) (R AX); ADC (R R13) (R AX); MOV (R AX) (M DX 120) ].
