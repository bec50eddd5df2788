(* The amd64 routines of dh/sidh/internal/p434/arith_amd64.s, with its macros expanded; the number before an instruction is its
   line (that of the macro call for a macro).  MOVQ/ADDQ/... lose their size suffix; RET is the end of a list; CMPB flag, $1
   followed by JE is JFLAG, with the code at its label as a separate list; MOVB followed by MOVBLZX is MOVZXB. *)
From Coq Require Import ZArith List.
From Verif Require Import X86.
Import ListNotations.
Open Scope Z_scope.

(* the package variables the three files refer to: HasBMI2, HasADXandBMI2 (params.go) and P434p1, P503p1, P751p1 *)
Definition g_HasBMI2 : nat := 0.
Definition g_HasADXandBMI2 : nat := 1.
Definition g_p1 : nat := 2.

(* cswapP434, arith_amd64.s from line 367, frame of 0 bytes *)
Definition cswapP434Asm : list instr := [
  (* 369 *) MOV (A 0) (R DI);
  (* 370 *) MOV (A 8) (R SI);
  (* 371 *) MOVZXB (A 16) AX;
  (* 373 *) NEG (R AX);
  (* 386 *) MOV (M DI 0) (R BX); MOV (M SI 0) (R CX); MOV (R CX) (R DX); XOR (R BX) (R DX); AND (R AX) (R DX); XOR (R DX) (R BX); XOR (R DX) (R CX); MOV (R BX) (M DI 0);
    MOV (R CX) (M SI 0);
  (* 387 *) MOV (M DI 8) (R BX); MOV (M SI 8) (R CX); MOV (R CX) (R DX); XOR (R BX) (R DX); AND (R AX) (R DX); XOR (R DX) (R BX); XOR (R DX) (R CX); MOV (R BX) (M DI 8);
    MOV (R CX) (M SI 8);
  (* 388 *) MOV (M DI 16) (R BX); MOV (M SI 16) (R CX); MOV (R CX) (R DX); XOR (R BX) (R DX); AND (R AX) (R DX); XOR (R DX) (R BX); XOR (R DX) (R CX); MOV (R BX) (M DI 16);
    MOV (R CX) (M SI 16);
  (* 389 *) MOV (M DI 24) (R BX); MOV (M SI 24) (R CX); MOV (R CX) (R DX); XOR (R BX) (R DX); AND (R AX) (R DX); XOR (R DX) (R BX); XOR (R DX) (R CX); MOV (R BX) (M DI 24);
    MOV (R CX) (M SI 24);
  (* 390 *) MOV (M DI 32) (R BX); MOV (M SI 32) (R CX); MOV (R CX) (R DX); XOR (R BX) (R DX); AND (R AX) (R DX); XOR (R DX) (R BX); XOR (R DX) (R CX); MOV (R BX) (M DI 32);
    MOV (R CX) (M SI 32);
  (* 391 *) MOV (M DI 40) (R BX); MOV (M SI 40) (R CX); MOV (R CX) (R DX); XOR (R BX) (R DX); AND (R AX) (R DX); XOR (R DX) (R BX); XOR (R DX) (R CX); MOV (R BX) (M DI 40);
    MOV (R CX) (M SI 40);
  (* 392 *) MOV (M DI 48) (R BX); MOV (M SI 48) (R CX); MOV (R CX) (R DX); XOR (R BX) (R DX); AND (R AX) (R DX); XOR (R DX) (R BX); XOR (R DX) (R CX); MOV (R BX) (M DI 48);
    MOV (R CX) (M SI 48) ].

(* addP434, arith_amd64.s from line 398, frame of 0 bytes *)
Definition addP434Asm : list instr := [
  (* 399 *) MOV (A 0) (R DX);
  (* 400 *) MOV (A 8) (R DI);
  (* 401 *) MOV (A 16) (R SI);
  (* 404 *) XOR (R CX) (R CX);
  (* 407 *) MOV (M DI 0) (R R8); ADD (M SI 0) (R R8);
  (* 408 *) MOV (M DI 8) (R R9); ADC (M SI 8) (R R9);
  (* 409 *) MOV (M DI 16) (R R10); ADC (M SI 16) (R R10);
  (* 410 *) MOV (M DI 24) (R R11); ADC (M SI 24) (R R11);
  (* 411 *) MOV (M DI 32) (R R12); ADC (M SI 32) (R R12);
  (* 412 *) MOV (M DI 40) (R R13); ADC (M SI 40) (R R13);
  (* 413 *) MOV (M DI 48) (R R14); ADC (M SI 48) (R R14);
  (* 415 *) XOR (R DI) (R DI);
  (* 417 *) MOV (Imm 18446744073709551614) (R AX); SUB (R AX) (R R8);
  (* 418 *) MOV (Imm 18446744073709551615) (R AX); SBB (R AX) (R R9);
  (* 419 *) SBB (R AX) (R R10);
  (* 420 *) MOV (Imm 18123308390825328639) (R AX); SBB (R AX) (R R11);
  (* 421 *) MOV (Imm 17837835566695144775) (R AX); SBB (R AX) (R R12);
  (* 422 *) MOV (Imm 15706514450264244396) (R AX); SBB (R AX) (R R13);
  (* 423 *) MOV (Imm 1240516715800200) (R AX); SBB (R AX) (R R14);
  (* 426 *) SBB (Imm 0) (R CX);
  (* 429 *) MOV (Imm 18446744073709551614) (R R15); AND (R CX) (R R15);
  (* 430 *) MOV (Imm 18446744073709551615) (R AX); AND (R CX) (R AX);
  (* 432 *) ADD (R R8) (R R15); MOV (R R15) (M DX 0);
  (* 433 *) ADC (R AX) (R R9); MOV (R R9) (M DX 8);
  (* 434 *) ADC (R AX) (R R10); MOV (R R10) (M DX 16);
  (* 436 *) ADC (Imm 0) (R DI);
  (* 437 *) MOV (Imm 18123308390825328639) (R R15); AND (R CX) (R R15);
  (* 438 *) MOV (Imm 17837835566695144775) (R R8); AND (R CX) (R R8);
  (* 439 *) MOV (Imm 15706514450264244396) (R R9); AND (R CX) (R R9);
  (* 440 *) MOV (Imm 1240516715800200) (R R10); AND (R CX) (R R10);
  (* 441 *) BT0 (R DI);
  (* 443 *) ADC (R R11) (R R15); MOV (R R15) (M DX 24);
  (* 444 *) ADC (R R12) (R R8); MOV (R R8) (M DX 32);
  (* 445 *) ADC (R R13) (R R9); MOV (R R9) (M DX 40);
  (* 446 *) ADC (R R14) (R R10); MOV (R R10) (M DX 48) ].

(* adlP434, arith_amd64.s from line 450, frame of 0 bytes *)
Definition adlP434Asm : list instr := [
  (* 451 *) MOV (A 0) (R DX);
  (* 452 *) MOV (A 8) (R DI);
  (* 453 *) MOV (A 16) (R SI);
  (* 455 *) MOV (M DI 0) (R R8);
  (* 456 *) ADD (M SI 0) (R R8);
  (* 457 *) MOV (M DI 8) (R R9);
  (* 458 *) ADC (M SI 8) (R R9);
  (* 459 *) MOV (M DI 16) (R R10);
  (* 460 *) ADC (M SI 16) (R R10);
  (* 461 *) MOV (M DI 24) (R R11);
  (* 462 *) ADC (M SI 24) (R R11);
  (* 463 *) MOV (M DI 32) (R R12);
  (* 464 *) ADC (M SI 32) (R R12);
  (* 465 *) MOV (M DI 40) (R R13);
  (* 466 *) ADC (M SI 40) (R R13);
  (* 467 *) MOV (M DI 48) (R R14);
  (* 468 *) ADC (M SI 48) (R R14);
  (* 469 *) MOV (M DI 56) (R R15);
  (* 470 *) ADC (M SI 56) (R R15);
  (* 471 *) MOV (M DI 64) (R AX);
  (* 472 *) ADC (M SI 64) (R AX);
  (* 473 *) MOV (M DI 72) (R BX);
  (* 474 *) ADC (M SI 72) (R BX);
  (* 475 *) MOV (M DI 80) (R CX);
  (* 476 *) ADC (M SI 80) (R CX);
  (* 478 *) MOV (R R8) (M DX 0);
  (* 479 *) MOV (R R9) (M DX 8);
  (* 480 *) MOV (R R10) (M DX 16);
  (* 481 *) MOV (R R11) (M DX 24);
  (* 482 *) MOV (R R12) (M DX 32);
  (* 483 *) MOV (R R13) (M DX 40);
  (* 484 *) MOV (R R14) (M DX 48);
  (* 485 *) MOV (R R15) (M DX 56);
  (* 486 *) MOV (R AX) (M DX 64);
  (* 487 *) MOV (R BX) (M DX 72);
  (* 488 *) MOV (R CX) (M DX 80);
  (* 490 *) MOV (M DI 88) (R R8);
  (* 491 *) ADC (M SI 88) (R R8);
  (* 492 *) MOV (M DI 96) (R R9);
  (* 493 *) ADC (M SI 96) (R R9);
  (* 494 *) MOV (M DI 104) (R R10);
  (* 495 *) ADC (M SI 104) (R R10);
  (* 497 *) MOV (R R8) (M DX 88);
  (* 498 *) MOV (R R9) (M DX 96);
  (* 499 *) MOV (R R10) (M DX 104) ].

(* subP434, arith_amd64.s from line 502, frame of 0 bytes *)
Definition subP434Asm : list instr := [
  (* 503 *) MOV (A 0) (R DX);
  (* 504 *) MOV (A 8) (R DI);
  (* 505 *) MOV (A 16) (R SI);
  (* 508 *) XOR (R CX) (R CX);
  (* 510 *) MOV (M DI 0) (R R8); SUB (M SI 0) (R R8);
  (* 511 *) MOV (M DI 8) (R R9); SBB (M SI 8) (R R9);
  (* 512 *) MOV (M DI 16) (R R10); SBB (M SI 16) (R R10);
  (* 513 *) MOV (M DI 24) (R R11); SBB (M SI 24) (R R11);
  (* 514 *) MOV (M DI 32) (R R12); SBB (M SI 32) (R R12);
  (* 515 *) MOV (M DI 40) (R R13); SBB (M SI 40) (R R13);
  (* 516 *) MOV (M DI 48) (R R14); SBB (M SI 48) (R R14);
  (* 519 *) SBB (Imm 0) (R CX);
  (* 520 *) XOR (R R15) (R R15);
  (* 523 *) MOV (Imm 18446744073709551614) (R DI); AND (R CX) (R DI);
  (* 524 *) MOV (Imm 18446744073709551615) (R SI); AND (R CX) (R SI);
  (* 525 *) MOV (Imm 18123308390825328639) (R AX); AND (R CX) (R AX);
  (* 527 *) ADD (R DI) (R R8); MOV (R R8) (M DX 0);
  (* 528 *) ADC (R SI) (R R9); MOV (R R9) (M DX 8);
  (* 529 *) ADC (R SI) (R R10); MOV (R R10) (M DX 16);
  (* 530 *) ADC (R AX) (R R11); MOV (R R11) (M DX 24);
  (* 531 *) ADC (Imm 0) (R R15);
  (* 533 *) MOV (Imm 17837835566695144775) (R R8); AND (R CX) (R R8);
  (* 534 *) MOV (Imm 15706514450264244396) (R R9); AND (R CX) (R R9);
  (* 535 *) MOV (Imm 1240516715800200) (R R10); AND (R CX) (R R10);
  (* 537 *) BT0 (R R15);
  (* 539 *) ADC (R R8) (R R12); MOV (R R12) (M DX 32);
  (* 540 *) ADC (R R9) (R R13); MOV (R R13) (M DX 40);
  (* 541 *) ADC (R R10) (R R14); MOV (R R14) (M DX 48) ].

(* sulP434, arith_amd64.s from line 544, frame of 0 bytes *)
Definition sulP434Asm : list instr := [
  (* 545 *) MOV (A 0) (R DX);
  (* 546 *) MOV (A 8) (R DI);
  (* 547 *) MOV (A 16) (R SI);
  (* 550 *) XOR (R CX) (R CX);
  (* 553 *) MOV (M DI 0) (R R8); SUB (M SI 0) (R R8);
  (* 554 *) MOV (M DI 8) (R R9); SBB (M SI 8) (R R9);
  (* 555 *) MOV (M DI 16) (R R10); SBB (M SI 16) (R R10);
  (* 556 *) MOV (M DI 24) (R R11); SBB (M SI 24) (R R11);
  (* 557 *) MOV (M DI 32) (R R12); SBB (M SI 32) (R R12);
  (* 558 *) MOV (M DI 40) (R R13); SBB (M SI 40) (R R13);
  (* 559 *) MOV (M DI 48) (R R14); SBB (M SI 48) (R R14);
  (* 560 *) MOV (M DI 56) (R R15); SBB (M SI 56) (R R15);
  (* 561 *) MOV (M DI 64) (R AX); SBB (M SI 64) (R AX);
  (* 562 *) MOV (M DI 72) (R BX); SBB (M SI 72) (R BX);
  (* 564 *) MOV (R R8) (M DX 0);
  (* 565 *) MOV (R R9) (M DX 8);
  (* 566 *) MOV (R R10) (M DX 16);
  (* 567 *) MOV (R R11) (M DX 24);
  (* 568 *) MOV (R R12) (M DX 32);
  (* 569 *) MOV (R R13) (M DX 40);
  (* 570 *) MOV (R R14) (M DX 48);
  (* 571 *) MOV (R R15) (M DX 56);
  (* 572 *) MOV (R AX) (M DX 64);
  (* 573 *) MOV (R BX) (M DX 72);
  (* 576 *) MOV (M DI 80) (R R8); SBB (M SI 80) (R R8);
  (* 577 *) MOV (M DI 88) (R R9); SBB (M SI 88) (R R9);
  (* 578 *) MOV (M DI 96) (R R10); SBB (M SI 96) (R R10);
  (* 579 *) MOV (M DI 104) (R R11); SBB (M SI 104) (R R11);
  (* 582 *) SBB (Imm 0) (R CX);
  (* 584 *) MOV (R R8) (M DX 80);
  (* 585 *) MOV (R R9) (M DX 88);
  (* 586 *) MOV (R R10) (M DX 96);
  (* 587 *) MOV (R R11) (M DX 104);
  (* 590 *) MOV (Imm 18446744073709551615) (R R8); AND (R CX) (R R8);
  (* 592 *) MOV (Imm 18285026232267440127) (R R9); AND (R CX) (R R9);
  (* 593 *) MOV (Imm 8918917783347572387) (R R10); AND (R CX) (R R10);
  (* 594 *) MOV (Imm 7853257225132122198) (R R11); AND (R CX) (R R11);
  (* 595 *) MOV (Imm 620258357900100) (R R12); AND (R CX) (R R12);
  (* 597 *) MOV (M DX 56) (R AX); ADD (R R8) (R AX); MOV (R AX) (M DX 56);
  (* 598 *) MOV (M DX 64) (R AX); ADC (R R8) (R AX); MOV (R AX) (M DX 64);
  (* 599 *) MOV (M DX 72) (R AX); ADC (R R8) (R AX); MOV (R AX) (M DX 72);
  (* 600 *) MOV (M DX 80) (R AX); ADC (R R9) (R AX); MOV (R AX) (M DX 80);
  (* 601 *) MOV (M DX 88) (R AX); ADC (R R10) (R AX); MOV (R AX) (M DX 88);
  (* 602 *) MOV (M DX 96) (R AX); ADC (R R11) (R AX); MOV (R AX) (M DX 96);
  (* 603 *) MOV (M DX 104) (R AX); ADC (R R12) (R AX); MOV (R AX) (M DX 104) ].

(* modP434, arith_amd64.s from line 607, frame of 0 bytes *)
Definition modP434Asm : list instr := [
  (* 608 *) MOV (A 0) (R DI);
  (* 611 *) XOR (R AX) (R AX);
  (* 614 *) MOV (Imm 18446744073709551615) (R R8);
  (* 615 *) SUB (R R8) (M DI 0);
  (* 617 *) MOV (Imm 18285026232267440127) (R R9);
  (* 618 *) SBB (R R8) (M DI 8);
  (* 619 *) SBB (R R8) (M DI 16);
  (* 620 *) MOV (Imm 8918917783347572387) (R R10);
  (* 621 *) SBB (R R9) (M DI 24);
  (* 622 *) MOV (Imm 7853257225132122198) (R R11);
  (* 623 *) SBB (R R10) (M DI 32);
  (* 624 *) MOV (Imm 620258357900100) (R R12);
  (* 625 *) SBB (R R11) (M DI 40);
  (* 626 *) SBB (R R12) (M DI 48);
  (* 629 *) SBB (Imm 0) (R AX);
  (* 632 *) AND (R AX) (R R8);
  (* 633 *) AND (R AX) (R R9);
  (* 634 *) AND (R AX) (R R10);
  (* 635 *) AND (R AX) (R R11);
  (* 636 *) AND (R AX) (R R12);
  (* 638 *) ADD (R R8) (M DI 0);
  (* 639 *) ADC (R R8) (M DI 8);
  (* 640 *) ADC (R R8) (M DI 16);
  (* 641 *) ADC (R R9) (M DI 24);
  (* 642 *) ADC (R R10) (M DI 32);
  (* 643 *) ADC (R R11) (M DI 40);
  (* 644 *) ADC (R R12) (M DI 48) ].

(* mulP434, arith_amd64.s from line 1076, frame of 112 bytes *)
Definition mulP434Asm_mul_with_mulx_adcx_adox : list instr := [
  (* 1076 *) XOR (R AX) (R AX);
  (* 1077 *) MOV (M DI 0) (R R8);
  (* 1078 *) MOV (M DI 8) (R R9);
  (* 1079 *) MOV (M DI 16) (R R10);
  (* 1080 *) MOV (M DI 24) (R R11);
  (* 1082 *) MOV (R BP) (M SP 112);
  (* 1084 *) ADD (M DI 32) (R R8);
  (* 1085 *) ADC (M DI 40) (R R9);
  (* 1086 *) ADC (M DI 48) (R R10);
  (* 1087 *) ADC (Imm 0) (R R11);
  (* 1088 *) SBB (Imm 0) (R AX);
  (* 1089 *) MOV (R R8) (M SP 0);
  (* 1090 *) MOV (R R9) (M SP 8);
  (* 1091 *) MOV (R R10) (M SP 16);
  (* 1092 *) MOV (R R11) (M SP 24);
  (* 1095 *) XOR (R BX) (R BX);
  (* 1096 *) MOV (M SI 0) (R R12);
  (* 1097 *) MOV (M SI 8) (R R13);
  (* 1098 *) MOV (M SI 16) (R R14);
  (* 1099 *) MOV (M SI 24) (R R15);
  (* 1100 *) ADD (M SI 32) (R R12);
  (* 1101 *) ADC (M SI 40) (R R13);
  (* 1102 *) ADC (M SI 48) (R R14);
  (* 1103 *) ADC (Imm 0) (R R15);
  (* 1104 *) SBB (Imm 0) (R BX);
  (* 1105 *) MOV (R R12) (M SP 32);
  (* 1106 *) MOV (R R13) (M SP 40);
  (* 1107 *) MOV (R R14) (M SP 48);
  (* 1108 *) MOV (R R15) (M SP 56);
  (* 1111 *) AND (R AX) (R R12);
  (* 1112 *) AND (R AX) (R R13);
  (* 1113 *) AND (R AX) (R R14);
  (* 1114 *) AND (R AX) (R R15);
  (* 1117 *) AND (R BX) (R R8);
  (* 1118 *) AND (R BX) (R R9);
  (* 1119 *) AND (R BX) (R R10);
  (* 1120 *) AND (R BX) (R R11);
  (* 1123 *) ADD (R R12) (R R8);
  (* 1124 *) ADC (R R13) (R R9);
  (* 1125 *) ADC (R R14) (R R10);
  (* 1126 *) ADC (R R15) (R R11);
  (* 1127 *) MOV (R R8) (M SP 64);
  (* 1128 *) MOV (R R9) (M SP 72);
  (* 1129 *) MOV (R R10) (M SP 80);
  (* 1130 *) MOV (R R11) (M SP 88);
  (* 1133 *) MOV (M SP 0) (R DX); MULX (M SP 32) R9 R8; MOV (R R9) (M SP 0); MULX (M SP 40) R10 R9; XOR (R AX) (R AX); ADOX (R R10) R8; MULX (M SP 48) R11 R10;
    ADOX (R R11) R9; MULX (M SP 56) R12 R11; ADOX (R R12) R10; MOV (M SP 8) (R DX); MULX (M SP 32) R12 R13; ADOX (R AX) R11; XOR (R AX) (R AX); MULX (M SP 40) R15 R14;
    ADOX (R R8) R12; MOV (R R12) (M SP 8); ADCX (R R15) R13; MULX (M SP 48) BX R15; ADCX (R BX) R14; ADOX (R R9) R13; MULX (M SP 56) BP BX; ADCX (R BP) R15;
    ADCX (R AX) BX; ADOX (R R10) R14; MOV (M SP 16) (R DX); MULX (M SP 32) R8 R9; ADOX (R R11) R15; ADOX (R AX) BX; XOR (R AX) (R AX); MULX (M SP 40) R11 R10;
    ADOX (R R13) R8; MOV (R R8) (M SP 16); ADCX (R R11) R9; MULX (M SP 48) R12 R11; ADCX (R R12) R10; ADOX (R R14) R9; MULX (M SP 56) BP R12; ADCX (R BP) R11;
    ADCX (R AX) R12; ADOX (R R15) R10; ADOX (R BX) R11; ADOX (R AX) R12; MOV (M SP 24) (R DX); MULX (M SP 32) R8 R13; XOR (R AX) (R AX); MULX (M SP 40) R15 R14;
    ADCX (R R15) R13; ADOX (R R8) R9; MULX (M SP 48) BX R15; ADCX (R BX) R14; ADOX (R R13) R10; MULX (M SP 56) BP BX; ADCX (R BP) R15; ADCX (R AX) BX; ADOX (R R14) R11;
    ADOX (R R15) R12; ADOX (R AX) BX; MOV (R R9) (M SP 24); MOV (R R10) (M SP 32); MOV (R R11) (M SP 40); MOV (R R12) (M SP 48); MOV (R BX) (M SP 56);
  (* 1135 *) MOV (M DI 0) (R DX); MULX (M SI 0) R9 R8; MOV (R R9) (M CX 0); MULX (M SI 8) R10 R9; XOR (R AX) (R AX); ADOX (R R10) R8; MULX (M SI 16) R11 R10;
    ADOX (R R11) R9; MULX (M SI 24) R12 R11; ADOX (R R12) R10; MOV (M DI 8) (R DX); MULX (M SI 0) R12 R13; ADOX (R AX) R11; XOR (R AX) (R AX); MULX (M SI 8) R15 R14;
    ADOX (R R8) R12; MOV (R R12) (M CX 8); ADCX (R R15) R13; MULX (M SI 16) BX R15; ADCX (R BX) R14; ADOX (R R9) R13; MULX (M SI 24) BP BX; ADCX (R BP) R15;
    ADCX (R AX) BX; ADOX (R R10) R14; MOV (M DI 16) (R DX); MULX (M SI 0) R8 R9; ADOX (R R11) R15; ADOX (R AX) BX; XOR (R AX) (R AX); MULX (M SI 8) R11 R10;
    ADOX (R R13) R8; MOV (R R8) (M CX 16); ADCX (R R11) R9; MULX (M SI 16) R12 R11; ADCX (R R12) R10; ADOX (R R14) R9; MULX (M SI 24) BP R12; ADCX (R BP) R11;
    ADCX (R AX) R12; ADOX (R R15) R10; ADOX (R BX) R11; ADOX (R AX) R12; MOV (M DI 24) (R DX); MULX (M SI 0) R8 R13; XOR (R AX) (R AX); MULX (M SI 8) R15 R14;
    ADCX (R R15) R13; ADOX (R R8) R9; MULX (M SI 16) BX R15; ADCX (R BX) R14; ADOX (R R13) R10; MULX (M SI 24) BP BX; ADCX (R BP) R15; ADCX (R AX) BX; ADOX (R R14) R11;
    ADOX (R R15) R12; ADOX (R AX) BX; MOV (R R9) (M CX 24); MOV (R R10) (M CX 32); MOV (R R11) (M CX 40); MOV (R R12) (M CX 48); MOV (R BX) (M CX 56);
  (* 1137 *) MOV (M DI 32) (R DX); MULX (M SI 32) R9 R8; MOV (R R9) (M CX 64); MULX (M SI 40) R10 R9; XOR (R AX) (R AX); ADOX (R R10) R8; MULX (M SI 48) R11 R10;
    ADOX (R R11) R9; MOV (M DI 40) (R DX); MULX (M SI 32) R12 R11; ADOX (R AX) R10; XOR (R AX) (R AX); MULX (M SI 40) R14 R13; ADOX (R R8) R12; MOV (R R12) (M CX 72);
    ADCX (R R14) R11; MULX (M SI 48) R8 R14; ADOX (R R9) R11; ADCX (R R8) R13; ADCX (R AX) R14; ADOX (R R10) R13; MOV (M DI 48) (R DX); MULX (M SI 32) R8 R9;
    ADOX (R AX) R14; XOR (R AX) (R AX); MULX (M SI 40) R10 R12; ADOX (R R11) R8; MOV (R R8) (M CX 80); ADCX (R R13) R9; MULX (M SI 48) R11 R8; ADCX (R R14) R12;
    ADCX (R AX) R8; ADOX (R R10) R9; ADOX (R R12) R11; ADOX (R AX) R8; MOV (R R9) (M CX 88); MOV (R R11) (M CX 96); MOV (R R8) (M CX 104);
  (* 1140 *) MOV (M SP 64) (R R8);
  (* 1141 *) MOV (M SP 72) (R R9);
  (* 1142 *) MOV (M SP 80) (R R10);
  (* 1143 *) MOV (M SP 88) (R R11);
  (* 1145 *) MOV (M SP 32) (R AX);
  (* 1146 *) ADD (R AX) (R R8);
  (* 1147 *) MOV (M SP 40) (R AX);
  (* 1148 *) ADC (R AX) (R R9);
  (* 1149 *) MOV (M SP 48) (R AX);
  (* 1150 *) ADC (R AX) (R R10);
  (* 1151 *) MOV (M SP 56) (R AX);
  (* 1152 *) ADC (R AX) (R R11);
  (* 1155 *) MOV (M SP 0) (R R12);
  (* 1156 *) MOV (M SP 8) (R R13);
  (* 1157 *) MOV (M SP 16) (R R14);
  (* 1158 *) MOV (M SP 24) (R R15);
  (* 1159 *) SUB (M CX 0) (R R12);
  (* 1160 *) SBB (M CX 8) (R R13);
  (* 1161 *) SBB (M CX 16) (R R14);
  (* 1162 *) SBB (M CX 24) (R R15);
  (* 1163 *) SBB (M CX 32) (R R8);
  (* 1164 *) SBB (M CX 40) (R R9);
  (* 1165 *) SBB (M CX 48) (R R10);
  (* 1166 *) SBB (M CX 56) (R R11);
  (* 1169 *) SUB (M CX 64) (R R12);
  (* 1170 *) SBB (M CX 72) (R R13);
  (* 1171 *) SBB (M CX 80) (R R14);
  (* 1172 *) SBB (M CX 88) (R R15);
  (* 1173 *) SBB (M CX 96) (R R8);
  (* 1174 *) SBB (M CX 104) (R R9);
  (* 1175 *) SBB (Imm 0) (R R10);
  (* 1176 *) SBB (Imm 0) (R R11);
  (* 1178 *) ADD (M CX 32) (R R12);
  (* 1179 *) MOV (R R12) (M CX 32);
  (* 1180 *) ADC (M CX 40) (R R13);
  (* 1181 *) MOV (R R13) (M CX 40);
  (* 1182 *) ADC (M CX 48) (R R14);
  (* 1183 *) MOV (R R14) (M CX 48);
  (* 1184 *) ADC (M CX 56) (R R15);
  (* 1185 *) MOV (R R15) (M CX 56);
  (* 1186 *) ADC (M CX 64) (R R8);
  (* 1187 *) MOV (R R8) (M CX 64);
  (* 1188 *) ADC (M CX 72) (R R9);
  (* 1189 *) MOV (R R9) (M CX 72);
  (* 1190 *) ADC (M CX 80) (R R10);
  (* 1191 *) MOV (R R10) (M CX 80);
  (* 1192 *) ADC (M CX 88) (R R11);
  (* 1193 *) MOV (R R11) (M CX 88);
  (* 1194 *) MOV (M CX 96) (R R12);
  (* 1195 *) ADC (Imm 0) (R R12);
  (* 1196 *) MOV (R R12) (M CX 96);
  (* 1197 *) MOV (M CX 104) (R R13);
  (* 1198 *) ADC (Imm 0) (R R13);
  (* 1199 *) MOV (R R13) (M CX 104);
  (* 1201 *) MOV (M SP 112) (R BP) ].

(* mulP434, arith_amd64.s from line 649, frame of 112 bytes *)
Definition mulP434Asm : list instr := [
  (* 650 *) MOV (A 0) (R CX);
  (* 651 *) MOV (A 8) (R DI);
  (* 652 *) MOV (A 16) (R SI);
  (* 655 *) JFLAG g_HasADXandBMI2 mulP434Asm_mul_with_mulx_adcx_adox;
  (* 659 *) XOR (R AX) (R AX);
  (* 660 *) MOV (M DI 32) (R R8);
  (* 661 *) MOV (M DI 40) (R R9);
  (* 662 *) MOV (M DI 48) (R R10);
  (* 663 *) XOR (R R11) (R R11);
  (* 664 *) ADD (M DI 0) (R R8);
  (* 665 *) ADC (M DI 8) (R R9);
  (* 666 *) ADC (M DI 16) (R R10);
  (* 667 *) ADC (M DI 24) (R R11);
  (* 669 *) SBB (Imm 0) (R AX);
  (* 670 *) MOV (R AX) (M SP 64);
  (* 672 *) MOV (R R8) (M CX 0);
  (* 673 *) MOV (R R9) (M CX 8);
  (* 674 *) MOV (R R10) (M CX 16);
  (* 675 *) MOV (R R11) (M CX 24);
  (* 678 *) XOR (R DX) (R DX);
  (* 679 *) MOV (M SI 32) (R R12);
  (* 680 *) MOV (M SI 40) (R R13);
  (* 681 *) MOV (M SI 48) (R R14);
  (* 682 *) XOR (R R15) (R R15);
  (* 683 *) ADD (M SI 0) (R R12);
  (* 684 *) ADC (M SI 8) (R R13);
  (* 685 *) ADC (M SI 16) (R R14);
  (* 686 *) ADC (M SI 24) (R R15);
  (* 687 *) SBB (Imm 0) (R DX);
  (* 690 *) MOV (R DX) (M SP 72);
  (* 693 *) MOV (M CX 0) (R AX);
  (* 694 *) MUL (R R12);
  (* 695 *) MOV (R AX) (M SP 0);
  (* 696 *) MOV (R DX) (R R8);
  (* 698 *) XOR (R R9) (R R9);
  (* 699 *) MOV (M CX 0) (R AX);
  (* 700 *) MUL (R R13);
  (* 701 *) ADD (R AX) (R R8);
  (* 702 *) ADC (R DX) (R R9);
  (* 704 *) XOR (R R10) (R R10);
  (* 705 *) MOV (M CX 8) (R AX);
  (* 706 *) MUL (R R12);
  (* 707 *) ADD (R AX) (R R8);
  (* 708 *) MOV (R R8) (M SP 8);
  (* 709 *) ADC (R DX) (R R9);
  (* 710 *) ADC (Imm 0) (R R10);
  (* 712 *) XOR (R R8) (R R8);
  (* 713 *) MOV (M CX 0) (R AX);
  (* 714 *) MUL (R R14);
  (* 715 *) ADD (R AX) (R R9);
  (* 716 *) ADC (R DX) (R R10);
  (* 717 *) ADC (Imm 0) (R R8);
  (* 719 *) MOV (M CX 16) (R AX);
  (* 720 *) MUL (R R12);
  (* 721 *) ADD (R AX) (R R9);
  (* 722 *) ADC (R DX) (R R10);
  (* 723 *) ADC (Imm 0) (R R8);
  (* 725 *) MOV (M CX 8) (R AX);
  (* 726 *) MUL (R R13);
  (* 727 *) ADD (R AX) (R R9);
  (* 728 *) MOV (R R9) (M SP 16);
  (* 729 *) ADC (R DX) (R R10);
  (* 730 *) ADC (Imm 0) (R R8);
  (* 732 *) XOR (R R9) (R R9);
  (* 733 *) MOV (M CX 0) (R AX);
  (* 734 *) MUL (R R15);
  (* 735 *) ADD (R AX) (R R10);
  (* 736 *) ADC (R DX) (R R8);
  (* 737 *) ADC (Imm 0) (R R9);
  (* 739 *) MOV (M CX 24) (R AX);
  (* 740 *) MUL (R R12);
  (* 741 *) ADD (R AX) (R R10);
  (* 742 *) ADC (R DX) (R R8);
  (* 743 *) ADC (Imm 0) (R R9);
  (* 745 *) MOV (M CX 8) (R AX);
  (* 746 *) MUL (R R14);
  (* 747 *) ADD (R AX) (R R10);
  (* 748 *) ADC (R DX) (R R8);
  (* 749 *) ADC (Imm 0) (R R9);
  (* 751 *) MOV (M CX 16) (R AX);
  (* 752 *) MUL (R R13);
  (* 753 *) ADD (R AX) (R R10);
  (* 754 *) MOV (R R10) (M SP 24);
  (* 755 *) ADC (R DX) (R R8);
  (* 756 *) ADC (Imm 0) (R R9);
  (* 758 *) XOR (R R10) (R R10);
  (* 759 *) MOV (M CX 8) (R AX);
  (* 760 *) MUL (R R15);
  (* 761 *) ADD (R AX) (R R8);
  (* 762 *) ADC (R DX) (R R9);
  (* 763 *) ADC (Imm 0) (R R10);
  (* 765 *) MOV (M CX 24) (R AX);
  (* 766 *) MUL (R R13);
  (* 767 *) ADD (R AX) (R R8);
  (* 768 *) ADC (R DX) (R R9);
  (* 769 *) ADC (Imm 0) (R R10);
  (* 771 *) MOV (M CX 16) (R AX);
  (* 772 *) MUL (R R14);
  (* 773 *) ADD (R AX) (R R8);
  (* 774 *) MOV (R R8) (M SP 32);
  (* 775 *) ADC (R DX) (R R9);
  (* 776 *) ADC (Imm 0) (R R10);
  (* 778 *) XOR (R R11) (R R11);
  (* 779 *) MOV (M CX 16) (R AX);
  (* 780 *) MUL (R R15);
  (* 781 *) ADD (R AX) (R R9);
  (* 782 *) ADC (R DX) (R R10);
  (* 783 *) ADC (Imm 0) (R R11);
  (* 785 *) MOV (M CX 24) (R AX);
  (* 786 *) MUL (R R14);
  (* 787 *) ADD (R AX) (R R9);
  (* 788 *) MOV (R R9) (M SP 40);
  (* 789 *) ADC (R DX) (R R10);
  (* 790 *) ADC (Imm 0) (R R11);
  (* 792 *) MOV (M CX 24) (R AX);
  (* 793 *) MUL (R R15);
  (* 794 *) ADD (R AX) (R R10);
  (* 795 *) MOV (R R10) (M SP 48);
  (* 796 *) ADC (R DX) (R R11);
  (* 797 *) MOV (R R11) (M SP 56);
  (* 800 *) MOV (M SP 64) (R AX);
  (* 801 *) AND (R AX) (R R12);
  (* 802 *) AND (R AX) (R R13);
  (* 803 *) AND (R AX) (R R14);
  (* 804 *) AND (R AX) (R R15);
  (* 807 *) MOV (M SP 72) (R AX);
  (* 808 *) MOV (M CX 0) (R R8);
  (* 809 *) AND (R AX) (R R8);
  (* 810 *) MOV (M CX 8) (R R9);
  (* 811 *) AND (R AX) (R R9);
  (* 812 *) MOV (M CX 16) (R R10);
  (* 813 *) AND (R AX) (R R10);
  (* 814 *) MOV (M CX 24) (R R11);
  (* 815 *) AND (R AX) (R R11);
  (* 818 *) ADD (R R8) (R R12);
  (* 819 *) ADC (R R9) (R R13);
  (* 820 *) ADC (R R10) (R R14);
  (* 821 *) ADC (R R11) (R R15);
  (* 824 *) MOV (M SP 32) (R AX);
  (* 825 *) ADD (R AX) (R R12);
  (* 826 *) MOV (M SP 40) (R AX);
  (* 827 *) ADC (R AX) (R R13);
  (* 828 *) MOV (M SP 48) (R AX);
  (* 829 *) ADC (R AX) (R R14);
  (* 830 *) MOV (M SP 56) (R AX);
  (* 831 *) ADC (R AX) (R R15);
  (* 832 *) MOV (R R12) (M SP 80);
  (* 833 *) MOV (R R13) (M SP 88);
  (* 834 *) MOV (R R14) (M SP 96);
  (* 835 *) MOV (R R15) (M SP 104);
  (* 838 *) MOV (M DI 0) (R R11);
  (* 839 *) MOV (M SI 0) (R AX);
  (* 840 *) MUL (R R11);
  (* 841 *) XOR (R R9) (R R9);
  (* 842 *) MOV (R AX) (M CX 0);
  (* 843 *) MOV (R DX) (R R8);
  (* 845 *) MOV (M DI 16) (R R14);
  (* 846 *) MOV (M SI 8) (R AX);
  (* 847 *) MUL (R R11);
  (* 848 *) XOR (R R10) (R R10);
  (* 849 *) ADD (R AX) (R R8);
  (* 850 *) ADC (R DX) (R R9);
  (* 852 *) MOV (M DI 8) (R R12);
  (* 853 *) MOV (M SI 0) (R AX);
  (* 854 *) MUL (R R12);
  (* 855 *) ADD (R AX) (R R8);
  (* 856 *) MOV (R R8) (M CX 8);
  (* 857 *) ADC (R DX) (R R9);
  (* 858 *) ADC (Imm 0) (R R10);
  (* 860 *) XOR (R R8) (R R8);
  (* 861 *) MOV (M SI 16) (R AX);
  (* 862 *) MUL (R R11);
  (* 863 *) ADD (R AX) (R R9);
  (* 864 *) ADC (R DX) (R R10);
  (* 865 *) ADC (Imm 0) (R R8);
  (* 867 *) MOV (M SI 0) (R R13);
  (* 868 *) MOV (R R14) (R AX);
  (* 869 *) MUL (R R13);
  (* 870 *) ADD (R AX) (R R9);
  (* 871 *) ADC (R DX) (R R10);
  (* 872 *) ADC (Imm 0) (R R8);
  (* 874 *) MOV (M SI 8) (R AX);
  (* 875 *) MUL (R R12);
  (* 876 *) ADD (R AX) (R R9);
  (* 877 *) MOV (R R9) (M CX 16);
  (* 878 *) ADC (R DX) (R R10);
  (* 879 *) ADC (Imm 0) (R R8);
  (* 881 *) XOR (R R9) (R R9);
  (* 882 *) MOV (M SI 24) (R AX);
  (* 883 *) MUL (R R11);
  (* 884 *) MOV (M DI 24) (R R15);
  (* 885 *) ADD (R AX) (R R10);
  (* 886 *) ADC (R DX) (R R8);
  (* 887 *) ADC (Imm 0) (R R9);
  (* 889 *) MOV (R R15) (R AX);
  (* 890 *) MUL (R R13);
  (* 891 *) ADD (R AX) (R R10);
  (* 892 *) ADC (R DX) (R R8);
  (* 893 *) ADC (Imm 0) (R R9);
  (* 895 *) MOV (M SI 16) (R AX);
  (* 896 *) MUL (R R12);
  (* 897 *) ADD (R AX) (R R10);
  (* 898 *) ADC (R DX) (R R8);
  (* 899 *) ADC (Imm 0) (R R9);
  (* 901 *) MOV (M SI 8) (R AX);
  (* 902 *) MUL (R R14);
  (* 903 *) ADD (R AX) (R R10);
  (* 904 *) MOV (R R10) (M CX 24);
  (* 905 *) ADC (R DX) (R R8);
  (* 906 *) ADC (Imm 0) (R R9);
  (* 908 *) XOR (R R10) (R R10);
  (* 909 *) MOV (M SI 24) (R AX);
  (* 910 *) MUL (R R12);
  (* 911 *) ADD (R AX) (R R8);
  (* 912 *) ADC (R DX) (R R9);
  (* 913 *) ADC (Imm 0) (R R10);
  (* 915 *) MOV (M SI 8) (R AX);
  (* 916 *) MUL (R R15);
  (* 917 *) ADD (R AX) (R R8);
  (* 918 *) ADC (R DX) (R R9);
  (* 919 *) ADC (Imm 0) (R R10);
  (* 921 *) MOV (M SI 16) (R AX);
  (* 922 *) MUL (R R14);
  (* 923 *) ADD (R AX) (R R8);
  (* 924 *) MOV (R R8) (M CX 32);
  (* 925 *) ADC (R DX) (R R9);
  (* 926 *) ADC (Imm 0) (R R10);
  (* 928 *) XOR (R R8) (R R8);
  (* 929 *) MOV (M SI 24) (R AX);
  (* 930 *) MUL (R R14);
  (* 931 *) ADD (R AX) (R R9);
  (* 932 *) ADC (R DX) (R R10);
  (* 933 *) ADC (Imm 0) (R R8);
  (* 935 *) MOV (M SI 16) (R AX);
  (* 936 *) MUL (R R15);
  (* 937 *) ADD (R AX) (R R9);
  (* 938 *) MOV (R R9) (M CX 40);
  (* 939 *) ADC (R DX) (R R10);
  (* 940 *) ADC (Imm 0) (R R8);
  (* 942 *) MOV (M SI 24) (R AX);
  (* 943 *) MUL (R R15);
  (* 944 *) ADD (R AX) (R R10);
  (* 945 *) MOV (R R10) (M CX 48);
  (* 946 *) ADC (R DX) (R R8);
  (* 947 *) MOV (R R8) (M CX 56);
  (* 951 *) MOV (M DI 32) (R R11);
  (* 952 *) MOV (M SI 32) (R AX);
  (* 953 *) MUL (R R11);
  (* 954 *) XOR (R R9) (R R9);
  (* 955 *) MOV (R AX) (M CX 64);
  (* 956 *) MOV (R DX) (R R8);
  (* 958 *) MOV (M DI 48) (R R14);
  (* 959 *) MOV (M SI 40) (R AX);
  (* 960 *) MUL (R R11);
  (* 961 *) XOR (R R10) (R R10);
  (* 962 *) ADD (R AX) (R R8);
  (* 963 *) ADC (R DX) (R R9);
  (* 965 *) MOV (M DI 40) (R R12);
  (* 966 *) MOV (M SI 32) (R AX);
  (* 967 *) MUL (R R12);
  (* 968 *) ADD (R AX) (R R8);
  (* 969 *) MOV (R R8) (M CX 72);
  (* 970 *) ADC (R DX) (R R9);
  (* 971 *) ADC (Imm 0) (R R10);
  (* 973 *) XOR (R R8) (R R8);
  (* 974 *) MOV (M SI 48) (R AX);
  (* 975 *) MUL (R R11);
  (* 976 *) ADD (R AX) (R R9);
  (* 977 *) ADC (R DX) (R R10);
  (* 978 *) ADC (Imm 0) (R R8);
  (* 980 *) MOV (M SI 32) (R R13);
  (* 981 *) MOV (R R14) (R AX);
  (* 982 *) MUL (R R13);
  (* 983 *) ADD (R AX) (R R9);
  (* 984 *) ADC (R DX) (R R10);
  (* 985 *) ADC (Imm 0) (R R8);
  (* 987 *) MOV (M SI 40) (R AX);
  (* 988 *) MUL (R R12);
  (* 989 *) ADD (R AX) (R R9);
  (* 990 *) MOV (R R9) (M CX 80);
  (* 991 *) ADC (R DX) (R R10);
  (* 992 *) ADC (Imm 0) (R R8);
  (* 994 *) MOV (M SI 48) (R AX);
  (* 995 *) MUL (R R12);
  (* 996 *) XOR (R R12) (R R12);
  (* 997 *) ADD (R AX) (R R10);
  (* 998 *) ADC (R DX) (R R8);
  (* 999 *) ADC (Imm 0) (R R12);
  (* 1001 *) MOV (M SI 40) (R AX);
  (* 1002 *) MUL (R R14);
  (* 1003 *) ADD (R AX) (R R10);
  (* 1004 *) ADC (R DX) (R R8);
  (* 1005 *) ADC (Imm 0) (R R12);
  (* 1006 *) MOV (R R10) (M CX 88);
  (* 1008 *) MOV (M SI 48) (R AX);
  (* 1009 *) MUL (R R14);
  (* 1010 *) ADD (R AX) (R R8);
  (* 1011 *) ADC (Imm 0) (R R12);
  (* 1012 *) MOV (R R8) (M CX 96);
  (* 1014 *) ADD (R R12) (R DX);
  (* 1017 *) MOV (M SP 0) (R R8);
  (* 1018 *) SUB (M CX 0) (R R8);
  (* 1019 *) MOV (M SP 8) (R R9);
  (* 1020 *) SBB (M CX 8) (R R9);
  (* 1021 *) MOV (M SP 16) (R R10);
  (* 1022 *) SBB (M CX 16) (R R10);
  (* 1023 *) MOV (M SP 24) (R R11);
  (* 1024 *) SBB (M CX 24) (R R11);
  (* 1025 *) MOV (M SP 80) (R R12);
  (* 1026 *) SBB (M CX 32) (R R12);
  (* 1027 *) MOV (M SP 88) (R R13);
  (* 1028 *) SBB (M CX 40) (R R13);
  (* 1029 *) MOV (M SP 96) (R R14);
  (* 1030 *) SBB (M CX 48) (R R14);
  (* 1031 *) MOV (M SP 104) (R R15);
  (* 1032 *) SBB (M CX 56) (R R15);
  (* 1035 *) MOV (M CX 64) (R AX);
  (* 1036 *) SUB (R AX) (R R8);
  (* 1037 *) MOV (M CX 72) (R AX);
  (* 1038 *) SBB (R AX) (R R9);
  (* 1039 *) MOV (M CX 80) (R AX);
  (* 1040 *) SBB (R AX) (R R10);
  (* 1041 *) MOV (M CX 88) (R AX);
  (* 1042 *) SBB (R AX) (R R11);
  (* 1043 *) MOV (M CX 96) (R AX);
  (* 1044 *) SBB (R AX) (R R12);
  (* 1045 *) SBB (R DX) (R R13);
  (* 1046 *) SBB (Imm 0) (R R14);
  (* 1047 *) SBB (Imm 0) (R R15);
  (* 1050 *) ADD (M CX 32) (R R8);
  (* 1051 *) MOV (R R8) (M CX 32);
  (* 1052 *) ADC (M CX 40) (R R9);
  (* 1053 *) MOV (R R9) (M CX 40);
  (* 1054 *) ADC (M CX 48) (R R10);
  (* 1055 *) MOV (R R10) (M CX 48);
  (* 1056 *) ADC (M CX 56) (R R11);
  (* 1057 *) MOV (R R11) (M CX 56);
  (* 1058 *) ADC (M CX 64) (R R12);
  (* 1059 *) MOV (R R12) (M CX 64);
  (* 1060 *) ADC (M CX 72) (R R13);
  (* 1061 *) MOV (R R13) (M CX 72);
  (* 1062 *) ADC (M CX 80) (R R14);
  (* 1063 *) MOV (R R14) (M CX 80);
  (* 1064 *) ADC (M CX 88) (R R15);
  (* 1065 *) MOV (R R15) (M CX 88);
  (* 1066 *) MOV (M CX 96) (R R12);
  (* 1067 *) ADC (Imm 0) (R R12);
  (* 1068 *) MOV (R R12) (M CX 96);
  (* 1069 *) ADC (Imm 0) (R DX);
  (* 1070 *) MOV (R DX) (M CX 104) ].

(* rdcP434, arith_amd64.s from line 1227, frame of 0 bytes *)
Definition rdcP434Asm_redc_bdw : list instr := [
  (* 1227 *) XOR (R AX) (R AX); MOV (M DI 0) (R DX); MULX (G g_p1 24) R8 R9; MULX (G g_p1 32) R12 R10; MULX (G g_p1 40) R13 R11; ADOX (R R12) R9; ADOX (R R13) R10;
    MULX (G g_p1 48) R13 R12; ADOX (R R13) R11; ADOX (R AX) R12; XOR (R AX) (R AX); MOV (M DI 8) (R DX); MULX (G g_p1 24) R13 CX; ADCX (R R13) R9; ADCX (R CX) R10;
    MULX (G g_p1 32) CX R13; ADCX (R R13) R11; ADOX (R CX) R10; MULX (G g_p1 40) CX R13; ADCX (R R13) R12; ADOX (R CX) R11; MULX (G g_p1 48) CX R13; ADCX (R AX) R13;
    ADOX (R CX) R12; ADOX (R AX) R13; XOR (R CX) (R CX); ADD (M DI 24) (R R8); ADC (M DI 32) (R R9); ADC (M DI 40) (R R10); ADC (M DI 48) (R R11); ADC (M DI 56) (R R12);
    ADC (M DI 64) (R R13); ADC (M DI 72) (R CX); MOV (R R8) (M DI 24); MOV (R R9) (M DI 32); MOV (R R10) (M DI 40); MOV (R R11) (M DI 48); MOV (R R12) (M DI 56);
    MOV (R R13) (M DI 64); MOV (R CX) (M DI 72); MOV (M DI 80) (R R8); MOV (M DI 88) (R R9); MOV (M DI 96) (R R10); MOV (M DI 104) (R R11); ADC (Imm 0) (R R8);
    ADC (Imm 0) (R R9); ADC (Imm 0) (R R10); ADC (Imm 0) (R R11); MOV (R R8) (M DI 80); MOV (R R9) (M DI 88); MOV (R R10) (M DI 96); MOV (R R11) (M DI 104);
    XOR (R AX) (R AX); MOV (M DI 16) (R DX); MULX (G g_p1 24) R8 R9; MULX (G g_p1 32) R12 R10; MULX (G g_p1 40) R13 R11; ADOX (R R12) R9; ADOX (R R13) R10;
    MULX (G g_p1 48) R13 R12; ADOX (R R13) R11; ADOX (R AX) R12; XOR (R AX) (R AX); MOV (M DI 24) (R DX); MULX (G g_p1 24) R13 CX; ADCX (R R13) R9; ADCX (R CX) R10;
    MULX (G g_p1 32) CX R13; ADCX (R R13) R11; ADOX (R CX) R10; MULX (G g_p1 40) CX R13; ADCX (R R13) R12; ADOX (R CX) R11; MULX (G g_p1 48) CX R13; ADCX (R AX) R13;
    ADOX (R CX) R12; ADOX (R AX) R13; XOR (R CX) (R CX); ADD (M DI 40) (R R8); ADC (M DI 48) (R R9); ADC (M DI 56) (R R10); ADC (M DI 64) (R R11); ADC (M DI 72) (R R12);
    ADC (M DI 80) (R R13); ADC (M DI 88) (R CX); MOV (R R8) (M DI 40); MOV (R R9) (M DI 48); MOV (R R10) (M DI 56); MOV (R R11) (M DI 64); MOV (R R12) (M DI 72);
    MOV (R R13) (M DI 80); MOV (R CX) (M DI 88); MOV (M DI 96) (R R8); MOV (M DI 104) (R R9); ADC (Imm 0) (R R8); ADC (Imm 0) (R R9); MOV (R R8) (M DI 96);
    MOV (R R9) (M DI 104); XOR (R AX) (R AX); MOV (M DI 32) (R DX); MULX (G g_p1 24) R8 R9; MULX (G g_p1 32) R12 R10; MULX (G g_p1 40) R13 R11; ADOX (R R12) R9;
    ADOX (R R13) R10; MULX (G g_p1 48) R13 R12; ADOX (R R13) R11; ADOX (R AX) R12; XOR (R AX) (R AX); MOV (M DI 40) (R DX); MULX (G g_p1 24) R13 CX; ADCX (R R13) R9;
    ADCX (R CX) R10; MULX (G g_p1 32) CX R13; ADCX (R R13) R11; ADOX (R CX) R10; MULX (G g_p1 40) CX R13; ADCX (R R13) R12; ADOX (R CX) R11; MULX (G g_p1 48) CX R13;
    ADCX (R AX) R13; ADOX (R CX) R12; ADOX (R AX) R13; XOR (R CX) (R CX); ADD (M DI 56) (R R8); ADC (M DI 64) (R R9); ADC (M DI 72) (R R10); ADC (M DI 80) (R R11);
    ADC (M DI 88) (R R12); ADC (M DI 96) (R R13); ADC (M DI 104) (R CX); MOV (R R8) (M SI 0); MOV (R R9) (M SI 8); MOV (R R10) (M DI 72); MOV (R R11) (M DI 80);
    MOV (R R12) (M DI 88); MOV (R R13) (M DI 96); MOV (R CX) (M DI 104); XOR (R AX) (R AX); MOV (M DI 48) (R DX); MULX (G g_p1 24) R8 R9; MULX (G g_p1 32) R12 R10;
    MULX (G g_p1 40) R13 R11; ADOX (R R12) R9; ADOX (R R13) R10; MULX (G g_p1 48) R13 R12; ADOX (R R13) R11; ADOX (R AX) R12; ADD (M DI 72) (R R8); ADC (M DI 80) (R R9);
    ADC (M DI 88) (R R10); ADC (M DI 96) (R R11); ADC (M DI 104) (R R12); MOV (R R8) (M SI 16); MOV (R R9) (M SI 24); MOV (R R10) (M SI 32); MOV (R R11) (M SI 40);
    MOV (R R12) (M SI 48) ].

(* rdcP434, arith_amd64.s from line 1204, frame of 0 bytes *)
Definition rdcP434Asm : list instr := [
  (* 1205 *) MOV (A 0) (R SI);
  (* 1206 *) MOV (A 8) (R DI);
  (* 1207 *) JFLAG g_HasADXandBMI2 rdcP434Asm_redc_bdw;
  (* 1213 *) MOV (M DI 0) (R R14); MOV (G g_p1 24) (R AX); MUL (R R14); XOR (R R10) (R R10); MOV (R AX) (R R8); MOV (R DX) (R R9); MOV (G g_p1 32) (R AX);
    MUL (R R14); XOR (R R11) (R R11); ADD (R AX) (R R9); ADC (R DX) (R R10); MOV (M DI 8) (R CX); MOV (G g_p1 24) (R AX); MUL (R CX); ADD (R AX) (R R9);
    ADC (R DX) (R R10); ADC (Imm 0) (R R11); XOR (R R12) (R R12); MOV (G g_p1 40) (R AX); MUL (R R14); ADD (R AX) (R R10); ADC (R DX) (R R11); ADC (Imm 0) (R R12);
    MOV (G g_p1 32) (R AX); MUL (R CX); ADD (R AX) (R R10); ADC (R DX) (R R11); ADC (Imm 0) (R R12); MOV (G g_p1 48) (R AX); MUL (R R14); XOR (R R13) (R R13);
    ADD (R AX) (R R11); ADC (R DX) (R R12); ADC (Imm 0) (R R13); MOV (G g_p1 40) (R AX); MUL (R CX); ADD (R AX) (R R11); ADC (R DX) (R R12); ADC (Imm 0) (R R13);
    MOV (G g_p1 48) (R AX); MUL (R CX); ADD (R AX) (R R12); ADC (R DX) (R R13); XOR (R CX) (R CX); ADD (M DI 24) (R R8); ADC (M DI 32) (R R9); ADC (M DI 40) (R R10);
    ADC (M DI 48) (R R11); ADC (M DI 56) (R R12); ADC (M DI 64) (R R13); ADC (M DI 72) (R CX); MOV (R R8) (M DI 24); MOV (R R9) (M DI 32); MOV (R R10) (M DI 40);
    MOV (R R11) (M DI 48); MOV (R R12) (M DI 56); MOV (R R13) (M DI 64); MOV (R CX) (M DI 72); MOV (M DI 80) (R R8); MOV (M DI 88) (R R9); MOV (M DI 96) (R R10);
    MOV (M DI 104) (R R11); ADC (Imm 0) (R R8); ADC (Imm 0) (R R9); ADC (Imm 0) (R R10); ADC (Imm 0) (R R11); MOV (R R8) (M DI 80); MOV (R R9) (M DI 88);
    MOV (R R10) (M DI 96); MOV (R R11) (M DI 104); MOV (M DI 16) (R R14); MOV (G g_p1 24) (R AX); MUL (R R14); XOR (R R10) (R R10); MOV (R AX) (R R8); MOV (R DX) (R R9);
    MOV (G g_p1 32) (R AX); MUL (R R14); XOR (R R11) (R R11); ADD (R AX) (R R9); ADC (R DX) (R R10); MOV (M DI 24) (R CX); MOV (G g_p1 24) (R AX); MUL (R CX);
    ADD (R AX) (R R9); ADC (R DX) (R R10); ADC (Imm 0) (R R11); XOR (R R12) (R R12); MOV (G g_p1 40) (R AX); MUL (R R14); ADD (R AX) (R R10); ADC (R DX) (R R11);
    ADC (Imm 0) (R R12); MOV (G g_p1 32) (R AX); MUL (R CX); ADD (R AX) (R R10); ADC (R DX) (R R11); ADC (Imm 0) (R R12); MOV (G g_p1 48) (R AX); MUL (R R14);
    XOR (R R13) (R R13); ADD (R AX) (R R11); ADC (R DX) (R R12); ADC (Imm 0) (R R13); MOV (G g_p1 40) (R AX); MUL (R CX); ADD (R AX) (R R11); ADC (R DX) (R R12);
    ADC (Imm 0) (R R13); MOV (G g_p1 48) (R AX); MUL (R CX); ADD (R AX) (R R12); ADC (R DX) (R R13); XOR (R CX) (R CX); ADD (M DI 40) (R R8); ADC (M DI 48) (R R9);
    ADC (M DI 56) (R R10); ADC (M DI 64) (R R11); ADC (M DI 72) (R R12); ADC (M DI 80) (R R13); ADC (M DI 88) (R CX); MOV (R R8) (M DI 40); MOV (R R9) (M DI 48);
    MOV (R R10) (M DI 56); MOV (R R11) (M DI 64); MOV (R R12) (M DI 72); MOV (R R13) (M DI 80); MOV (R CX) (M DI 88); MOV (M DI 96) (R R8); MOV (M DI 104) (R R9);
    ADC (Imm 0) (R R8); ADC (Imm 0) (R R9); MOV (R R8) (M DI 96); MOV (R R9) (M DI 104); MOV (M DI 32) (R R14); MOV (G g_p1 24) (R AX); MUL (R R14); XOR (R R10) (R R10);
    MOV (R AX) (R R8); MOV (R DX) (R R9); MOV (G g_p1 32) (R AX); MUL (R R14); XOR (R R11) (R R11); ADD (R AX) (R R9); ADC (R DX) (R R10); MOV (M DI 40) (R CX);
    MOV (G g_p1 24) (R AX); MUL (R CX); ADD (R AX) (R R9); ADC (R DX) (R R10); ADC (Imm 0) (R R11); XOR (R R12) (R R12); MOV (G g_p1 40) (R AX); MUL (R R14);
    ADD (R AX) (R R10); ADC (R DX) (R R11); ADC (Imm 0) (R R12); MOV (G g_p1 32) (R AX); MUL (R CX); ADD (R AX) (R R10); ADC (R DX) (R R11); ADC (Imm 0) (R R12);
    MOV (G g_p1 48) (R AX); MUL (R R14); XOR (R R13) (R R13); ADD (R AX) (R R11); ADC (R DX) (R R12); ADC (Imm 0) (R R13); MOV (G g_p1 40) (R AX); MUL (R CX);
    ADD (R AX) (R R11); ADC (R DX) (R R12); ADC (Imm 0) (R R13); MOV (G g_p1 48) (R AX); MUL (R CX); ADD (R AX) (R R12); ADC (R DX) (R R13); XOR (R CX) (R CX);
    ADD (M DI 56) (R R8); ADC (M DI 64) (R R9); ADC (M DI 72) (R R10); ADC (M DI 80) (R R11); ADC (M DI 88) (R R12); ADC (M DI 96) (R R13); ADC (M DI 104) (R CX);
    MOV (R R8) (M SI 0); MOV (R R9) (M SI 8); MOV (R R10) (M DI 72); MOV (R R11) (M DI 80); MOV (R R12) (M DI 88); MOV (R R13) (M DI 96); MOV (R CX) (M DI 104);
    MOV (M DI 48) (R R13); XOR (R R10) (R R10); MOV (G g_p1 24) (R AX); MUL (R R13); MOV (R AX) (R R8); MOV (R DX) (R R9); XOR (R R11) (R R11); MOV (G g_p1 32) (R AX);
    MUL (R R13); ADD (R AX) (R R9); ADC (R DX) (R R10); XOR (R R12) (R R12); MOV (G g_p1 40) (R AX); MUL (R R13); ADD (R AX) (R R10); ADC (R DX) (R R11);
    MOV (G g_p1 48) (R AX); MUL (R R13); ADD (R AX) (R R11); ADC (R DX) (R R12); ADD (M DI 72) (R R8); ADC (M DI 80) (R R9); ADC (M DI 88) (R R10); ADC (M DI 96) (R R11);
    ADC (M DI 104) (R R12); MOV (R R8) (M SI 16); MOV (R R9) (M SI 24); MOV (R R10) (M SI 32); MOV (R R11) (M SI 40); MOV (R R12) (M SI 48) ].
