(** Generated by tools/gen_csteps.py from the text of /repo/cgo/sha1.c and /repo/cgo/ubc_check.h; do not edit.
    The number in the comment of an entry is the line of sha1.c.  See Model_C.v for the meaning of the entries. *)
From Coq Require Import NArith String List Strings.Byte.
From Verif Require Import Model_CSteps.
Import ListNotations.
Local Open Scope string_scope.

(** /repo/cgo/ubc_check.h: the macros DOSTORESTATE that are defined. *)
Definition dostore : list string := ["DOSTORESTATE58"; "DOSTORESTATE65"].

(** /repo/cgo/sha1.c lines 364-457: the steps of sha1_compression_W. *)
Definition comp_W_steps : list cstep := [
  (* 368 *) mkcstep 1 Va Vb Vc Vd Ve 0;
  (* 369 *) mkcstep 1 Ve Va Vb Vc Vd 1;
  (* 370 *) mkcstep 1 Vd Ve Va Vb Vc 2;
  (* 371 *) mkcstep 1 Vc Vd Ve Va Vb 3;
  (* 372 *) mkcstep 1 Vb Vc Vd Ve Va 4;
  (* 373 *) mkcstep 1 Va Vb Vc Vd Ve 5;
  (* 374 *) mkcstep 1 Ve Va Vb Vc Vd 6;
  (* 375 *) mkcstep 1 Vd Ve Va Vb Vc 7;
  (* 376 *) mkcstep 1 Vc Vd Ve Va Vb 8;
  (* 377 *) mkcstep 1 Vb Vc Vd Ve Va 9;
  (* 378 *) mkcstep 1 Va Vb Vc Vd Ve 10;
  (* 379 *) mkcstep 1 Ve Va Vb Vc Vd 11;
  (* 380 *) mkcstep 1 Vd Ve Va Vb Vc 12;
  (* 381 *) mkcstep 1 Vc Vd Ve Va Vb 13;
  (* 382 *) mkcstep 1 Vb Vc Vd Ve Va 14;
  (* 383 *) mkcstep 1 Va Vb Vc Vd Ve 15;
  (* 384 *) mkcstep 1 Ve Va Vb Vc Vd 16;
  (* 385 *) mkcstep 1 Vd Ve Va Vb Vc 17;
  (* 386 *) mkcstep 1 Vc Vd Ve Va Vb 18;
  (* 387 *) mkcstep 1 Vb Vc Vd Ve Va 19;
  (* 389 *) mkcstep 2 Va Vb Vc Vd Ve 20;
  (* 390 *) mkcstep 2 Ve Va Vb Vc Vd 21;
  (* 391 *) mkcstep 2 Vd Ve Va Vb Vc 22;
  (* 392 *) mkcstep 2 Vc Vd Ve Va Vb 23;
  (* 393 *) mkcstep 2 Vb Vc Vd Ve Va 24;
  (* 394 *) mkcstep 2 Va Vb Vc Vd Ve 25;
  (* 395 *) mkcstep 2 Ve Va Vb Vc Vd 26;
  (* 396 *) mkcstep 2 Vd Ve Va Vb Vc 27;
  (* 397 *) mkcstep 2 Vc Vd Ve Va Vb 28;
  (* 398 *) mkcstep 2 Vb Vc Vd Ve Va 29;
  (* 399 *) mkcstep 2 Va Vb Vc Vd Ve 30;
  (* 400 *) mkcstep 2 Ve Va Vb Vc Vd 31;
  (* 401 *) mkcstep 2 Vd Ve Va Vb Vc 32;
  (* 402 *) mkcstep 2 Vc Vd Ve Va Vb 33;
  (* 403 *) mkcstep 2 Vb Vc Vd Ve Va 34;
  (* 404 *) mkcstep 2 Va Vb Vc Vd Ve 35;
  (* 405 *) mkcstep 2 Ve Va Vb Vc Vd 36;
  (* 406 *) mkcstep 2 Vd Ve Va Vb Vc 37;
  (* 407 *) mkcstep 2 Vc Vd Ve Va Vb 38;
  (* 408 *) mkcstep 2 Vb Vc Vd Ve Va 39;
  (* 410 *) mkcstep 3 Va Vb Vc Vd Ve 40;
  (* 411 *) mkcstep 3 Ve Va Vb Vc Vd 41;
  (* 412 *) mkcstep 3 Vd Ve Va Vb Vc 42;
  (* 413 *) mkcstep 3 Vc Vd Ve Va Vb 43;
  (* 414 *) mkcstep 3 Vb Vc Vd Ve Va 44;
  (* 415 *) mkcstep 3 Va Vb Vc Vd Ve 45;
  (* 416 *) mkcstep 3 Ve Va Vb Vc Vd 46;
  (* 417 *) mkcstep 3 Vd Ve Va Vb Vc 47;
  (* 418 *) mkcstep 3 Vc Vd Ve Va Vb 48;
  (* 419 *) mkcstep 3 Vb Vc Vd Ve Va 49;
  (* 420 *) mkcstep 3 Va Vb Vc Vd Ve 50;
  (* 421 *) mkcstep 3 Ve Va Vb Vc Vd 51;
  (* 422 *) mkcstep 3 Vd Ve Va Vb Vc 52;
  (* 423 *) mkcstep 3 Vc Vd Ve Va Vb 53;
  (* 424 *) mkcstep 3 Vb Vc Vd Ve Va 54;
  (* 425 *) mkcstep 3 Va Vb Vc Vd Ve 55;
  (* 426 *) mkcstep 3 Ve Va Vb Vc Vd 56;
  (* 427 *) mkcstep 3 Vd Ve Va Vb Vc 57;
  (* 428 *) mkcstep 3 Vc Vd Ve Va Vb 58;
  (* 429 *) mkcstep 3 Vb Vc Vd Ve Va 59;
  (* 431 *) mkcstep 4 Va Vb Vc Vd Ve 60;
  (* 432 *) mkcstep 4 Ve Va Vb Vc Vd 61;
  (* 433 *) mkcstep 4 Vd Ve Va Vb Vc 62;
  (* 434 *) mkcstep 4 Vc Vd Ve Va Vb 63;
  (* 435 *) mkcstep 4 Vb Vc Vd Ve Va 64;
  (* 436 *) mkcstep 4 Va Vb Vc Vd Ve 65;
  (* 437 *) mkcstep 4 Ve Va Vb Vc Vd 66;
  (* 438 *) mkcstep 4 Vd Ve Va Vb Vc 67;
  (* 439 *) mkcstep 4 Vc Vd Ve Va Vb 68;
  (* 440 *) mkcstep 4 Vb Vc Vd Ve Va 69;
  (* 441 *) mkcstep 4 Va Vb Vc Vd Ve 70;
  (* 442 *) mkcstep 4 Ve Va Vb Vc Vd 71;
  (* 443 *) mkcstep 4 Vd Ve Va Vb Vc 72;
  (* 444 *) mkcstep 4 Vc Vd Ve Va Vb 73;
  (* 445 *) mkcstep 4 Vb Vc Vd Ve Va 74;
  (* 446 *) mkcstep 4 Va Vb Vc Vd Ve 75;
  (* 447 *) mkcstep 4 Ve Va Vb Vc Vd 76;
  (* 448 *) mkcstep 4 Vd Ve Va Vb Vc 77;
  (* 449 *) mkcstep 4 Vc Vd Ve Va Vb 78;
  (* 450 *) mkcstep 4 Vb Vc Vd Ve Va 79
].

(** /repo/cgo/sha1.c lines 256-361: the steps of sha1_compression (compiled only under BUILDNOCOLLDETECTSHA1COMPRESSION). *)
Definition comp_plain_steps : list cstep := [
  (* 272 *) mkcstep 1 Va Vb Vc Vd Ve 0;
  (* 273 *) mkcstep 1 Ve Va Vb Vc Vd 1;
  (* 274 *) mkcstep 1 Vd Ve Va Vb Vc 2;
  (* 275 *) mkcstep 1 Vc Vd Ve Va Vb 3;
  (* 276 *) mkcstep 1 Vb Vc Vd Ve Va 4;
  (* 277 *) mkcstep 1 Va Vb Vc Vd Ve 5;
  (* 278 *) mkcstep 1 Ve Va Vb Vc Vd 6;
  (* 279 *) mkcstep 1 Vd Ve Va Vb Vc 7;
  (* 280 *) mkcstep 1 Vc Vd Ve Va Vb 8;
  (* 281 *) mkcstep 1 Vb Vc Vd Ve Va 9;
  (* 282 *) mkcstep 1 Va Vb Vc Vd Ve 10;
  (* 283 *) mkcstep 1 Ve Va Vb Vc Vd 11;
  (* 284 *) mkcstep 1 Vd Ve Va Vb Vc 12;
  (* 285 *) mkcstep 1 Vc Vd Ve Va Vb 13;
  (* 286 *) mkcstep 1 Vb Vc Vd Ve Va 14;
  (* 287 *) mkcstep 1 Va Vb Vc Vd Ve 15;
  (* 288 *) mkcstep 1 Ve Va Vb Vc Vd 16;
  (* 289 *) mkcstep 1 Vd Ve Va Vb Vc 17;
  (* 290 *) mkcstep 1 Vc Vd Ve Va Vb 18;
  (* 291 *) mkcstep 1 Vb Vc Vd Ve Va 19;
  (* 293 *) mkcstep 2 Va Vb Vc Vd Ve 20;
  (* 294 *) mkcstep 2 Ve Va Vb Vc Vd 21;
  (* 295 *) mkcstep 2 Vd Ve Va Vb Vc 22;
  (* 296 *) mkcstep 2 Vc Vd Ve Va Vb 23;
  (* 297 *) mkcstep 2 Vb Vc Vd Ve Va 24;
  (* 298 *) mkcstep 2 Va Vb Vc Vd Ve 25;
  (* 299 *) mkcstep 2 Ve Va Vb Vc Vd 26;
  (* 300 *) mkcstep 2 Vd Ve Va Vb Vc 27;
  (* 301 *) mkcstep 2 Vc Vd Ve Va Vb 28;
  (* 302 *) mkcstep 2 Vb Vc Vd Ve Va 29;
  (* 303 *) mkcstep 2 Va Vb Vc Vd Ve 30;
  (* 304 *) mkcstep 2 Ve Va Vb Vc Vd 31;
  (* 305 *) mkcstep 2 Vd Ve Va Vb Vc 32;
  (* 306 *) mkcstep 2 Vc Vd Ve Va Vb 33;
  (* 307 *) mkcstep 2 Vb Vc Vd Ve Va 34;
  (* 308 *) mkcstep 2 Va Vb Vc Vd Ve 35;
  (* 309 *) mkcstep 2 Ve Va Vb Vc Vd 36;
  (* 310 *) mkcstep 2 Vd Ve Va Vb Vc 37;
  (* 311 *) mkcstep 2 Vc Vd Ve Va Vb 38;
  (* 312 *) mkcstep 2 Vb Vc Vd Ve Va 39;
  (* 314 *) mkcstep 3 Va Vb Vc Vd Ve 40;
  (* 315 *) mkcstep 3 Ve Va Vb Vc Vd 41;
  (* 316 *) mkcstep 3 Vd Ve Va Vb Vc 42;
  (* 317 *) mkcstep 3 Vc Vd Ve Va Vb 43;
  (* 318 *) mkcstep 3 Vb Vc Vd Ve Va 44;
  (* 319 *) mkcstep 3 Va Vb Vc Vd Ve 45;
  (* 320 *) mkcstep 3 Ve Va Vb Vc Vd 46;
  (* 321 *) mkcstep 3 Vd Ve Va Vb Vc 47;
  (* 322 *) mkcstep 3 Vc Vd Ve Va Vb 48;
  (* 323 *) mkcstep 3 Vb Vc Vd Ve Va 49;
  (* 324 *) mkcstep 3 Va Vb Vc Vd Ve 50;
  (* 325 *) mkcstep 3 Ve Va Vb Vc Vd 51;
  (* 326 *) mkcstep 3 Vd Ve Va Vb Vc 52;
  (* 327 *) mkcstep 3 Vc Vd Ve Va Vb 53;
  (* 328 *) mkcstep 3 Vb Vc Vd Ve Va 54;
  (* 329 *) mkcstep 3 Va Vb Vc Vd Ve 55;
  (* 330 *) mkcstep 3 Ve Va Vb Vc Vd 56;
  (* 331 *) mkcstep 3 Vd Ve Va Vb Vc 57;
  (* 332 *) mkcstep 3 Vc Vd Ve Va Vb 58;
  (* 333 *) mkcstep 3 Vb Vc Vd Ve Va 59;
  (* 335 *) mkcstep 4 Va Vb Vc Vd Ve 60;
  (* 336 *) mkcstep 4 Ve Va Vb Vc Vd 61;
  (* 337 *) mkcstep 4 Vd Ve Va Vb Vc 62;
  (* 338 *) mkcstep 4 Vc Vd Ve Va Vb 63;
  (* 339 *) mkcstep 4 Vb Vc Vd Ve Va 64;
  (* 340 *) mkcstep 4 Va Vb Vc Vd Ve 65;
  (* 341 *) mkcstep 4 Ve Va Vb Vc Vd 66;
  (* 342 *) mkcstep 4 Vd Ve Va Vb Vc 67;
  (* 343 *) mkcstep 4 Vc Vd Ve Va Vb 68;
  (* 344 *) mkcstep 4 Vb Vc Vd Ve Va 69;
  (* 345 *) mkcstep 4 Va Vb Vc Vd Ve 70;
  (* 346 *) mkcstep 4 Ve Va Vb Vc Vd 71;
  (* 347 *) mkcstep 4 Vd Ve Va Vb Vc 72;
  (* 348 *) mkcstep 4 Vc Vd Ve Va Vb 73;
  (* 349 *) mkcstep 4 Vb Vc Vd Ve Va 74;
  (* 350 *) mkcstep 4 Va Vb Vc Vd Ve 75;
  (* 351 *) mkcstep 4 Ve Va Vb Vc Vd 76;
  (* 352 *) mkcstep 4 Vd Ve Va Vb Vc 77;
  (* 353 *) mkcstep 4 Vc Vd Ve Va Vb 78;
  (* 354 *) mkcstep 4 Vb Vc Vd Ve Va 79
].

(** /repo/cgo/sha1.c lines 459-869: sha1_compression_states. *)
Definition comp_states_items : list citem := [
  (* 465 *) CStore "DOSTORESTATE00" 0;
  (* 467 *) CFull FLoad Va Vb Vc Vd Ve 0;
  (* 470 *) CStore "DOSTORESTATE01" 1;
  (* 472 *) CFull FLoad Ve Va Vb Vc Vd 1;
  (* 475 *) CStore "DOSTORESTATE02" 2;
  (* 477 *) CFull FLoad Vd Ve Va Vb Vc 2;
  (* 480 *) CStore "DOSTORESTATE03" 3;
  (* 482 *) CFull FLoad Vc Vd Ve Va Vb 3;
  (* 485 *) CStore "DOSTORESTATE04" 4;
  (* 487 *) CFull FLoad Vb Vc Vd Ve Va 4;
  (* 490 *) CStore "DOSTORESTATE05" 5;
  (* 492 *) CFull FLoad Va Vb Vc Vd Ve 5;
  (* 495 *) CStore "DOSTORESTATE06" 6;
  (* 497 *) CFull FLoad Ve Va Vb Vc Vd 6;
  (* 500 *) CStore "DOSTORESTATE07" 7;
  (* 502 *) CFull FLoad Vd Ve Va Vb Vc 7;
  (* 505 *) CStore "DOSTORESTATE08" 8;
  (* 507 *) CFull FLoad Vc Vd Ve Va Vb 8;
  (* 510 *) CStore "DOSTORESTATE09" 9;
  (* 512 *) CFull FLoad Vb Vc Vd Ve Va 9;
  (* 515 *) CStore "DOSTORESTATE10" 10;
  (* 517 *) CFull FLoad Va Vb Vc Vd Ve 10;
  (* 520 *) CStore "DOSTORESTATE11" 11;
  (* 522 *) CFull FLoad Ve Va Vb Vc Vd 11;
  (* 525 *) CStore "DOSTORESTATE12" 12;
  (* 527 *) CFull FLoad Vd Ve Va Vb Vc 12;
  (* 530 *) CStore "DOSTORESTATE13" 13;
  (* 532 *) CFull FLoad Vc Vd Ve Va Vb 13;
  (* 535 *) CStore "DOSTORESTATE14" 14;
  (* 537 *) CFull FLoad Vb Vc Vd Ve Va 14;
  (* 540 *) CStore "DOSTORESTATE15" 15;
  (* 542 *) CFull FLoad Va Vb Vc Vd Ve 15;
  (* 545 *) CStore "DOSTORESTATE16" 16;
  (* 547 *) CFull FExpand Ve Va Vb Vc Vd 16;
  (* 550 *) CStore "DOSTORESTATE17" 17;
  (* 552 *) CFull FExpand Vd Ve Va Vb Vc 17;
  (* 555 *) CStore "DOSTORESTATE18" 18;
  (* 557 *) CFull FExpand Vc Vd Ve Va Vb 18;
  (* 560 *) CStore "DOSTORESTATE19" 19;
  (* 562 *) CFull FExpand Vb Vc Vd Ve Va 19;
  (* 565 *) CStore "DOSTORESTATE20" 20;
  (* 567 *) CFull (FRound 2) Va Vb Vc Vd Ve 20;
  (* 570 *) CStore "DOSTORESTATE21" 21;
  (* 572 *) CFull (FRound 2) Ve Va Vb Vc Vd 21;
  (* 575 *) CStore "DOSTORESTATE22" 22;
  (* 577 *) CFull (FRound 2) Vd Ve Va Vb Vc 22;
  (* 580 *) CStore "DOSTORESTATE23" 23;
  (* 582 *) CFull (FRound 2) Vc Vd Ve Va Vb 23;
  (* 585 *) CStore "DOSTORESTATE24" 24;
  (* 587 *) CFull (FRound 2) Vb Vc Vd Ve Va 24;
  (* 590 *) CStore "DOSTORESTATE25" 25;
  (* 592 *) CFull (FRound 2) Va Vb Vc Vd Ve 25;
  (* 595 *) CStore "DOSTORESTATE26" 26;
  (* 597 *) CFull (FRound 2) Ve Va Vb Vc Vd 26;
  (* 600 *) CStore "DOSTORESTATE27" 27;
  (* 602 *) CFull (FRound 2) Vd Ve Va Vb Vc 27;
  (* 605 *) CStore "DOSTORESTATE28" 28;
  (* 607 *) CFull (FRound 2) Vc Vd Ve Va Vb 28;
  (* 610 *) CStore "DOSTORESTATE29" 29;
  (* 612 *) CFull (FRound 2) Vb Vc Vd Ve Va 29;
  (* 615 *) CStore "DOSTORESTATE30" 30;
  (* 617 *) CFull (FRound 2) Va Vb Vc Vd Ve 30;
  (* 620 *) CStore "DOSTORESTATE31" 31;
  (* 622 *) CFull (FRound 2) Ve Va Vb Vc Vd 31;
  (* 625 *) CStore "DOSTORESTATE32" 32;
  (* 627 *) CFull (FRound 2) Vd Ve Va Vb Vc 32;
  (* 630 *) CStore "DOSTORESTATE33" 33;
  (* 632 *) CFull (FRound 2) Vc Vd Ve Va Vb 33;
  (* 635 *) CStore "DOSTORESTATE34" 34;
  (* 637 *) CFull (FRound 2) Vb Vc Vd Ve Va 34;
  (* 640 *) CStore "DOSTORESTATE35" 35;
  (* 642 *) CFull (FRound 2) Va Vb Vc Vd Ve 35;
  (* 645 *) CStore "DOSTORESTATE36" 36;
  (* 647 *) CFull (FRound 2) Ve Va Vb Vc Vd 36;
  (* 650 *) CStore "DOSTORESTATE37" 37;
  (* 652 *) CFull (FRound 2) Vd Ve Va Vb Vc 37;
  (* 655 *) CStore "DOSTORESTATE38" 38;
  (* 657 *) CFull (FRound 2) Vc Vd Ve Va Vb 38;
  (* 660 *) CStore "DOSTORESTATE39" 39;
  (* 662 *) CFull (FRound 2) Vb Vc Vd Ve Va 39;
  (* 665 *) CStore "DOSTORESTATE40" 40;
  (* 667 *) CFull (FRound 3) Va Vb Vc Vd Ve 40;
  (* 670 *) CStore "DOSTORESTATE41" 41;
  (* 672 *) CFull (FRound 3) Ve Va Vb Vc Vd 41;
  (* 675 *) CStore "DOSTORESTATE42" 42;
  (* 677 *) CFull (FRound 3) Vd Ve Va Vb Vc 42;
  (* 680 *) CStore "DOSTORESTATE43" 43;
  (* 682 *) CFull (FRound 3) Vc Vd Ve Va Vb 43;
  (* 685 *) CStore "DOSTORESTATE44" 44;
  (* 687 *) CFull (FRound 3) Vb Vc Vd Ve Va 44;
  (* 690 *) CStore "DOSTORESTATE45" 45;
  (* 692 *) CFull (FRound 3) Va Vb Vc Vd Ve 45;
  (* 695 *) CStore "DOSTORESTATE46" 46;
  (* 697 *) CFull (FRound 3) Ve Va Vb Vc Vd 46;
  (* 700 *) CStore "DOSTORESTATE47" 47;
  (* 702 *) CFull (FRound 3) Vd Ve Va Vb Vc 47;
  (* 705 *) CStore "DOSTORESTATE48" 48;
  (* 707 *) CFull (FRound 3) Vc Vd Ve Va Vb 48;
  (* 710 *) CStore "DOSTORESTATE49" 49;
  (* 712 *) CFull (FRound 3) Vb Vc Vd Ve Va 49;
  (* 715 *) CStore "DOSTORESTATE50" 50;
  (* 717 *) CFull (FRound 3) Va Vb Vc Vd Ve 50;
  (* 720 *) CStore "DOSTORESTATE51" 51;
  (* 722 *) CFull (FRound 3) Ve Va Vb Vc Vd 51;
  (* 725 *) CStore "DOSTORESTATE52" 52;
  (* 727 *) CFull (FRound 3) Vd Ve Va Vb Vc 52;
  (* 730 *) CStore "DOSTORESTATE53" 53;
  (* 732 *) CFull (FRound 3) Vc Vd Ve Va Vb 53;
  (* 735 *) CStore "DOSTORESTATE54" 54;
  (* 737 *) CFull (FRound 3) Vb Vc Vd Ve Va 54;
  (* 740 *) CStore "DOSTORESTATE55" 55;
  (* 742 *) CFull (FRound 3) Va Vb Vc Vd Ve 55;
  (* 745 *) CStore "DOSTORESTATE56" 56;
  (* 747 *) CFull (FRound 3) Ve Va Vb Vc Vd 56;
  (* 750 *) CStore "DOSTORESTATE57" 57;
  (* 752 *) CFull (FRound 3) Vd Ve Va Vb Vc 57;
  (* 755 *) CStore "DOSTORESTATE58" 58;
  (* 757 *) CFull (FRound 3) Vc Vd Ve Va Vb 58;
  (* 760 *) CStore "DOSTORESTATE59" 59;
  (* 762 *) CFull (FRound 3) Vb Vc Vd Ve Va 59;
  (* 765 *) CStore "DOSTORESTATE60" 60;
  (* 767 *) CFull (FRound 4) Va Vb Vc Vd Ve 60;
  (* 770 *) CStore "DOSTORESTATE61" 61;
  (* 772 *) CFull (FRound 4) Ve Va Vb Vc Vd 61;
  (* 775 *) CStore "DOSTORESTATE62" 62;
  (* 777 *) CFull (FRound 4) Vd Ve Va Vb Vc 62;
  (* 780 *) CStore "DOSTORESTATE63" 63;
  (* 782 *) CFull (FRound 4) Vc Vd Ve Va Vb 63;
  (* 785 *) CStore "DOSTORESTATE64" 64;
  (* 787 *) CFull (FRound 4) Vb Vc Vd Ve Va 64;
  (* 790 *) CStore "DOSTORESTATE65" 65;
  (* 792 *) CFull (FRound 4) Va Vb Vc Vd Ve 65;
  (* 795 *) CStore "DOSTORESTATE66" 66;
  (* 797 *) CFull (FRound 4) Ve Va Vb Vc Vd 66;
  (* 800 *) CStore "DOSTORESTATE67" 67;
  (* 802 *) CFull (FRound 4) Vd Ve Va Vb Vc 67;
  (* 805 *) CStore "DOSTORESTATE68" 68;
  (* 807 *) CFull (FRound 4) Vc Vd Ve Va Vb 68;
  (* 810 *) CStore "DOSTORESTATE69" 69;
  (* 812 *) CFull (FRound 4) Vb Vc Vd Ve Va 69;
  (* 815 *) CStore "DOSTORESTATE70" 70;
  (* 817 *) CFull (FRound 4) Va Vb Vc Vd Ve 70;
  (* 820 *) CStore "DOSTORESTATE71" 71;
  (* 822 *) CFull (FRound 4) Ve Va Vb Vc Vd 71;
  (* 825 *) CStore "DOSTORESTATE72" 72;
  (* 827 *) CFull (FRound 4) Vd Ve Va Vb Vc 72;
  (* 830 *) CStore "DOSTORESTATE73" 73;
  (* 832 *) CFull (FRound 4) Vc Vd Ve Va Vb 73;
  (* 835 *) CStore "DOSTORESTATE74" 74;
  (* 837 *) CFull (FRound 4) Vb Vc Vd Ve Va 74;
  (* 840 *) CStore "DOSTORESTATE75" 75;
  (* 842 *) CFull (FRound 4) Va Vb Vc Vd Ve 75;
  (* 845 *) CStore "DOSTORESTATE76" 76;
  (* 847 *) CFull (FRound 4) Ve Va Vb Vc Vd 76;
  (* 850 *) CStore "DOSTORESTATE77" 77;
  (* 852 *) CFull (FRound 4) Vd Ve Va Vb Vc 77;
  (* 855 *) CStore "DOSTORESTATE78" 78;
  (* 857 *) CFull (FRound 4) Vc Vd Ve Va Vb 78;
  (* 860 *) CStore "DOSTORESTATE79" 79;
  (* 862 *) CFull (FRound 4) Vb Vc Vd Ve Va 79
].

(** /repo/cgo/sha1.c lines 871-1210: SHA1_RECOMPRESS, backward half: (k, step) is "if (t > k) step". *)
Definition recomp_back : list (nat * cstep) := [
  (* 875 *) (79, mkcstep 4 Vb Vc Vd Ve Va 79);
  (* 877 *) (78, mkcstep 4 Vc Vd Ve Va Vb 78);
  (* 879 *) (77, mkcstep 4 Vd Ve Va Vb Vc 77);
  (* 881 *) (76, mkcstep 4 Ve Va Vb Vc Vd 76);
  (* 883 *) (75, mkcstep 4 Va Vb Vc Vd Ve 75);
  (* 885 *) (74, mkcstep 4 Vb Vc Vd Ve Va 74);
  (* 887 *) (73, mkcstep 4 Vc Vd Ve Va Vb 73);
  (* 889 *) (72, mkcstep 4 Vd Ve Va Vb Vc 72);
  (* 891 *) (71, mkcstep 4 Ve Va Vb Vc Vd 71);
  (* 893 *) (70, mkcstep 4 Va Vb Vc Vd Ve 70);
  (* 895 *) (69, mkcstep 4 Vb Vc Vd Ve Va 69);
  (* 897 *) (68, mkcstep 4 Vc Vd Ve Va Vb 68);
  (* 899 *) (67, mkcstep 4 Vd Ve Va Vb Vc 67);
  (* 901 *) (66, mkcstep 4 Ve Va Vb Vc Vd 66);
  (* 903 *) (65, mkcstep 4 Va Vb Vc Vd Ve 65);
  (* 905 *) (64, mkcstep 4 Vb Vc Vd Ve Va 64);
  (* 907 *) (63, mkcstep 4 Vc Vd Ve Va Vb 63);
  (* 909 *) (62, mkcstep 4 Vd Ve Va Vb Vc 62);
  (* 911 *) (61, mkcstep 4 Ve Va Vb Vc Vd 61);
  (* 913 *) (60, mkcstep 4 Va Vb Vc Vd Ve 60);
  (* 915 *) (59, mkcstep 3 Vb Vc Vd Ve Va 59);
  (* 917 *) (58, mkcstep 3 Vc Vd Ve Va Vb 58);
  (* 919 *) (57, mkcstep 3 Vd Ve Va Vb Vc 57);
  (* 921 *) (56, mkcstep 3 Ve Va Vb Vc Vd 56);
  (* 923 *) (55, mkcstep 3 Va Vb Vc Vd Ve 55);
  (* 925 *) (54, mkcstep 3 Vb Vc Vd Ve Va 54);
  (* 927 *) (53, mkcstep 3 Vc Vd Ve Va Vb 53);
  (* 929 *) (52, mkcstep 3 Vd Ve Va Vb Vc 52);
  (* 931 *) (51, mkcstep 3 Ve Va Vb Vc Vd 51);
  (* 933 *) (50, mkcstep 3 Va Vb Vc Vd Ve 50);
  (* 935 *) (49, mkcstep 3 Vb Vc Vd Ve Va 49);
  (* 937 *) (48, mkcstep 3 Vc Vd Ve Va Vb 48);
  (* 939 *) (47, mkcstep 3 Vd Ve Va Vb Vc 47);
  (* 941 *) (46, mkcstep 3 Ve Va Vb Vc Vd 46);
  (* 943 *) (45, mkcstep 3 Va Vb Vc Vd Ve 45);
  (* 945 *) (44, mkcstep 3 Vb Vc Vd Ve Va 44);
  (* 947 *) (43, mkcstep 3 Vc Vd Ve Va Vb 43);
  (* 949 *) (42, mkcstep 3 Vd Ve Va Vb Vc 42);
  (* 951 *) (41, mkcstep 3 Ve Va Vb Vc Vd 41);
  (* 953 *) (40, mkcstep 3 Va Vb Vc Vd Ve 40);
  (* 955 *) (39, mkcstep 2 Vb Vc Vd Ve Va 39);
  (* 957 *) (38, mkcstep 2 Vc Vd Ve Va Vb 38);
  (* 959 *) (37, mkcstep 2 Vd Ve Va Vb Vc 37);
  (* 961 *) (36, mkcstep 2 Ve Va Vb Vc Vd 36);
  (* 963 *) (35, mkcstep 2 Va Vb Vc Vd Ve 35);
  (* 965 *) (34, mkcstep 2 Vb Vc Vd Ve Va 34);
  (* 967 *) (33, mkcstep 2 Vc Vd Ve Va Vb 33);
  (* 969 *) (32, mkcstep 2 Vd Ve Va Vb Vc 32);
  (* 971 *) (31, mkcstep 2 Ve Va Vb Vc Vd 31);
  (* 973 *) (30, mkcstep 2 Va Vb Vc Vd Ve 30);
  (* 975 *) (29, mkcstep 2 Vb Vc Vd Ve Va 29);
  (* 977 *) (28, mkcstep 2 Vc Vd Ve Va Vb 28);
  (* 979 *) (27, mkcstep 2 Vd Ve Va Vb Vc 27);
  (* 981 *) (26, mkcstep 2 Ve Va Vb Vc Vd 26);
  (* 983 *) (25, mkcstep 2 Va Vb Vc Vd Ve 25);
  (* 985 *) (24, mkcstep 2 Vb Vc Vd Ve Va 24);
  (* 987 *) (23, mkcstep 2 Vc Vd Ve Va Vb 23);
  (* 989 *) (22, mkcstep 2 Vd Ve Va Vb Vc 22);
  (* 991 *) (21, mkcstep 2 Ve Va Vb Vc Vd 21);
  (* 993 *) (20, mkcstep 2 Va Vb Vc Vd Ve 20);
  (* 995 *) (19, mkcstep 1 Vb Vc Vd Ve Va 19);
  (* 997 *) (18, mkcstep 1 Vc Vd Ve Va Vb 18);
  (* 999 *) (17, mkcstep 1 Vd Ve Va Vb Vc 17);
  (* 1001 *) (16, mkcstep 1 Ve Va Vb Vc Vd 16);
  (* 1003 *) (15, mkcstep 1 Va Vb Vc Vd Ve 15);
  (* 1005 *) (14, mkcstep 1 Vb Vc Vd Ve Va 14);
  (* 1007 *) (13, mkcstep 1 Vc Vd Ve Va Vb 13);
  (* 1009 *) (12, mkcstep 1 Vd Ve Va Vb Vc 12);
  (* 1011 *) (11, mkcstep 1 Ve Va Vb Vc Vd 11);
  (* 1013 *) (10, mkcstep 1 Va Vb Vc Vd Ve 10);
  (* 1015 *) (9, mkcstep 1 Vb Vc Vd Ve Va 9);
  (* 1017 *) (8, mkcstep 1 Vc Vd Ve Va Vb 8);
  (* 1019 *) (7, mkcstep 1 Vd Ve Va Vb Vc 7);
  (* 1021 *) (6, mkcstep 1 Ve Va Vb Vc Vd 6);
  (* 1023 *) (5, mkcstep 1 Va Vb Vc Vd Ve 5);
  (* 1025 *) (4, mkcstep 1 Vb Vc Vd Ve Va 4);
  (* 1027 *) (3, mkcstep 1 Vc Vd Ve Va Vb 3);
  (* 1029 *) (2, mkcstep 1 Vd Ve Va Vb Vc 2);
  (* 1031 *) (1, mkcstep 1 Ve Va Vb Vc Vd 1);
  (* 1033 *) (0, mkcstep 1 Va Vb Vc Vd Ve 0)
].

(** Forward half: (k, step) is "if (t <= k) step". *)
Definition recomp_fwd : list (nat * cstep) := [
  (* 1045 *) (0, mkcstep 1 Va Vb Vc Vd Ve 0);
  (* 1047 *) (1, mkcstep 1 Ve Va Vb Vc Vd 1);
  (* 1049 *) (2, mkcstep 1 Vd Ve Va Vb Vc 2);
  (* 1051 *) (3, mkcstep 1 Vc Vd Ve Va Vb 3);
  (* 1053 *) (4, mkcstep 1 Vb Vc Vd Ve Va 4);
  (* 1055 *) (5, mkcstep 1 Va Vb Vc Vd Ve 5);
  (* 1057 *) (6, mkcstep 1 Ve Va Vb Vc Vd 6);
  (* 1059 *) (7, mkcstep 1 Vd Ve Va Vb Vc 7);
  (* 1061 *) (8, mkcstep 1 Vc Vd Ve Va Vb 8);
  (* 1063 *) (9, mkcstep 1 Vb Vc Vd Ve Va 9);
  (* 1065 *) (10, mkcstep 1 Va Vb Vc Vd Ve 10);
  (* 1067 *) (11, mkcstep 1 Ve Va Vb Vc Vd 11);
  (* 1069 *) (12, mkcstep 1 Vd Ve Va Vb Vc 12);
  (* 1071 *) (13, mkcstep 1 Vc Vd Ve Va Vb 13);
  (* 1073 *) (14, mkcstep 1 Vb Vc Vd Ve Va 14);
  (* 1075 *) (15, mkcstep 1 Va Vb Vc Vd Ve 15);
  (* 1077 *) (16, mkcstep 1 Ve Va Vb Vc Vd 16);
  (* 1079 *) (17, mkcstep 1 Vd Ve Va Vb Vc 17);
  (* 1081 *) (18, mkcstep 1 Vc Vd Ve Va Vb 18);
  (* 1083 *) (19, mkcstep 1 Vb Vc Vd Ve Va 19);
  (* 1085 *) (20, mkcstep 2 Va Vb Vc Vd Ve 20);
  (* 1087 *) (21, mkcstep 2 Ve Va Vb Vc Vd 21);
  (* 1089 *) (22, mkcstep 2 Vd Ve Va Vb Vc 22);
  (* 1091 *) (23, mkcstep 2 Vc Vd Ve Va Vb 23);
  (* 1093 *) (24, mkcstep 2 Vb Vc Vd Ve Va 24);
  (* 1095 *) (25, mkcstep 2 Va Vb Vc Vd Ve 25);
  (* 1097 *) (26, mkcstep 2 Ve Va Vb Vc Vd 26);
  (* 1099 *) (27, mkcstep 2 Vd Ve Va Vb Vc 27);
  (* 1101 *) (28, mkcstep 2 Vc Vd Ve Va Vb 28);
  (* 1103 *) (29, mkcstep 2 Vb Vc Vd Ve Va 29);
  (* 1105 *) (30, mkcstep 2 Va Vb Vc Vd Ve 30);
  (* 1107 *) (31, mkcstep 2 Ve Va Vb Vc Vd 31);
  (* 1109 *) (32, mkcstep 2 Vd Ve Va Vb Vc 32);
  (* 1111 *) (33, mkcstep 2 Vc Vd Ve Va Vb 33);
  (* 1113 *) (34, mkcstep 2 Vb Vc Vd Ve Va 34);
  (* 1115 *) (35, mkcstep 2 Va Vb Vc Vd Ve 35);
  (* 1117 *) (36, mkcstep 2 Ve Va Vb Vc Vd 36);
  (* 1119 *) (37, mkcstep 2 Vd Ve Va Vb Vc 37);
  (* 1121 *) (38, mkcstep 2 Vc Vd Ve Va Vb 38);
  (* 1123 *) (39, mkcstep 2 Vb Vc Vd Ve Va 39);
  (* 1125 *) (40, mkcstep 3 Va Vb Vc Vd Ve 40);
  (* 1127 *) (41, mkcstep 3 Ve Va Vb Vc Vd 41);
  (* 1129 *) (42, mkcstep 3 Vd Ve Va Vb Vc 42);
  (* 1131 *) (43, mkcstep 3 Vc Vd Ve Va Vb 43);
  (* 1133 *) (44, mkcstep 3 Vb Vc Vd Ve Va 44);
  (* 1135 *) (45, mkcstep 3 Va Vb Vc Vd Ve 45);
  (* 1137 *) (46, mkcstep 3 Ve Va Vb Vc Vd 46);
  (* 1139 *) (47, mkcstep 3 Vd Ve Va Vb Vc 47);
  (* 1141 *) (48, mkcstep 3 Vc Vd Ve Va Vb 48);
  (* 1143 *) (49, mkcstep 3 Vb Vc Vd Ve Va 49);
  (* 1145 *) (50, mkcstep 3 Va Vb Vc Vd Ve 50);
  (* 1147 *) (51, mkcstep 3 Ve Va Vb Vc Vd 51);
  (* 1149 *) (52, mkcstep 3 Vd Ve Va Vb Vc 52);
  (* 1151 *) (53, mkcstep 3 Vc Vd Ve Va Vb 53);
  (* 1153 *) (54, mkcstep 3 Vb Vc Vd Ve Va 54);
  (* 1155 *) (55, mkcstep 3 Va Vb Vc Vd Ve 55);
  (* 1157 *) (56, mkcstep 3 Ve Va Vb Vc Vd 56);
  (* 1159 *) (57, mkcstep 3 Vd Ve Va Vb Vc 57);
  (* 1161 *) (58, mkcstep 3 Vc Vd Ve Va Vb 58);
  (* 1163 *) (59, mkcstep 3 Vb Vc Vd Ve Va 59);
  (* 1165 *) (60, mkcstep 4 Va Vb Vc Vd Ve 60);
  (* 1167 *) (61, mkcstep 4 Ve Va Vb Vc Vd 61);
  (* 1169 *) (62, mkcstep 4 Vd Ve Va Vb Vc 62);
  (* 1171 *) (63, mkcstep 4 Vc Vd Ve Va Vb 63);
  (* 1173 *) (64, mkcstep 4 Vb Vc Vd Ve Va 64);
  (* 1175 *) (65, mkcstep 4 Va Vb Vc Vd Ve 65);
  (* 1177 *) (66, mkcstep 4 Ve Va Vb Vc Vd 66);
  (* 1179 *) (67, mkcstep 4 Vd Ve Va Vb Vc 67);
  (* 1181 *) (68, mkcstep 4 Vc Vd Ve Va Vb 68);
  (* 1183 *) (69, mkcstep 4 Vb Vc Vd Ve Va 69);
  (* 1185 *) (70, mkcstep 4 Va Vb Vc Vd Ve 70);
  (* 1187 *) (71, mkcstep 4 Ve Va Vb Vc Vd 71);
  (* 1189 *) (72, mkcstep 4 Vd Ve Va Vb Vc 72);
  (* 1191 *) (73, mkcstep 4 Vc Vd Ve Va Vb 73);
  (* 1193 *) (74, mkcstep 4 Vb Vc Vd Ve Va 74);
  (* 1195 *) (75, mkcstep 4 Va Vb Vc Vd Ve 75);
  (* 1197 *) (76, mkcstep 4 Ve Va Vb Vc Vd 76);
  (* 1199 *) (77, mkcstep 4 Vd Ve Va Vb Vc 77);
  (* 1201 *) (78, mkcstep 4 Vc Vd Ve Va Vb 78);
  (* 1203 *) (79, mkcstep 4 Vb Vc Vd Ve Va 79)
].

(** The instances SHA1_RECOMPRESS(t), with the macro that guards each. *)
Definition recomp_defs : list (string * nat) := [
  (* 1218 *) ("DOSTORESTATE0", 0);
  (* 1222 *) ("DOSTORESTATE1", 1);
  (* 1226 *) ("DOSTORESTATE2", 2);
  (* 1230 *) ("DOSTORESTATE3", 3);
  (* 1234 *) ("DOSTORESTATE4", 4);
  (* 1238 *) ("DOSTORESTATE5", 5);
  (* 1242 *) ("DOSTORESTATE6", 6);
  (* 1246 *) ("DOSTORESTATE7", 7);
  (* 1250 *) ("DOSTORESTATE8", 8);
  (* 1254 *) ("DOSTORESTATE9", 9);
  (* 1258 *) ("DOSTORESTATE10", 10);
  (* 1262 *) ("DOSTORESTATE11", 11);
  (* 1266 *) ("DOSTORESTATE12", 12);
  (* 1270 *) ("DOSTORESTATE13", 13);
  (* 1274 *) ("DOSTORESTATE14", 14);
  (* 1278 *) ("DOSTORESTATE15", 15);
  (* 1282 *) ("DOSTORESTATE16", 16);
  (* 1286 *) ("DOSTORESTATE17", 17);
  (* 1290 *) ("DOSTORESTATE18", 18);
  (* 1294 *) ("DOSTORESTATE19", 19);
  (* 1298 *) ("DOSTORESTATE20", 20);
  (* 1302 *) ("DOSTORESTATE21", 21);
  (* 1306 *) ("DOSTORESTATE22", 22);
  (* 1310 *) ("DOSTORESTATE23", 23);
  (* 1314 *) ("DOSTORESTATE24", 24);
  (* 1318 *) ("DOSTORESTATE25", 25);
  (* 1322 *) ("DOSTORESTATE26", 26);
  (* 1326 *) ("DOSTORESTATE27", 27);
  (* 1330 *) ("DOSTORESTATE28", 28);
  (* 1334 *) ("DOSTORESTATE29", 29);
  (* 1338 *) ("DOSTORESTATE30", 30);
  (* 1342 *) ("DOSTORESTATE31", 31);
  (* 1346 *) ("DOSTORESTATE32", 32);
  (* 1350 *) ("DOSTORESTATE33", 33);
  (* 1354 *) ("DOSTORESTATE34", 34);
  (* 1358 *) ("DOSTORESTATE35", 35);
  (* 1362 *) ("DOSTORESTATE36", 36);
  (* 1366 *) ("DOSTORESTATE37", 37);
  (* 1370 *) ("DOSTORESTATE38", 38);
  (* 1374 *) ("DOSTORESTATE39", 39);
  (* 1378 *) ("DOSTORESTATE40", 40);
  (* 1382 *) ("DOSTORESTATE41", 41);
  (* 1386 *) ("DOSTORESTATE42", 42);
  (* 1390 *) ("DOSTORESTATE43", 43);
  (* 1394 *) ("DOSTORESTATE44", 44);
  (* 1398 *) ("DOSTORESTATE45", 45);
  (* 1402 *) ("DOSTORESTATE46", 46);
  (* 1406 *) ("DOSTORESTATE47", 47);
  (* 1410 *) ("DOSTORESTATE48", 48);
  (* 1414 *) ("DOSTORESTATE49", 49);
  (* 1418 *) ("DOSTORESTATE50", 50);
  (* 1422 *) ("DOSTORESTATE51", 51);
  (* 1426 *) ("DOSTORESTATE52", 52);
  (* 1430 *) ("DOSTORESTATE53", 53);
  (* 1434 *) ("DOSTORESTATE54", 54);
  (* 1438 *) ("DOSTORESTATE55", 55);
  (* 1442 *) ("DOSTORESTATE56", 56);
  (* 1446 *) ("DOSTORESTATE57", 57);
  (* 1450 *) ("DOSTORESTATE58", 58);
  (* 1454 *) ("DOSTORESTATE59", 59);
  (* 1458 *) ("DOSTORESTATE60", 60);
  (* 1462 *) ("DOSTORESTATE61", 61);
  (* 1466 *) ("DOSTORESTATE62", 62);
  (* 1470 *) ("DOSTORESTATE63", 63);
  (* 1474 *) ("DOSTORESTATE64", 64);
  (* 1478 *) ("DOSTORESTATE65", 65);
  (* 1482 *) ("DOSTORESTATE66", 66);
  (* 1486 *) ("DOSTORESTATE67", 67);
  (* 1490 *) ("DOSTORESTATE68", 68);
  (* 1494 *) ("DOSTORESTATE69", 69);
  (* 1498 *) ("DOSTORESTATE70", 70);
  (* 1502 *) ("DOSTORESTATE71", 71);
  (* 1506 *) ("DOSTORESTATE72", 72);
  (* 1510 *) ("DOSTORESTATE73", 73);
  (* 1514 *) ("DOSTORESTATE74", 74);
  (* 1518 *) ("DOSTORESTATE75", 75);
  (* 1522 *) ("DOSTORESTATE76", 76);
  (* 1526 *) ("DOSTORESTATE77", 77);
  (* 1530 *) ("DOSTORESTATE78", 78);
  (* 1534 *) ("DOSTORESTATE79", 79)
].

(** /repo/cgo/sha1.c lines 1541-1948: the switch of sha1_recompression_step: guard, case label, suffix of the function called. *)
Definition recomp_cases : list (string * nat * nat) := [
  (* 1546 *) ("DOSTORESTATE0", 0, 0);
  (* 1551 *) ("DOSTORESTATE1", 1, 1);
  (* 1556 *) ("DOSTORESTATE2", 2, 2);
  (* 1561 *) ("DOSTORESTATE3", 3, 3);
  (* 1566 *) ("DOSTORESTATE4", 4, 4);
  (* 1571 *) ("DOSTORESTATE5", 5, 5);
  (* 1576 *) ("DOSTORESTATE6", 6, 6);
  (* 1581 *) ("DOSTORESTATE7", 7, 7);
  (* 1586 *) ("DOSTORESTATE8", 8, 8);
  (* 1591 *) ("DOSTORESTATE9", 9, 9);
  (* 1596 *) ("DOSTORESTATE10", 10, 10);
  (* 1601 *) ("DOSTORESTATE11", 11, 11);
  (* 1606 *) ("DOSTORESTATE12", 12, 12);
  (* 1611 *) ("DOSTORESTATE13", 13, 13);
  (* 1616 *) ("DOSTORESTATE14", 14, 14);
  (* 1621 *) ("DOSTORESTATE15", 15, 15);
  (* 1626 *) ("DOSTORESTATE16", 16, 16);
  (* 1631 *) ("DOSTORESTATE17", 17, 17);
  (* 1636 *) ("DOSTORESTATE18", 18, 18);
  (* 1641 *) ("DOSTORESTATE19", 19, 19);
  (* 1646 *) ("DOSTORESTATE20", 20, 20);
  (* 1651 *) ("DOSTORESTATE21", 21, 21);
  (* 1656 *) ("DOSTORESTATE22", 22, 22);
  (* 1661 *) ("DOSTORESTATE23", 23, 23);
  (* 1666 *) ("DOSTORESTATE24", 24, 24);
  (* 1671 *) ("DOSTORESTATE25", 25, 25);
  (* 1676 *) ("DOSTORESTATE26", 26, 26);
  (* 1681 *) ("DOSTORESTATE27", 27, 27);
  (* 1686 *) ("DOSTORESTATE28", 28, 28);
  (* 1691 *) ("DOSTORESTATE29", 29, 29);
  (* 1696 *) ("DOSTORESTATE30", 30, 30);
  (* 1701 *) ("DOSTORESTATE31", 31, 31);
  (* 1706 *) ("DOSTORESTATE32", 32, 32);
  (* 1711 *) ("DOSTORESTATE33", 33, 33);
  (* 1716 *) ("DOSTORESTATE34", 34, 34);
  (* 1721 *) ("DOSTORESTATE35", 35, 35);
  (* 1726 *) ("DOSTORESTATE36", 36, 36);
  (* 1731 *) ("DOSTORESTATE37", 37, 37);
  (* 1736 *) ("DOSTORESTATE38", 38, 38);
  (* 1741 *) ("DOSTORESTATE39", 39, 39);
  (* 1746 *) ("DOSTORESTATE40", 40, 40);
  (* 1751 *) ("DOSTORESTATE41", 41, 41);
  (* 1756 *) ("DOSTORESTATE42", 42, 42);
  (* 1761 *) ("DOSTORESTATE43", 43, 43);
  (* 1766 *) ("DOSTORESTATE44", 44, 44);
  (* 1771 *) ("DOSTORESTATE45", 45, 45);
  (* 1776 *) ("DOSTORESTATE46", 46, 46);
  (* 1781 *) ("DOSTORESTATE47", 47, 47);
  (* 1786 *) ("DOSTORESTATE48", 48, 48);
  (* 1791 *) ("DOSTORESTATE49", 49, 49);
  (* 1796 *) ("DOSTORESTATE50", 50, 50);
  (* 1801 *) ("DOSTORESTATE51", 51, 51);
  (* 1806 *) ("DOSTORESTATE52", 52, 52);
  (* 1811 *) ("DOSTORESTATE53", 53, 53);
  (* 1816 *) ("DOSTORESTATE54", 54, 54);
  (* 1821 *) ("DOSTORESTATE55", 55, 55);
  (* 1826 *) ("DOSTORESTATE56", 56, 56);
  (* 1831 *) ("DOSTORESTATE57", 57, 57);
  (* 1836 *) ("DOSTORESTATE58", 58, 58);
  (* 1841 *) ("DOSTORESTATE59", 59, 59);
  (* 1846 *) ("DOSTORESTATE60", 60, 60);
  (* 1851 *) ("DOSTORESTATE61", 61, 61);
  (* 1856 *) ("DOSTORESTATE62", 62, 62);
  (* 1861 *) ("DOSTORESTATE63", 63, 63);
  (* 1866 *) ("DOSTORESTATE64", 64, 64);
  (* 1871 *) ("DOSTORESTATE65", 65, 65);
  (* 1876 *) ("DOSTORESTATE66", 66, 66);
  (* 1881 *) ("DOSTORESTATE67", 67, 67);
  (* 1886 *) ("DOSTORESTATE68", 68, 68);
  (* 1891 *) ("DOSTORESTATE69", 69, 69);
  (* 1896 *) ("DOSTORESTATE70", 70, 70);
  (* 1901 *) ("DOSTORESTATE71", 71, 71);
  (* 1906 *) ("DOSTORESTATE72", 72, 72);
  (* 1911 *) ("DOSTORESTATE73", 73, 73);
  (* 1916 *) ("DOSTORESTATE74", 74, 74);
  (* 1921 *) ("DOSTORESTATE75", 75, 75);
  (* 1926 *) ("DOSTORESTATE76", 76, 76);
  (* 1931 *) ("DOSTORESTATE77", 77, 77);
  (* 1936 *) ("DOSTORESTATE78", 78, 78);
  (* 1941 *) ("DOSTORESTATE79", 79, 79)
].

(** /repo/cgo/sha1.c lines 2094-2099: sha1_padding. *)
Definition sha1_padding : list byte := [x80; x00; x00; x00; x00; x00; x00; x00; x00; x00; x00; x00; x00; x00; x00; x00; x00; x00; x00; x00; x00; x00; x00; x00; x00; x00; x00; x00; x00; x00; x00; x00; x00; x00; x00; x00; x00; x00; x00; x00; x00; x00; x00; x00; x00; x00; x00; x00; x00; x00; x00; x00; x00; x00; x00; x00; x00; x00; x00; x00; x00; x00; x00; x00].
