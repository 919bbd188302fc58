(** Generated: the circuit file yacl/io/circuit/data/udivide64.txt, gate by gate
    in the order of the file, and the rows of the division found in it. *)
From Coq Require Import NArith ZArith List.
From Verif Require Import CircuitModel DivProof.
Import ListNotations.
Open Scope N_scope.

Definition udivide64_gates : list gate := [
  G2 AND 127 126 128; G2 XOR 127 126 129; G2 XOR 129 128 130; G2 AND 130 125 131; G2 XOR 130 125 132;
  G2 XOR 132 131 133; G2 AND 133 124 134; G2 XOR 133 124 135; G2 XOR 135 134 136; G2 AND 136 123 137;
  G2 XOR 136 123 138; G2 XOR 138 137 139; G2 AND 139 122 140; G2 XOR 139 122 141; G2 XOR 141 140 142;
  G2 AND 142 121 143; G2 XOR 142 121 144; G2 XOR 144 143 145; G2 AND 145 120 146; G2 XOR 145 120 147;
  G2 XOR 147 146 148; G2 AND 148 119 149; G2 XOR 148 119 150; G2 XOR 150 149 151; G2 AND 151 118 152;
  G2 XOR 151 118 153; G2 XOR 153 152 154; G2 AND 154 117 155; G2 XOR 154 117 156; G2 XOR 156 155 157;
  G2 AND 157 116 158; G2 XOR 157 116 159; G2 XOR 159 158 160; G2 AND 160 115 161; G2 XOR 160 115 162;
  G2 XOR 162 161 163; G2 AND 163 114 164; G2 XOR 163 114 165; G2 XOR 165 164 166; G2 AND 166 113 167;
  G2 XOR 166 113 168; G2 XOR 168 167 169; G2 AND 169 112 170; G2 XOR 169 112 171; G2 XOR 171 170 172;
  G2 AND 172 111 173; G2 XOR 172 111 174; G2 XOR 174 173 175; G2 AND 175 110 176; G2 XOR 175 110 177;
  G2 XOR 177 176 178; G2 AND 178 109 179; G2 XOR 178 109 180; G2 XOR 180 179 181; G2 AND 181 108 182;
  G2 XOR 181 108 183; G2 XOR 183 182 184; G2 AND 184 107 185; G2 XOR 184 107 186; G2 XOR 186 185 187;
  G2 AND 187 106 188; G2 XOR 187 106 189; G2 XOR 189 188 190; G2 AND 190 105 191; G2 XOR 190 105 192;
  G2 XOR 192 191 193; G2 AND 193 104 194; G2 XOR 193 104 195; G2 XOR 195 194 196; G2 AND 196 103 197;
  G2 XOR 196 103 198; G2 XOR 198 197 199; G2 AND 199 102 200; G2 XOR 199 102 201; G2 XOR 201 200 202;
  G2 AND 202 101 203; G2 XOR 202 101 204; G2 XOR 204 203 205; G2 AND 205 100 206; G2 XOR 205 100 207;
  G2 XOR 207 206 208; G2 AND 208 99 209; G2 XOR 208 99 210; G2 XOR 210 209 211; G2 AND 211 98 212;
  G2 XOR 211 98 213; G2 XOR 213 212 214; G2 AND 214 97 215; G2 XOR 214 97 216; G2 XOR 216 215 217;
  G2 AND 217 96 218; G2 XOR 217 96 219; G2 XOR 219 218 220; G2 AND 220 95 221; G2 XOR 220 95 222;
  G2 XOR 222 221 223; G2 AND 223 94 224; G2 XOR 223 94 225; G2 XOR 225 224 226; G2 AND 226 93 227;
  G2 XOR 226 93 228; G2 XOR 228 227 229; G2 AND 229 92 230; G2 XOR 229 92 231; G2 XOR 231 230 232;
  G2 AND 232 91 233; G2 XOR 232 91 234; G2 XOR 234 233 235; G2 AND 235 90 236; G2 XOR 235 90 237;
  G2 XOR 237 236 238; G2 AND 238 89 239; G2 XOR 238 89 240; G2 XOR 240 239 241; G2 AND 241 88 242;
  G2 XOR 241 88 243; G2 XOR 243 242 244; G2 AND 244 87 245; G2 XOR 244 87 246; G2 XOR 246 245 247;
  G2 AND 247 86 248; G2 XOR 247 86 249; G2 XOR 249 248 250; G2 AND 250 85 251; G2 XOR 250 85 252;
  G2 XOR 252 251 253; G2 AND 253 84 254; G2 XOR 253 84 255; G2 XOR 255 254 256; G2 AND 256 83 257;
  G2 XOR 256 83 258; G2 XOR 258 257 259; G2 AND 259 82 260; G2 XOR 259 82 261; G2 XOR 261 260 262;
  G2 AND 262 81 263; G2 XOR 262 81 264; G2 XOR 264 263 265; G2 AND 265 80 266; G2 XOR 265 80 267;
  G2 XOR 267 266 268; G2 AND 268 79 269; G2 XOR 268 79 270; G2 XOR 270 269 271; G2 AND 271 78 272;
  G2 XOR 271 78 273; G2 XOR 273 272 274; G2 AND 274 77 275; G2 XOR 274 77 276; G2 XOR 276 275 277;
  G2 AND 277 76 278; G2 XOR 277 76 279; G2 XOR 279 278 280; G2 AND 280 75 281; G2 XOR 280 75 282;
  G2 XOR 282 281 283; G2 AND 283 74 284; G2 XOR 283 74 285; G2 XOR 285 284 286; G2 AND 286 73 287;
  G2 XOR 286 73 288; G2 XOR 288 287 289; G2 AND 289 72 290; G2 XOR 289 72 291; G2 XOR 291 290 292;
  G2 AND 292 71 293; G2 XOR 292 71 294; G2 XOR 294 293 295; G2 AND 295 70 296; G2 XOR 295 70 297;
  G2 XOR 297 296 298; G2 AND 298 69 299; G2 XOR 298 69 300; G2 XOR 300 299 301; G2 AND 301 68 302;
  G2 XOR 301 68 303; G2 XOR 303 302 304; G2 AND 304 67 305; G2 XOR 304 67 306; G2 XOR 306 305 307;
  G2 AND 307 66 308; G2 XOR 307 66 309; G2 XOR 309 308 310; G2 AND 310 65 311; G2 XOR 310 65 312;
  G2 XOR 312 311 313; G2 XOR 63 64 314; G2 AND 314 64 315; G2 AND 315 313 316; G2 XOR 315 313 317;
  G2 XOR 317 316 318; G2 XOR 63 314 319; G2 AND 318 319 320; G2 XOR 320 314 321; G1 INV 318 322;
  G2 XOR 62 64 323; G2 AND 323 64 324; G2 XOR 321 65 325; G2 XOR 324 65 326; G2 XOR 325 324 327;
  G2 AND 325 326 328; G2 XOR 324 328 329; G2 AND 329 310 330; G2 XOR 329 310 331; G2 XOR 331 330 332;
  G2 XOR 62 323 333; G2 AND 332 333 334; G2 XOR 334 323 335; G2 XOR 321 327 336; G2 AND 332 336 337;
  G2 XOR 337 327 338; G1 INV 332 339; G2 XOR 61 64 340; G2 AND 340 64 341; G2 XOR 335 65 342;
  G2 XOR 341 65 343; G2 XOR 342 341 344; G2 AND 342 343 345; G2 XOR 341 345 346; G2 XOR 338 66 347;
  G2 XOR 346 66 348; G2 XOR 347 346 349; G2 AND 347 348 350; G2 XOR 346 350 351; G2 AND 351 307 352;
  G2 XOR 351 307 353; G2 XOR 353 352 354; G2 XOR 61 340 355; G2 AND 354 355 356; G2 XOR 356 340 357;
  G2 XOR 335 344 358; G2 AND 354 358 359; G2 XOR 359 344 360; G2 XOR 338 349 361; G2 AND 354 361 362;
  G2 XOR 362 349 363; G1 INV 354 364; G2 XOR 60 64 365; G2 AND 365 64 366; G2 XOR 357 65 367;
  G2 XOR 366 65 368; G2 XOR 367 366 369; G2 AND 367 368 370; G2 XOR 366 370 371; G2 XOR 360 66 372;
  G2 XOR 371 66 373; G2 XOR 372 371 374; G2 AND 372 373 375; G2 XOR 371 375 376; G2 XOR 363 67 377;
  G2 XOR 376 67 378; G2 XOR 377 376 379; G2 AND 377 378 380; G2 XOR 376 380 381; G2 AND 381 304 382;
  G2 XOR 381 304 383; G2 XOR 383 382 384; G2 XOR 60 365 385; G2 AND 384 385 386; G2 XOR 386 365 387;
  G2 XOR 357 369 388; G2 AND 384 388 389; G2 XOR 389 369 390; G2 XOR 360 374 391; G2 AND 384 391 392;
  G2 XOR 392 374 393; G2 XOR 363 379 394; G2 AND 384 394 395; G2 XOR 395 379 396; G1 INV 384 397;
  G2 XOR 59 64 398; G2 AND 398 64 399; G2 XOR 387 65 400; G2 XOR 399 65 401; G2 XOR 400 399 402;
  G2 AND 400 401 403; G2 XOR 399 403 404; G2 XOR 390 66 405; G2 XOR 404 66 406; G2 XOR 405 404 407;
  G2 AND 405 406 408; G2 XOR 404 408 409; G2 XOR 393 67 410; G2 XOR 409 67 411; G2 XOR 410 409 412;
  G2 AND 410 411 413; G2 XOR 409 413 414; G2 XOR 396 68 415; G2 XOR 414 68 416; G2 XOR 415 414 417;
  G2 AND 415 416 418; G2 XOR 414 418 419; G2 AND 419 301 420; G2 XOR 419 301 421; G2 XOR 421 420 422;
  G2 XOR 59 398 423; G2 AND 422 423 424; G2 XOR 424 398 425; G2 XOR 387 402 426; G2 AND 422 426 427;
  G2 XOR 427 402 428; G2 XOR 390 407 429; G2 AND 422 429 430; G2 XOR 430 407 431; G2 XOR 393 412 432;
  G2 AND 422 432 433; G2 XOR 433 412 434; G2 XOR 396 417 435; G2 AND 422 435 436; G2 XOR 436 417 437;
  G1 INV 422 438; G2 XOR 58 64 439; G2 AND 439 64 440; G2 XOR 425 65 441; G2 XOR 440 65 442;
  G2 XOR 441 440 443; G2 AND 441 442 444; G2 XOR 440 444 445; G2 XOR 428 66 446; G2 XOR 445 66 447;
  G2 XOR 446 445 448; G2 AND 446 447 449; G2 XOR 445 449 450; G2 XOR 431 67 451; G2 XOR 450 67 452;
  G2 XOR 451 450 453; G2 AND 451 452 454; G2 XOR 450 454 455; G2 XOR 434 68 456; G2 XOR 455 68 457;
  G2 XOR 456 455 458; G2 AND 456 457 459; G2 XOR 455 459 460; G2 XOR 437 69 461; G2 XOR 460 69 462;
  G2 XOR 461 460 463; G2 AND 461 462 464; G2 XOR 460 464 465; G2 AND 465 298 466; G2 XOR 465 298 467;
  G2 XOR 467 466 468; G2 XOR 58 439 469; G2 AND 468 469 470; G2 XOR 470 439 471; G2 XOR 425 443 472;
  G2 AND 468 472 473; G2 XOR 473 443 474; G2 XOR 428 448 475; G2 AND 468 475 476; G2 XOR 476 448 477;
  G2 XOR 431 453 478; G2 AND 468 478 479; G2 XOR 479 453 480; G2 XOR 434 458 481; G2 AND 468 481 482;
  G2 XOR 482 458 483; G2 XOR 437 463 484; G2 AND 468 484 485; G2 XOR 485 463 486; G1 INV 468 487;
  G2 XOR 57 64 488; G2 AND 488 64 489; G2 XOR 471 65 490; G2 XOR 489 65 491; G2 XOR 490 489 492;
  G2 AND 490 491 493; G2 XOR 489 493 494; G2 XOR 474 66 495; G2 XOR 494 66 496; G2 XOR 495 494 497;
  G2 AND 495 496 498; G2 XOR 494 498 499; G2 XOR 477 67 500; G2 XOR 499 67 501; G2 XOR 500 499 502;
  G2 AND 500 501 503; G2 XOR 499 503 504; G2 XOR 480 68 505; G2 XOR 504 68 506; G2 XOR 505 504 507;
  G2 AND 505 506 508; G2 XOR 504 508 509; G2 XOR 483 69 510; G2 XOR 509 69 511; G2 XOR 510 509 512;
  G2 AND 510 511 513; G2 XOR 509 513 514; G2 XOR 486 70 515; G2 XOR 514 70 516; G2 XOR 515 514 517;
  G2 AND 515 516 518; G2 XOR 514 518 519; G2 AND 519 295 520; G2 XOR 519 295 521; G2 XOR 521 520 522;
  G2 XOR 57 488 523; G2 AND 522 523 524; G2 XOR 524 488 525; G2 XOR 471 492 526; G2 AND 522 526 527;
  G2 XOR 527 492 528; G2 XOR 474 497 529; G2 AND 522 529 530; G2 XOR 530 497 531; G2 XOR 477 502 532;
  G2 AND 522 532 533; G2 XOR 533 502 534; G2 XOR 480 507 535; G2 AND 522 535 536; G2 XOR 536 507 537;
  G2 XOR 483 512 538; G2 AND 522 538 539; G2 XOR 539 512 540; G2 XOR 486 517 541; G2 AND 522 541 542;
  G2 XOR 542 517 543; G1 INV 522 544; G2 XOR 56 64 545; G2 AND 545 64 546; G2 XOR 525 65 547;
  G2 XOR 546 65 548; G2 XOR 547 546 549; G2 AND 547 548 550; G2 XOR 546 550 551; G2 XOR 528 66 552;
  G2 XOR 551 66 553; G2 XOR 552 551 554; G2 AND 552 553 555; G2 XOR 551 555 556; G2 XOR 531 67 557;
  G2 XOR 556 67 558; G2 XOR 557 556 559; G2 AND 557 558 560; G2 XOR 556 560 561; G2 XOR 534 68 562;
  G2 XOR 561 68 563; G2 XOR 562 561 564; G2 AND 562 563 565; G2 XOR 561 565 566; G2 XOR 537 69 567;
  G2 XOR 566 69 568; G2 XOR 567 566 569; G2 AND 567 568 570; G2 XOR 566 570 571; G2 XOR 540 70 572;
  G2 XOR 571 70 573; G2 XOR 572 571 574; G2 AND 572 573 575; G2 XOR 571 575 576; G2 XOR 543 71 577;
  G2 XOR 576 71 578; G2 XOR 577 576 579; G2 AND 577 578 580; G2 XOR 576 580 581; G2 AND 581 292 582;
  G2 XOR 581 292 583; G2 XOR 583 582 584; G2 XOR 56 545 585; G2 AND 584 585 586; G2 XOR 586 545 587;
  G2 XOR 525 549 588; G2 AND 584 588 589; G2 XOR 589 549 590; G2 XOR 528 554 591; G2 AND 584 591 592;
  G2 XOR 592 554 593; G2 XOR 531 559 594; G2 AND 584 594 595; G2 XOR 595 559 596; G2 XOR 534 564 597;
  G2 AND 584 597 598; G2 XOR 598 564 599; G2 XOR 537 569 600; G2 AND 584 600 601; G2 XOR 601 569 602;
  G2 XOR 540 574 603; G2 AND 584 603 604; G2 XOR 604 574 605; G2 XOR 543 579 606; G2 AND 584 606 607;
  G2 XOR 607 579 608; G1 INV 584 609; G2 XOR 55 64 610; G2 AND 610 64 611; G2 XOR 587 65 612;
  G2 XOR 611 65 613; G2 XOR 612 611 614; G2 AND 612 613 615; G2 XOR 611 615 616; G2 XOR 590 66 617;
  G2 XOR 616 66 618; G2 XOR 617 616 619; G2 AND 617 618 620; G2 XOR 616 620 621; G2 XOR 593 67 622;
  G2 XOR 621 67 623; G2 XOR 622 621 624; G2 AND 622 623 625; G2 XOR 621 625 626; G2 XOR 596 68 627;
  G2 XOR 626 68 628; G2 XOR 627 626 629; G2 AND 627 628 630; G2 XOR 626 630 631; G2 XOR 599 69 632;
  G2 XOR 631 69 633; G2 XOR 632 631 634; G2 AND 632 633 635; G2 XOR 631 635 636; G2 XOR 602 70 637;
  G2 XOR 636 70 638; G2 XOR 637 636 639; G2 AND 637 638 640; G2 XOR 636 640 641; G2 XOR 605 71 642;
  G2 XOR 641 71 643; G2 XOR 642 641 644; G2 AND 642 643 645; G2 XOR 641 645 646; G2 XOR 608 72 647;
  G2 XOR 646 72 648; G2 XOR 647 646 649; G2 AND 647 648 650; G2 XOR 646 650 651; G2 AND 651 289 652;
  G2 XOR 651 289 653; G2 XOR 653 652 654; G2 XOR 55 610 655; G2 AND 654 655 656; G2 XOR 656 610 657;
  G2 XOR 587 614 658; G2 AND 654 658 659; G2 XOR 659 614 660; G2 XOR 590 619 661; G2 AND 654 661 662;
  G2 XOR 662 619 663; G2 XOR 593 624 664; G2 AND 654 664 665; G2 XOR 665 624 666; G2 XOR 596 629 667;
  G2 AND 654 667 668; G2 XOR 668 629 669; G2 XOR 599 634 670; G2 AND 654 670 671; G2 XOR 671 634 672;
  G2 XOR 602 639 673; G2 AND 654 673 674; G2 XOR 674 639 675; G2 XOR 605 644 676; G2 AND 654 676 677;
  G2 XOR 677 644 678; G2 XOR 608 649 679; G2 AND 654 679 680; G2 XOR 680 649 681; G1 INV 654 682;
  G2 XOR 54 64 683; G2 AND 683 64 684; G2 XOR 657 65 685; G2 XOR 684 65 686; G2 XOR 685 684 687;
  G2 AND 685 686 688; G2 XOR 684 688 689; G2 XOR 660 66 690; G2 XOR 689 66 691; G2 XOR 690 689 692;
  G2 AND 690 691 693; G2 XOR 689 693 694; G2 XOR 663 67 695; G2 XOR 694 67 696; G2 XOR 695 694 697;
  G2 AND 695 696 698; G2 XOR 694 698 699; G2 XOR 666 68 700; G2 XOR 699 68 701; G2 XOR 700 699 702;
  G2 AND 700 701 703; G2 XOR 699 703 704; G2 XOR 669 69 705; G2 XOR 704 69 706; G2 XOR 705 704 707;
  G2 AND 705 706 708; G2 XOR 704 708 709; G2 XOR 672 70 710; G2 XOR 709 70 711; G2 XOR 710 709 712;
  G2 AND 710 711 713; G2 XOR 709 713 714; G2 XOR 675 71 715; G2 XOR 714 71 716; G2 XOR 715 714 717;
  G2 AND 715 716 718; G2 XOR 714 718 719; G2 XOR 678 72 720; G2 XOR 719 72 721; G2 XOR 720 719 722;
  G2 AND 720 721 723; G2 XOR 719 723 724; G2 XOR 681 73 725; G2 XOR 724 73 726; G2 XOR 725 724 727;
  G2 AND 725 726 728; G2 XOR 724 728 729; G2 AND 729 286 730; G2 XOR 729 286 731; G2 XOR 731 730 732;
  G2 XOR 54 683 733; G2 AND 732 733 734; G2 XOR 734 683 735; G2 XOR 657 687 736; G2 AND 732 736 737;
  G2 XOR 737 687 738; G2 XOR 660 692 739; G2 AND 732 739 740; G2 XOR 740 692 741; G2 XOR 663 697 742;
  G2 AND 732 742 743; G2 XOR 743 697 744; G2 XOR 666 702 745; G2 AND 732 745 746; G2 XOR 746 702 747;
  G2 XOR 669 707 748; G2 AND 732 748 749; G2 XOR 749 707 750; G2 XOR 672 712 751; G2 AND 732 751 752;
  G2 XOR 752 712 753; G2 XOR 675 717 754; G2 AND 732 754 755; G2 XOR 755 717 756; G2 XOR 678 722 757;
  G2 AND 732 757 758; G2 XOR 758 722 759; G2 XOR 681 727 760; G2 AND 732 760 761; G2 XOR 761 727 762;
  G1 INV 732 763; G2 XOR 53 64 764; G2 AND 764 64 765; G2 XOR 735 65 766; G2 XOR 765 65 767;
  G2 XOR 766 765 768; G2 AND 766 767 769; G2 XOR 765 769 770; G2 XOR 738 66 771; G2 XOR 770 66 772;
  G2 XOR 771 770 773; G2 AND 771 772 774; G2 XOR 770 774 775; G2 XOR 741 67 776; G2 XOR 775 67 777;
  G2 XOR 776 775 778; G2 AND 776 777 779; G2 XOR 775 779 780; G2 XOR 744 68 781; G2 XOR 780 68 782;
  G2 XOR 781 780 783; G2 AND 781 782 784; G2 XOR 780 784 785; G2 XOR 747 69 786; G2 XOR 785 69 787;
  G2 XOR 786 785 788; G2 AND 786 787 789; G2 XOR 785 789 790; G2 XOR 750 70 791; G2 XOR 790 70 792;
  G2 XOR 791 790 793; G2 AND 791 792 794; G2 XOR 790 794 795; G2 XOR 753 71 796; G2 XOR 795 71 797;
  G2 XOR 796 795 798; G2 AND 796 797 799; G2 XOR 795 799 800; G2 XOR 756 72 801; G2 XOR 800 72 802;
  G2 XOR 801 800 803; G2 AND 801 802 804; G2 XOR 800 804 805; G2 XOR 759 73 806; G2 XOR 805 73 807;
  G2 XOR 806 805 808; G2 AND 806 807 809; G2 XOR 805 809 810; G2 XOR 762 74 811; G2 XOR 810 74 812;
  G2 XOR 811 810 813; G2 AND 811 812 814; G2 XOR 810 814 815; G2 AND 815 283 816; G2 XOR 815 283 817;
  G2 XOR 817 816 818; G2 XOR 53 764 819; G2 AND 818 819 820; G2 XOR 820 764 821; G2 XOR 735 768 822;
  G2 AND 818 822 823; G2 XOR 823 768 824; G2 XOR 738 773 825; G2 AND 818 825 826; G2 XOR 826 773 827;
  G2 XOR 741 778 828; G2 AND 818 828 829; G2 XOR 829 778 830; G2 XOR 744 783 831; G2 AND 818 831 832;
  G2 XOR 832 783 833; G2 XOR 747 788 834; G2 AND 818 834 835; G2 XOR 835 788 836; G2 XOR 750 793 837;
  G2 AND 818 837 838; G2 XOR 838 793 839; G2 XOR 753 798 840; G2 AND 818 840 841; G2 XOR 841 798 842;
  G2 XOR 756 803 843; G2 AND 818 843 844; G2 XOR 844 803 845; G2 XOR 759 808 846; G2 AND 818 846 847;
  G2 XOR 847 808 848; G2 XOR 762 813 849; G2 AND 818 849 850; G2 XOR 850 813 851; G1 INV 818 852;
  G2 XOR 52 64 853; G2 AND 853 64 854; G2 XOR 821 65 855; G2 XOR 854 65 856; G2 XOR 855 854 857;
  G2 AND 855 856 858; G2 XOR 854 858 859; G2 XOR 824 66 860; G2 XOR 859 66 861; G2 XOR 860 859 862;
  G2 AND 860 861 863; G2 XOR 859 863 864; G2 XOR 827 67 865; G2 XOR 864 67 866; G2 XOR 865 864 867;
  G2 AND 865 866 868; G2 XOR 864 868 869; G2 XOR 830 68 870; G2 XOR 869 68 871; G2 XOR 870 869 872;
  G2 AND 870 871 873; G2 XOR 869 873 874; G2 XOR 833 69 875; G2 XOR 874 69 876; G2 XOR 875 874 877;
  G2 AND 875 876 878; G2 XOR 874 878 879; G2 XOR 836 70 880; G2 XOR 879 70 881; G2 XOR 880 879 882;
  G2 AND 880 881 883; G2 XOR 879 883 884; G2 XOR 839 71 885; G2 XOR 884 71 886; G2 XOR 885 884 887;
  G2 AND 885 886 888; G2 XOR 884 888 889; G2 XOR 842 72 890; G2 XOR 889 72 891; G2 XOR 890 889 892;
  G2 AND 890 891 893; G2 XOR 889 893 894; G2 XOR 845 73 895; G2 XOR 894 73 896; G2 XOR 895 894 897;
  G2 AND 895 896 898; G2 XOR 894 898 899; G2 XOR 848 74 900; G2 XOR 899 74 901; G2 XOR 900 899 902;
  G2 AND 900 901 903; G2 XOR 899 903 904; G2 XOR 851 75 905; G2 XOR 904 75 906; G2 XOR 905 904 907;
  G2 AND 905 906 908; G2 XOR 904 908 909; G2 AND 909 280 910; G2 XOR 909 280 911; G2 XOR 911 910 912;
  G2 XOR 52 853 913; G2 AND 912 913 914; G2 XOR 914 853 915; G2 XOR 821 857 916; G2 AND 912 916 917;
  G2 XOR 917 857 918; G2 XOR 824 862 919; G2 AND 912 919 920; G2 XOR 920 862 921; G2 XOR 827 867 922;
  G2 AND 912 922 923; G2 XOR 923 867 924; G2 XOR 830 872 925; G2 AND 912 925 926; G2 XOR 926 872 927;
  G2 XOR 833 877 928; G2 AND 912 928 929; G2 XOR 929 877 930; G2 XOR 836 882 931; G2 AND 912 931 932;
  G2 XOR 932 882 933; G2 XOR 839 887 934; G2 AND 912 934 935; G2 XOR 935 887 936; G2 XOR 842 892 937;
  G2 AND 912 937 938; G2 XOR 938 892 939; G2 XOR 845 897 940; G2 AND 912 940 941; G2 XOR 941 897 942;
  G2 XOR 848 902 943; G2 AND 912 943 944; G2 XOR 944 902 945; G2 XOR 851 907 946; G2 AND 912 946 947;
  G2 XOR 947 907 948; G1 INV 912 949; G2 XOR 51 64 950; G2 AND 950 64 951; G2 XOR 915 65 952;
  G2 XOR 951 65 953; G2 XOR 952 951 954; G2 AND 952 953 955; G2 XOR 951 955 956; G2 XOR 918 66 957;
  G2 XOR 956 66 958; G2 XOR 957 956 959; G2 AND 957 958 960; G2 XOR 956 960 961; G2 XOR 921 67 962;
  G2 XOR 961 67 963; G2 XOR 962 961 964; G2 AND 962 963 965; G2 XOR 961 965 966; G2 XOR 924 68 967;
  G2 XOR 966 68 968; G2 XOR 967 966 969; G2 AND 967 968 970; G2 XOR 966 970 971; G2 XOR 927 69 972;
  G2 XOR 971 69 973; G2 XOR 972 971 974; G2 AND 972 973 975; G2 XOR 971 975 976; G2 XOR 930 70 977;
  G2 XOR 976 70 978; G2 XOR 977 976 979; G2 AND 977 978 980; G2 XOR 976 980 981; G2 XOR 933 71 982;
  G2 XOR 981 71 983; G2 XOR 982 981 984; G2 AND 982 983 985; G2 XOR 981 985 986; G2 XOR 936 72 987;
  G2 XOR 986 72 988; G2 XOR 987 986 989; G2 AND 987 988 990; G2 XOR 986 990 991; G2 XOR 939 73 992;
  G2 XOR 991 73 993; G2 XOR 992 991 994; G2 AND 992 993 995; G2 XOR 991 995 996; G2 XOR 942 74 997;
  G2 XOR 996 74 998; G2 XOR 997 996 999; G2 AND 997 998 1000; G2 XOR 996 1000 1001; G2 XOR 945 75 1002;
  G2 XOR 1001 75 1003; G2 XOR 1002 1001 1004; G2 AND 1002 1003 1005; G2 XOR 1001 1005 1006;
  G2 XOR 948 76 1007; G2 XOR 1006 76 1008; G2 XOR 1007 1006 1009; G2 AND 1007 1008 1010;
  G2 XOR 1006 1010 1011; G2 AND 1011 277 1012; G2 XOR 1011 277 1013; G2 XOR 1013 1012 1014;
  G2 XOR 51 950 1015; G2 AND 1014 1015 1016; G2 XOR 1016 950 1017; G2 XOR 915 954 1018;
  G2 AND 1014 1018 1019; G2 XOR 1019 954 1020; G2 XOR 918 959 1021; G2 AND 1014 1021 1022;
  G2 XOR 1022 959 1023; G2 XOR 921 964 1024; G2 AND 1014 1024 1025; G2 XOR 1025 964 1026;
  G2 XOR 924 969 1027; G2 AND 1014 1027 1028; G2 XOR 1028 969 1029; G2 XOR 927 974 1030;
  G2 AND 1014 1030 1031; G2 XOR 1031 974 1032; G2 XOR 930 979 1033; G2 AND 1014 1033 1034;
  G2 XOR 1034 979 1035; G2 XOR 933 984 1036; G2 AND 1014 1036 1037; G2 XOR 1037 984 1038;
  G2 XOR 936 989 1039; G2 AND 1014 1039 1040; G2 XOR 1040 989 1041; G2 XOR 939 994 1042;
  G2 AND 1014 1042 1043; G2 XOR 1043 994 1044; G2 XOR 942 999 1045; G2 AND 1014 1045 1046;
  G2 XOR 1046 999 1047; G2 XOR 945 1004 1048; G2 AND 1014 1048 1049; G2 XOR 1049 1004 1050;
  G2 XOR 948 1009 1051; G2 AND 1014 1051 1052; G2 XOR 1052 1009 1053; G1 INV 1014 1054; G2 XOR 50 64 1055;
  G2 AND 1055 64 1056; G2 XOR 1017 65 1057; G2 XOR 1056 65 1058; G2 XOR 1057 1056 1059;
  G2 AND 1057 1058 1060; G2 XOR 1056 1060 1061; G2 XOR 1020 66 1062; G2 XOR 1061 66 1063;
  G2 XOR 1062 1061 1064; G2 AND 1062 1063 1065; G2 XOR 1061 1065 1066; G2 XOR 1023 67 1067;
  G2 XOR 1066 67 1068; G2 XOR 1067 1066 1069; G2 AND 1067 1068 1070; G2 XOR 1066 1070 1071;
  G2 XOR 1026 68 1072; G2 XOR 1071 68 1073; G2 XOR 1072 1071 1074; G2 AND 1072 1073 1075;
  G2 XOR 1071 1075 1076; G2 XOR 1029 69 1077; G2 XOR 1076 69 1078; G2 XOR 1077 1076 1079;
  G2 AND 1077 1078 1080; G2 XOR 1076 1080 1081; G2 XOR 1032 70 1082; G2 XOR 1081 70 1083;
  G2 XOR 1082 1081 1084; G2 AND 1082 1083 1085; G2 XOR 1081 1085 1086; G2 XOR 1035 71 1087;
  G2 XOR 1086 71 1088; G2 XOR 1087 1086 1089; G2 AND 1087 1088 1090; G2 XOR 1086 1090 1091;
  G2 XOR 1038 72 1092; G2 XOR 1091 72 1093; G2 XOR 1092 1091 1094; G2 AND 1092 1093 1095;
  G2 XOR 1091 1095 1096; G2 XOR 1041 73 1097; G2 XOR 1096 73 1098; G2 XOR 1097 1096 1099;
  G2 AND 1097 1098 1100; G2 XOR 1096 1100 1101; G2 XOR 1044 74 1102; G2 XOR 1101 74 1103;
  G2 XOR 1102 1101 1104; G2 AND 1102 1103 1105; G2 XOR 1101 1105 1106; G2 XOR 1047 75 1107;
  G2 XOR 1106 75 1108; G2 XOR 1107 1106 1109; G2 AND 1107 1108 1110; G2 XOR 1106 1110 1111;
  G2 XOR 1050 76 1112; G2 XOR 1111 76 1113; G2 XOR 1112 1111 1114; G2 AND 1112 1113 1115;
  G2 XOR 1111 1115 1116; G2 XOR 1053 77 1117; G2 XOR 1116 77 1118; G2 XOR 1117 1116 1119;
  G2 AND 1117 1118 1120; G2 XOR 1116 1120 1121; G2 AND 1121 274 1122; G2 XOR 1121 274 1123;
  G2 XOR 1123 1122 1124; G2 XOR 50 1055 1125; G2 AND 1124 1125 1126; G2 XOR 1126 1055 1127;
  G2 XOR 1017 1059 1128; G2 AND 1124 1128 1129; G2 XOR 1129 1059 1130; G2 XOR 1020 1064 1131;
  G2 AND 1124 1131 1132; G2 XOR 1132 1064 1133; G2 XOR 1023 1069 1134; G2 AND 1124 1134 1135;
  G2 XOR 1135 1069 1136; G2 XOR 1026 1074 1137; G2 AND 1124 1137 1138; G2 XOR 1138 1074 1139;
  G2 XOR 1029 1079 1140; G2 AND 1124 1140 1141; G2 XOR 1141 1079 1142; G2 XOR 1032 1084 1143;
  G2 AND 1124 1143 1144; G2 XOR 1144 1084 1145; G2 XOR 1035 1089 1146; G2 AND 1124 1146 1147;
  G2 XOR 1147 1089 1148; G2 XOR 1038 1094 1149; G2 AND 1124 1149 1150; G2 XOR 1150 1094 1151;
  G2 XOR 1041 1099 1152; G2 AND 1124 1152 1153; G2 XOR 1153 1099 1154; G2 XOR 1044 1104 1155;
  G2 AND 1124 1155 1156; G2 XOR 1156 1104 1157; G2 XOR 1047 1109 1158; G2 AND 1124 1158 1159;
  G2 XOR 1159 1109 1160; G2 XOR 1050 1114 1161; G2 AND 1124 1161 1162; G2 XOR 1162 1114 1163;
  G2 XOR 1053 1119 1164; G2 AND 1124 1164 1165; G2 XOR 1165 1119 1166; G1 INV 1124 1167; G2 XOR 49 64 1168;
  G2 AND 1168 64 1169; G2 XOR 1127 65 1170; G2 XOR 1169 65 1171; G2 XOR 1170 1169 1172;
  G2 AND 1170 1171 1173; G2 XOR 1169 1173 1174; G2 XOR 1130 66 1175; G2 XOR 1174 66 1176;
  G2 XOR 1175 1174 1177; G2 AND 1175 1176 1178; G2 XOR 1174 1178 1179; G2 XOR 1133 67 1180;
  G2 XOR 1179 67 1181; G2 XOR 1180 1179 1182; G2 AND 1180 1181 1183; G2 XOR 1179 1183 1184;
  G2 XOR 1136 68 1185; G2 XOR 1184 68 1186; G2 XOR 1185 1184 1187; G2 AND 1185 1186 1188;
  G2 XOR 1184 1188 1189; G2 XOR 1139 69 1190; G2 XOR 1189 69 1191; G2 XOR 1190 1189 1192;
  G2 AND 1190 1191 1193; G2 XOR 1189 1193 1194; G2 XOR 1142 70 1195; G2 XOR 1194 70 1196;
  G2 XOR 1195 1194 1197; G2 AND 1195 1196 1198; G2 XOR 1194 1198 1199; G2 XOR 1145 71 1200;
  G2 XOR 1199 71 1201; G2 XOR 1200 1199 1202; G2 AND 1200 1201 1203; G2 XOR 1199 1203 1204;
  G2 XOR 1148 72 1205; G2 XOR 1204 72 1206; G2 XOR 1205 1204 1207; G2 AND 1205 1206 1208;
  G2 XOR 1204 1208 1209; G2 XOR 1151 73 1210; G2 XOR 1209 73 1211; G2 XOR 1210 1209 1212;
  G2 AND 1210 1211 1213; G2 XOR 1209 1213 1214; G2 XOR 1154 74 1215; G2 XOR 1214 74 1216;
  G2 XOR 1215 1214 1217; G2 AND 1215 1216 1218; G2 XOR 1214 1218 1219; G2 XOR 1157 75 1220;
  G2 XOR 1219 75 1221; G2 XOR 1220 1219 1222; G2 AND 1220 1221 1223; G2 XOR 1219 1223 1224;
  G2 XOR 1160 76 1225; G2 XOR 1224 76 1226; G2 XOR 1225 1224 1227; G2 AND 1225 1226 1228;
  G2 XOR 1224 1228 1229; G2 XOR 1163 77 1230; G2 XOR 1229 77 1231; G2 XOR 1230 1229 1232;
  G2 AND 1230 1231 1233; G2 XOR 1229 1233 1234; G2 XOR 1166 78 1235; G2 XOR 1234 78 1236;
  G2 XOR 1235 1234 1237; G2 AND 1235 1236 1238; G2 XOR 1234 1238 1239; G2 AND 1239 271 1240;
  G2 XOR 1239 271 1241; G2 XOR 1241 1240 1242; G2 XOR 49 1168 1243; G2 AND 1242 1243 1244;
  G2 XOR 1244 1168 1245; G2 XOR 1127 1172 1246; G2 AND 1242 1246 1247; G2 XOR 1247 1172 1248;
  G2 XOR 1130 1177 1249; G2 AND 1242 1249 1250; G2 XOR 1250 1177 1251; G2 XOR 1133 1182 1252;
  G2 AND 1242 1252 1253; G2 XOR 1253 1182 1254; G2 XOR 1136 1187 1255; G2 AND 1242 1255 1256;
  G2 XOR 1256 1187 1257; G2 XOR 1139 1192 1258; G2 AND 1242 1258 1259; G2 XOR 1259 1192 1260;
  G2 XOR 1142 1197 1261; G2 AND 1242 1261 1262; G2 XOR 1262 1197 1263; G2 XOR 1145 1202 1264;
  G2 AND 1242 1264 1265; G2 XOR 1265 1202 1266; G2 XOR 1148 1207 1267; G2 AND 1242 1267 1268;
  G2 XOR 1268 1207 1269; G2 XOR 1151 1212 1270; G2 AND 1242 1270 1271; G2 XOR 1271 1212 1272;
  G2 XOR 1154 1217 1273; G2 AND 1242 1273 1274; G2 XOR 1274 1217 1275; G2 XOR 1157 1222 1276;
  G2 AND 1242 1276 1277; G2 XOR 1277 1222 1278; G2 XOR 1160 1227 1279; G2 AND 1242 1279 1280;
  G2 XOR 1280 1227 1281; G2 XOR 1163 1232 1282; G2 AND 1242 1282 1283; G2 XOR 1283 1232 1284;
  G2 XOR 1166 1237 1285; G2 AND 1242 1285 1286; G2 XOR 1286 1237 1287; G1 INV 1242 1288; G2 XOR 48 64 1289;
  G2 AND 1289 64 1290; G2 XOR 1245 65 1291; G2 XOR 1290 65 1292; G2 XOR 1291 1290 1293;
  G2 AND 1291 1292 1294; G2 XOR 1290 1294 1295; G2 XOR 1248 66 1296; G2 XOR 1295 66 1297;
  G2 XOR 1296 1295 1298; G2 AND 1296 1297 1299; G2 XOR 1295 1299 1300; G2 XOR 1251 67 1301;
  G2 XOR 1300 67 1302; G2 XOR 1301 1300 1303; G2 AND 1301 1302 1304; G2 XOR 1300 1304 1305;
  G2 XOR 1254 68 1306; G2 XOR 1305 68 1307; G2 XOR 1306 1305 1308; G2 AND 1306 1307 1309;
  G2 XOR 1305 1309 1310; G2 XOR 1257 69 1311; G2 XOR 1310 69 1312; G2 XOR 1311 1310 1313;
  G2 AND 1311 1312 1314; G2 XOR 1310 1314 1315; G2 XOR 1260 70 1316; G2 XOR 1315 70 1317;
  G2 XOR 1316 1315 1318; G2 AND 1316 1317 1319; G2 XOR 1315 1319 1320; G2 XOR 1263 71 1321;
  G2 XOR 1320 71 1322; G2 XOR 1321 1320 1323; G2 AND 1321 1322 1324; G2 XOR 1320 1324 1325;
  G2 XOR 1266 72 1326; G2 XOR 1325 72 1327; G2 XOR 1326 1325 1328; G2 AND 1326 1327 1329;
  G2 XOR 1325 1329 1330; G2 XOR 1269 73 1331; G2 XOR 1330 73 1332; G2 XOR 1331 1330 1333;
  G2 AND 1331 1332 1334; G2 XOR 1330 1334 1335; G2 XOR 1272 74 1336; G2 XOR 1335 74 1337;
  G2 XOR 1336 1335 1338; G2 AND 1336 1337 1339; G2 XOR 1335 1339 1340; G2 XOR 1275 75 1341;
  G2 XOR 1340 75 1342; G2 XOR 1341 1340 1343; G2 AND 1341 1342 1344; G2 XOR 1340 1344 1345;
  G2 XOR 1278 76 1346; G2 XOR 1345 76 1347; G2 XOR 1346 1345 1348; G2 AND 1346 1347 1349;
  G2 XOR 1345 1349 1350; G2 XOR 1281 77 1351; G2 XOR 1350 77 1352; G2 XOR 1351 1350 1353;
  G2 AND 1351 1352 1354; G2 XOR 1350 1354 1355; G2 XOR 1284 78 1356; G2 XOR 1355 78 1357;
  G2 XOR 1356 1355 1358; G2 AND 1356 1357 1359; G2 XOR 1355 1359 1360; G2 XOR 1287 79 1361;
  G2 XOR 1360 79 1362; G2 XOR 1361 1360 1363; G2 AND 1361 1362 1364; G2 XOR 1360 1364 1365;
  G2 AND 1365 268 1366; G2 XOR 1365 268 1367; G2 XOR 1367 1366 1368; G2 XOR 48 1289 1369;
  G2 AND 1368 1369 1370; G2 XOR 1370 1289 1371; G2 XOR 1245 1293 1372; G2 AND 1368 1372 1373;
  G2 XOR 1373 1293 1374; G2 XOR 1248 1298 1375; G2 AND 1368 1375 1376; G2 XOR 1376 1298 1377;
  G2 XOR 1251 1303 1378; G2 AND 1368 1378 1379; G2 XOR 1379 1303 1380; G2 XOR 1254 1308 1381;
  G2 AND 1368 1381 1382; G2 XOR 1382 1308 1383; G2 XOR 1257 1313 1384; G2 AND 1368 1384 1385;
  G2 XOR 1385 1313 1386; G2 XOR 1260 1318 1387; G2 AND 1368 1387 1388; G2 XOR 1388 1318 1389;
  G2 XOR 1263 1323 1390; G2 AND 1368 1390 1391; G2 XOR 1391 1323 1392; G2 XOR 1266 1328 1393;
  G2 AND 1368 1393 1394; G2 XOR 1394 1328 1395; G2 XOR 1269 1333 1396; G2 AND 1368 1396 1397;
  G2 XOR 1397 1333 1398; G2 XOR 1272 1338 1399; G2 AND 1368 1399 1400; G2 XOR 1400 1338 1401;
  G2 XOR 1275 1343 1402; G2 AND 1368 1402 1403; G2 XOR 1403 1343 1404; G2 XOR 1278 1348 1405;
  G2 AND 1368 1405 1406; G2 XOR 1406 1348 1407; G2 XOR 1281 1353 1408; G2 AND 1368 1408 1409;
  G2 XOR 1409 1353 1410; G2 XOR 1284 1358 1411; G2 AND 1368 1411 1412; G2 XOR 1412 1358 1413;
  G2 XOR 1287 1363 1414; G2 AND 1368 1414 1415; G2 XOR 1415 1363 1416; G1 INV 1368 1417; G2 XOR 47 64 1418;
  G2 AND 1418 64 1419; G2 XOR 1371 65 1420; G2 XOR 1419 65 1421; G2 XOR 1420 1419 1422;
  G2 AND 1420 1421 1423; G2 XOR 1419 1423 1424; G2 XOR 1374 66 1425; G2 XOR 1424 66 1426;
  G2 XOR 1425 1424 1427; G2 AND 1425 1426 1428; G2 XOR 1424 1428 1429; G2 XOR 1377 67 1430;
  G2 XOR 1429 67 1431; G2 XOR 1430 1429 1432; G2 AND 1430 1431 1433; G2 XOR 1429 1433 1434;
  G2 XOR 1380 68 1435; G2 XOR 1434 68 1436; G2 XOR 1435 1434 1437; G2 AND 1435 1436 1438;
  G2 XOR 1434 1438 1439; G2 XOR 1383 69 1440; G2 XOR 1439 69 1441; G2 XOR 1440 1439 1442;
  G2 AND 1440 1441 1443; G2 XOR 1439 1443 1444; G2 XOR 1386 70 1445; G2 XOR 1444 70 1446;
  G2 XOR 1445 1444 1447; G2 AND 1445 1446 1448; G2 XOR 1444 1448 1449; G2 XOR 1389 71 1450;
  G2 XOR 1449 71 1451; G2 XOR 1450 1449 1452; G2 AND 1450 1451 1453; G2 XOR 1449 1453 1454;
  G2 XOR 1392 72 1455; G2 XOR 1454 72 1456; G2 XOR 1455 1454 1457; G2 AND 1455 1456 1458;
  G2 XOR 1454 1458 1459; G2 XOR 1395 73 1460; G2 XOR 1459 73 1461; G2 XOR 1460 1459 1462;
  G2 AND 1460 1461 1463; G2 XOR 1459 1463 1464; G2 XOR 1398 74 1465; G2 XOR 1464 74 1466;
  G2 XOR 1465 1464 1467; G2 AND 1465 1466 1468; G2 XOR 1464 1468 1469; G2 XOR 1401 75 1470;
  G2 XOR 1469 75 1471; G2 XOR 1470 1469 1472; G2 AND 1470 1471 1473; G2 XOR 1469 1473 1474;
  G2 XOR 1404 76 1475; G2 XOR 1474 76 1476; G2 XOR 1475 1474 1477; G2 AND 1475 1476 1478;
  G2 XOR 1474 1478 1479; G2 XOR 1407 77 1480; G2 XOR 1479 77 1481; G2 XOR 1480 1479 1482;
  G2 AND 1480 1481 1483; G2 XOR 1479 1483 1484; G2 XOR 1410 78 1485; G2 XOR 1484 78 1486;
  G2 XOR 1485 1484 1487; G2 AND 1485 1486 1488; G2 XOR 1484 1488 1489; G2 XOR 1413 79 1490;
  G2 XOR 1489 79 1491; G2 XOR 1490 1489 1492; G2 AND 1490 1491 1493; G2 XOR 1489 1493 1494;
  G2 XOR 1416 80 1495; G2 XOR 1494 80 1496; G2 XOR 1495 1494 1497; G2 AND 1495 1496 1498;
  G2 XOR 1494 1498 1499; G2 AND 1499 265 1500; G2 XOR 1499 265 1501; G2 XOR 1501 1500 1502;
  G2 XOR 47 1418 1503; G2 AND 1502 1503 1504; G2 XOR 1504 1418 1505; G2 XOR 1371 1422 1506;
  G2 AND 1502 1506 1507; G2 XOR 1507 1422 1508; G2 XOR 1374 1427 1509; G2 AND 1502 1509 1510;
  G2 XOR 1510 1427 1511; G2 XOR 1377 1432 1512; G2 AND 1502 1512 1513; G2 XOR 1513 1432 1514;
  G2 XOR 1380 1437 1515; G2 AND 1502 1515 1516; G2 XOR 1516 1437 1517; G2 XOR 1383 1442 1518;
  G2 AND 1502 1518 1519; G2 XOR 1519 1442 1520; G2 XOR 1386 1447 1521; G2 AND 1502 1521 1522;
  G2 XOR 1522 1447 1523; G2 XOR 1389 1452 1524; G2 AND 1502 1524 1525; G2 XOR 1525 1452 1526;
  G2 XOR 1392 1457 1527; G2 AND 1502 1527 1528; G2 XOR 1528 1457 1529; G2 XOR 1395 1462 1530;
  G2 AND 1502 1530 1531; G2 XOR 1531 1462 1532; G2 XOR 1398 1467 1533; G2 AND 1502 1533 1534;
  G2 XOR 1534 1467 1535; G2 XOR 1401 1472 1536; G2 AND 1502 1536 1537; G2 XOR 1537 1472 1538;
  G2 XOR 1404 1477 1539; G2 AND 1502 1539 1540; G2 XOR 1540 1477 1541; G2 XOR 1407 1482 1542;
  G2 AND 1502 1542 1543; G2 XOR 1543 1482 1544; G2 XOR 1410 1487 1545; G2 AND 1502 1545 1546;
  G2 XOR 1546 1487 1547; G2 XOR 1413 1492 1548; G2 AND 1502 1548 1549; G2 XOR 1549 1492 1550;
  G2 XOR 1416 1497 1551; G2 AND 1502 1551 1552; G2 XOR 1552 1497 1553; G1 INV 1502 1554; G2 XOR 46 64 1555;
  G2 AND 1555 64 1556; G2 XOR 1505 65 1557; G2 XOR 1556 65 1558; G2 XOR 1557 1556 1559;
  G2 AND 1557 1558 1560; G2 XOR 1556 1560 1561; G2 XOR 1508 66 1562; G2 XOR 1561 66 1563;
  G2 XOR 1562 1561 1564; G2 AND 1562 1563 1565; G2 XOR 1561 1565 1566; G2 XOR 1511 67 1567;
  G2 XOR 1566 67 1568; G2 XOR 1567 1566 1569; G2 AND 1567 1568 1570; G2 XOR 1566 1570 1571;
  G2 XOR 1514 68 1572; G2 XOR 1571 68 1573; G2 XOR 1572 1571 1574; G2 AND 1572 1573 1575;
  G2 XOR 1571 1575 1576; G2 XOR 1517 69 1577; G2 XOR 1576 69 1578; G2 XOR 1577 1576 1579;
  G2 AND 1577 1578 1580; G2 XOR 1576 1580 1581; G2 XOR 1520 70 1582; G2 XOR 1581 70 1583;
  G2 XOR 1582 1581 1584; G2 AND 1582 1583 1585; G2 XOR 1581 1585 1586; G2 XOR 1523 71 1587;
  G2 XOR 1586 71 1588; G2 XOR 1587 1586 1589; G2 AND 1587 1588 1590; G2 XOR 1586 1590 1591;
  G2 XOR 1526 72 1592; G2 XOR 1591 72 1593; G2 XOR 1592 1591 1594; G2 AND 1592 1593 1595;
  G2 XOR 1591 1595 1596; G2 XOR 1529 73 1597; G2 XOR 1596 73 1598; G2 XOR 1597 1596 1599;
  G2 AND 1597 1598 1600; G2 XOR 1596 1600 1601; G2 XOR 1532 74 1602; G2 XOR 1601 74 1603;
  G2 XOR 1602 1601 1604; G2 AND 1602 1603 1605; G2 XOR 1601 1605 1606; G2 XOR 1535 75 1607;
  G2 XOR 1606 75 1608; G2 XOR 1607 1606 1609; G2 AND 1607 1608 1610; G2 XOR 1606 1610 1611;
  G2 XOR 1538 76 1612; G2 XOR 1611 76 1613; G2 XOR 1612 1611 1614; G2 AND 1612 1613 1615;
  G2 XOR 1611 1615 1616; G2 XOR 1541 77 1617; G2 XOR 1616 77 1618; G2 XOR 1617 1616 1619;
  G2 AND 1617 1618 1620; G2 XOR 1616 1620 1621; G2 XOR 1544 78 1622; G2 XOR 1621 78 1623;
  G2 XOR 1622 1621 1624; G2 AND 1622 1623 1625; G2 XOR 1621 1625 1626; G2 XOR 1547 79 1627;
  G2 XOR 1626 79 1628; G2 XOR 1627 1626 1629; G2 AND 1627 1628 1630; G2 XOR 1626 1630 1631;
  G2 XOR 1550 80 1632; G2 XOR 1631 80 1633; G2 XOR 1632 1631 1634; G2 AND 1632 1633 1635;
  G2 XOR 1631 1635 1636; G2 XOR 1553 81 1637; G2 XOR 1636 81 1638; G2 XOR 1637 1636 1639;
  G2 AND 1637 1638 1640; G2 XOR 1636 1640 1641; G2 AND 1641 262 1642; G2 XOR 1641 262 1643;
  G2 XOR 1643 1642 1644; G2 XOR 46 1555 1645; G2 AND 1644 1645 1646; G2 XOR 1646 1555 1647;
  G2 XOR 1505 1559 1648; G2 AND 1644 1648 1649; G2 XOR 1649 1559 1650; G2 XOR 1508 1564 1651;
  G2 AND 1644 1651 1652; G2 XOR 1652 1564 1653; G2 XOR 1511 1569 1654; G2 AND 1644 1654 1655;
  G2 XOR 1655 1569 1656; G2 XOR 1514 1574 1657; G2 AND 1644 1657 1658; G2 XOR 1658 1574 1659;
  G2 XOR 1517 1579 1660; G2 AND 1644 1660 1661; G2 XOR 1661 1579 1662; G2 XOR 1520 1584 1663;
  G2 AND 1644 1663 1664; G2 XOR 1664 1584 1665; G2 XOR 1523 1589 1666; G2 AND 1644 1666 1667;
  G2 XOR 1667 1589 1668; G2 XOR 1526 1594 1669; G2 AND 1644 1669 1670; G2 XOR 1670 1594 1671;
  G2 XOR 1529 1599 1672; G2 AND 1644 1672 1673; G2 XOR 1673 1599 1674; G2 XOR 1532 1604 1675;
  G2 AND 1644 1675 1676; G2 XOR 1676 1604 1677; G2 XOR 1535 1609 1678; G2 AND 1644 1678 1679;
  G2 XOR 1679 1609 1680; G2 XOR 1538 1614 1681; G2 AND 1644 1681 1682; G2 XOR 1682 1614 1683;
  G2 XOR 1541 1619 1684; G2 AND 1644 1684 1685; G2 XOR 1685 1619 1686; G2 XOR 1544 1624 1687;
  G2 AND 1644 1687 1688; G2 XOR 1688 1624 1689; G2 XOR 1547 1629 1690; G2 AND 1644 1690 1691;
  G2 XOR 1691 1629 1692; G2 XOR 1550 1634 1693; G2 AND 1644 1693 1694; G2 XOR 1694 1634 1695;
  G2 XOR 1553 1639 1696; G2 AND 1644 1696 1697; G2 XOR 1697 1639 1698; G1 INV 1644 1699; G2 XOR 45 64 1700;
  G2 AND 1700 64 1701; G2 XOR 1647 65 1702; G2 XOR 1701 65 1703; G2 XOR 1702 1701 1704;
  G2 AND 1702 1703 1705; G2 XOR 1701 1705 1706; G2 XOR 1650 66 1707; G2 XOR 1706 66 1708;
  G2 XOR 1707 1706 1709; G2 AND 1707 1708 1710; G2 XOR 1706 1710 1711; G2 XOR 1653 67 1712;
  G2 XOR 1711 67 1713; G2 XOR 1712 1711 1714; G2 AND 1712 1713 1715; G2 XOR 1711 1715 1716;
  G2 XOR 1656 68 1717; G2 XOR 1716 68 1718; G2 XOR 1717 1716 1719; G2 AND 1717 1718 1720;
  G2 XOR 1716 1720 1721; G2 XOR 1659 69 1722; G2 XOR 1721 69 1723; G2 XOR 1722 1721 1724;
  G2 AND 1722 1723 1725; G2 XOR 1721 1725 1726; G2 XOR 1662 70 1727; G2 XOR 1726 70 1728;
  G2 XOR 1727 1726 1729; G2 AND 1727 1728 1730; G2 XOR 1726 1730 1731; G2 XOR 1665 71 1732;
  G2 XOR 1731 71 1733; G2 XOR 1732 1731 1734; G2 AND 1732 1733 1735; G2 XOR 1731 1735 1736;
  G2 XOR 1668 72 1737; G2 XOR 1736 72 1738; G2 XOR 1737 1736 1739; G2 AND 1737 1738 1740;
  G2 XOR 1736 1740 1741; G2 XOR 1671 73 1742; G2 XOR 1741 73 1743; G2 XOR 1742 1741 1744;
  G2 AND 1742 1743 1745; G2 XOR 1741 1745 1746; G2 XOR 1674 74 1747; G2 XOR 1746 74 1748;
  G2 XOR 1747 1746 1749; G2 AND 1747 1748 1750; G2 XOR 1746 1750 1751; G2 XOR 1677 75 1752;
  G2 XOR 1751 75 1753; G2 XOR 1752 1751 1754; G2 AND 1752 1753 1755; G2 XOR 1751 1755 1756;
  G2 XOR 1680 76 1757; G2 XOR 1756 76 1758; G2 XOR 1757 1756 1759; G2 AND 1757 1758 1760;
  G2 XOR 1756 1760 1761; G2 XOR 1683 77 1762; G2 XOR 1761 77 1763; G2 XOR 1762 1761 1764;
  G2 AND 1762 1763 1765; G2 XOR 1761 1765 1766; G2 XOR 1686 78 1767; G2 XOR 1766 78 1768;
  G2 XOR 1767 1766 1769; G2 AND 1767 1768 1770; G2 XOR 1766 1770 1771; G2 XOR 1689 79 1772;
  G2 XOR 1771 79 1773; G2 XOR 1772 1771 1774; G2 AND 1772 1773 1775; G2 XOR 1771 1775 1776;
  G2 XOR 1692 80 1777; G2 XOR 1776 80 1778; G2 XOR 1777 1776 1779; G2 AND 1777 1778 1780;
  G2 XOR 1776 1780 1781; G2 XOR 1695 81 1782; G2 XOR 1781 81 1783; G2 XOR 1782 1781 1784;
  G2 AND 1782 1783 1785; G2 XOR 1781 1785 1786; G2 XOR 1698 82 1787; G2 XOR 1786 82 1788;
  G2 XOR 1787 1786 1789; G2 AND 1787 1788 1790; G2 XOR 1786 1790 1791; G2 AND 1791 259 1792;
  G2 XOR 1791 259 1793; G2 XOR 1793 1792 1794; G2 XOR 45 1700 1795; G2 AND 1794 1795 1796;
  G2 XOR 1796 1700 1797; G2 XOR 1647 1704 1798; G2 AND 1794 1798 1799; G2 XOR 1799 1704 1800;
  G2 XOR 1650 1709 1801; G2 AND 1794 1801 1802; G2 XOR 1802 1709 1803; G2 XOR 1653 1714 1804;
  G2 AND 1794 1804 1805; G2 XOR 1805 1714 1806; G2 XOR 1656 1719 1807; G2 AND 1794 1807 1808;
  G2 XOR 1808 1719 1809; G2 XOR 1659 1724 1810; G2 AND 1794 1810 1811; G2 XOR 1811 1724 1812;
  G2 XOR 1662 1729 1813; G2 AND 1794 1813 1814; G2 XOR 1814 1729 1815; G2 XOR 1665 1734 1816;
  G2 AND 1794 1816 1817; G2 XOR 1817 1734 1818; G2 XOR 1668 1739 1819; G2 AND 1794 1819 1820;
  G2 XOR 1820 1739 1821; G2 XOR 1671 1744 1822; G2 AND 1794 1822 1823; G2 XOR 1823 1744 1824;
  G2 XOR 1674 1749 1825; G2 AND 1794 1825 1826; G2 XOR 1826 1749 1827; G2 XOR 1677 1754 1828;
  G2 AND 1794 1828 1829; G2 XOR 1829 1754 1830; G2 XOR 1680 1759 1831; G2 AND 1794 1831 1832;
  G2 XOR 1832 1759 1833; G2 XOR 1683 1764 1834; G2 AND 1794 1834 1835; G2 XOR 1835 1764 1836;
  G2 XOR 1686 1769 1837; G2 AND 1794 1837 1838; G2 XOR 1838 1769 1839; G2 XOR 1689 1774 1840;
  G2 AND 1794 1840 1841; G2 XOR 1841 1774 1842; G2 XOR 1692 1779 1843; G2 AND 1794 1843 1844;
  G2 XOR 1844 1779 1845; G2 XOR 1695 1784 1846; G2 AND 1794 1846 1847; G2 XOR 1847 1784 1848;
  G2 XOR 1698 1789 1849; G2 AND 1794 1849 1850; G2 XOR 1850 1789 1851; G1 INV 1794 1852; G2 XOR 44 64 1853;
  G2 AND 1853 64 1854; G2 XOR 1797 65 1855; G2 XOR 1854 65 1856; G2 XOR 1855 1854 1857;
  G2 AND 1855 1856 1858; G2 XOR 1854 1858 1859; G2 XOR 1800 66 1860; G2 XOR 1859 66 1861;
  G2 XOR 1860 1859 1862; G2 AND 1860 1861 1863; G2 XOR 1859 1863 1864; G2 XOR 1803 67 1865;
  G2 XOR 1864 67 1866; G2 XOR 1865 1864 1867; G2 AND 1865 1866 1868; G2 XOR 1864 1868 1869;
  G2 XOR 1806 68 1870; G2 XOR 1869 68 1871; G2 XOR 1870 1869 1872; G2 AND 1870 1871 1873;
  G2 XOR 1869 1873 1874; G2 XOR 1809 69 1875; G2 XOR 1874 69 1876; G2 XOR 1875 1874 1877;
  G2 AND 1875 1876 1878; G2 XOR 1874 1878 1879; G2 XOR 1812 70 1880; G2 XOR 1879 70 1881;
  G2 XOR 1880 1879 1882; G2 AND 1880 1881 1883; G2 XOR 1879 1883 1884; G2 XOR 1815 71 1885;
  G2 XOR 1884 71 1886; G2 XOR 1885 1884 1887; G2 AND 1885 1886 1888; G2 XOR 1884 1888 1889;
  G2 XOR 1818 72 1890; G2 XOR 1889 72 1891; G2 XOR 1890 1889 1892; G2 AND 1890 1891 1893;
  G2 XOR 1889 1893 1894; G2 XOR 1821 73 1895; G2 XOR 1894 73 1896; G2 XOR 1895 1894 1897;
  G2 AND 1895 1896 1898; G2 XOR 1894 1898 1899; G2 XOR 1824 74 1900; G2 XOR 1899 74 1901;
  G2 XOR 1900 1899 1902; G2 AND 1900 1901 1903; G2 XOR 1899 1903 1904; G2 XOR 1827 75 1905;
  G2 XOR 1904 75 1906; G2 XOR 1905 1904 1907; G2 AND 1905 1906 1908; G2 XOR 1904 1908 1909;
  G2 XOR 1830 76 1910; G2 XOR 1909 76 1911; G2 XOR 1910 1909 1912; G2 AND 1910 1911 1913;
  G2 XOR 1909 1913 1914; G2 XOR 1833 77 1915; G2 XOR 1914 77 1916; G2 XOR 1915 1914 1917;
  G2 AND 1915 1916 1918; G2 XOR 1914 1918 1919; G2 XOR 1836 78 1920; G2 XOR 1919 78 1921;
  G2 XOR 1920 1919 1922; G2 AND 1920 1921 1923; G2 XOR 1919 1923 1924; G2 XOR 1839 79 1925;
  G2 XOR 1924 79 1926; G2 XOR 1925 1924 1927; G2 AND 1925 1926 1928; G2 XOR 1924 1928 1929;
  G2 XOR 1842 80 1930; G2 XOR 1929 80 1931; G2 XOR 1930 1929 1932; G2 AND 1930 1931 1933;
  G2 XOR 1929 1933 1934; G2 XOR 1845 81 1935; G2 XOR 1934 81 1936; G2 XOR 1935 1934 1937;
  G2 AND 1935 1936 1938; G2 XOR 1934 1938 1939; G2 XOR 1848 82 1940; G2 XOR 1939 82 1941;
  G2 XOR 1940 1939 1942; G2 AND 1940 1941 1943; G2 XOR 1939 1943 1944; G2 XOR 1851 83 1945;
  G2 XOR 1944 83 1946; G2 XOR 1945 1944 1947; G2 AND 1945 1946 1948; G2 XOR 1944 1948 1949;
  G2 AND 1949 256 1950; G2 XOR 1949 256 1951; G2 XOR 1951 1950 1952; G2 XOR 44 1853 1953;
  G2 AND 1952 1953 1954; G2 XOR 1954 1853 1955; G2 XOR 1797 1857 1956; G2 AND 1952 1956 1957;
  G2 XOR 1957 1857 1958; G2 XOR 1800 1862 1959; G2 AND 1952 1959 1960; G2 XOR 1960 1862 1961;
  G2 XOR 1803 1867 1962; G2 AND 1952 1962 1963; G2 XOR 1963 1867 1964; G2 XOR 1806 1872 1965;
  G2 AND 1952 1965 1966; G2 XOR 1966 1872 1967; G2 XOR 1809 1877 1968; G2 AND 1952 1968 1969;
  G2 XOR 1969 1877 1970; G2 XOR 1812 1882 1971; G2 AND 1952 1971 1972; G2 XOR 1972 1882 1973;
  G2 XOR 1815 1887 1974; G2 AND 1952 1974 1975; G2 XOR 1975 1887 1976; G2 XOR 1818 1892 1977;
  G2 AND 1952 1977 1978; G2 XOR 1978 1892 1979; G2 XOR 1821 1897 1980; G2 AND 1952 1980 1981;
  G2 XOR 1981 1897 1982; G2 XOR 1824 1902 1983; G2 AND 1952 1983 1984; G2 XOR 1984 1902 1985;
  G2 XOR 1827 1907 1986; G2 AND 1952 1986 1987; G2 XOR 1987 1907 1988; G2 XOR 1830 1912 1989;
  G2 AND 1952 1989 1990; G2 XOR 1990 1912 1991; G2 XOR 1833 1917 1992; G2 AND 1952 1992 1993;
  G2 XOR 1993 1917 1994; G2 XOR 1836 1922 1995; G2 AND 1952 1995 1996; G2 XOR 1996 1922 1997;
  G2 XOR 1839 1927 1998; G2 AND 1952 1998 1999; G2 XOR 1999 1927 2000; G2 XOR 1842 1932 2001;
  G2 AND 1952 2001 2002; G2 XOR 2002 1932 2003; G2 XOR 1845 1937 2004; G2 AND 1952 2004 2005;
  G2 XOR 2005 1937 2006; G2 XOR 1848 1942 2007; G2 AND 1952 2007 2008; G2 XOR 2008 1942 2009;
  G2 XOR 1851 1947 2010; G2 AND 1952 2010 2011; G2 XOR 2011 1947 2012; G1 INV 1952 2013; G2 XOR 43 64 2014;
  G2 AND 2014 64 2015; G2 XOR 1955 65 2016; G2 XOR 2015 65 2017; G2 XOR 2016 2015 2018;
  G2 AND 2016 2017 2019; G2 XOR 2015 2019 2020; G2 XOR 1958 66 2021; G2 XOR 2020 66 2022;
  G2 XOR 2021 2020 2023; G2 AND 2021 2022 2024; G2 XOR 2020 2024 2025; G2 XOR 1961 67 2026;
  G2 XOR 2025 67 2027; G2 XOR 2026 2025 2028; G2 AND 2026 2027 2029; G2 XOR 2025 2029 2030;
  G2 XOR 1964 68 2031; G2 XOR 2030 68 2032; G2 XOR 2031 2030 2033; G2 AND 2031 2032 2034;
  G2 XOR 2030 2034 2035; G2 XOR 1967 69 2036; G2 XOR 2035 69 2037; G2 XOR 2036 2035 2038;
  G2 AND 2036 2037 2039; G2 XOR 2035 2039 2040; G2 XOR 1970 70 2041; G2 XOR 2040 70 2042;
  G2 XOR 2041 2040 2043; G2 AND 2041 2042 2044; G2 XOR 2040 2044 2045; G2 XOR 1973 71 2046;
  G2 XOR 2045 71 2047; G2 XOR 2046 2045 2048; G2 AND 2046 2047 2049; G2 XOR 2045 2049 2050;
  G2 XOR 1976 72 2051; G2 XOR 2050 72 2052; G2 XOR 2051 2050 2053; G2 AND 2051 2052 2054;
  G2 XOR 2050 2054 2055; G2 XOR 1979 73 2056; G2 XOR 2055 73 2057; G2 XOR 2056 2055 2058;
  G2 AND 2056 2057 2059; G2 XOR 2055 2059 2060; G2 XOR 1982 74 2061; G2 XOR 2060 74 2062;
  G2 XOR 2061 2060 2063; G2 AND 2061 2062 2064; G2 XOR 2060 2064 2065; G2 XOR 1985 75 2066;
  G2 XOR 2065 75 2067; G2 XOR 2066 2065 2068; G2 AND 2066 2067 2069; G2 XOR 2065 2069 2070;
  G2 XOR 1988 76 2071; G2 XOR 2070 76 2072; G2 XOR 2071 2070 2073; G2 AND 2071 2072 2074;
  G2 XOR 2070 2074 2075; G2 XOR 1991 77 2076; G2 XOR 2075 77 2077; G2 XOR 2076 2075 2078;
  G2 AND 2076 2077 2079; G2 XOR 2075 2079 2080; G2 XOR 1994 78 2081; G2 XOR 2080 78 2082;
  G2 XOR 2081 2080 2083; G2 AND 2081 2082 2084; G2 XOR 2080 2084 2085; G2 XOR 1997 79 2086;
  G2 XOR 2085 79 2087; G2 XOR 2086 2085 2088; G2 AND 2086 2087 2089; G2 XOR 2085 2089 2090;
  G2 XOR 2000 80 2091; G2 XOR 2090 80 2092; G2 XOR 2091 2090 2093; G2 AND 2091 2092 2094;
  G2 XOR 2090 2094 2095; G2 XOR 2003 81 2096; G2 XOR 2095 81 2097; G2 XOR 2096 2095 2098;
  G2 AND 2096 2097 2099; G2 XOR 2095 2099 2100; G2 XOR 2006 82 2101; G2 XOR 2100 82 2102;
  G2 XOR 2101 2100 2103; G2 AND 2101 2102 2104; G2 XOR 2100 2104 2105; G2 XOR 2009 83 2106;
  G2 XOR 2105 83 2107; G2 XOR 2106 2105 2108; G2 AND 2106 2107 2109; G2 XOR 2105 2109 2110;
  G2 XOR 2012 84 2111; G2 XOR 2110 84 2112; G2 XOR 2111 2110 2113; G2 AND 2111 2112 2114;
  G2 XOR 2110 2114 2115; G2 AND 2115 253 2116; G2 XOR 2115 253 2117; G2 XOR 2117 2116 2118;
  G2 XOR 43 2014 2119; G2 AND 2118 2119 2120; G2 XOR 2120 2014 2121; G2 XOR 1955 2018 2122;
  G2 AND 2118 2122 2123; G2 XOR 2123 2018 2124; G2 XOR 1958 2023 2125; G2 AND 2118 2125 2126;
  G2 XOR 2126 2023 2127; G2 XOR 1961 2028 2128; G2 AND 2118 2128 2129; G2 XOR 2129 2028 2130;
  G2 XOR 1964 2033 2131; G2 AND 2118 2131 2132; G2 XOR 2132 2033 2133; G2 XOR 1967 2038 2134;
  G2 AND 2118 2134 2135; G2 XOR 2135 2038 2136; G2 XOR 1970 2043 2137; G2 AND 2118 2137 2138;
  G2 XOR 2138 2043 2139; G2 XOR 1973 2048 2140; G2 AND 2118 2140 2141; G2 XOR 2141 2048 2142;
  G2 XOR 1976 2053 2143; G2 AND 2118 2143 2144; G2 XOR 2144 2053 2145; G2 XOR 1979 2058 2146;
  G2 AND 2118 2146 2147; G2 XOR 2147 2058 2148; G2 XOR 1982 2063 2149; G2 AND 2118 2149 2150;
  G2 XOR 2150 2063 2151; G2 XOR 1985 2068 2152; G2 AND 2118 2152 2153; G2 XOR 2153 2068 2154;
  G2 XOR 1988 2073 2155; G2 AND 2118 2155 2156; G2 XOR 2156 2073 2157; G2 XOR 1991 2078 2158;
  G2 AND 2118 2158 2159; G2 XOR 2159 2078 2160; G2 XOR 1994 2083 2161; G2 AND 2118 2161 2162;
  G2 XOR 2162 2083 2163; G2 XOR 1997 2088 2164; G2 AND 2118 2164 2165; G2 XOR 2165 2088 2166;
  G2 XOR 2000 2093 2167; G2 AND 2118 2167 2168; G2 XOR 2168 2093 2169; G2 XOR 2003 2098 2170;
  G2 AND 2118 2170 2171; G2 XOR 2171 2098 2172; G2 XOR 2006 2103 2173; G2 AND 2118 2173 2174;
  G2 XOR 2174 2103 2175; G2 XOR 2009 2108 2176; G2 AND 2118 2176 2177; G2 XOR 2177 2108 2178;
  G2 XOR 2012 2113 2179; G2 AND 2118 2179 2180; G2 XOR 2180 2113 2181; G1 INV 2118 2182; G2 XOR 42 64 2183;
  G2 AND 2183 64 2184; G2 XOR 2121 65 2185; G2 XOR 2184 65 2186; G2 XOR 2185 2184 2187;
  G2 AND 2185 2186 2188; G2 XOR 2184 2188 2189; G2 XOR 2124 66 2190; G2 XOR 2189 66 2191;
  G2 XOR 2190 2189 2192; G2 AND 2190 2191 2193; G2 XOR 2189 2193 2194; G2 XOR 2127 67 2195;
  G2 XOR 2194 67 2196; G2 XOR 2195 2194 2197; G2 AND 2195 2196 2198; G2 XOR 2194 2198 2199;
  G2 XOR 2130 68 2200; G2 XOR 2199 68 2201; G2 XOR 2200 2199 2202; G2 AND 2200 2201 2203;
  G2 XOR 2199 2203 2204; G2 XOR 2133 69 2205; G2 XOR 2204 69 2206; G2 XOR 2205 2204 2207;
  G2 AND 2205 2206 2208; G2 XOR 2204 2208 2209; G2 XOR 2136 70 2210; G2 XOR 2209 70 2211;
  G2 XOR 2210 2209 2212; G2 AND 2210 2211 2213; G2 XOR 2209 2213 2214; G2 XOR 2139 71 2215;
  G2 XOR 2214 71 2216; G2 XOR 2215 2214 2217; G2 AND 2215 2216 2218; G2 XOR 2214 2218 2219;
  G2 XOR 2142 72 2220; G2 XOR 2219 72 2221; G2 XOR 2220 2219 2222; G2 AND 2220 2221 2223;
  G2 XOR 2219 2223 2224; G2 XOR 2145 73 2225; G2 XOR 2224 73 2226; G2 XOR 2225 2224 2227;
  G2 AND 2225 2226 2228; G2 XOR 2224 2228 2229; G2 XOR 2148 74 2230; G2 XOR 2229 74 2231;
  G2 XOR 2230 2229 2232; G2 AND 2230 2231 2233; G2 XOR 2229 2233 2234; G2 XOR 2151 75 2235;
  G2 XOR 2234 75 2236; G2 XOR 2235 2234 2237; G2 AND 2235 2236 2238; G2 XOR 2234 2238 2239;
  G2 XOR 2154 76 2240; G2 XOR 2239 76 2241; G2 XOR 2240 2239 2242; G2 AND 2240 2241 2243;
  G2 XOR 2239 2243 2244; G2 XOR 2157 77 2245; G2 XOR 2244 77 2246; G2 XOR 2245 2244 2247;
  G2 AND 2245 2246 2248; G2 XOR 2244 2248 2249; G2 XOR 2160 78 2250; G2 XOR 2249 78 2251;
  G2 XOR 2250 2249 2252; G2 AND 2250 2251 2253; G2 XOR 2249 2253 2254; G2 XOR 2163 79 2255;
  G2 XOR 2254 79 2256; G2 XOR 2255 2254 2257; G2 AND 2255 2256 2258; G2 XOR 2254 2258 2259;
  G2 XOR 2166 80 2260; G2 XOR 2259 80 2261; G2 XOR 2260 2259 2262; G2 AND 2260 2261 2263;
  G2 XOR 2259 2263 2264; G2 XOR 2169 81 2265; G2 XOR 2264 81 2266; G2 XOR 2265 2264 2267;
  G2 AND 2265 2266 2268; G2 XOR 2264 2268 2269; G2 XOR 2172 82 2270; G2 XOR 2269 82 2271;
  G2 XOR 2270 2269 2272; G2 AND 2270 2271 2273; G2 XOR 2269 2273 2274; G2 XOR 2175 83 2275;
  G2 XOR 2274 83 2276; G2 XOR 2275 2274 2277; G2 AND 2275 2276 2278; G2 XOR 2274 2278 2279;
  G2 XOR 2178 84 2280; G2 XOR 2279 84 2281; G2 XOR 2280 2279 2282; G2 AND 2280 2281 2283;
  G2 XOR 2279 2283 2284; G2 XOR 2181 85 2285; G2 XOR 2284 85 2286; G2 XOR 2285 2284 2287;
  G2 AND 2285 2286 2288; G2 XOR 2284 2288 2289; G2 AND 2289 250 2290; G2 XOR 2289 250 2291;
  G2 XOR 2291 2290 2292; G2 XOR 42 2183 2293; G2 AND 2292 2293 2294; G2 XOR 2294 2183 2295;
  G2 XOR 2121 2187 2296; G2 AND 2292 2296 2297; G2 XOR 2297 2187 2298; G2 XOR 2124 2192 2299;
  G2 AND 2292 2299 2300; G2 XOR 2300 2192 2301; G2 XOR 2127 2197 2302; G2 AND 2292 2302 2303;
  G2 XOR 2303 2197 2304; G2 XOR 2130 2202 2305; G2 AND 2292 2305 2306; G2 XOR 2306 2202 2307;
  G2 XOR 2133 2207 2308; G2 AND 2292 2308 2309; G2 XOR 2309 2207 2310; G2 XOR 2136 2212 2311;
  G2 AND 2292 2311 2312; G2 XOR 2312 2212 2313; G2 XOR 2139 2217 2314; G2 AND 2292 2314 2315;
  G2 XOR 2315 2217 2316; G2 XOR 2142 2222 2317; G2 AND 2292 2317 2318; G2 XOR 2318 2222 2319;
  G2 XOR 2145 2227 2320; G2 AND 2292 2320 2321; G2 XOR 2321 2227 2322; G2 XOR 2148 2232 2323;
  G2 AND 2292 2323 2324; G2 XOR 2324 2232 2325; G2 XOR 2151 2237 2326; G2 AND 2292 2326 2327;
  G2 XOR 2327 2237 2328; G2 XOR 2154 2242 2329; G2 AND 2292 2329 2330; G2 XOR 2330 2242 2331;
  G2 XOR 2157 2247 2332; G2 AND 2292 2332 2333; G2 XOR 2333 2247 2334; G2 XOR 2160 2252 2335;
  G2 AND 2292 2335 2336; G2 XOR 2336 2252 2337; G2 XOR 2163 2257 2338; G2 AND 2292 2338 2339;
  G2 XOR 2339 2257 2340; G2 XOR 2166 2262 2341; G2 AND 2292 2341 2342; G2 XOR 2342 2262 2343;
  G2 XOR 2169 2267 2344; G2 AND 2292 2344 2345; G2 XOR 2345 2267 2346; G2 XOR 2172 2272 2347;
  G2 AND 2292 2347 2348; G2 XOR 2348 2272 2349; G2 XOR 2175 2277 2350; G2 AND 2292 2350 2351;
  G2 XOR 2351 2277 2352; G2 XOR 2178 2282 2353; G2 AND 2292 2353 2354; G2 XOR 2354 2282 2355;
  G2 XOR 2181 2287 2356; G2 AND 2292 2356 2357; G2 XOR 2357 2287 2358; G1 INV 2292 2359; G2 XOR 41 64 2360;
  G2 AND 2360 64 2361; G2 XOR 2295 65 2362; G2 XOR 2361 65 2363; G2 XOR 2362 2361 2364;
  G2 AND 2362 2363 2365; G2 XOR 2361 2365 2366; G2 XOR 2298 66 2367; G2 XOR 2366 66 2368;
  G2 XOR 2367 2366 2369; G2 AND 2367 2368 2370; G2 XOR 2366 2370 2371; G2 XOR 2301 67 2372;
  G2 XOR 2371 67 2373; G2 XOR 2372 2371 2374; G2 AND 2372 2373 2375; G2 XOR 2371 2375 2376;
  G2 XOR 2304 68 2377; G2 XOR 2376 68 2378; G2 XOR 2377 2376 2379; G2 AND 2377 2378 2380;
  G2 XOR 2376 2380 2381; G2 XOR 2307 69 2382; G2 XOR 2381 69 2383; G2 XOR 2382 2381 2384;
  G2 AND 2382 2383 2385; G2 XOR 2381 2385 2386; G2 XOR 2310 70 2387; G2 XOR 2386 70 2388;
  G2 XOR 2387 2386 2389; G2 AND 2387 2388 2390; G2 XOR 2386 2390 2391; G2 XOR 2313 71 2392;
  G2 XOR 2391 71 2393; G2 XOR 2392 2391 2394; G2 AND 2392 2393 2395; G2 XOR 2391 2395 2396;
  G2 XOR 2316 72 2397; G2 XOR 2396 72 2398; G2 XOR 2397 2396 2399; G2 AND 2397 2398 2400;
  G2 XOR 2396 2400 2401; G2 XOR 2319 73 2402; G2 XOR 2401 73 2403; G2 XOR 2402 2401 2404;
  G2 AND 2402 2403 2405; G2 XOR 2401 2405 2406; G2 XOR 2322 74 2407; G2 XOR 2406 74 2408;
  G2 XOR 2407 2406 2409; G2 AND 2407 2408 2410; G2 XOR 2406 2410 2411; G2 XOR 2325 75 2412;
  G2 XOR 2411 75 2413; G2 XOR 2412 2411 2414; G2 AND 2412 2413 2415; G2 XOR 2411 2415 2416;
  G2 XOR 2328 76 2417; G2 XOR 2416 76 2418; G2 XOR 2417 2416 2419; G2 AND 2417 2418 2420;
  G2 XOR 2416 2420 2421; G2 XOR 2331 77 2422; G2 XOR 2421 77 2423; G2 XOR 2422 2421 2424;
  G2 AND 2422 2423 2425; G2 XOR 2421 2425 2426; G2 XOR 2334 78 2427; G2 XOR 2426 78 2428;
  G2 XOR 2427 2426 2429; G2 AND 2427 2428 2430; G2 XOR 2426 2430 2431; G2 XOR 2337 79 2432;
  G2 XOR 2431 79 2433; G2 XOR 2432 2431 2434; G2 AND 2432 2433 2435; G2 XOR 2431 2435 2436;
  G2 XOR 2340 80 2437; G2 XOR 2436 80 2438; G2 XOR 2437 2436 2439; G2 AND 2437 2438 2440;
  G2 XOR 2436 2440 2441; G2 XOR 2343 81 2442; G2 XOR 2441 81 2443; G2 XOR 2442 2441 2444;
  G2 AND 2442 2443 2445; G2 XOR 2441 2445 2446; G2 XOR 2346 82 2447; G2 XOR 2446 82 2448;
  G2 XOR 2447 2446 2449; G2 AND 2447 2448 2450; G2 XOR 2446 2450 2451; G2 XOR 2349 83 2452;
  G2 XOR 2451 83 2453; G2 XOR 2452 2451 2454; G2 AND 2452 2453 2455; G2 XOR 2451 2455 2456;
  G2 XOR 2352 84 2457; G2 XOR 2456 84 2458; G2 XOR 2457 2456 2459; G2 AND 2457 2458 2460;
  G2 XOR 2456 2460 2461; G2 XOR 2355 85 2462; G2 XOR 2461 85 2463; G2 XOR 2462 2461 2464;
  G2 AND 2462 2463 2465; G2 XOR 2461 2465 2466; G2 XOR 2358 86 2467; G2 XOR 2466 86 2468;
  G2 XOR 2467 2466 2469; G2 AND 2467 2468 2470; G2 XOR 2466 2470 2471; G2 AND 2471 247 2472;
  G2 XOR 2471 247 2473; G2 XOR 2473 2472 2474; G2 XOR 41 2360 2475; G2 AND 2474 2475 2476;
  G2 XOR 2476 2360 2477; G2 XOR 2295 2364 2478; G2 AND 2474 2478 2479; G2 XOR 2479 2364 2480;
  G2 XOR 2298 2369 2481; G2 AND 2474 2481 2482; G2 XOR 2482 2369 2483; G2 XOR 2301 2374 2484;
  G2 AND 2474 2484 2485; G2 XOR 2485 2374 2486; G2 XOR 2304 2379 2487; G2 AND 2474 2487 2488;
  G2 XOR 2488 2379 2489; G2 XOR 2307 2384 2490; G2 AND 2474 2490 2491; G2 XOR 2491 2384 2492;
  G2 XOR 2310 2389 2493; G2 AND 2474 2493 2494; G2 XOR 2494 2389 2495; G2 XOR 2313 2394 2496;
  G2 AND 2474 2496 2497; G2 XOR 2497 2394 2498; G2 XOR 2316 2399 2499; G2 AND 2474 2499 2500;
  G2 XOR 2500 2399 2501; G2 XOR 2319 2404 2502; G2 AND 2474 2502 2503; G2 XOR 2503 2404 2504;
  G2 XOR 2322 2409 2505; G2 AND 2474 2505 2506; G2 XOR 2506 2409 2507; G2 XOR 2325 2414 2508;
  G2 AND 2474 2508 2509; G2 XOR 2509 2414 2510; G2 XOR 2328 2419 2511; G2 AND 2474 2511 2512;
  G2 XOR 2512 2419 2513; G2 XOR 2331 2424 2514; G2 AND 2474 2514 2515; G2 XOR 2515 2424 2516;
  G2 XOR 2334 2429 2517; G2 AND 2474 2517 2518; G2 XOR 2518 2429 2519; G2 XOR 2337 2434 2520;
  G2 AND 2474 2520 2521; G2 XOR 2521 2434 2522; G2 XOR 2340 2439 2523; G2 AND 2474 2523 2524;
  G2 XOR 2524 2439 2525; G2 XOR 2343 2444 2526; G2 AND 2474 2526 2527; G2 XOR 2527 2444 2528;
  G2 XOR 2346 2449 2529; G2 AND 2474 2529 2530; G2 XOR 2530 2449 2531; G2 XOR 2349 2454 2532;
  G2 AND 2474 2532 2533; G2 XOR 2533 2454 2534; G2 XOR 2352 2459 2535; G2 AND 2474 2535 2536;
  G2 XOR 2536 2459 2537; G2 XOR 2355 2464 2538; G2 AND 2474 2538 2539; G2 XOR 2539 2464 2540;
  G2 XOR 2358 2469 2541; G2 AND 2474 2541 2542; G2 XOR 2542 2469 2543; G1 INV 2474 2544; G2 XOR 40 64 2545;
  G2 AND 2545 64 2546; G2 XOR 2477 65 2547; G2 XOR 2546 65 2548; G2 XOR 2547 2546 2549;
  G2 AND 2547 2548 2550; G2 XOR 2546 2550 2551; G2 XOR 2480 66 2552; G2 XOR 2551 66 2553;
  G2 XOR 2552 2551 2554; G2 AND 2552 2553 2555; G2 XOR 2551 2555 2556; G2 XOR 2483 67 2557;
  G2 XOR 2556 67 2558; G2 XOR 2557 2556 2559; G2 AND 2557 2558 2560; G2 XOR 2556 2560 2561;
  G2 XOR 2486 68 2562; G2 XOR 2561 68 2563; G2 XOR 2562 2561 2564; G2 AND 2562 2563 2565;
  G2 XOR 2561 2565 2566; G2 XOR 2489 69 2567; G2 XOR 2566 69 2568; G2 XOR 2567 2566 2569;
  G2 AND 2567 2568 2570; G2 XOR 2566 2570 2571; G2 XOR 2492 70 2572; G2 XOR 2571 70 2573;
  G2 XOR 2572 2571 2574; G2 AND 2572 2573 2575; G2 XOR 2571 2575 2576; G2 XOR 2495 71 2577;
  G2 XOR 2576 71 2578; G2 XOR 2577 2576 2579; G2 AND 2577 2578 2580; G2 XOR 2576 2580 2581;
  G2 XOR 2498 72 2582; G2 XOR 2581 72 2583; G2 XOR 2582 2581 2584; G2 AND 2582 2583 2585;
  G2 XOR 2581 2585 2586; G2 XOR 2501 73 2587; G2 XOR 2586 73 2588; G2 XOR 2587 2586 2589;
  G2 AND 2587 2588 2590; G2 XOR 2586 2590 2591; G2 XOR 2504 74 2592; G2 XOR 2591 74 2593;
  G2 XOR 2592 2591 2594; G2 AND 2592 2593 2595; G2 XOR 2591 2595 2596; G2 XOR 2507 75 2597;
  G2 XOR 2596 75 2598; G2 XOR 2597 2596 2599; G2 AND 2597 2598 2600; G2 XOR 2596 2600 2601;
  G2 XOR 2510 76 2602; G2 XOR 2601 76 2603; G2 XOR 2602 2601 2604; G2 AND 2602 2603 2605;
  G2 XOR 2601 2605 2606; G2 XOR 2513 77 2607; G2 XOR 2606 77 2608; G2 XOR 2607 2606 2609;
  G2 AND 2607 2608 2610; G2 XOR 2606 2610 2611; G2 XOR 2516 78 2612; G2 XOR 2611 78 2613;
  G2 XOR 2612 2611 2614; G2 AND 2612 2613 2615; G2 XOR 2611 2615 2616; G2 XOR 2519 79 2617;
  G2 XOR 2616 79 2618; G2 XOR 2617 2616 2619; G2 AND 2617 2618 2620; G2 XOR 2616 2620 2621;
  G2 XOR 2522 80 2622; G2 XOR 2621 80 2623; G2 XOR 2622 2621 2624; G2 AND 2622 2623 2625;
  G2 XOR 2621 2625 2626; G2 XOR 2525 81 2627; G2 XOR 2626 81 2628; G2 XOR 2627 2626 2629;
  G2 AND 2627 2628 2630; G2 XOR 2626 2630 2631; G2 XOR 2528 82 2632; G2 XOR 2631 82 2633;
  G2 XOR 2632 2631 2634; G2 AND 2632 2633 2635; G2 XOR 2631 2635 2636; G2 XOR 2531 83 2637;
  G2 XOR 2636 83 2638; G2 XOR 2637 2636 2639; G2 AND 2637 2638 2640; G2 XOR 2636 2640 2641;
  G2 XOR 2534 84 2642; G2 XOR 2641 84 2643; G2 XOR 2642 2641 2644; G2 AND 2642 2643 2645;
  G2 XOR 2641 2645 2646; G2 XOR 2537 85 2647; G2 XOR 2646 85 2648; G2 XOR 2647 2646 2649;
  G2 AND 2647 2648 2650; G2 XOR 2646 2650 2651; G2 XOR 2540 86 2652; G2 XOR 2651 86 2653;
  G2 XOR 2652 2651 2654; G2 AND 2652 2653 2655; G2 XOR 2651 2655 2656; G2 XOR 2543 87 2657;
  G2 XOR 2656 87 2658; G2 XOR 2657 2656 2659; G2 AND 2657 2658 2660; G2 XOR 2656 2660 2661;
  G2 AND 2661 244 2662; G2 XOR 2661 244 2663; G2 XOR 2663 2662 2664; G2 XOR 40 2545 2665;
  G2 AND 2664 2665 2666; G2 XOR 2666 2545 2667; G2 XOR 2477 2549 2668; G2 AND 2664 2668 2669;
  G2 XOR 2669 2549 2670; G2 XOR 2480 2554 2671; G2 AND 2664 2671 2672; G2 XOR 2672 2554 2673;
  G2 XOR 2483 2559 2674; G2 AND 2664 2674 2675; G2 XOR 2675 2559 2676; G2 XOR 2486 2564 2677;
  G2 AND 2664 2677 2678; G2 XOR 2678 2564 2679; G2 XOR 2489 2569 2680; G2 AND 2664 2680 2681;
  G2 XOR 2681 2569 2682; G2 XOR 2492 2574 2683; G2 AND 2664 2683 2684; G2 XOR 2684 2574 2685;
  G2 XOR 2495 2579 2686; G2 AND 2664 2686 2687; G2 XOR 2687 2579 2688; G2 XOR 2498 2584 2689;
  G2 AND 2664 2689 2690; G2 XOR 2690 2584 2691; G2 XOR 2501 2589 2692; G2 AND 2664 2692 2693;
  G2 XOR 2693 2589 2694; G2 XOR 2504 2594 2695; G2 AND 2664 2695 2696; G2 XOR 2696 2594 2697;
  G2 XOR 2507 2599 2698; G2 AND 2664 2698 2699; G2 XOR 2699 2599 2700; G2 XOR 2510 2604 2701;
  G2 AND 2664 2701 2702; G2 XOR 2702 2604 2703; G2 XOR 2513 2609 2704; G2 AND 2664 2704 2705;
  G2 XOR 2705 2609 2706; G2 XOR 2516 2614 2707; G2 AND 2664 2707 2708; G2 XOR 2708 2614 2709;
  G2 XOR 2519 2619 2710; G2 AND 2664 2710 2711; G2 XOR 2711 2619 2712; G2 XOR 2522 2624 2713;
  G2 AND 2664 2713 2714; G2 XOR 2714 2624 2715; G2 XOR 2525 2629 2716; G2 AND 2664 2716 2717;
  G2 XOR 2717 2629 2718; G2 XOR 2528 2634 2719; G2 AND 2664 2719 2720; G2 XOR 2720 2634 2721;
  G2 XOR 2531 2639 2722; G2 AND 2664 2722 2723; G2 XOR 2723 2639 2724; G2 XOR 2534 2644 2725;
  G2 AND 2664 2725 2726; G2 XOR 2726 2644 2727; G2 XOR 2537 2649 2728; G2 AND 2664 2728 2729;
  G2 XOR 2729 2649 2730; G2 XOR 2540 2654 2731; G2 AND 2664 2731 2732; G2 XOR 2732 2654 2733;
  G2 XOR 2543 2659 2734; G2 AND 2664 2734 2735; G2 XOR 2735 2659 2736; G1 INV 2664 2737; G2 XOR 39 64 2738;
  G2 AND 2738 64 2739; G2 XOR 2667 65 2740; G2 XOR 2739 65 2741; G2 XOR 2740 2739 2742;
  G2 AND 2740 2741 2743; G2 XOR 2739 2743 2744; G2 XOR 2670 66 2745; G2 XOR 2744 66 2746;
  G2 XOR 2745 2744 2747; G2 AND 2745 2746 2748; G2 XOR 2744 2748 2749; G2 XOR 2673 67 2750;
  G2 XOR 2749 67 2751; G2 XOR 2750 2749 2752; G2 AND 2750 2751 2753; G2 XOR 2749 2753 2754;
  G2 XOR 2676 68 2755; G2 XOR 2754 68 2756; G2 XOR 2755 2754 2757; G2 AND 2755 2756 2758;
  G2 XOR 2754 2758 2759; G2 XOR 2679 69 2760; G2 XOR 2759 69 2761; G2 XOR 2760 2759 2762;
  G2 AND 2760 2761 2763; G2 XOR 2759 2763 2764; G2 XOR 2682 70 2765; G2 XOR 2764 70 2766;
  G2 XOR 2765 2764 2767; G2 AND 2765 2766 2768; G2 XOR 2764 2768 2769; G2 XOR 2685 71 2770;
  G2 XOR 2769 71 2771; G2 XOR 2770 2769 2772; G2 AND 2770 2771 2773; G2 XOR 2769 2773 2774;
  G2 XOR 2688 72 2775; G2 XOR 2774 72 2776; G2 XOR 2775 2774 2777; G2 AND 2775 2776 2778;
  G2 XOR 2774 2778 2779; G2 XOR 2691 73 2780; G2 XOR 2779 73 2781; G2 XOR 2780 2779 2782;
  G2 AND 2780 2781 2783; G2 XOR 2779 2783 2784; G2 XOR 2694 74 2785; G2 XOR 2784 74 2786;
  G2 XOR 2785 2784 2787; G2 AND 2785 2786 2788; G2 XOR 2784 2788 2789; G2 XOR 2697 75 2790;
  G2 XOR 2789 75 2791; G2 XOR 2790 2789 2792; G2 AND 2790 2791 2793; G2 XOR 2789 2793 2794;
  G2 XOR 2700 76 2795; G2 XOR 2794 76 2796; G2 XOR 2795 2794 2797; G2 AND 2795 2796 2798;
  G2 XOR 2794 2798 2799; G2 XOR 2703 77 2800; G2 XOR 2799 77 2801; G2 XOR 2800 2799 2802;
  G2 AND 2800 2801 2803; G2 XOR 2799 2803 2804; G2 XOR 2706 78 2805; G2 XOR 2804 78 2806;
  G2 XOR 2805 2804 2807; G2 AND 2805 2806 2808; G2 XOR 2804 2808 2809; G2 XOR 2709 79 2810;
  G2 XOR 2809 79 2811; G2 XOR 2810 2809 2812; G2 AND 2810 2811 2813; G2 XOR 2809 2813 2814;
  G2 XOR 2712 80 2815; G2 XOR 2814 80 2816; G2 XOR 2815 2814 2817; G2 AND 2815 2816 2818;
  G2 XOR 2814 2818 2819; G2 XOR 2715 81 2820; G2 XOR 2819 81 2821; G2 XOR 2820 2819 2822;
  G2 AND 2820 2821 2823; G2 XOR 2819 2823 2824; G2 XOR 2718 82 2825; G2 XOR 2824 82 2826;
  G2 XOR 2825 2824 2827; G2 AND 2825 2826 2828; G2 XOR 2824 2828 2829; G2 XOR 2721 83 2830;
  G2 XOR 2829 83 2831; G2 XOR 2830 2829 2832; G2 AND 2830 2831 2833; G2 XOR 2829 2833 2834;
  G2 XOR 2724 84 2835; G2 XOR 2834 84 2836; G2 XOR 2835 2834 2837; G2 AND 2835 2836 2838;
  G2 XOR 2834 2838 2839; G2 XOR 2727 85 2840; G2 XOR 2839 85 2841; G2 XOR 2840 2839 2842;
  G2 AND 2840 2841 2843; G2 XOR 2839 2843 2844; G2 XOR 2730 86 2845; G2 XOR 2844 86 2846;
  G2 XOR 2845 2844 2847; G2 AND 2845 2846 2848; G2 XOR 2844 2848 2849; G2 XOR 2733 87 2850;
  G2 XOR 2849 87 2851; G2 XOR 2850 2849 2852; G2 AND 2850 2851 2853; G2 XOR 2849 2853 2854;
  G2 XOR 2736 88 2855; G2 XOR 2854 88 2856; G2 XOR 2855 2854 2857; G2 AND 2855 2856 2858;
  G2 XOR 2854 2858 2859; G2 AND 2859 241 2860; G2 XOR 2859 241 2861; G2 XOR 2861 2860 2862;
  G2 XOR 39 2738 2863; G2 AND 2862 2863 2864; G2 XOR 2864 2738 2865; G2 XOR 2667 2742 2866;
  G2 AND 2862 2866 2867; G2 XOR 2867 2742 2868; G2 XOR 2670 2747 2869; G2 AND 2862 2869 2870;
  G2 XOR 2870 2747 2871; G2 XOR 2673 2752 2872; G2 AND 2862 2872 2873; G2 XOR 2873 2752 2874;
  G2 XOR 2676 2757 2875; G2 AND 2862 2875 2876; G2 XOR 2876 2757 2877; G2 XOR 2679 2762 2878;
  G2 AND 2862 2878 2879; G2 XOR 2879 2762 2880; G2 XOR 2682 2767 2881; G2 AND 2862 2881 2882;
  G2 XOR 2882 2767 2883; G2 XOR 2685 2772 2884; G2 AND 2862 2884 2885; G2 XOR 2885 2772 2886;
  G2 XOR 2688 2777 2887; G2 AND 2862 2887 2888; G2 XOR 2888 2777 2889; G2 XOR 2691 2782 2890;
  G2 AND 2862 2890 2891; G2 XOR 2891 2782 2892; G2 XOR 2694 2787 2893; G2 AND 2862 2893 2894;
  G2 XOR 2894 2787 2895; G2 XOR 2697 2792 2896; G2 AND 2862 2896 2897; G2 XOR 2897 2792 2898;
  G2 XOR 2700 2797 2899; G2 AND 2862 2899 2900; G2 XOR 2900 2797 2901; G2 XOR 2703 2802 2902;
  G2 AND 2862 2902 2903; G2 XOR 2903 2802 2904; G2 XOR 2706 2807 2905; G2 AND 2862 2905 2906;
  G2 XOR 2906 2807 2907; G2 XOR 2709 2812 2908; G2 AND 2862 2908 2909; G2 XOR 2909 2812 2910;
  G2 XOR 2712 2817 2911; G2 AND 2862 2911 2912; G2 XOR 2912 2817 2913; G2 XOR 2715 2822 2914;
  G2 AND 2862 2914 2915; G2 XOR 2915 2822 2916; G2 XOR 2718 2827 2917; G2 AND 2862 2917 2918;
  G2 XOR 2918 2827 2919; G2 XOR 2721 2832 2920; G2 AND 2862 2920 2921; G2 XOR 2921 2832 2922;
  G2 XOR 2724 2837 2923; G2 AND 2862 2923 2924; G2 XOR 2924 2837 2925; G2 XOR 2727 2842 2926;
  G2 AND 2862 2926 2927; G2 XOR 2927 2842 2928; G2 XOR 2730 2847 2929; G2 AND 2862 2929 2930;
  G2 XOR 2930 2847 2931; G2 XOR 2733 2852 2932; G2 AND 2862 2932 2933; G2 XOR 2933 2852 2934;
  G2 XOR 2736 2857 2935; G2 AND 2862 2935 2936; G2 XOR 2936 2857 2937; G1 INV 2862 2938; G2 XOR 38 64 2939;
  G2 AND 2939 64 2940; G2 XOR 2865 65 2941; G2 XOR 2940 65 2942; G2 XOR 2941 2940 2943;
  G2 AND 2941 2942 2944; G2 XOR 2940 2944 2945; G2 XOR 2868 66 2946; G2 XOR 2945 66 2947;
  G2 XOR 2946 2945 2948; G2 AND 2946 2947 2949; G2 XOR 2945 2949 2950; G2 XOR 2871 67 2951;
  G2 XOR 2950 67 2952; G2 XOR 2951 2950 2953; G2 AND 2951 2952 2954; G2 XOR 2950 2954 2955;
  G2 XOR 2874 68 2956; G2 XOR 2955 68 2957; G2 XOR 2956 2955 2958; G2 AND 2956 2957 2959;
  G2 XOR 2955 2959 2960; G2 XOR 2877 69 2961; G2 XOR 2960 69 2962; G2 XOR 2961 2960 2963;
  G2 AND 2961 2962 2964; G2 XOR 2960 2964 2965; G2 XOR 2880 70 2966; G2 XOR 2965 70 2967;
  G2 XOR 2966 2965 2968; G2 AND 2966 2967 2969; G2 XOR 2965 2969 2970; G2 XOR 2883 71 2971;
  G2 XOR 2970 71 2972; G2 XOR 2971 2970 2973; G2 AND 2971 2972 2974; G2 XOR 2970 2974 2975;
  G2 XOR 2886 72 2976; G2 XOR 2975 72 2977; G2 XOR 2976 2975 2978; G2 AND 2976 2977 2979;
  G2 XOR 2975 2979 2980; G2 XOR 2889 73 2981; G2 XOR 2980 73 2982; G2 XOR 2981 2980 2983;
  G2 AND 2981 2982 2984; G2 XOR 2980 2984 2985; G2 XOR 2892 74 2986; G2 XOR 2985 74 2987;
  G2 XOR 2986 2985 2988; G2 AND 2986 2987 2989; G2 XOR 2985 2989 2990; G2 XOR 2895 75 2991;
  G2 XOR 2990 75 2992; G2 XOR 2991 2990 2993; G2 AND 2991 2992 2994; G2 XOR 2990 2994 2995;
  G2 XOR 2898 76 2996; G2 XOR 2995 76 2997; G2 XOR 2996 2995 2998; G2 AND 2996 2997 2999;
  G2 XOR 2995 2999 3000; G2 XOR 2901 77 3001; G2 XOR 3000 77 3002; G2 XOR 3001 3000 3003;
  G2 AND 3001 3002 3004; G2 XOR 3000 3004 3005; G2 XOR 2904 78 3006; G2 XOR 3005 78 3007;
  G2 XOR 3006 3005 3008; G2 AND 3006 3007 3009; G2 XOR 3005 3009 3010; G2 XOR 2907 79 3011;
  G2 XOR 3010 79 3012; G2 XOR 3011 3010 3013; G2 AND 3011 3012 3014; G2 XOR 3010 3014 3015;
  G2 XOR 2910 80 3016; G2 XOR 3015 80 3017; G2 XOR 3016 3015 3018; G2 AND 3016 3017 3019;
  G2 XOR 3015 3019 3020; G2 XOR 2913 81 3021; G2 XOR 3020 81 3022; G2 XOR 3021 3020 3023;
  G2 AND 3021 3022 3024; G2 XOR 3020 3024 3025; G2 XOR 2916 82 3026; G2 XOR 3025 82 3027;
  G2 XOR 3026 3025 3028; G2 AND 3026 3027 3029; G2 XOR 3025 3029 3030; G2 XOR 2919 83 3031;
  G2 XOR 3030 83 3032; G2 XOR 3031 3030 3033; G2 AND 3031 3032 3034; G2 XOR 3030 3034 3035;
  G2 XOR 2922 84 3036; G2 XOR 3035 84 3037; G2 XOR 3036 3035 3038; G2 AND 3036 3037 3039;
  G2 XOR 3035 3039 3040; G2 XOR 2925 85 3041; G2 XOR 3040 85 3042; G2 XOR 3041 3040 3043;
  G2 AND 3041 3042 3044; G2 XOR 3040 3044 3045; G2 XOR 2928 86 3046; G2 XOR 3045 86 3047;
  G2 XOR 3046 3045 3048; G2 AND 3046 3047 3049; G2 XOR 3045 3049 3050; G2 XOR 2931 87 3051;
  G2 XOR 3050 87 3052; G2 XOR 3051 3050 3053; G2 AND 3051 3052 3054; G2 XOR 3050 3054 3055;
  G2 XOR 2934 88 3056; G2 XOR 3055 88 3057; G2 XOR 3056 3055 3058; G2 AND 3056 3057 3059;
  G2 XOR 3055 3059 3060; G2 XOR 2937 89 3061; G2 XOR 3060 89 3062; G2 XOR 3061 3060 3063;
  G2 AND 3061 3062 3064; G2 XOR 3060 3064 3065; G2 AND 3065 238 3066; G2 XOR 3065 238 3067;
  G2 XOR 3067 3066 3068; G2 XOR 38 2939 3069; G2 AND 3068 3069 3070; G2 XOR 3070 2939 3071;
  G2 XOR 2865 2943 3072; G2 AND 3068 3072 3073; G2 XOR 3073 2943 3074; G2 XOR 2868 2948 3075;
  G2 AND 3068 3075 3076; G2 XOR 3076 2948 3077; G2 XOR 2871 2953 3078; G2 AND 3068 3078 3079;
  G2 XOR 3079 2953 3080; G2 XOR 2874 2958 3081; G2 AND 3068 3081 3082; G2 XOR 3082 2958 3083;
  G2 XOR 2877 2963 3084; G2 AND 3068 3084 3085; G2 XOR 3085 2963 3086; G2 XOR 2880 2968 3087;
  G2 AND 3068 3087 3088; G2 XOR 3088 2968 3089; G2 XOR 2883 2973 3090; G2 AND 3068 3090 3091;
  G2 XOR 3091 2973 3092; G2 XOR 2886 2978 3093; G2 AND 3068 3093 3094; G2 XOR 3094 2978 3095;
  G2 XOR 2889 2983 3096; G2 AND 3068 3096 3097; G2 XOR 3097 2983 3098; G2 XOR 2892 2988 3099;
  G2 AND 3068 3099 3100; G2 XOR 3100 2988 3101; G2 XOR 2895 2993 3102; G2 AND 3068 3102 3103;
  G2 XOR 3103 2993 3104; G2 XOR 2898 2998 3105; G2 AND 3068 3105 3106; G2 XOR 3106 2998 3107;
  G2 XOR 2901 3003 3108; G2 AND 3068 3108 3109; G2 XOR 3109 3003 3110; G2 XOR 2904 3008 3111;
  G2 AND 3068 3111 3112; G2 XOR 3112 3008 3113; G2 XOR 2907 3013 3114; G2 AND 3068 3114 3115;
  G2 XOR 3115 3013 3116; G2 XOR 2910 3018 3117; G2 AND 3068 3117 3118; G2 XOR 3118 3018 3119;
  G2 XOR 2913 3023 3120; G2 AND 3068 3120 3121; G2 XOR 3121 3023 3122; G2 XOR 2916 3028 3123;
  G2 AND 3068 3123 3124; G2 XOR 3124 3028 3125; G2 XOR 2919 3033 3126; G2 AND 3068 3126 3127;
  G2 XOR 3127 3033 3128; G2 XOR 2922 3038 3129; G2 AND 3068 3129 3130; G2 XOR 3130 3038 3131;
  G2 XOR 2925 3043 3132; G2 AND 3068 3132 3133; G2 XOR 3133 3043 3134; G2 XOR 2928 3048 3135;
  G2 AND 3068 3135 3136; G2 XOR 3136 3048 3137; G2 XOR 2931 3053 3138; G2 AND 3068 3138 3139;
  G2 XOR 3139 3053 3140; G2 XOR 2934 3058 3141; G2 AND 3068 3141 3142; G2 XOR 3142 3058 3143;
  G2 XOR 2937 3063 3144; G2 AND 3068 3144 3145; G2 XOR 3145 3063 3146; G1 INV 3068 3147; G2 XOR 37 64 3148;
  G2 AND 3148 64 3149; G2 XOR 3071 65 3150; G2 XOR 3149 65 3151; G2 XOR 3150 3149 3152;
  G2 AND 3150 3151 3153; G2 XOR 3149 3153 3154; G2 XOR 3074 66 3155; G2 XOR 3154 66 3156;
  G2 XOR 3155 3154 3157; G2 AND 3155 3156 3158; G2 XOR 3154 3158 3159; G2 XOR 3077 67 3160;
  G2 XOR 3159 67 3161; G2 XOR 3160 3159 3162; G2 AND 3160 3161 3163; G2 XOR 3159 3163 3164;
  G2 XOR 3080 68 3165; G2 XOR 3164 68 3166; G2 XOR 3165 3164 3167; G2 AND 3165 3166 3168;
  G2 XOR 3164 3168 3169; G2 XOR 3083 69 3170; G2 XOR 3169 69 3171; G2 XOR 3170 3169 3172;
  G2 AND 3170 3171 3173; G2 XOR 3169 3173 3174; G2 XOR 3086 70 3175; G2 XOR 3174 70 3176;
  G2 XOR 3175 3174 3177; G2 AND 3175 3176 3178; G2 XOR 3174 3178 3179; G2 XOR 3089 71 3180;
  G2 XOR 3179 71 3181; G2 XOR 3180 3179 3182; G2 AND 3180 3181 3183; G2 XOR 3179 3183 3184;
  G2 XOR 3092 72 3185; G2 XOR 3184 72 3186; G2 XOR 3185 3184 3187; G2 AND 3185 3186 3188;
  G2 XOR 3184 3188 3189; G2 XOR 3095 73 3190; G2 XOR 3189 73 3191; G2 XOR 3190 3189 3192;
  G2 AND 3190 3191 3193; G2 XOR 3189 3193 3194; G2 XOR 3098 74 3195; G2 XOR 3194 74 3196;
  G2 XOR 3195 3194 3197; G2 AND 3195 3196 3198; G2 XOR 3194 3198 3199; G2 XOR 3101 75 3200;
  G2 XOR 3199 75 3201; G2 XOR 3200 3199 3202; G2 AND 3200 3201 3203; G2 XOR 3199 3203 3204;
  G2 XOR 3104 76 3205; G2 XOR 3204 76 3206; G2 XOR 3205 3204 3207; G2 AND 3205 3206 3208;
  G2 XOR 3204 3208 3209; G2 XOR 3107 77 3210; G2 XOR 3209 77 3211; G2 XOR 3210 3209 3212;
  G2 AND 3210 3211 3213; G2 XOR 3209 3213 3214; G2 XOR 3110 78 3215; G2 XOR 3214 78 3216;
  G2 XOR 3215 3214 3217; G2 AND 3215 3216 3218; G2 XOR 3214 3218 3219; G2 XOR 3113 79 3220;
  G2 XOR 3219 79 3221; G2 XOR 3220 3219 3222; G2 AND 3220 3221 3223; G2 XOR 3219 3223 3224;
  G2 XOR 3116 80 3225; G2 XOR 3224 80 3226; G2 XOR 3225 3224 3227; G2 AND 3225 3226 3228;
  G2 XOR 3224 3228 3229; G2 XOR 3119 81 3230; G2 XOR 3229 81 3231; G2 XOR 3230 3229 3232;
  G2 AND 3230 3231 3233; G2 XOR 3229 3233 3234; G2 XOR 3122 82 3235; G2 XOR 3234 82 3236;
  G2 XOR 3235 3234 3237; G2 AND 3235 3236 3238; G2 XOR 3234 3238 3239; G2 XOR 3125 83 3240;
  G2 XOR 3239 83 3241; G2 XOR 3240 3239 3242; G2 AND 3240 3241 3243; G2 XOR 3239 3243 3244;
  G2 XOR 3128 84 3245; G2 XOR 3244 84 3246; G2 XOR 3245 3244 3247; G2 AND 3245 3246 3248;
  G2 XOR 3244 3248 3249; G2 XOR 3131 85 3250; G2 XOR 3249 85 3251; G2 XOR 3250 3249 3252;
  G2 AND 3250 3251 3253; G2 XOR 3249 3253 3254; G2 XOR 3134 86 3255; G2 XOR 3254 86 3256;
  G2 XOR 3255 3254 3257; G2 AND 3255 3256 3258; G2 XOR 3254 3258 3259; G2 XOR 3137 87 3260;
  G2 XOR 3259 87 3261; G2 XOR 3260 3259 3262; G2 AND 3260 3261 3263; G2 XOR 3259 3263 3264;
  G2 XOR 3140 88 3265; G2 XOR 3264 88 3266; G2 XOR 3265 3264 3267; G2 AND 3265 3266 3268;
  G2 XOR 3264 3268 3269; G2 XOR 3143 89 3270; G2 XOR 3269 89 3271; G2 XOR 3270 3269 3272;
  G2 AND 3270 3271 3273; G2 XOR 3269 3273 3274; G2 XOR 3146 90 3275; G2 XOR 3274 90 3276;
  G2 XOR 3275 3274 3277; G2 AND 3275 3276 3278; G2 XOR 3274 3278 3279; G2 AND 3279 235 3280;
  G2 XOR 3279 235 3281; G2 XOR 3281 3280 3282; G2 XOR 37 3148 3283; G2 AND 3282 3283 3284;
  G2 XOR 3284 3148 3285; G2 XOR 3071 3152 3286; G2 AND 3282 3286 3287; G2 XOR 3287 3152 3288;
  G2 XOR 3074 3157 3289; G2 AND 3282 3289 3290; G2 XOR 3290 3157 3291; G2 XOR 3077 3162 3292;
  G2 AND 3282 3292 3293; G2 XOR 3293 3162 3294; G2 XOR 3080 3167 3295; G2 AND 3282 3295 3296;
  G2 XOR 3296 3167 3297; G2 XOR 3083 3172 3298; G2 AND 3282 3298 3299; G2 XOR 3299 3172 3300;
  G2 XOR 3086 3177 3301; G2 AND 3282 3301 3302; G2 XOR 3302 3177 3303; G2 XOR 3089 3182 3304;
  G2 AND 3282 3304 3305; G2 XOR 3305 3182 3306; G2 XOR 3092 3187 3307; G2 AND 3282 3307 3308;
  G2 XOR 3308 3187 3309; G2 XOR 3095 3192 3310; G2 AND 3282 3310 3311; G2 XOR 3311 3192 3312;
  G2 XOR 3098 3197 3313; G2 AND 3282 3313 3314; G2 XOR 3314 3197 3315; G2 XOR 3101 3202 3316;
  G2 AND 3282 3316 3317; G2 XOR 3317 3202 3318; G2 XOR 3104 3207 3319; G2 AND 3282 3319 3320;
  G2 XOR 3320 3207 3321; G2 XOR 3107 3212 3322; G2 AND 3282 3322 3323; G2 XOR 3323 3212 3324;
  G2 XOR 3110 3217 3325; G2 AND 3282 3325 3326; G2 XOR 3326 3217 3327; G2 XOR 3113 3222 3328;
  G2 AND 3282 3328 3329; G2 XOR 3329 3222 3330; G2 XOR 3116 3227 3331; G2 AND 3282 3331 3332;
  G2 XOR 3332 3227 3333; G2 XOR 3119 3232 3334; G2 AND 3282 3334 3335; G2 XOR 3335 3232 3336;
  G2 XOR 3122 3237 3337; G2 AND 3282 3337 3338; G2 XOR 3338 3237 3339; G2 XOR 3125 3242 3340;
  G2 AND 3282 3340 3341; G2 XOR 3341 3242 3342; G2 XOR 3128 3247 3343; G2 AND 3282 3343 3344;
  G2 XOR 3344 3247 3345; G2 XOR 3131 3252 3346; G2 AND 3282 3346 3347; G2 XOR 3347 3252 3348;
  G2 XOR 3134 3257 3349; G2 AND 3282 3349 3350; G2 XOR 3350 3257 3351; G2 XOR 3137 3262 3352;
  G2 AND 3282 3352 3353; G2 XOR 3353 3262 3354; G2 XOR 3140 3267 3355; G2 AND 3282 3355 3356;
  G2 XOR 3356 3267 3357; G2 XOR 3143 3272 3358; G2 AND 3282 3358 3359; G2 XOR 3359 3272 3360;
  G2 XOR 3146 3277 3361; G2 AND 3282 3361 3362; G2 XOR 3362 3277 3363; G1 INV 3282 3364; G2 XOR 36 64 3365;
  G2 AND 3365 64 3366; G2 XOR 3285 65 3367; G2 XOR 3366 65 3368; G2 XOR 3367 3366 3369;
  G2 AND 3367 3368 3370; G2 XOR 3366 3370 3371; G2 XOR 3288 66 3372; G2 XOR 3371 66 3373;
  G2 XOR 3372 3371 3374; G2 AND 3372 3373 3375; G2 XOR 3371 3375 3376; G2 XOR 3291 67 3377;
  G2 XOR 3376 67 3378; G2 XOR 3377 3376 3379; G2 AND 3377 3378 3380; G2 XOR 3376 3380 3381;
  G2 XOR 3294 68 3382; G2 XOR 3381 68 3383; G2 XOR 3382 3381 3384; G2 AND 3382 3383 3385;
  G2 XOR 3381 3385 3386; G2 XOR 3297 69 3387; G2 XOR 3386 69 3388; G2 XOR 3387 3386 3389;
  G2 AND 3387 3388 3390; G2 XOR 3386 3390 3391; G2 XOR 3300 70 3392; G2 XOR 3391 70 3393;
  G2 XOR 3392 3391 3394; G2 AND 3392 3393 3395; G2 XOR 3391 3395 3396; G2 XOR 3303 71 3397;
  G2 XOR 3396 71 3398; G2 XOR 3397 3396 3399; G2 AND 3397 3398 3400; G2 XOR 3396 3400 3401;
  G2 XOR 3306 72 3402; G2 XOR 3401 72 3403; G2 XOR 3402 3401 3404; G2 AND 3402 3403 3405;
  G2 XOR 3401 3405 3406; G2 XOR 3309 73 3407; G2 XOR 3406 73 3408; G2 XOR 3407 3406 3409;
  G2 AND 3407 3408 3410; G2 XOR 3406 3410 3411; G2 XOR 3312 74 3412; G2 XOR 3411 74 3413;
  G2 XOR 3412 3411 3414; G2 AND 3412 3413 3415; G2 XOR 3411 3415 3416; G2 XOR 3315 75 3417;
  G2 XOR 3416 75 3418; G2 XOR 3417 3416 3419; G2 AND 3417 3418 3420; G2 XOR 3416 3420 3421;
  G2 XOR 3318 76 3422; G2 XOR 3421 76 3423; G2 XOR 3422 3421 3424; G2 AND 3422 3423 3425;
  G2 XOR 3421 3425 3426; G2 XOR 3321 77 3427; G2 XOR 3426 77 3428; G2 XOR 3427 3426 3429;
  G2 AND 3427 3428 3430; G2 XOR 3426 3430 3431; G2 XOR 3324 78 3432; G2 XOR 3431 78 3433;
  G2 XOR 3432 3431 3434; G2 AND 3432 3433 3435; G2 XOR 3431 3435 3436; G2 XOR 3327 79 3437;
  G2 XOR 3436 79 3438; G2 XOR 3437 3436 3439; G2 AND 3437 3438 3440; G2 XOR 3436 3440 3441;
  G2 XOR 3330 80 3442; G2 XOR 3441 80 3443; G2 XOR 3442 3441 3444; G2 AND 3442 3443 3445;
  G2 XOR 3441 3445 3446; G2 XOR 3333 81 3447; G2 XOR 3446 81 3448; G2 XOR 3447 3446 3449;
  G2 AND 3447 3448 3450; G2 XOR 3446 3450 3451; G2 XOR 3336 82 3452; G2 XOR 3451 82 3453;
  G2 XOR 3452 3451 3454; G2 AND 3452 3453 3455; G2 XOR 3451 3455 3456; G2 XOR 3339 83 3457;
  G2 XOR 3456 83 3458; G2 XOR 3457 3456 3459; G2 AND 3457 3458 3460; G2 XOR 3456 3460 3461;
  G2 XOR 3342 84 3462; G2 XOR 3461 84 3463; G2 XOR 3462 3461 3464; G2 AND 3462 3463 3465;
  G2 XOR 3461 3465 3466; G2 XOR 3345 85 3467; G2 XOR 3466 85 3468; G2 XOR 3467 3466 3469;
  G2 AND 3467 3468 3470; G2 XOR 3466 3470 3471; G2 XOR 3348 86 3472; G2 XOR 3471 86 3473;
  G2 XOR 3472 3471 3474; G2 AND 3472 3473 3475; G2 XOR 3471 3475 3476; G2 XOR 3351 87 3477;
  G2 XOR 3476 87 3478; G2 XOR 3477 3476 3479; G2 AND 3477 3478 3480; G2 XOR 3476 3480 3481;
  G2 XOR 3354 88 3482; G2 XOR 3481 88 3483; G2 XOR 3482 3481 3484; G2 AND 3482 3483 3485;
  G2 XOR 3481 3485 3486; G2 XOR 3357 89 3487; G2 XOR 3486 89 3488; G2 XOR 3487 3486 3489;
  G2 AND 3487 3488 3490; G2 XOR 3486 3490 3491; G2 XOR 3360 90 3492; G2 XOR 3491 90 3493;
  G2 XOR 3492 3491 3494; G2 AND 3492 3493 3495; G2 XOR 3491 3495 3496; G2 XOR 3363 91 3497;
  G2 XOR 3496 91 3498; G2 XOR 3497 3496 3499; G2 AND 3497 3498 3500; G2 XOR 3496 3500 3501;
  G2 AND 3501 232 3502; G2 XOR 3501 232 3503; G2 XOR 3503 3502 3504; G2 XOR 36 3365 3505;
  G2 AND 3504 3505 3506; G2 XOR 3506 3365 3507; G2 XOR 3285 3369 3508; G2 AND 3504 3508 3509;
  G2 XOR 3509 3369 3510; G2 XOR 3288 3374 3511; G2 AND 3504 3511 3512; G2 XOR 3512 3374 3513;
  G2 XOR 3291 3379 3514; G2 AND 3504 3514 3515; G2 XOR 3515 3379 3516; G2 XOR 3294 3384 3517;
  G2 AND 3504 3517 3518; G2 XOR 3518 3384 3519; G2 XOR 3297 3389 3520; G2 AND 3504 3520 3521;
  G2 XOR 3521 3389 3522; G2 XOR 3300 3394 3523; G2 AND 3504 3523 3524; G2 XOR 3524 3394 3525;
  G2 XOR 3303 3399 3526; G2 AND 3504 3526 3527; G2 XOR 3527 3399 3528; G2 XOR 3306 3404 3529;
  G2 AND 3504 3529 3530; G2 XOR 3530 3404 3531; G2 XOR 3309 3409 3532; G2 AND 3504 3532 3533;
  G2 XOR 3533 3409 3534; G2 XOR 3312 3414 3535; G2 AND 3504 3535 3536; G2 XOR 3536 3414 3537;
  G2 XOR 3315 3419 3538; G2 AND 3504 3538 3539; G2 XOR 3539 3419 3540; G2 XOR 3318 3424 3541;
  G2 AND 3504 3541 3542; G2 XOR 3542 3424 3543; G2 XOR 3321 3429 3544; G2 AND 3504 3544 3545;
  G2 XOR 3545 3429 3546; G2 XOR 3324 3434 3547; G2 AND 3504 3547 3548; G2 XOR 3548 3434 3549;
  G2 XOR 3327 3439 3550; G2 AND 3504 3550 3551; G2 XOR 3551 3439 3552; G2 XOR 3330 3444 3553;
  G2 AND 3504 3553 3554; G2 XOR 3554 3444 3555; G2 XOR 3333 3449 3556; G2 AND 3504 3556 3557;
  G2 XOR 3557 3449 3558; G2 XOR 3336 3454 3559; G2 AND 3504 3559 3560; G2 XOR 3560 3454 3561;
  G2 XOR 3339 3459 3562; G2 AND 3504 3562 3563; G2 XOR 3563 3459 3564; G2 XOR 3342 3464 3565;
  G2 AND 3504 3565 3566; G2 XOR 3566 3464 3567; G2 XOR 3345 3469 3568; G2 AND 3504 3568 3569;
  G2 XOR 3569 3469 3570; G2 XOR 3348 3474 3571; G2 AND 3504 3571 3572; G2 XOR 3572 3474 3573;
  G2 XOR 3351 3479 3574; G2 AND 3504 3574 3575; G2 XOR 3575 3479 3576; G2 XOR 3354 3484 3577;
  G2 AND 3504 3577 3578; G2 XOR 3578 3484 3579; G2 XOR 3357 3489 3580; G2 AND 3504 3580 3581;
  G2 XOR 3581 3489 3582; G2 XOR 3360 3494 3583; G2 AND 3504 3583 3584; G2 XOR 3584 3494 3585;
  G2 XOR 3363 3499 3586; G2 AND 3504 3586 3587; G2 XOR 3587 3499 3588; G1 INV 3504 3589; G2 XOR 35 64 3590;
  G2 AND 3590 64 3591; G2 XOR 3507 65 3592; G2 XOR 3591 65 3593; G2 XOR 3592 3591 3594;
  G2 AND 3592 3593 3595; G2 XOR 3591 3595 3596; G2 XOR 3510 66 3597; G2 XOR 3596 66 3598;
  G2 XOR 3597 3596 3599; G2 AND 3597 3598 3600; G2 XOR 3596 3600 3601; G2 XOR 3513 67 3602;
  G2 XOR 3601 67 3603; G2 XOR 3602 3601 3604; G2 AND 3602 3603 3605; G2 XOR 3601 3605 3606;
  G2 XOR 3516 68 3607; G2 XOR 3606 68 3608; G2 XOR 3607 3606 3609; G2 AND 3607 3608 3610;
  G2 XOR 3606 3610 3611; G2 XOR 3519 69 3612; G2 XOR 3611 69 3613; G2 XOR 3612 3611 3614;
  G2 AND 3612 3613 3615; G2 XOR 3611 3615 3616; G2 XOR 3522 70 3617; G2 XOR 3616 70 3618;
  G2 XOR 3617 3616 3619; G2 AND 3617 3618 3620; G2 XOR 3616 3620 3621; G2 XOR 3525 71 3622;
  G2 XOR 3621 71 3623; G2 XOR 3622 3621 3624; G2 AND 3622 3623 3625; G2 XOR 3621 3625 3626;
  G2 XOR 3528 72 3627; G2 XOR 3626 72 3628; G2 XOR 3627 3626 3629; G2 AND 3627 3628 3630;
  G2 XOR 3626 3630 3631; G2 XOR 3531 73 3632; G2 XOR 3631 73 3633; G2 XOR 3632 3631 3634;
  G2 AND 3632 3633 3635; G2 XOR 3631 3635 3636; G2 XOR 3534 74 3637; G2 XOR 3636 74 3638;
  G2 XOR 3637 3636 3639; G2 AND 3637 3638 3640; G2 XOR 3636 3640 3641; G2 XOR 3537 75 3642;
  G2 XOR 3641 75 3643; G2 XOR 3642 3641 3644; G2 AND 3642 3643 3645; G2 XOR 3641 3645 3646;
  G2 XOR 3540 76 3647; G2 XOR 3646 76 3648; G2 XOR 3647 3646 3649; G2 AND 3647 3648 3650;
  G2 XOR 3646 3650 3651; G2 XOR 3543 77 3652; G2 XOR 3651 77 3653; G2 XOR 3652 3651 3654;
  G2 AND 3652 3653 3655; G2 XOR 3651 3655 3656; G2 XOR 3546 78 3657; G2 XOR 3656 78 3658;
  G2 XOR 3657 3656 3659; G2 AND 3657 3658 3660; G2 XOR 3656 3660 3661; G2 XOR 3549 79 3662;
  G2 XOR 3661 79 3663; G2 XOR 3662 3661 3664; G2 AND 3662 3663 3665; G2 XOR 3661 3665 3666;
  G2 XOR 3552 80 3667; G2 XOR 3666 80 3668; G2 XOR 3667 3666 3669; G2 AND 3667 3668 3670;
  G2 XOR 3666 3670 3671; G2 XOR 3555 81 3672; G2 XOR 3671 81 3673; G2 XOR 3672 3671 3674;
  G2 AND 3672 3673 3675; G2 XOR 3671 3675 3676; G2 XOR 3558 82 3677; G2 XOR 3676 82 3678;
  G2 XOR 3677 3676 3679; G2 AND 3677 3678 3680; G2 XOR 3676 3680 3681; G2 XOR 3561 83 3682;
  G2 XOR 3681 83 3683; G2 XOR 3682 3681 3684; G2 AND 3682 3683 3685; G2 XOR 3681 3685 3686;
  G2 XOR 3564 84 3687; G2 XOR 3686 84 3688; G2 XOR 3687 3686 3689; G2 AND 3687 3688 3690;
  G2 XOR 3686 3690 3691; G2 XOR 3567 85 3692; G2 XOR 3691 85 3693; G2 XOR 3692 3691 3694;
  G2 AND 3692 3693 3695; G2 XOR 3691 3695 3696; G2 XOR 3570 86 3697; G2 XOR 3696 86 3698;
  G2 XOR 3697 3696 3699; G2 AND 3697 3698 3700; G2 XOR 3696 3700 3701; G2 XOR 3573 87 3702;
  G2 XOR 3701 87 3703; G2 XOR 3702 3701 3704; G2 AND 3702 3703 3705; G2 XOR 3701 3705 3706;
  G2 XOR 3576 88 3707; G2 XOR 3706 88 3708; G2 XOR 3707 3706 3709; G2 AND 3707 3708 3710;
  G2 XOR 3706 3710 3711; G2 XOR 3579 89 3712; G2 XOR 3711 89 3713; G2 XOR 3712 3711 3714;
  G2 AND 3712 3713 3715; G2 XOR 3711 3715 3716; G2 XOR 3582 90 3717; G2 XOR 3716 90 3718;
  G2 XOR 3717 3716 3719; G2 AND 3717 3718 3720; G2 XOR 3716 3720 3721; G2 XOR 3585 91 3722;
  G2 XOR 3721 91 3723; G2 XOR 3722 3721 3724; G2 AND 3722 3723 3725; G2 XOR 3721 3725 3726;
  G2 XOR 3588 92 3727; G2 XOR 3726 92 3728; G2 XOR 3727 3726 3729; G2 AND 3727 3728 3730;
  G2 XOR 3726 3730 3731; G2 AND 3731 229 3732; G2 XOR 3731 229 3733; G2 XOR 3733 3732 3734;
  G2 XOR 35 3590 3735; G2 AND 3734 3735 3736; G2 XOR 3736 3590 3737; G2 XOR 3507 3594 3738;
  G2 AND 3734 3738 3739; G2 XOR 3739 3594 3740; G2 XOR 3510 3599 3741; G2 AND 3734 3741 3742;
  G2 XOR 3742 3599 3743; G2 XOR 3513 3604 3744; G2 AND 3734 3744 3745; G2 XOR 3745 3604 3746;
  G2 XOR 3516 3609 3747; G2 AND 3734 3747 3748; G2 XOR 3748 3609 3749; G2 XOR 3519 3614 3750;
  G2 AND 3734 3750 3751; G2 XOR 3751 3614 3752; G2 XOR 3522 3619 3753; G2 AND 3734 3753 3754;
  G2 XOR 3754 3619 3755; G2 XOR 3525 3624 3756; G2 AND 3734 3756 3757; G2 XOR 3757 3624 3758;
  G2 XOR 3528 3629 3759; G2 AND 3734 3759 3760; G2 XOR 3760 3629 3761; G2 XOR 3531 3634 3762;
  G2 AND 3734 3762 3763; G2 XOR 3763 3634 3764; G2 XOR 3534 3639 3765; G2 AND 3734 3765 3766;
  G2 XOR 3766 3639 3767; G2 XOR 3537 3644 3768; G2 AND 3734 3768 3769; G2 XOR 3769 3644 3770;
  G2 XOR 3540 3649 3771; G2 AND 3734 3771 3772; G2 XOR 3772 3649 3773; G2 XOR 3543 3654 3774;
  G2 AND 3734 3774 3775; G2 XOR 3775 3654 3776; G2 XOR 3546 3659 3777; G2 AND 3734 3777 3778;
  G2 XOR 3778 3659 3779; G2 XOR 3549 3664 3780; G2 AND 3734 3780 3781; G2 XOR 3781 3664 3782;
  G2 XOR 3552 3669 3783; G2 AND 3734 3783 3784; G2 XOR 3784 3669 3785; G2 XOR 3555 3674 3786;
  G2 AND 3734 3786 3787; G2 XOR 3787 3674 3788; G2 XOR 3558 3679 3789; G2 AND 3734 3789 3790;
  G2 XOR 3790 3679 3791; G2 XOR 3561 3684 3792; G2 AND 3734 3792 3793; G2 XOR 3793 3684 3794;
  G2 XOR 3564 3689 3795; G2 AND 3734 3795 3796; G2 XOR 3796 3689 3797; G2 XOR 3567 3694 3798;
  G2 AND 3734 3798 3799; G2 XOR 3799 3694 3800; G2 XOR 3570 3699 3801; G2 AND 3734 3801 3802;
  G2 XOR 3802 3699 3803; G2 XOR 3573 3704 3804; G2 AND 3734 3804 3805; G2 XOR 3805 3704 3806;
  G2 XOR 3576 3709 3807; G2 AND 3734 3807 3808; G2 XOR 3808 3709 3809; G2 XOR 3579 3714 3810;
  G2 AND 3734 3810 3811; G2 XOR 3811 3714 3812; G2 XOR 3582 3719 3813; G2 AND 3734 3813 3814;
  G2 XOR 3814 3719 3815; G2 XOR 3585 3724 3816; G2 AND 3734 3816 3817; G2 XOR 3817 3724 3818;
  G2 XOR 3588 3729 3819; G2 AND 3734 3819 3820; G2 XOR 3820 3729 3821; G1 INV 3734 3822; G2 XOR 34 64 3823;
  G2 AND 3823 64 3824; G2 XOR 3737 65 3825; G2 XOR 3824 65 3826; G2 XOR 3825 3824 3827;
  G2 AND 3825 3826 3828; G2 XOR 3824 3828 3829; G2 XOR 3740 66 3830; G2 XOR 3829 66 3831;
  G2 XOR 3830 3829 3832; G2 AND 3830 3831 3833; G2 XOR 3829 3833 3834; G2 XOR 3743 67 3835;
  G2 XOR 3834 67 3836; G2 XOR 3835 3834 3837; G2 AND 3835 3836 3838; G2 XOR 3834 3838 3839;
  G2 XOR 3746 68 3840; G2 XOR 3839 68 3841; G2 XOR 3840 3839 3842; G2 AND 3840 3841 3843;
  G2 XOR 3839 3843 3844; G2 XOR 3749 69 3845; G2 XOR 3844 69 3846; G2 XOR 3845 3844 3847;
  G2 AND 3845 3846 3848; G2 XOR 3844 3848 3849; G2 XOR 3752 70 3850; G2 XOR 3849 70 3851;
  G2 XOR 3850 3849 3852; G2 AND 3850 3851 3853; G2 XOR 3849 3853 3854; G2 XOR 3755 71 3855;
  G2 XOR 3854 71 3856; G2 XOR 3855 3854 3857; G2 AND 3855 3856 3858; G2 XOR 3854 3858 3859;
  G2 XOR 3758 72 3860; G2 XOR 3859 72 3861; G2 XOR 3860 3859 3862; G2 AND 3860 3861 3863;
  G2 XOR 3859 3863 3864; G2 XOR 3761 73 3865; G2 XOR 3864 73 3866; G2 XOR 3865 3864 3867;
  G2 AND 3865 3866 3868; G2 XOR 3864 3868 3869; G2 XOR 3764 74 3870; G2 XOR 3869 74 3871;
  G2 XOR 3870 3869 3872; G2 AND 3870 3871 3873; G2 XOR 3869 3873 3874; G2 XOR 3767 75 3875;
  G2 XOR 3874 75 3876; G2 XOR 3875 3874 3877; G2 AND 3875 3876 3878; G2 XOR 3874 3878 3879;
  G2 XOR 3770 76 3880; G2 XOR 3879 76 3881; G2 XOR 3880 3879 3882; G2 AND 3880 3881 3883;
  G2 XOR 3879 3883 3884; G2 XOR 3773 77 3885; G2 XOR 3884 77 3886; G2 XOR 3885 3884 3887;
  G2 AND 3885 3886 3888; G2 XOR 3884 3888 3889; G2 XOR 3776 78 3890; G2 XOR 3889 78 3891;
  G2 XOR 3890 3889 3892; G2 AND 3890 3891 3893; G2 XOR 3889 3893 3894; G2 XOR 3779 79 3895;
  G2 XOR 3894 79 3896; G2 XOR 3895 3894 3897; G2 AND 3895 3896 3898; G2 XOR 3894 3898 3899;
  G2 XOR 3782 80 3900; G2 XOR 3899 80 3901; G2 XOR 3900 3899 3902; G2 AND 3900 3901 3903;
  G2 XOR 3899 3903 3904; G2 XOR 3785 81 3905; G2 XOR 3904 81 3906; G2 XOR 3905 3904 3907;
  G2 AND 3905 3906 3908; G2 XOR 3904 3908 3909; G2 XOR 3788 82 3910; G2 XOR 3909 82 3911;
  G2 XOR 3910 3909 3912; G2 AND 3910 3911 3913; G2 XOR 3909 3913 3914; G2 XOR 3791 83 3915;
  G2 XOR 3914 83 3916; G2 XOR 3915 3914 3917; G2 AND 3915 3916 3918; G2 XOR 3914 3918 3919;
  G2 XOR 3794 84 3920; G2 XOR 3919 84 3921; G2 XOR 3920 3919 3922; G2 AND 3920 3921 3923;
  G2 XOR 3919 3923 3924; G2 XOR 3797 85 3925; G2 XOR 3924 85 3926; G2 XOR 3925 3924 3927;
  G2 AND 3925 3926 3928; G2 XOR 3924 3928 3929; G2 XOR 3800 86 3930; G2 XOR 3929 86 3931;
  G2 XOR 3930 3929 3932; G2 AND 3930 3931 3933; G2 XOR 3929 3933 3934; G2 XOR 3803 87 3935;
  G2 XOR 3934 87 3936; G2 XOR 3935 3934 3937; G2 AND 3935 3936 3938; G2 XOR 3934 3938 3939;
  G2 XOR 3806 88 3940; G2 XOR 3939 88 3941; G2 XOR 3940 3939 3942; G2 AND 3940 3941 3943;
  G2 XOR 3939 3943 3944; G2 XOR 3809 89 3945; G2 XOR 3944 89 3946; G2 XOR 3945 3944 3947;
  G2 AND 3945 3946 3948; G2 XOR 3944 3948 3949; G2 XOR 3812 90 3950; G2 XOR 3949 90 3951;
  G2 XOR 3950 3949 3952; G2 AND 3950 3951 3953; G2 XOR 3949 3953 3954; G2 XOR 3815 91 3955;
  G2 XOR 3954 91 3956; G2 XOR 3955 3954 3957; G2 AND 3955 3956 3958; G2 XOR 3954 3958 3959;
  G2 XOR 3818 92 3960; G2 XOR 3959 92 3961; G2 XOR 3960 3959 3962; G2 AND 3960 3961 3963;
  G2 XOR 3959 3963 3964; G2 XOR 3821 93 3965; G2 XOR 3964 93 3966; G2 XOR 3965 3964 3967;
  G2 AND 3965 3966 3968; G2 XOR 3964 3968 3969; G2 AND 3969 226 3970; G2 XOR 3969 226 3971;
  G2 XOR 3971 3970 3972; G2 XOR 34 3823 3973; G2 AND 3972 3973 3974; G2 XOR 3974 3823 3975;
  G2 XOR 3737 3827 3976; G2 AND 3972 3976 3977; G2 XOR 3977 3827 3978; G2 XOR 3740 3832 3979;
  G2 AND 3972 3979 3980; G2 XOR 3980 3832 3981; G2 XOR 3743 3837 3982; G2 AND 3972 3982 3983;
  G2 XOR 3983 3837 3984; G2 XOR 3746 3842 3985; G2 AND 3972 3985 3986; G2 XOR 3986 3842 3987;
  G2 XOR 3749 3847 3988; G2 AND 3972 3988 3989; G2 XOR 3989 3847 3990; G2 XOR 3752 3852 3991;
  G2 AND 3972 3991 3992; G2 XOR 3992 3852 3993; G2 XOR 3755 3857 3994; G2 AND 3972 3994 3995;
  G2 XOR 3995 3857 3996; G2 XOR 3758 3862 3997; G2 AND 3972 3997 3998; G2 XOR 3998 3862 3999;
  G2 XOR 3761 3867 4000; G2 AND 3972 4000 4001; G2 XOR 4001 3867 4002; G2 XOR 3764 3872 4003;
  G2 AND 3972 4003 4004; G2 XOR 4004 3872 4005; G2 XOR 3767 3877 4006; G2 AND 3972 4006 4007;
  G2 XOR 4007 3877 4008; G2 XOR 3770 3882 4009; G2 AND 3972 4009 4010; G2 XOR 4010 3882 4011;
  G2 XOR 3773 3887 4012; G2 AND 3972 4012 4013; G2 XOR 4013 3887 4014; G2 XOR 3776 3892 4015;
  G2 AND 3972 4015 4016; G2 XOR 4016 3892 4017; G2 XOR 3779 3897 4018; G2 AND 3972 4018 4019;
  G2 XOR 4019 3897 4020; G2 XOR 3782 3902 4021; G2 AND 3972 4021 4022; G2 XOR 4022 3902 4023;
  G2 XOR 3785 3907 4024; G2 AND 3972 4024 4025; G2 XOR 4025 3907 4026; G2 XOR 3788 3912 4027;
  G2 AND 3972 4027 4028; G2 XOR 4028 3912 4029; G2 XOR 3791 3917 4030; G2 AND 3972 4030 4031;
  G2 XOR 4031 3917 4032; G2 XOR 3794 3922 4033; G2 AND 3972 4033 4034; G2 XOR 4034 3922 4035;
  G2 XOR 3797 3927 4036; G2 AND 3972 4036 4037; G2 XOR 4037 3927 4038; G2 XOR 3800 3932 4039;
  G2 AND 3972 4039 4040; G2 XOR 4040 3932 4041; G2 XOR 3803 3937 4042; G2 AND 3972 4042 4043;
  G2 XOR 4043 3937 4044; G2 XOR 3806 3942 4045; G2 AND 3972 4045 4046; G2 XOR 4046 3942 4047;
  G2 XOR 3809 3947 4048; G2 AND 3972 4048 4049; G2 XOR 4049 3947 4050; G2 XOR 3812 3952 4051;
  G2 AND 3972 4051 4052; G2 XOR 4052 3952 4053; G2 XOR 3815 3957 4054; G2 AND 3972 4054 4055;
  G2 XOR 4055 3957 4056; G2 XOR 3818 3962 4057; G2 AND 3972 4057 4058; G2 XOR 4058 3962 4059;
  G2 XOR 3821 3967 4060; G2 AND 3972 4060 4061; G2 XOR 4061 3967 4062; G1 INV 3972 4063; G2 XOR 33 64 4064;
  G2 AND 4064 64 4065; G2 XOR 3975 65 4066; G2 XOR 4065 65 4067; G2 XOR 4066 4065 4068;
  G2 AND 4066 4067 4069; G2 XOR 4065 4069 4070; G2 XOR 3978 66 4071; G2 XOR 4070 66 4072;
  G2 XOR 4071 4070 4073; G2 AND 4071 4072 4074; G2 XOR 4070 4074 4075; G2 XOR 3981 67 4076;
  G2 XOR 4075 67 4077; G2 XOR 4076 4075 4078; G2 AND 4076 4077 4079; G2 XOR 4075 4079 4080;
  G2 XOR 3984 68 4081; G2 XOR 4080 68 4082; G2 XOR 4081 4080 4083; G2 AND 4081 4082 4084;
  G2 XOR 4080 4084 4085; G2 XOR 3987 69 4086; G2 XOR 4085 69 4087; G2 XOR 4086 4085 4088;
  G2 AND 4086 4087 4089; G2 XOR 4085 4089 4090; G2 XOR 3990 70 4091; G2 XOR 4090 70 4092;
  G2 XOR 4091 4090 4093; G2 AND 4091 4092 4094; G2 XOR 4090 4094 4095; G2 XOR 3993 71 4096;
  G2 XOR 4095 71 4097; G2 XOR 4096 4095 4098; G2 AND 4096 4097 4099; G2 XOR 4095 4099 4100;
  G2 XOR 3996 72 4101; G2 XOR 4100 72 4102; G2 XOR 4101 4100 4103; G2 AND 4101 4102 4104;
  G2 XOR 4100 4104 4105; G2 XOR 3999 73 4106; G2 XOR 4105 73 4107; G2 XOR 4106 4105 4108;
  G2 AND 4106 4107 4109; G2 XOR 4105 4109 4110; G2 XOR 4002 74 4111; G2 XOR 4110 74 4112;
  G2 XOR 4111 4110 4113; G2 AND 4111 4112 4114; G2 XOR 4110 4114 4115; G2 XOR 4005 75 4116;
  G2 XOR 4115 75 4117; G2 XOR 4116 4115 4118; G2 AND 4116 4117 4119; G2 XOR 4115 4119 4120;
  G2 XOR 4008 76 4121; G2 XOR 4120 76 4122; G2 XOR 4121 4120 4123; G2 AND 4121 4122 4124;
  G2 XOR 4120 4124 4125; G2 XOR 4011 77 4126; G2 XOR 4125 77 4127; G2 XOR 4126 4125 4128;
  G2 AND 4126 4127 4129; G2 XOR 4125 4129 4130; G2 XOR 4014 78 4131; G2 XOR 4130 78 4132;
  G2 XOR 4131 4130 4133; G2 AND 4131 4132 4134; G2 XOR 4130 4134 4135; G2 XOR 4017 79 4136;
  G2 XOR 4135 79 4137; G2 XOR 4136 4135 4138; G2 AND 4136 4137 4139; G2 XOR 4135 4139 4140;
  G2 XOR 4020 80 4141; G2 XOR 4140 80 4142; G2 XOR 4141 4140 4143; G2 AND 4141 4142 4144;
  G2 XOR 4140 4144 4145; G2 XOR 4023 81 4146; G2 XOR 4145 81 4147; G2 XOR 4146 4145 4148;
  G2 AND 4146 4147 4149; G2 XOR 4145 4149 4150; G2 XOR 4026 82 4151; G2 XOR 4150 82 4152;
  G2 XOR 4151 4150 4153; G2 AND 4151 4152 4154; G2 XOR 4150 4154 4155; G2 XOR 4029 83 4156;
  G2 XOR 4155 83 4157; G2 XOR 4156 4155 4158; G2 AND 4156 4157 4159; G2 XOR 4155 4159 4160;
  G2 XOR 4032 84 4161; G2 XOR 4160 84 4162; G2 XOR 4161 4160 4163; G2 AND 4161 4162 4164;
  G2 XOR 4160 4164 4165; G2 XOR 4035 85 4166; G2 XOR 4165 85 4167; G2 XOR 4166 4165 4168;
  G2 AND 4166 4167 4169; G2 XOR 4165 4169 4170; G2 XOR 4038 86 4171; G2 XOR 4170 86 4172;
  G2 XOR 4171 4170 4173; G2 AND 4171 4172 4174; G2 XOR 4170 4174 4175; G2 XOR 4041 87 4176;
  G2 XOR 4175 87 4177; G2 XOR 4176 4175 4178; G2 AND 4176 4177 4179; G2 XOR 4175 4179 4180;
  G2 XOR 4044 88 4181; G2 XOR 4180 88 4182; G2 XOR 4181 4180 4183; G2 AND 4181 4182 4184;
  G2 XOR 4180 4184 4185; G2 XOR 4047 89 4186; G2 XOR 4185 89 4187; G2 XOR 4186 4185 4188;
  G2 AND 4186 4187 4189; G2 XOR 4185 4189 4190; G2 XOR 4050 90 4191; G2 XOR 4190 90 4192;
  G2 XOR 4191 4190 4193; G2 AND 4191 4192 4194; G2 XOR 4190 4194 4195; G2 XOR 4053 91 4196;
  G2 XOR 4195 91 4197; G2 XOR 4196 4195 4198; G2 AND 4196 4197 4199; G2 XOR 4195 4199 4200;
  G2 XOR 4056 92 4201; G2 XOR 4200 92 4202; G2 XOR 4201 4200 4203; G2 AND 4201 4202 4204;
  G2 XOR 4200 4204 4205; G2 XOR 4059 93 4206; G2 XOR 4205 93 4207; G2 XOR 4206 4205 4208;
  G2 AND 4206 4207 4209; G2 XOR 4205 4209 4210; G2 XOR 4062 94 4211; G2 XOR 4210 94 4212;
  G2 XOR 4211 4210 4213; G2 AND 4211 4212 4214; G2 XOR 4210 4214 4215; G2 AND 4215 223 4216;
  G2 XOR 4215 223 4217; G2 XOR 4217 4216 4218; G2 XOR 33 4064 4219; G2 AND 4218 4219 4220;
  G2 XOR 4220 4064 4221; G2 XOR 3975 4068 4222; G2 AND 4218 4222 4223; G2 XOR 4223 4068 4224;
  G2 XOR 3978 4073 4225; G2 AND 4218 4225 4226; G2 XOR 4226 4073 4227; G2 XOR 3981 4078 4228;
  G2 AND 4218 4228 4229; G2 XOR 4229 4078 4230; G2 XOR 3984 4083 4231; G2 AND 4218 4231 4232;
  G2 XOR 4232 4083 4233; G2 XOR 3987 4088 4234; G2 AND 4218 4234 4235; G2 XOR 4235 4088 4236;
  G2 XOR 3990 4093 4237; G2 AND 4218 4237 4238; G2 XOR 4238 4093 4239; G2 XOR 3993 4098 4240;
  G2 AND 4218 4240 4241; G2 XOR 4241 4098 4242; G2 XOR 3996 4103 4243; G2 AND 4218 4243 4244;
  G2 XOR 4244 4103 4245; G2 XOR 3999 4108 4246; G2 AND 4218 4246 4247; G2 XOR 4247 4108 4248;
  G2 XOR 4002 4113 4249; G2 AND 4218 4249 4250; G2 XOR 4250 4113 4251; G2 XOR 4005 4118 4252;
  G2 AND 4218 4252 4253; G2 XOR 4253 4118 4254; G2 XOR 4008 4123 4255; G2 AND 4218 4255 4256;
  G2 XOR 4256 4123 4257; G2 XOR 4011 4128 4258; G2 AND 4218 4258 4259; G2 XOR 4259 4128 4260;
  G2 XOR 4014 4133 4261; G2 AND 4218 4261 4262; G2 XOR 4262 4133 4263; G2 XOR 4017 4138 4264;
  G2 AND 4218 4264 4265; G2 XOR 4265 4138 4266; G2 XOR 4020 4143 4267; G2 AND 4218 4267 4268;
  G2 XOR 4268 4143 4269; G2 XOR 4023 4148 4270; G2 AND 4218 4270 4271; G2 XOR 4271 4148 4272;
  G2 XOR 4026 4153 4273; G2 AND 4218 4273 4274; G2 XOR 4274 4153 4275; G2 XOR 4029 4158 4276;
  G2 AND 4218 4276 4277; G2 XOR 4277 4158 4278; G2 XOR 4032 4163 4279; G2 AND 4218 4279 4280;
  G2 XOR 4280 4163 4281; G2 XOR 4035 4168 4282; G2 AND 4218 4282 4283; G2 XOR 4283 4168 4284;
  G2 XOR 4038 4173 4285; G2 AND 4218 4285 4286; G2 XOR 4286 4173 4287; G2 XOR 4041 4178 4288;
  G2 AND 4218 4288 4289; G2 XOR 4289 4178 4290; G2 XOR 4044 4183 4291; G2 AND 4218 4291 4292;
  G2 XOR 4292 4183 4293; G2 XOR 4047 4188 4294; G2 AND 4218 4294 4295; G2 XOR 4295 4188 4296;
  G2 XOR 4050 4193 4297; G2 AND 4218 4297 4298; G2 XOR 4298 4193 4299; G2 XOR 4053 4198 4300;
  G2 AND 4218 4300 4301; G2 XOR 4301 4198 4302; G2 XOR 4056 4203 4303; G2 AND 4218 4303 4304;
  G2 XOR 4304 4203 4305; G2 XOR 4059 4208 4306; G2 AND 4218 4306 4307; G2 XOR 4307 4208 4308;
  G2 XOR 4062 4213 4309; G2 AND 4218 4309 4310; G2 XOR 4310 4213 4311; G1 INV 4218 4312; G2 XOR 32 64 4313;
  G2 AND 4313 64 4314; G2 XOR 4221 65 4315; G2 XOR 4314 65 4316; G2 XOR 4315 4314 4317;
  G2 AND 4315 4316 4318; G2 XOR 4314 4318 4319; G2 XOR 4224 66 4320; G2 XOR 4319 66 4321;
  G2 XOR 4320 4319 4322; G2 AND 4320 4321 4323; G2 XOR 4319 4323 4324; G2 XOR 4227 67 4325;
  G2 XOR 4324 67 4326; G2 XOR 4325 4324 4327; G2 AND 4325 4326 4328; G2 XOR 4324 4328 4329;
  G2 XOR 4230 68 4330; G2 XOR 4329 68 4331; G2 XOR 4330 4329 4332; G2 AND 4330 4331 4333;
  G2 XOR 4329 4333 4334; G2 XOR 4233 69 4335; G2 XOR 4334 69 4336; G2 XOR 4335 4334 4337;
  G2 AND 4335 4336 4338; G2 XOR 4334 4338 4339; G2 XOR 4236 70 4340; G2 XOR 4339 70 4341;
  G2 XOR 4340 4339 4342; G2 AND 4340 4341 4343; G2 XOR 4339 4343 4344; G2 XOR 4239 71 4345;
  G2 XOR 4344 71 4346; G2 XOR 4345 4344 4347; G2 AND 4345 4346 4348; G2 XOR 4344 4348 4349;
  G2 XOR 4242 72 4350; G2 XOR 4349 72 4351; G2 XOR 4350 4349 4352; G2 AND 4350 4351 4353;
  G2 XOR 4349 4353 4354; G2 XOR 4245 73 4355; G2 XOR 4354 73 4356; G2 XOR 4355 4354 4357;
  G2 AND 4355 4356 4358; G2 XOR 4354 4358 4359; G2 XOR 4248 74 4360; G2 XOR 4359 74 4361;
  G2 XOR 4360 4359 4362; G2 AND 4360 4361 4363; G2 XOR 4359 4363 4364; G2 XOR 4251 75 4365;
  G2 XOR 4364 75 4366; G2 XOR 4365 4364 4367; G2 AND 4365 4366 4368; G2 XOR 4364 4368 4369;
  G2 XOR 4254 76 4370; G2 XOR 4369 76 4371; G2 XOR 4370 4369 4372; G2 AND 4370 4371 4373;
  G2 XOR 4369 4373 4374; G2 XOR 4257 77 4375; G2 XOR 4374 77 4376; G2 XOR 4375 4374 4377;
  G2 AND 4375 4376 4378; G2 XOR 4374 4378 4379; G2 XOR 4260 78 4380; G2 XOR 4379 78 4381;
  G2 XOR 4380 4379 4382; G2 AND 4380 4381 4383; G2 XOR 4379 4383 4384; G2 XOR 4263 79 4385;
  G2 XOR 4384 79 4386; G2 XOR 4385 4384 4387; G2 AND 4385 4386 4388; G2 XOR 4384 4388 4389;
  G2 XOR 4266 80 4390; G2 XOR 4389 80 4391; G2 XOR 4390 4389 4392; G2 AND 4390 4391 4393;
  G2 XOR 4389 4393 4394; G2 XOR 4269 81 4395; G2 XOR 4394 81 4396; G2 XOR 4395 4394 4397;
  G2 AND 4395 4396 4398; G2 XOR 4394 4398 4399; G2 XOR 4272 82 4400; G2 XOR 4399 82 4401;
  G2 XOR 4400 4399 4402; G2 AND 4400 4401 4403; G2 XOR 4399 4403 4404; G2 XOR 4275 83 4405;
  G2 XOR 4404 83 4406; G2 XOR 4405 4404 4407; G2 AND 4405 4406 4408; G2 XOR 4404 4408 4409;
  G2 XOR 4278 84 4410; G2 XOR 4409 84 4411; G2 XOR 4410 4409 4412; G2 AND 4410 4411 4413;
  G2 XOR 4409 4413 4414; G2 XOR 4281 85 4415; G2 XOR 4414 85 4416; G2 XOR 4415 4414 4417;
  G2 AND 4415 4416 4418; G2 XOR 4414 4418 4419; G2 XOR 4284 86 4420; G2 XOR 4419 86 4421;
  G2 XOR 4420 4419 4422; G2 AND 4420 4421 4423; G2 XOR 4419 4423 4424; G2 XOR 4287 87 4425;
  G2 XOR 4424 87 4426; G2 XOR 4425 4424 4427; G2 AND 4425 4426 4428; G2 XOR 4424 4428 4429;
  G2 XOR 4290 88 4430; G2 XOR 4429 88 4431; G2 XOR 4430 4429 4432; G2 AND 4430 4431 4433;
  G2 XOR 4429 4433 4434; G2 XOR 4293 89 4435; G2 XOR 4434 89 4436; G2 XOR 4435 4434 4437;
  G2 AND 4435 4436 4438; G2 XOR 4434 4438 4439; G2 XOR 4296 90 4440; G2 XOR 4439 90 4441;
  G2 XOR 4440 4439 4442; G2 AND 4440 4441 4443; G2 XOR 4439 4443 4444; G2 XOR 4299 91 4445;
  G2 XOR 4444 91 4446; G2 XOR 4445 4444 4447; G2 AND 4445 4446 4448; G2 XOR 4444 4448 4449;
  G2 XOR 4302 92 4450; G2 XOR 4449 92 4451; G2 XOR 4450 4449 4452; G2 AND 4450 4451 4453;
  G2 XOR 4449 4453 4454; G2 XOR 4305 93 4455; G2 XOR 4454 93 4456; G2 XOR 4455 4454 4457;
  G2 AND 4455 4456 4458; G2 XOR 4454 4458 4459; G2 XOR 4308 94 4460; G2 XOR 4459 94 4461;
  G2 XOR 4460 4459 4462; G2 AND 4460 4461 4463; G2 XOR 4459 4463 4464; G2 XOR 4311 95 4465;
  G2 XOR 4464 95 4466; G2 XOR 4465 4464 4467; G2 AND 4465 4466 4468; G2 XOR 4464 4468 4469;
  G2 AND 4469 220 4470; G2 XOR 4469 220 4471; G2 XOR 4471 4470 4472; G2 XOR 32 4313 4473;
  G2 AND 4472 4473 4474; G2 XOR 4474 4313 4475; G2 XOR 4221 4317 4476; G2 AND 4472 4476 4477;
  G2 XOR 4477 4317 4478; G2 XOR 4224 4322 4479; G2 AND 4472 4479 4480; G2 XOR 4480 4322 4481;
  G2 XOR 4227 4327 4482; G2 AND 4472 4482 4483; G2 XOR 4483 4327 4484; G2 XOR 4230 4332 4485;
  G2 AND 4472 4485 4486; G2 XOR 4486 4332 4487; G2 XOR 4233 4337 4488; G2 AND 4472 4488 4489;
  G2 XOR 4489 4337 4490; G2 XOR 4236 4342 4491; G2 AND 4472 4491 4492; G2 XOR 4492 4342 4493;
  G2 XOR 4239 4347 4494; G2 AND 4472 4494 4495; G2 XOR 4495 4347 4496; G2 XOR 4242 4352 4497;
  G2 AND 4472 4497 4498; G2 XOR 4498 4352 4499; G2 XOR 4245 4357 4500; G2 AND 4472 4500 4501;
  G2 XOR 4501 4357 4502; G2 XOR 4248 4362 4503; G2 AND 4472 4503 4504; G2 XOR 4504 4362 4505;
  G2 XOR 4251 4367 4506; G2 AND 4472 4506 4507; G2 XOR 4507 4367 4508; G2 XOR 4254 4372 4509;
  G2 AND 4472 4509 4510; G2 XOR 4510 4372 4511; G2 XOR 4257 4377 4512; G2 AND 4472 4512 4513;
  G2 XOR 4513 4377 4514; G2 XOR 4260 4382 4515; G2 AND 4472 4515 4516; G2 XOR 4516 4382 4517;
  G2 XOR 4263 4387 4518; G2 AND 4472 4518 4519; G2 XOR 4519 4387 4520; G2 XOR 4266 4392 4521;
  G2 AND 4472 4521 4522; G2 XOR 4522 4392 4523; G2 XOR 4269 4397 4524; G2 AND 4472 4524 4525;
  G2 XOR 4525 4397 4526; G2 XOR 4272 4402 4527; G2 AND 4472 4527 4528; G2 XOR 4528 4402 4529;
  G2 XOR 4275 4407 4530; G2 AND 4472 4530 4531; G2 XOR 4531 4407 4532; G2 XOR 4278 4412 4533;
  G2 AND 4472 4533 4534; G2 XOR 4534 4412 4535; G2 XOR 4281 4417 4536; G2 AND 4472 4536 4537;
  G2 XOR 4537 4417 4538; G2 XOR 4284 4422 4539; G2 AND 4472 4539 4540; G2 XOR 4540 4422 4541;
  G2 XOR 4287 4427 4542; G2 AND 4472 4542 4543; G2 XOR 4543 4427 4544; G2 XOR 4290 4432 4545;
  G2 AND 4472 4545 4546; G2 XOR 4546 4432 4547; G2 XOR 4293 4437 4548; G2 AND 4472 4548 4549;
  G2 XOR 4549 4437 4550; G2 XOR 4296 4442 4551; G2 AND 4472 4551 4552; G2 XOR 4552 4442 4553;
  G2 XOR 4299 4447 4554; G2 AND 4472 4554 4555; G2 XOR 4555 4447 4556; G2 XOR 4302 4452 4557;
  G2 AND 4472 4557 4558; G2 XOR 4558 4452 4559; G2 XOR 4305 4457 4560; G2 AND 4472 4560 4561;
  G2 XOR 4561 4457 4562; G2 XOR 4308 4462 4563; G2 AND 4472 4563 4564; G2 XOR 4564 4462 4565;
  G2 XOR 4311 4467 4566; G2 AND 4472 4566 4567; G2 XOR 4567 4467 4568; G1 INV 4472 4569; G2 XOR 31 64 4570;
  G2 AND 4570 64 4571; G2 XOR 4475 65 4572; G2 XOR 4571 65 4573; G2 XOR 4572 4571 4574;
  G2 AND 4572 4573 4575; G2 XOR 4571 4575 4576; G2 XOR 4478 66 4577; G2 XOR 4576 66 4578;
  G2 XOR 4577 4576 4579; G2 AND 4577 4578 4580; G2 XOR 4576 4580 4581; G2 XOR 4481 67 4582;
  G2 XOR 4581 67 4583; G2 XOR 4582 4581 4584; G2 AND 4582 4583 4585; G2 XOR 4581 4585 4586;
  G2 XOR 4484 68 4587; G2 XOR 4586 68 4588; G2 XOR 4587 4586 4589; G2 AND 4587 4588 4590;
  G2 XOR 4586 4590 4591; G2 XOR 4487 69 4592; G2 XOR 4591 69 4593; G2 XOR 4592 4591 4594;
  G2 AND 4592 4593 4595; G2 XOR 4591 4595 4596; G2 XOR 4490 70 4597; G2 XOR 4596 70 4598;
  G2 XOR 4597 4596 4599; G2 AND 4597 4598 4600; G2 XOR 4596 4600 4601; G2 XOR 4493 71 4602;
  G2 XOR 4601 71 4603; G2 XOR 4602 4601 4604; G2 AND 4602 4603 4605; G2 XOR 4601 4605 4606;
  G2 XOR 4496 72 4607; G2 XOR 4606 72 4608; G2 XOR 4607 4606 4609; G2 AND 4607 4608 4610;
  G2 XOR 4606 4610 4611; G2 XOR 4499 73 4612; G2 XOR 4611 73 4613; G2 XOR 4612 4611 4614;
  G2 AND 4612 4613 4615; G2 XOR 4611 4615 4616; G2 XOR 4502 74 4617; G2 XOR 4616 74 4618;
  G2 XOR 4617 4616 4619; G2 AND 4617 4618 4620; G2 XOR 4616 4620 4621; G2 XOR 4505 75 4622;
  G2 XOR 4621 75 4623; G2 XOR 4622 4621 4624; G2 AND 4622 4623 4625; G2 XOR 4621 4625 4626;
  G2 XOR 4508 76 4627; G2 XOR 4626 76 4628; G2 XOR 4627 4626 4629; G2 AND 4627 4628 4630;
  G2 XOR 4626 4630 4631; G2 XOR 4511 77 4632; G2 XOR 4631 77 4633; G2 XOR 4632 4631 4634;
  G2 AND 4632 4633 4635; G2 XOR 4631 4635 4636; G2 XOR 4514 78 4637; G2 XOR 4636 78 4638;
  G2 XOR 4637 4636 4639; G2 AND 4637 4638 4640; G2 XOR 4636 4640 4641; G2 XOR 4517 79 4642;
  G2 XOR 4641 79 4643; G2 XOR 4642 4641 4644; G2 AND 4642 4643 4645; G2 XOR 4641 4645 4646;
  G2 XOR 4520 80 4647; G2 XOR 4646 80 4648; G2 XOR 4647 4646 4649; G2 AND 4647 4648 4650;
  G2 XOR 4646 4650 4651; G2 XOR 4523 81 4652; G2 XOR 4651 81 4653; G2 XOR 4652 4651 4654;
  G2 AND 4652 4653 4655; G2 XOR 4651 4655 4656; G2 XOR 4526 82 4657; G2 XOR 4656 82 4658;
  G2 XOR 4657 4656 4659; G2 AND 4657 4658 4660; G2 XOR 4656 4660 4661; G2 XOR 4529 83 4662;
  G2 XOR 4661 83 4663; G2 XOR 4662 4661 4664; G2 AND 4662 4663 4665; G2 XOR 4661 4665 4666;
  G2 XOR 4532 84 4667; G2 XOR 4666 84 4668; G2 XOR 4667 4666 4669; G2 AND 4667 4668 4670;
  G2 XOR 4666 4670 4671; G2 XOR 4535 85 4672; G2 XOR 4671 85 4673; G2 XOR 4672 4671 4674;
  G2 AND 4672 4673 4675; G2 XOR 4671 4675 4676; G2 XOR 4538 86 4677; G2 XOR 4676 86 4678;
  G2 XOR 4677 4676 4679; G2 AND 4677 4678 4680; G2 XOR 4676 4680 4681; G2 XOR 4541 87 4682;
  G2 XOR 4681 87 4683; G2 XOR 4682 4681 4684; G2 AND 4682 4683 4685; G2 XOR 4681 4685 4686;
  G2 XOR 4544 88 4687; G2 XOR 4686 88 4688; G2 XOR 4687 4686 4689; G2 AND 4687 4688 4690;
  G2 XOR 4686 4690 4691; G2 XOR 4547 89 4692; G2 XOR 4691 89 4693; G2 XOR 4692 4691 4694;
  G2 AND 4692 4693 4695; G2 XOR 4691 4695 4696; G2 XOR 4550 90 4697; G2 XOR 4696 90 4698;
  G2 XOR 4697 4696 4699; G2 AND 4697 4698 4700; G2 XOR 4696 4700 4701; G2 XOR 4553 91 4702;
  G2 XOR 4701 91 4703; G2 XOR 4702 4701 4704; G2 AND 4702 4703 4705; G2 XOR 4701 4705 4706;
  G2 XOR 4556 92 4707; G2 XOR 4706 92 4708; G2 XOR 4707 4706 4709; G2 AND 4707 4708 4710;
  G2 XOR 4706 4710 4711; G2 XOR 4559 93 4712; G2 XOR 4711 93 4713; G2 XOR 4712 4711 4714;
  G2 AND 4712 4713 4715; G2 XOR 4711 4715 4716; G2 XOR 4562 94 4717; G2 XOR 4716 94 4718;
  G2 XOR 4717 4716 4719; G2 AND 4717 4718 4720; G2 XOR 4716 4720 4721; G2 XOR 4565 95 4722;
  G2 XOR 4721 95 4723; G2 XOR 4722 4721 4724; G2 AND 4722 4723 4725; G2 XOR 4721 4725 4726;
  G2 XOR 4568 96 4727; G2 XOR 4726 96 4728; G2 XOR 4727 4726 4729; G2 AND 4727 4728 4730;
  G2 XOR 4726 4730 4731; G2 AND 4731 217 4732; G2 XOR 4731 217 4733; G2 XOR 4733 4732 4734;
  G2 XOR 31 4570 4735; G2 AND 4734 4735 4736; G2 XOR 4736 4570 4737; G2 XOR 4475 4574 4738;
  G2 AND 4734 4738 4739; G2 XOR 4739 4574 4740; G2 XOR 4478 4579 4741; G2 AND 4734 4741 4742;
  G2 XOR 4742 4579 4743; G2 XOR 4481 4584 4744; G2 AND 4734 4744 4745; G2 XOR 4745 4584 4746;
  G2 XOR 4484 4589 4747; G2 AND 4734 4747 4748; G2 XOR 4748 4589 4749; G2 XOR 4487 4594 4750;
  G2 AND 4734 4750 4751; G2 XOR 4751 4594 4752; G2 XOR 4490 4599 4753; G2 AND 4734 4753 4754;
  G2 XOR 4754 4599 4755; G2 XOR 4493 4604 4756; G2 AND 4734 4756 4757; G2 XOR 4757 4604 4758;
  G2 XOR 4496 4609 4759; G2 AND 4734 4759 4760; G2 XOR 4760 4609 4761; G2 XOR 4499 4614 4762;
  G2 AND 4734 4762 4763; G2 XOR 4763 4614 4764; G2 XOR 4502 4619 4765; G2 AND 4734 4765 4766;
  G2 XOR 4766 4619 4767; G2 XOR 4505 4624 4768; G2 AND 4734 4768 4769; G2 XOR 4769 4624 4770;
  G2 XOR 4508 4629 4771; G2 AND 4734 4771 4772; G2 XOR 4772 4629 4773; G2 XOR 4511 4634 4774;
  G2 AND 4734 4774 4775; G2 XOR 4775 4634 4776; G2 XOR 4514 4639 4777; G2 AND 4734 4777 4778;
  G2 XOR 4778 4639 4779; G2 XOR 4517 4644 4780; G2 AND 4734 4780 4781; G2 XOR 4781 4644 4782;
  G2 XOR 4520 4649 4783; G2 AND 4734 4783 4784; G2 XOR 4784 4649 4785; G2 XOR 4523 4654 4786;
  G2 AND 4734 4786 4787; G2 XOR 4787 4654 4788; G2 XOR 4526 4659 4789; G2 AND 4734 4789 4790;
  G2 XOR 4790 4659 4791; G2 XOR 4529 4664 4792; G2 AND 4734 4792 4793; G2 XOR 4793 4664 4794;
  G2 XOR 4532 4669 4795; G2 AND 4734 4795 4796; G2 XOR 4796 4669 4797; G2 XOR 4535 4674 4798;
  G2 AND 4734 4798 4799; G2 XOR 4799 4674 4800; G2 XOR 4538 4679 4801; G2 AND 4734 4801 4802;
  G2 XOR 4802 4679 4803; G2 XOR 4541 4684 4804; G2 AND 4734 4804 4805; G2 XOR 4805 4684 4806;
  G2 XOR 4544 4689 4807; G2 AND 4734 4807 4808; G2 XOR 4808 4689 4809; G2 XOR 4547 4694 4810;
  G2 AND 4734 4810 4811; G2 XOR 4811 4694 4812; G2 XOR 4550 4699 4813; G2 AND 4734 4813 4814;
  G2 XOR 4814 4699 4815; G2 XOR 4553 4704 4816; G2 AND 4734 4816 4817; G2 XOR 4817 4704 4818;
  G2 XOR 4556 4709 4819; G2 AND 4734 4819 4820; G2 XOR 4820 4709 4821; G2 XOR 4559 4714 4822;
  G2 AND 4734 4822 4823; G2 XOR 4823 4714 4824; G2 XOR 4562 4719 4825; G2 AND 4734 4825 4826;
  G2 XOR 4826 4719 4827; G2 XOR 4565 4724 4828; G2 AND 4734 4828 4829; G2 XOR 4829 4724 4830;
  G2 XOR 4568 4729 4831; G2 AND 4734 4831 4832; G2 XOR 4832 4729 4833; G1 INV 4734 4834; G2 XOR 30 64 4835;
  G2 AND 4835 64 4836; G2 XOR 4737 65 4837; G2 XOR 4836 65 4838; G2 XOR 4837 4836 4839;
  G2 AND 4837 4838 4840; G2 XOR 4836 4840 4841; G2 XOR 4740 66 4842; G2 XOR 4841 66 4843;
  G2 XOR 4842 4841 4844; G2 AND 4842 4843 4845; G2 XOR 4841 4845 4846; G2 XOR 4743 67 4847;
  G2 XOR 4846 67 4848; G2 XOR 4847 4846 4849; G2 AND 4847 4848 4850; G2 XOR 4846 4850 4851;
  G2 XOR 4746 68 4852; G2 XOR 4851 68 4853; G2 XOR 4852 4851 4854; G2 AND 4852 4853 4855;
  G2 XOR 4851 4855 4856; G2 XOR 4749 69 4857; G2 XOR 4856 69 4858; G2 XOR 4857 4856 4859;
  G2 AND 4857 4858 4860; G2 XOR 4856 4860 4861; G2 XOR 4752 70 4862; G2 XOR 4861 70 4863;
  G2 XOR 4862 4861 4864; G2 AND 4862 4863 4865; G2 XOR 4861 4865 4866; G2 XOR 4755 71 4867;
  G2 XOR 4866 71 4868; G2 XOR 4867 4866 4869; G2 AND 4867 4868 4870; G2 XOR 4866 4870 4871;
  G2 XOR 4758 72 4872; G2 XOR 4871 72 4873; G2 XOR 4872 4871 4874; G2 AND 4872 4873 4875;
  G2 XOR 4871 4875 4876; G2 XOR 4761 73 4877; G2 XOR 4876 73 4878; G2 XOR 4877 4876 4879;
  G2 AND 4877 4878 4880; G2 XOR 4876 4880 4881; G2 XOR 4764 74 4882; G2 XOR 4881 74 4883;
  G2 XOR 4882 4881 4884; G2 AND 4882 4883 4885; G2 XOR 4881 4885 4886; G2 XOR 4767 75 4887;
  G2 XOR 4886 75 4888; G2 XOR 4887 4886 4889; G2 AND 4887 4888 4890; G2 XOR 4886 4890 4891;
  G2 XOR 4770 76 4892; G2 XOR 4891 76 4893; G2 XOR 4892 4891 4894; G2 AND 4892 4893 4895;
  G2 XOR 4891 4895 4896; G2 XOR 4773 77 4897; G2 XOR 4896 77 4898; G2 XOR 4897 4896 4899;
  G2 AND 4897 4898 4900; G2 XOR 4896 4900 4901; G2 XOR 4776 78 4902; G2 XOR 4901 78 4903;
  G2 XOR 4902 4901 4904; G2 AND 4902 4903 4905; G2 XOR 4901 4905 4906; G2 XOR 4779 79 4907;
  G2 XOR 4906 79 4908; G2 XOR 4907 4906 4909; G2 AND 4907 4908 4910; G2 XOR 4906 4910 4911;
  G2 XOR 4782 80 4912; G2 XOR 4911 80 4913; G2 XOR 4912 4911 4914; G2 AND 4912 4913 4915;
  G2 XOR 4911 4915 4916; G2 XOR 4785 81 4917; G2 XOR 4916 81 4918; G2 XOR 4917 4916 4919;
  G2 AND 4917 4918 4920; G2 XOR 4916 4920 4921; G2 XOR 4788 82 4922; G2 XOR 4921 82 4923;
  G2 XOR 4922 4921 4924; G2 AND 4922 4923 4925; G2 XOR 4921 4925 4926; G2 XOR 4791 83 4927;
  G2 XOR 4926 83 4928; G2 XOR 4927 4926 4929; G2 AND 4927 4928 4930; G2 XOR 4926 4930 4931;
  G2 XOR 4794 84 4932; G2 XOR 4931 84 4933; G2 XOR 4932 4931 4934; G2 AND 4932 4933 4935;
  G2 XOR 4931 4935 4936; G2 XOR 4797 85 4937; G2 XOR 4936 85 4938; G2 XOR 4937 4936 4939;
  G2 AND 4937 4938 4940; G2 XOR 4936 4940 4941; G2 XOR 4800 86 4942; G2 XOR 4941 86 4943;
  G2 XOR 4942 4941 4944; G2 AND 4942 4943 4945; G2 XOR 4941 4945 4946; G2 XOR 4803 87 4947;
  G2 XOR 4946 87 4948; G2 XOR 4947 4946 4949; G2 AND 4947 4948 4950; G2 XOR 4946 4950 4951;
  G2 XOR 4806 88 4952; G2 XOR 4951 88 4953; G2 XOR 4952 4951 4954; G2 AND 4952 4953 4955;
  G2 XOR 4951 4955 4956; G2 XOR 4809 89 4957; G2 XOR 4956 89 4958; G2 XOR 4957 4956 4959;
  G2 AND 4957 4958 4960; G2 XOR 4956 4960 4961; G2 XOR 4812 90 4962; G2 XOR 4961 90 4963;
  G2 XOR 4962 4961 4964; G2 AND 4962 4963 4965; G2 XOR 4961 4965 4966; G2 XOR 4815 91 4967;
  G2 XOR 4966 91 4968; G2 XOR 4967 4966 4969; G2 AND 4967 4968 4970; G2 XOR 4966 4970 4971;
  G2 XOR 4818 92 4972; G2 XOR 4971 92 4973; G2 XOR 4972 4971 4974; G2 AND 4972 4973 4975;
  G2 XOR 4971 4975 4976; G2 XOR 4821 93 4977; G2 XOR 4976 93 4978; G2 XOR 4977 4976 4979;
  G2 AND 4977 4978 4980; G2 XOR 4976 4980 4981; G2 XOR 4824 94 4982; G2 XOR 4981 94 4983;
  G2 XOR 4982 4981 4984; G2 AND 4982 4983 4985; G2 XOR 4981 4985 4986; G2 XOR 4827 95 4987;
  G2 XOR 4986 95 4988; G2 XOR 4987 4986 4989; G2 AND 4987 4988 4990; G2 XOR 4986 4990 4991;
  G2 XOR 4830 96 4992; G2 XOR 4991 96 4993; G2 XOR 4992 4991 4994; G2 AND 4992 4993 4995;
  G2 XOR 4991 4995 4996; G2 XOR 4833 97 4997; G2 XOR 4996 97 4998; G2 XOR 4997 4996 4999;
  G2 AND 4997 4998 5000; G2 XOR 4996 5000 5001; G2 AND 5001 214 5002; G2 XOR 5001 214 5003;
  G2 XOR 5003 5002 5004; G2 XOR 30 4835 5005; G2 AND 5004 5005 5006; G2 XOR 5006 4835 5007;
  G2 XOR 4737 4839 5008; G2 AND 5004 5008 5009; G2 XOR 5009 4839 5010; G2 XOR 4740 4844 5011;
  G2 AND 5004 5011 5012; G2 XOR 5012 4844 5013; G2 XOR 4743 4849 5014; G2 AND 5004 5014 5015;
  G2 XOR 5015 4849 5016; G2 XOR 4746 4854 5017; G2 AND 5004 5017 5018; G2 XOR 5018 4854 5019;
  G2 XOR 4749 4859 5020; G2 AND 5004 5020 5021; G2 XOR 5021 4859 5022; G2 XOR 4752 4864 5023;
  G2 AND 5004 5023 5024; G2 XOR 5024 4864 5025; G2 XOR 4755 4869 5026; G2 AND 5004 5026 5027;
  G2 XOR 5027 4869 5028; G2 XOR 4758 4874 5029; G2 AND 5004 5029 5030; G2 XOR 5030 4874 5031;
  G2 XOR 4761 4879 5032; G2 AND 5004 5032 5033; G2 XOR 5033 4879 5034; G2 XOR 4764 4884 5035;
  G2 AND 5004 5035 5036; G2 XOR 5036 4884 5037; G2 XOR 4767 4889 5038; G2 AND 5004 5038 5039;
  G2 XOR 5039 4889 5040; G2 XOR 4770 4894 5041; G2 AND 5004 5041 5042; G2 XOR 5042 4894 5043;
  G2 XOR 4773 4899 5044; G2 AND 5004 5044 5045; G2 XOR 5045 4899 5046; G2 XOR 4776 4904 5047;
  G2 AND 5004 5047 5048; G2 XOR 5048 4904 5049; G2 XOR 4779 4909 5050; G2 AND 5004 5050 5051;
  G2 XOR 5051 4909 5052; G2 XOR 4782 4914 5053; G2 AND 5004 5053 5054; G2 XOR 5054 4914 5055;
  G2 XOR 4785 4919 5056; G2 AND 5004 5056 5057; G2 XOR 5057 4919 5058; G2 XOR 4788 4924 5059;
  G2 AND 5004 5059 5060; G2 XOR 5060 4924 5061; G2 XOR 4791 4929 5062; G2 AND 5004 5062 5063;
  G2 XOR 5063 4929 5064; G2 XOR 4794 4934 5065; G2 AND 5004 5065 5066; G2 XOR 5066 4934 5067;
  G2 XOR 4797 4939 5068; G2 AND 5004 5068 5069; G2 XOR 5069 4939 5070; G2 XOR 4800 4944 5071;
  G2 AND 5004 5071 5072; G2 XOR 5072 4944 5073; G2 XOR 4803 4949 5074; G2 AND 5004 5074 5075;
  G2 XOR 5075 4949 5076; G2 XOR 4806 4954 5077; G2 AND 5004 5077 5078; G2 XOR 5078 4954 5079;
  G2 XOR 4809 4959 5080; G2 AND 5004 5080 5081; G2 XOR 5081 4959 5082; G2 XOR 4812 4964 5083;
  G2 AND 5004 5083 5084; G2 XOR 5084 4964 5085; G2 XOR 4815 4969 5086; G2 AND 5004 5086 5087;
  G2 XOR 5087 4969 5088; G2 XOR 4818 4974 5089; G2 AND 5004 5089 5090; G2 XOR 5090 4974 5091;
  G2 XOR 4821 4979 5092; G2 AND 5004 5092 5093; G2 XOR 5093 4979 5094; G2 XOR 4824 4984 5095;
  G2 AND 5004 5095 5096; G2 XOR 5096 4984 5097; G2 XOR 4827 4989 5098; G2 AND 5004 5098 5099;
  G2 XOR 5099 4989 5100; G2 XOR 4830 4994 5101; G2 AND 5004 5101 5102; G2 XOR 5102 4994 5103;
  G2 XOR 4833 4999 5104; G2 AND 5004 5104 5105; G2 XOR 5105 4999 5106; G1 INV 5004 5107; G2 XOR 29 64 5108;
  G2 AND 5108 64 5109; G2 XOR 5007 65 5110; G2 XOR 5109 65 5111; G2 XOR 5110 5109 5112;
  G2 AND 5110 5111 5113; G2 XOR 5109 5113 5114; G2 XOR 5010 66 5115; G2 XOR 5114 66 5116;
  G2 XOR 5115 5114 5117; G2 AND 5115 5116 5118; G2 XOR 5114 5118 5119; G2 XOR 5013 67 5120;
  G2 XOR 5119 67 5121; G2 XOR 5120 5119 5122; G2 AND 5120 5121 5123; G2 XOR 5119 5123 5124;
  G2 XOR 5016 68 5125; G2 XOR 5124 68 5126; G2 XOR 5125 5124 5127; G2 AND 5125 5126 5128;
  G2 XOR 5124 5128 5129; G2 XOR 5019 69 5130; G2 XOR 5129 69 5131; G2 XOR 5130 5129 5132;
  G2 AND 5130 5131 5133; G2 XOR 5129 5133 5134; G2 XOR 5022 70 5135; G2 XOR 5134 70 5136;
  G2 XOR 5135 5134 5137; G2 AND 5135 5136 5138; G2 XOR 5134 5138 5139; G2 XOR 5025 71 5140;
  G2 XOR 5139 71 5141; G2 XOR 5140 5139 5142; G2 AND 5140 5141 5143; G2 XOR 5139 5143 5144;
  G2 XOR 5028 72 5145; G2 XOR 5144 72 5146; G2 XOR 5145 5144 5147; G2 AND 5145 5146 5148;
  G2 XOR 5144 5148 5149; G2 XOR 5031 73 5150; G2 XOR 5149 73 5151; G2 XOR 5150 5149 5152;
  G2 AND 5150 5151 5153; G2 XOR 5149 5153 5154; G2 XOR 5034 74 5155; G2 XOR 5154 74 5156;
  G2 XOR 5155 5154 5157; G2 AND 5155 5156 5158; G2 XOR 5154 5158 5159; G2 XOR 5037 75 5160;
  G2 XOR 5159 75 5161; G2 XOR 5160 5159 5162; G2 AND 5160 5161 5163; G2 XOR 5159 5163 5164;
  G2 XOR 5040 76 5165; G2 XOR 5164 76 5166; G2 XOR 5165 5164 5167; G2 AND 5165 5166 5168;
  G2 XOR 5164 5168 5169; G2 XOR 5043 77 5170; G2 XOR 5169 77 5171; G2 XOR 5170 5169 5172;
  G2 AND 5170 5171 5173; G2 XOR 5169 5173 5174; G2 XOR 5046 78 5175; G2 XOR 5174 78 5176;
  G2 XOR 5175 5174 5177; G2 AND 5175 5176 5178; G2 XOR 5174 5178 5179; G2 XOR 5049 79 5180;
  G2 XOR 5179 79 5181; G2 XOR 5180 5179 5182; G2 AND 5180 5181 5183; G2 XOR 5179 5183 5184;
  G2 XOR 5052 80 5185; G2 XOR 5184 80 5186; G2 XOR 5185 5184 5187; G2 AND 5185 5186 5188;
  G2 XOR 5184 5188 5189; G2 XOR 5055 81 5190; G2 XOR 5189 81 5191; G2 XOR 5190 5189 5192;
  G2 AND 5190 5191 5193; G2 XOR 5189 5193 5194; G2 XOR 5058 82 5195; G2 XOR 5194 82 5196;
  G2 XOR 5195 5194 5197; G2 AND 5195 5196 5198; G2 XOR 5194 5198 5199; G2 XOR 5061 83 5200;
  G2 XOR 5199 83 5201; G2 XOR 5200 5199 5202; G2 AND 5200 5201 5203; G2 XOR 5199 5203 5204;
  G2 XOR 5064 84 5205; G2 XOR 5204 84 5206; G2 XOR 5205 5204 5207; G2 AND 5205 5206 5208;
  G2 XOR 5204 5208 5209; G2 XOR 5067 85 5210; G2 XOR 5209 85 5211; G2 XOR 5210 5209 5212;
  G2 AND 5210 5211 5213; G2 XOR 5209 5213 5214; G2 XOR 5070 86 5215; G2 XOR 5214 86 5216;
  G2 XOR 5215 5214 5217; G2 AND 5215 5216 5218; G2 XOR 5214 5218 5219; G2 XOR 5073 87 5220;
  G2 XOR 5219 87 5221; G2 XOR 5220 5219 5222; G2 AND 5220 5221 5223; G2 XOR 5219 5223 5224;
  G2 XOR 5076 88 5225; G2 XOR 5224 88 5226; G2 XOR 5225 5224 5227; G2 AND 5225 5226 5228;
  G2 XOR 5224 5228 5229; G2 XOR 5079 89 5230; G2 XOR 5229 89 5231; G2 XOR 5230 5229 5232;
  G2 AND 5230 5231 5233; G2 XOR 5229 5233 5234; G2 XOR 5082 90 5235; G2 XOR 5234 90 5236;
  G2 XOR 5235 5234 5237; G2 AND 5235 5236 5238; G2 XOR 5234 5238 5239; G2 XOR 5085 91 5240;
  G2 XOR 5239 91 5241; G2 XOR 5240 5239 5242; G2 AND 5240 5241 5243; G2 XOR 5239 5243 5244;
  G2 XOR 5088 92 5245; G2 XOR 5244 92 5246; G2 XOR 5245 5244 5247; G2 AND 5245 5246 5248;
  G2 XOR 5244 5248 5249; G2 XOR 5091 93 5250; G2 XOR 5249 93 5251; G2 XOR 5250 5249 5252;
  G2 AND 5250 5251 5253; G2 XOR 5249 5253 5254; G2 XOR 5094 94 5255; G2 XOR 5254 94 5256;
  G2 XOR 5255 5254 5257; G2 AND 5255 5256 5258; G2 XOR 5254 5258 5259; G2 XOR 5097 95 5260;
  G2 XOR 5259 95 5261; G2 XOR 5260 5259 5262; G2 AND 5260 5261 5263; G2 XOR 5259 5263 5264;
  G2 XOR 5100 96 5265; G2 XOR 5264 96 5266; G2 XOR 5265 5264 5267; G2 AND 5265 5266 5268;
  G2 XOR 5264 5268 5269; G2 XOR 5103 97 5270; G2 XOR 5269 97 5271; G2 XOR 5270 5269 5272;
  G2 AND 5270 5271 5273; G2 XOR 5269 5273 5274; G2 XOR 5106 98 5275; G2 XOR 5274 98 5276;
  G2 XOR 5275 5274 5277; G2 AND 5275 5276 5278; G2 XOR 5274 5278 5279; G2 AND 5279 211 5280;
  G2 XOR 5279 211 5281; G2 XOR 5281 5280 5282; G2 XOR 29 5108 5283; G2 AND 5282 5283 5284;
  G2 XOR 5284 5108 5285; G2 XOR 5007 5112 5286; G2 AND 5282 5286 5287; G2 XOR 5287 5112 5288;
  G2 XOR 5010 5117 5289; G2 AND 5282 5289 5290; G2 XOR 5290 5117 5291; G2 XOR 5013 5122 5292;
  G2 AND 5282 5292 5293; G2 XOR 5293 5122 5294; G2 XOR 5016 5127 5295; G2 AND 5282 5295 5296;
  G2 XOR 5296 5127 5297; G2 XOR 5019 5132 5298; G2 AND 5282 5298 5299; G2 XOR 5299 5132 5300;
  G2 XOR 5022 5137 5301; G2 AND 5282 5301 5302; G2 XOR 5302 5137 5303; G2 XOR 5025 5142 5304;
  G2 AND 5282 5304 5305; G2 XOR 5305 5142 5306; G2 XOR 5028 5147 5307; G2 AND 5282 5307 5308;
  G2 XOR 5308 5147 5309; G2 XOR 5031 5152 5310; G2 AND 5282 5310 5311; G2 XOR 5311 5152 5312;
  G2 XOR 5034 5157 5313; G2 AND 5282 5313 5314; G2 XOR 5314 5157 5315; G2 XOR 5037 5162 5316;
  G2 AND 5282 5316 5317; G2 XOR 5317 5162 5318; G2 XOR 5040 5167 5319; G2 AND 5282 5319 5320;
  G2 XOR 5320 5167 5321; G2 XOR 5043 5172 5322; G2 AND 5282 5322 5323; G2 XOR 5323 5172 5324;
  G2 XOR 5046 5177 5325; G2 AND 5282 5325 5326; G2 XOR 5326 5177 5327; G2 XOR 5049 5182 5328;
  G2 AND 5282 5328 5329; G2 XOR 5329 5182 5330; G2 XOR 5052 5187 5331; G2 AND 5282 5331 5332;
  G2 XOR 5332 5187 5333; G2 XOR 5055 5192 5334; G2 AND 5282 5334 5335; G2 XOR 5335 5192 5336;
  G2 XOR 5058 5197 5337; G2 AND 5282 5337 5338; G2 XOR 5338 5197 5339; G2 XOR 5061 5202 5340;
  G2 AND 5282 5340 5341; G2 XOR 5341 5202 5342; G2 XOR 5064 5207 5343; G2 AND 5282 5343 5344;
  G2 XOR 5344 5207 5345; G2 XOR 5067 5212 5346; G2 AND 5282 5346 5347; G2 XOR 5347 5212 5348;
  G2 XOR 5070 5217 5349; G2 AND 5282 5349 5350; G2 XOR 5350 5217 5351; G2 XOR 5073 5222 5352;
  G2 AND 5282 5352 5353; G2 XOR 5353 5222 5354; G2 XOR 5076 5227 5355; G2 AND 5282 5355 5356;
  G2 XOR 5356 5227 5357; G2 XOR 5079 5232 5358; G2 AND 5282 5358 5359; G2 XOR 5359 5232 5360;
  G2 XOR 5082 5237 5361; G2 AND 5282 5361 5362; G2 XOR 5362 5237 5363; G2 XOR 5085 5242 5364;
  G2 AND 5282 5364 5365; G2 XOR 5365 5242 5366; G2 XOR 5088 5247 5367; G2 AND 5282 5367 5368;
  G2 XOR 5368 5247 5369; G2 XOR 5091 5252 5370; G2 AND 5282 5370 5371; G2 XOR 5371 5252 5372;
  G2 XOR 5094 5257 5373; G2 AND 5282 5373 5374; G2 XOR 5374 5257 5375; G2 XOR 5097 5262 5376;
  G2 AND 5282 5376 5377; G2 XOR 5377 5262 5378; G2 XOR 5100 5267 5379; G2 AND 5282 5379 5380;
  G2 XOR 5380 5267 5381; G2 XOR 5103 5272 5382; G2 AND 5282 5382 5383; G2 XOR 5383 5272 5384;
  G2 XOR 5106 5277 5385; G2 AND 5282 5385 5386; G2 XOR 5386 5277 5387; G1 INV 5282 5388; G2 XOR 28 64 5389;
  G2 AND 5389 64 5390; G2 XOR 5285 65 5391; G2 XOR 5390 65 5392; G2 XOR 5391 5390 5393;
  G2 AND 5391 5392 5394; G2 XOR 5390 5394 5395; G2 XOR 5288 66 5396; G2 XOR 5395 66 5397;
  G2 XOR 5396 5395 5398; G2 AND 5396 5397 5399; G2 XOR 5395 5399 5400; G2 XOR 5291 67 5401;
  G2 XOR 5400 67 5402; G2 XOR 5401 5400 5403; G2 AND 5401 5402 5404; G2 XOR 5400 5404 5405;
  G2 XOR 5294 68 5406; G2 XOR 5405 68 5407; G2 XOR 5406 5405 5408; G2 AND 5406 5407 5409;
  G2 XOR 5405 5409 5410; G2 XOR 5297 69 5411; G2 XOR 5410 69 5412; G2 XOR 5411 5410 5413;
  G2 AND 5411 5412 5414; G2 XOR 5410 5414 5415; G2 XOR 5300 70 5416; G2 XOR 5415 70 5417;
  G2 XOR 5416 5415 5418; G2 AND 5416 5417 5419; G2 XOR 5415 5419 5420; G2 XOR 5303 71 5421;
  G2 XOR 5420 71 5422; G2 XOR 5421 5420 5423; G2 AND 5421 5422 5424; G2 XOR 5420 5424 5425;
  G2 XOR 5306 72 5426; G2 XOR 5425 72 5427; G2 XOR 5426 5425 5428; G2 AND 5426 5427 5429;
  G2 XOR 5425 5429 5430; G2 XOR 5309 73 5431; G2 XOR 5430 73 5432; G2 XOR 5431 5430 5433;
  G2 AND 5431 5432 5434; G2 XOR 5430 5434 5435; G2 XOR 5312 74 5436; G2 XOR 5435 74 5437;
  G2 XOR 5436 5435 5438; G2 AND 5436 5437 5439; G2 XOR 5435 5439 5440; G2 XOR 5315 75 5441;
  G2 XOR 5440 75 5442; G2 XOR 5441 5440 5443; G2 AND 5441 5442 5444; G2 XOR 5440 5444 5445;
  G2 XOR 5318 76 5446; G2 XOR 5445 76 5447; G2 XOR 5446 5445 5448; G2 AND 5446 5447 5449;
  G2 XOR 5445 5449 5450; G2 XOR 5321 77 5451; G2 XOR 5450 77 5452; G2 XOR 5451 5450 5453;
  G2 AND 5451 5452 5454; G2 XOR 5450 5454 5455; G2 XOR 5324 78 5456; G2 XOR 5455 78 5457;
  G2 XOR 5456 5455 5458; G2 AND 5456 5457 5459; G2 XOR 5455 5459 5460; G2 XOR 5327 79 5461;
  G2 XOR 5460 79 5462; G2 XOR 5461 5460 5463; G2 AND 5461 5462 5464; G2 XOR 5460 5464 5465;
  G2 XOR 5330 80 5466; G2 XOR 5465 80 5467; G2 XOR 5466 5465 5468; G2 AND 5466 5467 5469;
  G2 XOR 5465 5469 5470; G2 XOR 5333 81 5471; G2 XOR 5470 81 5472; G2 XOR 5471 5470 5473;
  G2 AND 5471 5472 5474; G2 XOR 5470 5474 5475; G2 XOR 5336 82 5476; G2 XOR 5475 82 5477;
  G2 XOR 5476 5475 5478; G2 AND 5476 5477 5479; G2 XOR 5475 5479 5480; G2 XOR 5339 83 5481;
  G2 XOR 5480 83 5482; G2 XOR 5481 5480 5483; G2 AND 5481 5482 5484; G2 XOR 5480 5484 5485;
  G2 XOR 5342 84 5486; G2 XOR 5485 84 5487; G2 XOR 5486 5485 5488; G2 AND 5486 5487 5489;
  G2 XOR 5485 5489 5490; G2 XOR 5345 85 5491; G2 XOR 5490 85 5492; G2 XOR 5491 5490 5493;
  G2 AND 5491 5492 5494; G2 XOR 5490 5494 5495; G2 XOR 5348 86 5496; G2 XOR 5495 86 5497;
  G2 XOR 5496 5495 5498; G2 AND 5496 5497 5499; G2 XOR 5495 5499 5500; G2 XOR 5351 87 5501;
  G2 XOR 5500 87 5502; G2 XOR 5501 5500 5503; G2 AND 5501 5502 5504; G2 XOR 5500 5504 5505;
  G2 XOR 5354 88 5506; G2 XOR 5505 88 5507; G2 XOR 5506 5505 5508; G2 AND 5506 5507 5509;
  G2 XOR 5505 5509 5510; G2 XOR 5357 89 5511; G2 XOR 5510 89 5512; G2 XOR 5511 5510 5513;
  G2 AND 5511 5512 5514; G2 XOR 5510 5514 5515; G2 XOR 5360 90 5516; G2 XOR 5515 90 5517;
  G2 XOR 5516 5515 5518; G2 AND 5516 5517 5519; G2 XOR 5515 5519 5520; G2 XOR 5363 91 5521;
  G2 XOR 5520 91 5522; G2 XOR 5521 5520 5523; G2 AND 5521 5522 5524; G2 XOR 5520 5524 5525;
  G2 XOR 5366 92 5526; G2 XOR 5525 92 5527; G2 XOR 5526 5525 5528; G2 AND 5526 5527 5529;
  G2 XOR 5525 5529 5530; G2 XOR 5369 93 5531; G2 XOR 5530 93 5532; G2 XOR 5531 5530 5533;
  G2 AND 5531 5532 5534; G2 XOR 5530 5534 5535; G2 XOR 5372 94 5536; G2 XOR 5535 94 5537;
  G2 XOR 5536 5535 5538; G2 AND 5536 5537 5539; G2 XOR 5535 5539 5540; G2 XOR 5375 95 5541;
  G2 XOR 5540 95 5542; G2 XOR 5541 5540 5543; G2 AND 5541 5542 5544; G2 XOR 5540 5544 5545;
  G2 XOR 5378 96 5546; G2 XOR 5545 96 5547; G2 XOR 5546 5545 5548; G2 AND 5546 5547 5549;
  G2 XOR 5545 5549 5550; G2 XOR 5381 97 5551; G2 XOR 5550 97 5552; G2 XOR 5551 5550 5553;
  G2 AND 5551 5552 5554; G2 XOR 5550 5554 5555; G2 XOR 5384 98 5556; G2 XOR 5555 98 5557;
  G2 XOR 5556 5555 5558; G2 AND 5556 5557 5559; G2 XOR 5555 5559 5560; G2 XOR 5387 99 5561;
  G2 XOR 5560 99 5562; G2 XOR 5561 5560 5563; G2 AND 5561 5562 5564; G2 XOR 5560 5564 5565;
  G2 AND 5565 208 5566; G2 XOR 5565 208 5567; G2 XOR 5567 5566 5568; G2 XOR 28 5389 5569;
  G2 AND 5568 5569 5570; G2 XOR 5570 5389 5571; G2 XOR 5285 5393 5572; G2 AND 5568 5572 5573;
  G2 XOR 5573 5393 5574; G2 XOR 5288 5398 5575; G2 AND 5568 5575 5576; G2 XOR 5576 5398 5577;
  G2 XOR 5291 5403 5578; G2 AND 5568 5578 5579; G2 XOR 5579 5403 5580; G2 XOR 5294 5408 5581;
  G2 AND 5568 5581 5582; G2 XOR 5582 5408 5583; G2 XOR 5297 5413 5584; G2 AND 5568 5584 5585;
  G2 XOR 5585 5413 5586; G2 XOR 5300 5418 5587; G2 AND 5568 5587 5588; G2 XOR 5588 5418 5589;
  G2 XOR 5303 5423 5590; G2 AND 5568 5590 5591; G2 XOR 5591 5423 5592; G2 XOR 5306 5428 5593;
  G2 AND 5568 5593 5594; G2 XOR 5594 5428 5595; G2 XOR 5309 5433 5596; G2 AND 5568 5596 5597;
  G2 XOR 5597 5433 5598; G2 XOR 5312 5438 5599; G2 AND 5568 5599 5600; G2 XOR 5600 5438 5601;
  G2 XOR 5315 5443 5602; G2 AND 5568 5602 5603; G2 XOR 5603 5443 5604; G2 XOR 5318 5448 5605;
  G2 AND 5568 5605 5606; G2 XOR 5606 5448 5607; G2 XOR 5321 5453 5608; G2 AND 5568 5608 5609;
  G2 XOR 5609 5453 5610; G2 XOR 5324 5458 5611; G2 AND 5568 5611 5612; G2 XOR 5612 5458 5613;
  G2 XOR 5327 5463 5614; G2 AND 5568 5614 5615; G2 XOR 5615 5463 5616; G2 XOR 5330 5468 5617;
  G2 AND 5568 5617 5618; G2 XOR 5618 5468 5619; G2 XOR 5333 5473 5620; G2 AND 5568 5620 5621;
  G2 XOR 5621 5473 5622; G2 XOR 5336 5478 5623; G2 AND 5568 5623 5624; G2 XOR 5624 5478 5625;
  G2 XOR 5339 5483 5626; G2 AND 5568 5626 5627; G2 XOR 5627 5483 5628; G2 XOR 5342 5488 5629;
  G2 AND 5568 5629 5630; G2 XOR 5630 5488 5631; G2 XOR 5345 5493 5632; G2 AND 5568 5632 5633;
  G2 XOR 5633 5493 5634; G2 XOR 5348 5498 5635; G2 AND 5568 5635 5636; G2 XOR 5636 5498 5637;
  G2 XOR 5351 5503 5638; G2 AND 5568 5638 5639; G2 XOR 5639 5503 5640; G2 XOR 5354 5508 5641;
  G2 AND 5568 5641 5642; G2 XOR 5642 5508 5643; G2 XOR 5357 5513 5644; G2 AND 5568 5644 5645;
  G2 XOR 5645 5513 5646; G2 XOR 5360 5518 5647; G2 AND 5568 5647 5648; G2 XOR 5648 5518 5649;
  G2 XOR 5363 5523 5650; G2 AND 5568 5650 5651; G2 XOR 5651 5523 5652; G2 XOR 5366 5528 5653;
  G2 AND 5568 5653 5654; G2 XOR 5654 5528 5655; G2 XOR 5369 5533 5656; G2 AND 5568 5656 5657;
  G2 XOR 5657 5533 5658; G2 XOR 5372 5538 5659; G2 AND 5568 5659 5660; G2 XOR 5660 5538 5661;
  G2 XOR 5375 5543 5662; G2 AND 5568 5662 5663; G2 XOR 5663 5543 5664; G2 XOR 5378 5548 5665;
  G2 AND 5568 5665 5666; G2 XOR 5666 5548 5667; G2 XOR 5381 5553 5668; G2 AND 5568 5668 5669;
  G2 XOR 5669 5553 5670; G2 XOR 5384 5558 5671; G2 AND 5568 5671 5672; G2 XOR 5672 5558 5673;
  G2 XOR 5387 5563 5674; G2 AND 5568 5674 5675; G2 XOR 5675 5563 5676; G1 INV 5568 5677; G2 XOR 27 64 5678;
  G2 AND 5678 64 5679; G2 XOR 5571 65 5680; G2 XOR 5679 65 5681; G2 XOR 5680 5679 5682;
  G2 AND 5680 5681 5683; G2 XOR 5679 5683 5684; G2 XOR 5574 66 5685; G2 XOR 5684 66 5686;
  G2 XOR 5685 5684 5687; G2 AND 5685 5686 5688; G2 XOR 5684 5688 5689; G2 XOR 5577 67 5690;
  G2 XOR 5689 67 5691; G2 XOR 5690 5689 5692; G2 AND 5690 5691 5693; G2 XOR 5689 5693 5694;
  G2 XOR 5580 68 5695; G2 XOR 5694 68 5696; G2 XOR 5695 5694 5697; G2 AND 5695 5696 5698;
  G2 XOR 5694 5698 5699; G2 XOR 5583 69 5700; G2 XOR 5699 69 5701; G2 XOR 5700 5699 5702;
  G2 AND 5700 5701 5703; G2 XOR 5699 5703 5704; G2 XOR 5586 70 5705; G2 XOR 5704 70 5706;
  G2 XOR 5705 5704 5707; G2 AND 5705 5706 5708; G2 XOR 5704 5708 5709; G2 XOR 5589 71 5710;
  G2 XOR 5709 71 5711; G2 XOR 5710 5709 5712; G2 AND 5710 5711 5713; G2 XOR 5709 5713 5714;
  G2 XOR 5592 72 5715; G2 XOR 5714 72 5716; G2 XOR 5715 5714 5717; G2 AND 5715 5716 5718;
  G2 XOR 5714 5718 5719; G2 XOR 5595 73 5720; G2 XOR 5719 73 5721; G2 XOR 5720 5719 5722;
  G2 AND 5720 5721 5723; G2 XOR 5719 5723 5724; G2 XOR 5598 74 5725; G2 XOR 5724 74 5726;
  G2 XOR 5725 5724 5727; G2 AND 5725 5726 5728; G2 XOR 5724 5728 5729; G2 XOR 5601 75 5730;
  G2 XOR 5729 75 5731; G2 XOR 5730 5729 5732; G2 AND 5730 5731 5733; G2 XOR 5729 5733 5734;
  G2 XOR 5604 76 5735; G2 XOR 5734 76 5736; G2 XOR 5735 5734 5737; G2 AND 5735 5736 5738;
  G2 XOR 5734 5738 5739; G2 XOR 5607 77 5740; G2 XOR 5739 77 5741; G2 XOR 5740 5739 5742;
  G2 AND 5740 5741 5743; G2 XOR 5739 5743 5744; G2 XOR 5610 78 5745; G2 XOR 5744 78 5746;
  G2 XOR 5745 5744 5747; G2 AND 5745 5746 5748; G2 XOR 5744 5748 5749; G2 XOR 5613 79 5750;
  G2 XOR 5749 79 5751; G2 XOR 5750 5749 5752; G2 AND 5750 5751 5753; G2 XOR 5749 5753 5754;
  G2 XOR 5616 80 5755; G2 XOR 5754 80 5756; G2 XOR 5755 5754 5757; G2 AND 5755 5756 5758;
  G2 XOR 5754 5758 5759; G2 XOR 5619 81 5760; G2 XOR 5759 81 5761; G2 XOR 5760 5759 5762;
  G2 AND 5760 5761 5763; G2 XOR 5759 5763 5764; G2 XOR 5622 82 5765; G2 XOR 5764 82 5766;
  G2 XOR 5765 5764 5767; G2 AND 5765 5766 5768; G2 XOR 5764 5768 5769; G2 XOR 5625 83 5770;
  G2 XOR 5769 83 5771; G2 XOR 5770 5769 5772; G2 AND 5770 5771 5773; G2 XOR 5769 5773 5774;
  G2 XOR 5628 84 5775; G2 XOR 5774 84 5776; G2 XOR 5775 5774 5777; G2 AND 5775 5776 5778;
  G2 XOR 5774 5778 5779; G2 XOR 5631 85 5780; G2 XOR 5779 85 5781; G2 XOR 5780 5779 5782;
  G2 AND 5780 5781 5783; G2 XOR 5779 5783 5784; G2 XOR 5634 86 5785; G2 XOR 5784 86 5786;
  G2 XOR 5785 5784 5787; G2 AND 5785 5786 5788; G2 XOR 5784 5788 5789; G2 XOR 5637 87 5790;
  G2 XOR 5789 87 5791; G2 XOR 5790 5789 5792; G2 AND 5790 5791 5793; G2 XOR 5789 5793 5794;
  G2 XOR 5640 88 5795; G2 XOR 5794 88 5796; G2 XOR 5795 5794 5797; G2 AND 5795 5796 5798;
  G2 XOR 5794 5798 5799; G2 XOR 5643 89 5800; G2 XOR 5799 89 5801; G2 XOR 5800 5799 5802;
  G2 AND 5800 5801 5803; G2 XOR 5799 5803 5804; G2 XOR 5646 90 5805; G2 XOR 5804 90 5806;
  G2 XOR 5805 5804 5807; G2 AND 5805 5806 5808; G2 XOR 5804 5808 5809; G2 XOR 5649 91 5810;
  G2 XOR 5809 91 5811; G2 XOR 5810 5809 5812; G2 AND 5810 5811 5813; G2 XOR 5809 5813 5814;
  G2 XOR 5652 92 5815; G2 XOR 5814 92 5816; G2 XOR 5815 5814 5817; G2 AND 5815 5816 5818;
  G2 XOR 5814 5818 5819; G2 XOR 5655 93 5820; G2 XOR 5819 93 5821; G2 XOR 5820 5819 5822;
  G2 AND 5820 5821 5823; G2 XOR 5819 5823 5824; G2 XOR 5658 94 5825; G2 XOR 5824 94 5826;
  G2 XOR 5825 5824 5827; G2 AND 5825 5826 5828; G2 XOR 5824 5828 5829; G2 XOR 5661 95 5830;
  G2 XOR 5829 95 5831; G2 XOR 5830 5829 5832; G2 AND 5830 5831 5833; G2 XOR 5829 5833 5834;
  G2 XOR 5664 96 5835; G2 XOR 5834 96 5836; G2 XOR 5835 5834 5837; G2 AND 5835 5836 5838;
  G2 XOR 5834 5838 5839; G2 XOR 5667 97 5840; G2 XOR 5839 97 5841; G2 XOR 5840 5839 5842;
  G2 AND 5840 5841 5843; G2 XOR 5839 5843 5844; G2 XOR 5670 98 5845; G2 XOR 5844 98 5846;
  G2 XOR 5845 5844 5847; G2 AND 5845 5846 5848; G2 XOR 5844 5848 5849; G2 XOR 5673 99 5850;
  G2 XOR 5849 99 5851; G2 XOR 5850 5849 5852; G2 AND 5850 5851 5853; G2 XOR 5849 5853 5854;
  G2 XOR 5676 100 5855; G2 XOR 5854 100 5856; G2 XOR 5855 5854 5857; G2 AND 5855 5856 5858;
  G2 XOR 5854 5858 5859; G2 AND 5859 205 5860; G2 XOR 5859 205 5861; G2 XOR 5861 5860 5862;
  G2 XOR 27 5678 5863; G2 AND 5862 5863 5864; G2 XOR 5864 5678 5865; G2 XOR 5571 5682 5866;
  G2 AND 5862 5866 5867; G2 XOR 5867 5682 5868; G2 XOR 5574 5687 5869; G2 AND 5862 5869 5870;
  G2 XOR 5870 5687 5871; G2 XOR 5577 5692 5872; G2 AND 5862 5872 5873; G2 XOR 5873 5692 5874;
  G2 XOR 5580 5697 5875; G2 AND 5862 5875 5876; G2 XOR 5876 5697 5877; G2 XOR 5583 5702 5878;
  G2 AND 5862 5878 5879; G2 XOR 5879 5702 5880; G2 XOR 5586 5707 5881; G2 AND 5862 5881 5882;
  G2 XOR 5882 5707 5883; G2 XOR 5589 5712 5884; G2 AND 5862 5884 5885; G2 XOR 5885 5712 5886;
  G2 XOR 5592 5717 5887; G2 AND 5862 5887 5888; G2 XOR 5888 5717 5889; G2 XOR 5595 5722 5890;
  G2 AND 5862 5890 5891; G2 XOR 5891 5722 5892; G2 XOR 5598 5727 5893; G2 AND 5862 5893 5894;
  G2 XOR 5894 5727 5895; G2 XOR 5601 5732 5896; G2 AND 5862 5896 5897; G2 XOR 5897 5732 5898;
  G2 XOR 5604 5737 5899; G2 AND 5862 5899 5900; G2 XOR 5900 5737 5901; G2 XOR 5607 5742 5902;
  G2 AND 5862 5902 5903; G2 XOR 5903 5742 5904; G2 XOR 5610 5747 5905; G2 AND 5862 5905 5906;
  G2 XOR 5906 5747 5907; G2 XOR 5613 5752 5908; G2 AND 5862 5908 5909; G2 XOR 5909 5752 5910;
  G2 XOR 5616 5757 5911; G2 AND 5862 5911 5912; G2 XOR 5912 5757 5913; G2 XOR 5619 5762 5914;
  G2 AND 5862 5914 5915; G2 XOR 5915 5762 5916; G2 XOR 5622 5767 5917; G2 AND 5862 5917 5918;
  G2 XOR 5918 5767 5919; G2 XOR 5625 5772 5920; G2 AND 5862 5920 5921; G2 XOR 5921 5772 5922;
  G2 XOR 5628 5777 5923; G2 AND 5862 5923 5924; G2 XOR 5924 5777 5925; G2 XOR 5631 5782 5926;
  G2 AND 5862 5926 5927; G2 XOR 5927 5782 5928; G2 XOR 5634 5787 5929; G2 AND 5862 5929 5930;
  G2 XOR 5930 5787 5931; G2 XOR 5637 5792 5932; G2 AND 5862 5932 5933; G2 XOR 5933 5792 5934;
  G2 XOR 5640 5797 5935; G2 AND 5862 5935 5936; G2 XOR 5936 5797 5937; G2 XOR 5643 5802 5938;
  G2 AND 5862 5938 5939; G2 XOR 5939 5802 5940; G2 XOR 5646 5807 5941; G2 AND 5862 5941 5942;
  G2 XOR 5942 5807 5943; G2 XOR 5649 5812 5944; G2 AND 5862 5944 5945; G2 XOR 5945 5812 5946;
  G2 XOR 5652 5817 5947; G2 AND 5862 5947 5948; G2 XOR 5948 5817 5949; G2 XOR 5655 5822 5950;
  G2 AND 5862 5950 5951; G2 XOR 5951 5822 5952; G2 XOR 5658 5827 5953; G2 AND 5862 5953 5954;
  G2 XOR 5954 5827 5955; G2 XOR 5661 5832 5956; G2 AND 5862 5956 5957; G2 XOR 5957 5832 5958;
  G2 XOR 5664 5837 5959; G2 AND 5862 5959 5960; G2 XOR 5960 5837 5961; G2 XOR 5667 5842 5962;
  G2 AND 5862 5962 5963; G2 XOR 5963 5842 5964; G2 XOR 5670 5847 5965; G2 AND 5862 5965 5966;
  G2 XOR 5966 5847 5967; G2 XOR 5673 5852 5968; G2 AND 5862 5968 5969; G2 XOR 5969 5852 5970;
  G2 XOR 5676 5857 5971; G2 AND 5862 5971 5972; G2 XOR 5972 5857 5973; G1 INV 5862 5974; G2 XOR 26 64 5975;
  G2 AND 5975 64 5976; G2 XOR 5865 65 5977; G2 XOR 5976 65 5978; G2 XOR 5977 5976 5979;
  G2 AND 5977 5978 5980; G2 XOR 5976 5980 5981; G2 XOR 5868 66 5982; G2 XOR 5981 66 5983;
  G2 XOR 5982 5981 5984; G2 AND 5982 5983 5985; G2 XOR 5981 5985 5986; G2 XOR 5871 67 5987;
  G2 XOR 5986 67 5988; G2 XOR 5987 5986 5989; G2 AND 5987 5988 5990; G2 XOR 5986 5990 5991;
  G2 XOR 5874 68 5992; G2 XOR 5991 68 5993; G2 XOR 5992 5991 5994; G2 AND 5992 5993 5995;
  G2 XOR 5991 5995 5996; G2 XOR 5877 69 5997; G2 XOR 5996 69 5998; G2 XOR 5997 5996 5999;
  G2 AND 5997 5998 6000; G2 XOR 5996 6000 6001; G2 XOR 5880 70 6002; G2 XOR 6001 70 6003;
  G2 XOR 6002 6001 6004; G2 AND 6002 6003 6005; G2 XOR 6001 6005 6006; G2 XOR 5883 71 6007;
  G2 XOR 6006 71 6008; G2 XOR 6007 6006 6009; G2 AND 6007 6008 6010; G2 XOR 6006 6010 6011;
  G2 XOR 5886 72 6012; G2 XOR 6011 72 6013; G2 XOR 6012 6011 6014; G2 AND 6012 6013 6015;
  G2 XOR 6011 6015 6016; G2 XOR 5889 73 6017; G2 XOR 6016 73 6018; G2 XOR 6017 6016 6019;
  G2 AND 6017 6018 6020; G2 XOR 6016 6020 6021; G2 XOR 5892 74 6022; G2 XOR 6021 74 6023;
  G2 XOR 6022 6021 6024; G2 AND 6022 6023 6025; G2 XOR 6021 6025 6026; G2 XOR 5895 75 6027;
  G2 XOR 6026 75 6028; G2 XOR 6027 6026 6029; G2 AND 6027 6028 6030; G2 XOR 6026 6030 6031;
  G2 XOR 5898 76 6032; G2 XOR 6031 76 6033; G2 XOR 6032 6031 6034; G2 AND 6032 6033 6035;
  G2 XOR 6031 6035 6036; G2 XOR 5901 77 6037; G2 XOR 6036 77 6038; G2 XOR 6037 6036 6039;
  G2 AND 6037 6038 6040; G2 XOR 6036 6040 6041; G2 XOR 5904 78 6042; G2 XOR 6041 78 6043;
  G2 XOR 6042 6041 6044; G2 AND 6042 6043 6045; G2 XOR 6041 6045 6046; G2 XOR 5907 79 6047;
  G2 XOR 6046 79 6048; G2 XOR 6047 6046 6049; G2 AND 6047 6048 6050; G2 XOR 6046 6050 6051;
  G2 XOR 5910 80 6052; G2 XOR 6051 80 6053; G2 XOR 6052 6051 6054; G2 AND 6052 6053 6055;
  G2 XOR 6051 6055 6056; G2 XOR 5913 81 6057; G2 XOR 6056 81 6058; G2 XOR 6057 6056 6059;
  G2 AND 6057 6058 6060; G2 XOR 6056 6060 6061; G2 XOR 5916 82 6062; G2 XOR 6061 82 6063;
  G2 XOR 6062 6061 6064; G2 AND 6062 6063 6065; G2 XOR 6061 6065 6066; G2 XOR 5919 83 6067;
  G2 XOR 6066 83 6068; G2 XOR 6067 6066 6069; G2 AND 6067 6068 6070; G2 XOR 6066 6070 6071;
  G2 XOR 5922 84 6072; G2 XOR 6071 84 6073; G2 XOR 6072 6071 6074; G2 AND 6072 6073 6075;
  G2 XOR 6071 6075 6076; G2 XOR 5925 85 6077; G2 XOR 6076 85 6078; G2 XOR 6077 6076 6079;
  G2 AND 6077 6078 6080; G2 XOR 6076 6080 6081; G2 XOR 5928 86 6082; G2 XOR 6081 86 6083;
  G2 XOR 6082 6081 6084; G2 AND 6082 6083 6085; G2 XOR 6081 6085 6086; G2 XOR 5931 87 6087;
  G2 XOR 6086 87 6088; G2 XOR 6087 6086 6089; G2 AND 6087 6088 6090; G2 XOR 6086 6090 6091;
  G2 XOR 5934 88 6092; G2 XOR 6091 88 6093; G2 XOR 6092 6091 6094; G2 AND 6092 6093 6095;
  G2 XOR 6091 6095 6096; G2 XOR 5937 89 6097; G2 XOR 6096 89 6098; G2 XOR 6097 6096 6099;
  G2 AND 6097 6098 6100; G2 XOR 6096 6100 6101; G2 XOR 5940 90 6102; G2 XOR 6101 90 6103;
  G2 XOR 6102 6101 6104; G2 AND 6102 6103 6105; G2 XOR 6101 6105 6106; G2 XOR 5943 91 6107;
  G2 XOR 6106 91 6108; G2 XOR 6107 6106 6109; G2 AND 6107 6108 6110; G2 XOR 6106 6110 6111;
  G2 XOR 5946 92 6112; G2 XOR 6111 92 6113; G2 XOR 6112 6111 6114; G2 AND 6112 6113 6115;
  G2 XOR 6111 6115 6116; G2 XOR 5949 93 6117; G2 XOR 6116 93 6118; G2 XOR 6117 6116 6119;
  G2 AND 6117 6118 6120; G2 XOR 6116 6120 6121; G2 XOR 5952 94 6122; G2 XOR 6121 94 6123;
  G2 XOR 6122 6121 6124; G2 AND 6122 6123 6125; G2 XOR 6121 6125 6126; G2 XOR 5955 95 6127;
  G2 XOR 6126 95 6128; G2 XOR 6127 6126 6129; G2 AND 6127 6128 6130; G2 XOR 6126 6130 6131;
  G2 XOR 5958 96 6132; G2 XOR 6131 96 6133; G2 XOR 6132 6131 6134; G2 AND 6132 6133 6135;
  G2 XOR 6131 6135 6136; G2 XOR 5961 97 6137; G2 XOR 6136 97 6138; G2 XOR 6137 6136 6139;
  G2 AND 6137 6138 6140; G2 XOR 6136 6140 6141; G2 XOR 5964 98 6142; G2 XOR 6141 98 6143;
  G2 XOR 6142 6141 6144; G2 AND 6142 6143 6145; G2 XOR 6141 6145 6146; G2 XOR 5967 99 6147;
  G2 XOR 6146 99 6148; G2 XOR 6147 6146 6149; G2 AND 6147 6148 6150; G2 XOR 6146 6150 6151;
  G2 XOR 5970 100 6152; G2 XOR 6151 100 6153; G2 XOR 6152 6151 6154; G2 AND 6152 6153 6155;
  G2 XOR 6151 6155 6156; G2 XOR 5973 101 6157; G2 XOR 6156 101 6158; G2 XOR 6157 6156 6159;
  G2 AND 6157 6158 6160; G2 XOR 6156 6160 6161; G2 AND 6161 202 6162; G2 XOR 6161 202 6163;
  G2 XOR 6163 6162 6164; G2 XOR 26 5975 6165; G2 AND 6164 6165 6166; G2 XOR 6166 5975 6167;
  G2 XOR 5865 5979 6168; G2 AND 6164 6168 6169; G2 XOR 6169 5979 6170; G2 XOR 5868 5984 6171;
  G2 AND 6164 6171 6172; G2 XOR 6172 5984 6173; G2 XOR 5871 5989 6174; G2 AND 6164 6174 6175;
  G2 XOR 6175 5989 6176; G2 XOR 5874 5994 6177; G2 AND 6164 6177 6178; G2 XOR 6178 5994 6179;
  G2 XOR 5877 5999 6180; G2 AND 6164 6180 6181; G2 XOR 6181 5999 6182; G2 XOR 5880 6004 6183;
  G2 AND 6164 6183 6184; G2 XOR 6184 6004 6185; G2 XOR 5883 6009 6186; G2 AND 6164 6186 6187;
  G2 XOR 6187 6009 6188; G2 XOR 5886 6014 6189; G2 AND 6164 6189 6190; G2 XOR 6190 6014 6191;
  G2 XOR 5889 6019 6192; G2 AND 6164 6192 6193; G2 XOR 6193 6019 6194; G2 XOR 5892 6024 6195;
  G2 AND 6164 6195 6196; G2 XOR 6196 6024 6197; G2 XOR 5895 6029 6198; G2 AND 6164 6198 6199;
  G2 XOR 6199 6029 6200; G2 XOR 5898 6034 6201; G2 AND 6164 6201 6202; G2 XOR 6202 6034 6203;
  G2 XOR 5901 6039 6204; G2 AND 6164 6204 6205; G2 XOR 6205 6039 6206; G2 XOR 5904 6044 6207;
  G2 AND 6164 6207 6208; G2 XOR 6208 6044 6209; G2 XOR 5907 6049 6210; G2 AND 6164 6210 6211;
  G2 XOR 6211 6049 6212; G2 XOR 5910 6054 6213; G2 AND 6164 6213 6214; G2 XOR 6214 6054 6215;
  G2 XOR 5913 6059 6216; G2 AND 6164 6216 6217; G2 XOR 6217 6059 6218; G2 XOR 5916 6064 6219;
  G2 AND 6164 6219 6220; G2 XOR 6220 6064 6221; G2 XOR 5919 6069 6222; G2 AND 6164 6222 6223;
  G2 XOR 6223 6069 6224; G2 XOR 5922 6074 6225; G2 AND 6164 6225 6226; G2 XOR 6226 6074 6227;
  G2 XOR 5925 6079 6228; G2 AND 6164 6228 6229; G2 XOR 6229 6079 6230; G2 XOR 5928 6084 6231;
  G2 AND 6164 6231 6232; G2 XOR 6232 6084 6233; G2 XOR 5931 6089 6234; G2 AND 6164 6234 6235;
  G2 XOR 6235 6089 6236; G2 XOR 5934 6094 6237; G2 AND 6164 6237 6238; G2 XOR 6238 6094 6239;
  G2 XOR 5937 6099 6240; G2 AND 6164 6240 6241; G2 XOR 6241 6099 6242; G2 XOR 5940 6104 6243;
  G2 AND 6164 6243 6244; G2 XOR 6244 6104 6245; G2 XOR 5943 6109 6246; G2 AND 6164 6246 6247;
  G2 XOR 6247 6109 6248; G2 XOR 5946 6114 6249; G2 AND 6164 6249 6250; G2 XOR 6250 6114 6251;
  G2 XOR 5949 6119 6252; G2 AND 6164 6252 6253; G2 XOR 6253 6119 6254; G2 XOR 5952 6124 6255;
  G2 AND 6164 6255 6256; G2 XOR 6256 6124 6257; G2 XOR 5955 6129 6258; G2 AND 6164 6258 6259;
  G2 XOR 6259 6129 6260; G2 XOR 5958 6134 6261; G2 AND 6164 6261 6262; G2 XOR 6262 6134 6263;
  G2 XOR 5961 6139 6264; G2 AND 6164 6264 6265; G2 XOR 6265 6139 6266; G2 XOR 5964 6144 6267;
  G2 AND 6164 6267 6268; G2 XOR 6268 6144 6269; G2 XOR 5967 6149 6270; G2 AND 6164 6270 6271;
  G2 XOR 6271 6149 6272; G2 XOR 5970 6154 6273; G2 AND 6164 6273 6274; G2 XOR 6274 6154 6275;
  G2 XOR 5973 6159 6276; G2 AND 6164 6276 6277; G2 XOR 6277 6159 6278; G1 INV 6164 6279; G2 XOR 25 64 6280;
  G2 AND 6280 64 6281; G2 XOR 6167 65 6282; G2 XOR 6281 65 6283; G2 XOR 6282 6281 6284;
  G2 AND 6282 6283 6285; G2 XOR 6281 6285 6286; G2 XOR 6170 66 6287; G2 XOR 6286 66 6288;
  G2 XOR 6287 6286 6289; G2 AND 6287 6288 6290; G2 XOR 6286 6290 6291; G2 XOR 6173 67 6292;
  G2 XOR 6291 67 6293; G2 XOR 6292 6291 6294; G2 AND 6292 6293 6295; G2 XOR 6291 6295 6296;
  G2 XOR 6176 68 6297; G2 XOR 6296 68 6298; G2 XOR 6297 6296 6299; G2 AND 6297 6298 6300;
  G2 XOR 6296 6300 6301; G2 XOR 6179 69 6302; G2 XOR 6301 69 6303; G2 XOR 6302 6301 6304;
  G2 AND 6302 6303 6305; G2 XOR 6301 6305 6306; G2 XOR 6182 70 6307; G2 XOR 6306 70 6308;
  G2 XOR 6307 6306 6309; G2 AND 6307 6308 6310; G2 XOR 6306 6310 6311; G2 XOR 6185 71 6312;
  G2 XOR 6311 71 6313; G2 XOR 6312 6311 6314; G2 AND 6312 6313 6315; G2 XOR 6311 6315 6316;
  G2 XOR 6188 72 6317; G2 XOR 6316 72 6318; G2 XOR 6317 6316 6319; G2 AND 6317 6318 6320;
  G2 XOR 6316 6320 6321; G2 XOR 6191 73 6322; G2 XOR 6321 73 6323; G2 XOR 6322 6321 6324;
  G2 AND 6322 6323 6325; G2 XOR 6321 6325 6326; G2 XOR 6194 74 6327; G2 XOR 6326 74 6328;
  G2 XOR 6327 6326 6329; G2 AND 6327 6328 6330; G2 XOR 6326 6330 6331; G2 XOR 6197 75 6332;
  G2 XOR 6331 75 6333; G2 XOR 6332 6331 6334; G2 AND 6332 6333 6335; G2 XOR 6331 6335 6336;
  G2 XOR 6200 76 6337; G2 XOR 6336 76 6338; G2 XOR 6337 6336 6339; G2 AND 6337 6338 6340;
  G2 XOR 6336 6340 6341; G2 XOR 6203 77 6342; G2 XOR 6341 77 6343; G2 XOR 6342 6341 6344;
  G2 AND 6342 6343 6345; G2 XOR 6341 6345 6346; G2 XOR 6206 78 6347; G2 XOR 6346 78 6348;
  G2 XOR 6347 6346 6349; G2 AND 6347 6348 6350; G2 XOR 6346 6350 6351; G2 XOR 6209 79 6352;
  G2 XOR 6351 79 6353; G2 XOR 6352 6351 6354; G2 AND 6352 6353 6355; G2 XOR 6351 6355 6356;
  G2 XOR 6212 80 6357; G2 XOR 6356 80 6358; G2 XOR 6357 6356 6359; G2 AND 6357 6358 6360;
  G2 XOR 6356 6360 6361; G2 XOR 6215 81 6362; G2 XOR 6361 81 6363; G2 XOR 6362 6361 6364;
  G2 AND 6362 6363 6365; G2 XOR 6361 6365 6366; G2 XOR 6218 82 6367; G2 XOR 6366 82 6368;
  G2 XOR 6367 6366 6369; G2 AND 6367 6368 6370; G2 XOR 6366 6370 6371; G2 XOR 6221 83 6372;
  G2 XOR 6371 83 6373; G2 XOR 6372 6371 6374; G2 AND 6372 6373 6375; G2 XOR 6371 6375 6376;
  G2 XOR 6224 84 6377; G2 XOR 6376 84 6378; G2 XOR 6377 6376 6379; G2 AND 6377 6378 6380;
  G2 XOR 6376 6380 6381; G2 XOR 6227 85 6382; G2 XOR 6381 85 6383; G2 XOR 6382 6381 6384;
  G2 AND 6382 6383 6385; G2 XOR 6381 6385 6386; G2 XOR 6230 86 6387; G2 XOR 6386 86 6388;
  G2 XOR 6387 6386 6389; G2 AND 6387 6388 6390; G2 XOR 6386 6390 6391; G2 XOR 6233 87 6392;
  G2 XOR 6391 87 6393; G2 XOR 6392 6391 6394; G2 AND 6392 6393 6395; G2 XOR 6391 6395 6396;
  G2 XOR 6236 88 6397; G2 XOR 6396 88 6398; G2 XOR 6397 6396 6399; G2 AND 6397 6398 6400;
  G2 XOR 6396 6400 6401; G2 XOR 6239 89 6402; G2 XOR 6401 89 6403; G2 XOR 6402 6401 6404;
  G2 AND 6402 6403 6405; G2 XOR 6401 6405 6406; G2 XOR 6242 90 6407; G2 XOR 6406 90 6408;
  G2 XOR 6407 6406 6409; G2 AND 6407 6408 6410; G2 XOR 6406 6410 6411; G2 XOR 6245 91 6412;
  G2 XOR 6411 91 6413; G2 XOR 6412 6411 6414; G2 AND 6412 6413 6415; G2 XOR 6411 6415 6416;
  G2 XOR 6248 92 6417; G2 XOR 6416 92 6418; G2 XOR 6417 6416 6419; G2 AND 6417 6418 6420;
  G2 XOR 6416 6420 6421; G2 XOR 6251 93 6422; G2 XOR 6421 93 6423; G2 XOR 6422 6421 6424;
  G2 AND 6422 6423 6425; G2 XOR 6421 6425 6426; G2 XOR 6254 94 6427; G2 XOR 6426 94 6428;
  G2 XOR 6427 6426 6429; G2 AND 6427 6428 6430; G2 XOR 6426 6430 6431; G2 XOR 6257 95 6432;
  G2 XOR 6431 95 6433; G2 XOR 6432 6431 6434; G2 AND 6432 6433 6435; G2 XOR 6431 6435 6436;
  G2 XOR 6260 96 6437; G2 XOR 6436 96 6438; G2 XOR 6437 6436 6439; G2 AND 6437 6438 6440;
  G2 XOR 6436 6440 6441; G2 XOR 6263 97 6442; G2 XOR 6441 97 6443; G2 XOR 6442 6441 6444;
  G2 AND 6442 6443 6445; G2 XOR 6441 6445 6446; G2 XOR 6266 98 6447; G2 XOR 6446 98 6448;
  G2 XOR 6447 6446 6449; G2 AND 6447 6448 6450; G2 XOR 6446 6450 6451; G2 XOR 6269 99 6452;
  G2 XOR 6451 99 6453; G2 XOR 6452 6451 6454; G2 AND 6452 6453 6455; G2 XOR 6451 6455 6456;
  G2 XOR 6272 100 6457; G2 XOR 6456 100 6458; G2 XOR 6457 6456 6459; G2 AND 6457 6458 6460;
  G2 XOR 6456 6460 6461; G2 XOR 6275 101 6462; G2 XOR 6461 101 6463; G2 XOR 6462 6461 6464;
  G2 AND 6462 6463 6465; G2 XOR 6461 6465 6466; G2 XOR 6278 102 6467; G2 XOR 6466 102 6468;
  G2 XOR 6467 6466 6469; G2 AND 6467 6468 6470; G2 XOR 6466 6470 6471; G2 AND 6471 199 6472;
  G2 XOR 6471 199 6473; G2 XOR 6473 6472 6474; G2 XOR 25 6280 6475; G2 AND 6474 6475 6476;
  G2 XOR 6476 6280 6477; G2 XOR 6167 6284 6478; G2 AND 6474 6478 6479; G2 XOR 6479 6284 6480;
  G2 XOR 6170 6289 6481; G2 AND 6474 6481 6482; G2 XOR 6482 6289 6483; G2 XOR 6173 6294 6484;
  G2 AND 6474 6484 6485; G2 XOR 6485 6294 6486; G2 XOR 6176 6299 6487; G2 AND 6474 6487 6488;
  G2 XOR 6488 6299 6489; G2 XOR 6179 6304 6490; G2 AND 6474 6490 6491; G2 XOR 6491 6304 6492;
  G2 XOR 6182 6309 6493; G2 AND 6474 6493 6494; G2 XOR 6494 6309 6495; G2 XOR 6185 6314 6496;
  G2 AND 6474 6496 6497; G2 XOR 6497 6314 6498; G2 XOR 6188 6319 6499; G2 AND 6474 6499 6500;
  G2 XOR 6500 6319 6501; G2 XOR 6191 6324 6502; G2 AND 6474 6502 6503; G2 XOR 6503 6324 6504;
  G2 XOR 6194 6329 6505; G2 AND 6474 6505 6506; G2 XOR 6506 6329 6507; G2 XOR 6197 6334 6508;
  G2 AND 6474 6508 6509; G2 XOR 6509 6334 6510; G2 XOR 6200 6339 6511; G2 AND 6474 6511 6512;
  G2 XOR 6512 6339 6513; G2 XOR 6203 6344 6514; G2 AND 6474 6514 6515; G2 XOR 6515 6344 6516;
  G2 XOR 6206 6349 6517; G2 AND 6474 6517 6518; G2 XOR 6518 6349 6519; G2 XOR 6209 6354 6520;
  G2 AND 6474 6520 6521; G2 XOR 6521 6354 6522; G2 XOR 6212 6359 6523; G2 AND 6474 6523 6524;
  G2 XOR 6524 6359 6525; G2 XOR 6215 6364 6526; G2 AND 6474 6526 6527; G2 XOR 6527 6364 6528;
  G2 XOR 6218 6369 6529; G2 AND 6474 6529 6530; G2 XOR 6530 6369 6531; G2 XOR 6221 6374 6532;
  G2 AND 6474 6532 6533; G2 XOR 6533 6374 6534; G2 XOR 6224 6379 6535; G2 AND 6474 6535 6536;
  G2 XOR 6536 6379 6537; G2 XOR 6227 6384 6538; G2 AND 6474 6538 6539; G2 XOR 6539 6384 6540;
  G2 XOR 6230 6389 6541; G2 AND 6474 6541 6542; G2 XOR 6542 6389 6543; G2 XOR 6233 6394 6544;
  G2 AND 6474 6544 6545; G2 XOR 6545 6394 6546; G2 XOR 6236 6399 6547; G2 AND 6474 6547 6548;
  G2 XOR 6548 6399 6549; G2 XOR 6239 6404 6550; G2 AND 6474 6550 6551; G2 XOR 6551 6404 6552;
  G2 XOR 6242 6409 6553; G2 AND 6474 6553 6554; G2 XOR 6554 6409 6555; G2 XOR 6245 6414 6556;
  G2 AND 6474 6556 6557; G2 XOR 6557 6414 6558; G2 XOR 6248 6419 6559; G2 AND 6474 6559 6560;
  G2 XOR 6560 6419 6561; G2 XOR 6251 6424 6562; G2 AND 6474 6562 6563; G2 XOR 6563 6424 6564;
  G2 XOR 6254 6429 6565; G2 AND 6474 6565 6566; G2 XOR 6566 6429 6567; G2 XOR 6257 6434 6568;
  G2 AND 6474 6568 6569; G2 XOR 6569 6434 6570; G2 XOR 6260 6439 6571; G2 AND 6474 6571 6572;
  G2 XOR 6572 6439 6573; G2 XOR 6263 6444 6574; G2 AND 6474 6574 6575; G2 XOR 6575 6444 6576;
  G2 XOR 6266 6449 6577; G2 AND 6474 6577 6578; G2 XOR 6578 6449 6579; G2 XOR 6269 6454 6580;
  G2 AND 6474 6580 6581; G2 XOR 6581 6454 6582; G2 XOR 6272 6459 6583; G2 AND 6474 6583 6584;
  G2 XOR 6584 6459 6585; G2 XOR 6275 6464 6586; G2 AND 6474 6586 6587; G2 XOR 6587 6464 6588;
  G2 XOR 6278 6469 6589; G2 AND 6474 6589 6590; G2 XOR 6590 6469 6591; G1 INV 6474 6592; G2 XOR 24 64 6593;
  G2 AND 6593 64 6594; G2 XOR 6477 65 6595; G2 XOR 6594 65 6596; G2 XOR 6595 6594 6597;
  G2 AND 6595 6596 6598; G2 XOR 6594 6598 6599; G2 XOR 6480 66 6600; G2 XOR 6599 66 6601;
  G2 XOR 6600 6599 6602; G2 AND 6600 6601 6603; G2 XOR 6599 6603 6604; G2 XOR 6483 67 6605;
  G2 XOR 6604 67 6606; G2 XOR 6605 6604 6607; G2 AND 6605 6606 6608; G2 XOR 6604 6608 6609;
  G2 XOR 6486 68 6610; G2 XOR 6609 68 6611; G2 XOR 6610 6609 6612; G2 AND 6610 6611 6613;
  G2 XOR 6609 6613 6614; G2 XOR 6489 69 6615; G2 XOR 6614 69 6616; G2 XOR 6615 6614 6617;
  G2 AND 6615 6616 6618; G2 XOR 6614 6618 6619; G2 XOR 6492 70 6620; G2 XOR 6619 70 6621;
  G2 XOR 6620 6619 6622; G2 AND 6620 6621 6623; G2 XOR 6619 6623 6624; G2 XOR 6495 71 6625;
  G2 XOR 6624 71 6626; G2 XOR 6625 6624 6627; G2 AND 6625 6626 6628; G2 XOR 6624 6628 6629;
  G2 XOR 6498 72 6630; G2 XOR 6629 72 6631; G2 XOR 6630 6629 6632; G2 AND 6630 6631 6633;
  G2 XOR 6629 6633 6634; G2 XOR 6501 73 6635; G2 XOR 6634 73 6636; G2 XOR 6635 6634 6637;
  G2 AND 6635 6636 6638; G2 XOR 6634 6638 6639; G2 XOR 6504 74 6640; G2 XOR 6639 74 6641;
  G2 XOR 6640 6639 6642; G2 AND 6640 6641 6643; G2 XOR 6639 6643 6644; G2 XOR 6507 75 6645;
  G2 XOR 6644 75 6646; G2 XOR 6645 6644 6647; G2 AND 6645 6646 6648; G2 XOR 6644 6648 6649;
  G2 XOR 6510 76 6650; G2 XOR 6649 76 6651; G2 XOR 6650 6649 6652; G2 AND 6650 6651 6653;
  G2 XOR 6649 6653 6654; G2 XOR 6513 77 6655; G2 XOR 6654 77 6656; G2 XOR 6655 6654 6657;
  G2 AND 6655 6656 6658; G2 XOR 6654 6658 6659; G2 XOR 6516 78 6660; G2 XOR 6659 78 6661;
  G2 XOR 6660 6659 6662; G2 AND 6660 6661 6663; G2 XOR 6659 6663 6664; G2 XOR 6519 79 6665;
  G2 XOR 6664 79 6666; G2 XOR 6665 6664 6667; G2 AND 6665 6666 6668; G2 XOR 6664 6668 6669;
  G2 XOR 6522 80 6670; G2 XOR 6669 80 6671; G2 XOR 6670 6669 6672; G2 AND 6670 6671 6673;
  G2 XOR 6669 6673 6674; G2 XOR 6525 81 6675; G2 XOR 6674 81 6676; G2 XOR 6675 6674 6677;
  G2 AND 6675 6676 6678; G2 XOR 6674 6678 6679; G2 XOR 6528 82 6680; G2 XOR 6679 82 6681;
  G2 XOR 6680 6679 6682; G2 AND 6680 6681 6683; G2 XOR 6679 6683 6684; G2 XOR 6531 83 6685;
  G2 XOR 6684 83 6686; G2 XOR 6685 6684 6687; G2 AND 6685 6686 6688; G2 XOR 6684 6688 6689;
  G2 XOR 6534 84 6690; G2 XOR 6689 84 6691; G2 XOR 6690 6689 6692; G2 AND 6690 6691 6693;
  G2 XOR 6689 6693 6694; G2 XOR 6537 85 6695; G2 XOR 6694 85 6696; G2 XOR 6695 6694 6697;
  G2 AND 6695 6696 6698; G2 XOR 6694 6698 6699; G2 XOR 6540 86 6700; G2 XOR 6699 86 6701;
  G2 XOR 6700 6699 6702; G2 AND 6700 6701 6703; G2 XOR 6699 6703 6704; G2 XOR 6543 87 6705;
  G2 XOR 6704 87 6706; G2 XOR 6705 6704 6707; G2 AND 6705 6706 6708; G2 XOR 6704 6708 6709;
  G2 XOR 6546 88 6710; G2 XOR 6709 88 6711; G2 XOR 6710 6709 6712; G2 AND 6710 6711 6713;
  G2 XOR 6709 6713 6714; G2 XOR 6549 89 6715; G2 XOR 6714 89 6716; G2 XOR 6715 6714 6717;
  G2 AND 6715 6716 6718; G2 XOR 6714 6718 6719; G2 XOR 6552 90 6720; G2 XOR 6719 90 6721;
  G2 XOR 6720 6719 6722; G2 AND 6720 6721 6723; G2 XOR 6719 6723 6724; G2 XOR 6555 91 6725;
  G2 XOR 6724 91 6726; G2 XOR 6725 6724 6727; G2 AND 6725 6726 6728; G2 XOR 6724 6728 6729;
  G2 XOR 6558 92 6730; G2 XOR 6729 92 6731; G2 XOR 6730 6729 6732; G2 AND 6730 6731 6733;
  G2 XOR 6729 6733 6734; G2 XOR 6561 93 6735; G2 XOR 6734 93 6736; G2 XOR 6735 6734 6737;
  G2 AND 6735 6736 6738; G2 XOR 6734 6738 6739; G2 XOR 6564 94 6740; G2 XOR 6739 94 6741;
  G2 XOR 6740 6739 6742; G2 AND 6740 6741 6743; G2 XOR 6739 6743 6744; G2 XOR 6567 95 6745;
  G2 XOR 6744 95 6746; G2 XOR 6745 6744 6747; G2 AND 6745 6746 6748; G2 XOR 6744 6748 6749;
  G2 XOR 6570 96 6750; G2 XOR 6749 96 6751; G2 XOR 6750 6749 6752; G2 AND 6750 6751 6753;
  G2 XOR 6749 6753 6754; G2 XOR 6573 97 6755; G2 XOR 6754 97 6756; G2 XOR 6755 6754 6757;
  G2 AND 6755 6756 6758; G2 XOR 6754 6758 6759; G2 XOR 6576 98 6760; G2 XOR 6759 98 6761;
  G2 XOR 6760 6759 6762; G2 AND 6760 6761 6763; G2 XOR 6759 6763 6764; G2 XOR 6579 99 6765;
  G2 XOR 6764 99 6766; G2 XOR 6765 6764 6767; G2 AND 6765 6766 6768; G2 XOR 6764 6768 6769;
  G2 XOR 6582 100 6770; G2 XOR 6769 100 6771; G2 XOR 6770 6769 6772; G2 AND 6770 6771 6773;
  G2 XOR 6769 6773 6774; G2 XOR 6585 101 6775; G2 XOR 6774 101 6776; G2 XOR 6775 6774 6777;
  G2 AND 6775 6776 6778; G2 XOR 6774 6778 6779; G2 XOR 6588 102 6780; G2 XOR 6779 102 6781;
  G2 XOR 6780 6779 6782; G2 AND 6780 6781 6783; G2 XOR 6779 6783 6784; G2 XOR 6591 103 6785;
  G2 XOR 6784 103 6786; G2 XOR 6785 6784 6787; G2 AND 6785 6786 6788; G2 XOR 6784 6788 6789;
  G2 AND 6789 196 6790; G2 XOR 6789 196 6791; G2 XOR 6791 6790 6792; G2 XOR 24 6593 6793;
  G2 AND 6792 6793 6794; G2 XOR 6794 6593 6795; G2 XOR 6477 6597 6796; G2 AND 6792 6796 6797;
  G2 XOR 6797 6597 6798; G2 XOR 6480 6602 6799; G2 AND 6792 6799 6800; G2 XOR 6800 6602 6801;
  G2 XOR 6483 6607 6802; G2 AND 6792 6802 6803; G2 XOR 6803 6607 6804; G2 XOR 6486 6612 6805;
  G2 AND 6792 6805 6806; G2 XOR 6806 6612 6807; G2 XOR 6489 6617 6808; G2 AND 6792 6808 6809;
  G2 XOR 6809 6617 6810; G2 XOR 6492 6622 6811; G2 AND 6792 6811 6812; G2 XOR 6812 6622 6813;
  G2 XOR 6495 6627 6814; G2 AND 6792 6814 6815; G2 XOR 6815 6627 6816; G2 XOR 6498 6632 6817;
  G2 AND 6792 6817 6818; G2 XOR 6818 6632 6819; G2 XOR 6501 6637 6820; G2 AND 6792 6820 6821;
  G2 XOR 6821 6637 6822; G2 XOR 6504 6642 6823; G2 AND 6792 6823 6824; G2 XOR 6824 6642 6825;
  G2 XOR 6507 6647 6826; G2 AND 6792 6826 6827; G2 XOR 6827 6647 6828; G2 XOR 6510 6652 6829;
  G2 AND 6792 6829 6830; G2 XOR 6830 6652 6831; G2 XOR 6513 6657 6832; G2 AND 6792 6832 6833;
  G2 XOR 6833 6657 6834; G2 XOR 6516 6662 6835; G2 AND 6792 6835 6836; G2 XOR 6836 6662 6837;
  G2 XOR 6519 6667 6838; G2 AND 6792 6838 6839; G2 XOR 6839 6667 6840; G2 XOR 6522 6672 6841;
  G2 AND 6792 6841 6842; G2 XOR 6842 6672 6843; G2 XOR 6525 6677 6844; G2 AND 6792 6844 6845;
  G2 XOR 6845 6677 6846; G2 XOR 6528 6682 6847; G2 AND 6792 6847 6848; G2 XOR 6848 6682 6849;
  G2 XOR 6531 6687 6850; G2 AND 6792 6850 6851; G2 XOR 6851 6687 6852; G2 XOR 6534 6692 6853;
  G2 AND 6792 6853 6854; G2 XOR 6854 6692 6855; G2 XOR 6537 6697 6856; G2 AND 6792 6856 6857;
  G2 XOR 6857 6697 6858; G2 XOR 6540 6702 6859; G2 AND 6792 6859 6860; G2 XOR 6860 6702 6861;
  G2 XOR 6543 6707 6862; G2 AND 6792 6862 6863; G2 XOR 6863 6707 6864; G2 XOR 6546 6712 6865;
  G2 AND 6792 6865 6866; G2 XOR 6866 6712 6867; G2 XOR 6549 6717 6868; G2 AND 6792 6868 6869;
  G2 XOR 6869 6717 6870; G2 XOR 6552 6722 6871; G2 AND 6792 6871 6872; G2 XOR 6872 6722 6873;
  G2 XOR 6555 6727 6874; G2 AND 6792 6874 6875; G2 XOR 6875 6727 6876; G2 XOR 6558 6732 6877;
  G2 AND 6792 6877 6878; G2 XOR 6878 6732 6879; G2 XOR 6561 6737 6880; G2 AND 6792 6880 6881;
  G2 XOR 6881 6737 6882; G2 XOR 6564 6742 6883; G2 AND 6792 6883 6884; G2 XOR 6884 6742 6885;
  G2 XOR 6567 6747 6886; G2 AND 6792 6886 6887; G2 XOR 6887 6747 6888; G2 XOR 6570 6752 6889;
  G2 AND 6792 6889 6890; G2 XOR 6890 6752 6891; G2 XOR 6573 6757 6892; G2 AND 6792 6892 6893;
  G2 XOR 6893 6757 6894; G2 XOR 6576 6762 6895; G2 AND 6792 6895 6896; G2 XOR 6896 6762 6897;
  G2 XOR 6579 6767 6898; G2 AND 6792 6898 6899; G2 XOR 6899 6767 6900; G2 XOR 6582 6772 6901;
  G2 AND 6792 6901 6902; G2 XOR 6902 6772 6903; G2 XOR 6585 6777 6904; G2 AND 6792 6904 6905;
  G2 XOR 6905 6777 6906; G2 XOR 6588 6782 6907; G2 AND 6792 6907 6908; G2 XOR 6908 6782 6909;
  G2 XOR 6591 6787 6910; G2 AND 6792 6910 6911; G2 XOR 6911 6787 6912; G1 INV 6792 6913; G2 XOR 23 64 6914;
  G2 AND 6914 64 6915; G2 XOR 6795 65 6916; G2 XOR 6915 65 6917; G2 XOR 6916 6915 6918;
  G2 AND 6916 6917 6919; G2 XOR 6915 6919 6920; G2 XOR 6798 66 6921; G2 XOR 6920 66 6922;
  G2 XOR 6921 6920 6923; G2 AND 6921 6922 6924; G2 XOR 6920 6924 6925; G2 XOR 6801 67 6926;
  G2 XOR 6925 67 6927; G2 XOR 6926 6925 6928; G2 AND 6926 6927 6929; G2 XOR 6925 6929 6930;
  G2 XOR 6804 68 6931; G2 XOR 6930 68 6932; G2 XOR 6931 6930 6933; G2 AND 6931 6932 6934;
  G2 XOR 6930 6934 6935; G2 XOR 6807 69 6936; G2 XOR 6935 69 6937; G2 XOR 6936 6935 6938;
  G2 AND 6936 6937 6939; G2 XOR 6935 6939 6940; G2 XOR 6810 70 6941; G2 XOR 6940 70 6942;
  G2 XOR 6941 6940 6943; G2 AND 6941 6942 6944; G2 XOR 6940 6944 6945; G2 XOR 6813 71 6946;
  G2 XOR 6945 71 6947; G2 XOR 6946 6945 6948; G2 AND 6946 6947 6949; G2 XOR 6945 6949 6950;
  G2 XOR 6816 72 6951; G2 XOR 6950 72 6952; G2 XOR 6951 6950 6953; G2 AND 6951 6952 6954;
  G2 XOR 6950 6954 6955; G2 XOR 6819 73 6956; G2 XOR 6955 73 6957; G2 XOR 6956 6955 6958;
  G2 AND 6956 6957 6959; G2 XOR 6955 6959 6960; G2 XOR 6822 74 6961; G2 XOR 6960 74 6962;
  G2 XOR 6961 6960 6963; G2 AND 6961 6962 6964; G2 XOR 6960 6964 6965; G2 XOR 6825 75 6966;
  G2 XOR 6965 75 6967; G2 XOR 6966 6965 6968; G2 AND 6966 6967 6969; G2 XOR 6965 6969 6970;
  G2 XOR 6828 76 6971; G2 XOR 6970 76 6972; G2 XOR 6971 6970 6973; G2 AND 6971 6972 6974;
  G2 XOR 6970 6974 6975; G2 XOR 6831 77 6976; G2 XOR 6975 77 6977; G2 XOR 6976 6975 6978;
  G2 AND 6976 6977 6979; G2 XOR 6975 6979 6980; G2 XOR 6834 78 6981; G2 XOR 6980 78 6982;
  G2 XOR 6981 6980 6983; G2 AND 6981 6982 6984; G2 XOR 6980 6984 6985; G2 XOR 6837 79 6986;
  G2 XOR 6985 79 6987; G2 XOR 6986 6985 6988; G2 AND 6986 6987 6989; G2 XOR 6985 6989 6990;
  G2 XOR 6840 80 6991; G2 XOR 6990 80 6992; G2 XOR 6991 6990 6993; G2 AND 6991 6992 6994;
  G2 XOR 6990 6994 6995; G2 XOR 6843 81 6996; G2 XOR 6995 81 6997; G2 XOR 6996 6995 6998;
  G2 AND 6996 6997 6999; G2 XOR 6995 6999 7000; G2 XOR 6846 82 7001; G2 XOR 7000 82 7002;
  G2 XOR 7001 7000 7003; G2 AND 7001 7002 7004; G2 XOR 7000 7004 7005; G2 XOR 6849 83 7006;
  G2 XOR 7005 83 7007; G2 XOR 7006 7005 7008; G2 AND 7006 7007 7009; G2 XOR 7005 7009 7010;
  G2 XOR 6852 84 7011; G2 XOR 7010 84 7012; G2 XOR 7011 7010 7013; G2 AND 7011 7012 7014;
  G2 XOR 7010 7014 7015; G2 XOR 6855 85 7016; G2 XOR 7015 85 7017; G2 XOR 7016 7015 7018;
  G2 AND 7016 7017 7019; G2 XOR 7015 7019 7020; G2 XOR 6858 86 7021; G2 XOR 7020 86 7022;
  G2 XOR 7021 7020 7023; G2 AND 7021 7022 7024; G2 XOR 7020 7024 7025; G2 XOR 6861 87 7026;
  G2 XOR 7025 87 7027; G2 XOR 7026 7025 7028; G2 AND 7026 7027 7029; G2 XOR 7025 7029 7030;
  G2 XOR 6864 88 7031; G2 XOR 7030 88 7032; G2 XOR 7031 7030 7033; G2 AND 7031 7032 7034;
  G2 XOR 7030 7034 7035; G2 XOR 6867 89 7036; G2 XOR 7035 89 7037; G2 XOR 7036 7035 7038;
  G2 AND 7036 7037 7039; G2 XOR 7035 7039 7040; G2 XOR 6870 90 7041; G2 XOR 7040 90 7042;
  G2 XOR 7041 7040 7043; G2 AND 7041 7042 7044; G2 XOR 7040 7044 7045; G2 XOR 6873 91 7046;
  G2 XOR 7045 91 7047; G2 XOR 7046 7045 7048; G2 AND 7046 7047 7049; G2 XOR 7045 7049 7050;
  G2 XOR 6876 92 7051; G2 XOR 7050 92 7052; G2 XOR 7051 7050 7053; G2 AND 7051 7052 7054;
  G2 XOR 7050 7054 7055; G2 XOR 6879 93 7056; G2 XOR 7055 93 7057; G2 XOR 7056 7055 7058;
  G2 AND 7056 7057 7059; G2 XOR 7055 7059 7060; G2 XOR 6882 94 7061; G2 XOR 7060 94 7062;
  G2 XOR 7061 7060 7063; G2 AND 7061 7062 7064; G2 XOR 7060 7064 7065; G2 XOR 6885 95 7066;
  G2 XOR 7065 95 7067; G2 XOR 7066 7065 7068; G2 AND 7066 7067 7069; G2 XOR 7065 7069 7070;
  G2 XOR 6888 96 7071; G2 XOR 7070 96 7072; G2 XOR 7071 7070 7073; G2 AND 7071 7072 7074;
  G2 XOR 7070 7074 7075; G2 XOR 6891 97 7076; G2 XOR 7075 97 7077; G2 XOR 7076 7075 7078;
  G2 AND 7076 7077 7079; G2 XOR 7075 7079 7080; G2 XOR 6894 98 7081; G2 XOR 7080 98 7082;
  G2 XOR 7081 7080 7083; G2 AND 7081 7082 7084; G2 XOR 7080 7084 7085; G2 XOR 6897 99 7086;
  G2 XOR 7085 99 7087; G2 XOR 7086 7085 7088; G2 AND 7086 7087 7089; G2 XOR 7085 7089 7090;
  G2 XOR 6900 100 7091; G2 XOR 7090 100 7092; G2 XOR 7091 7090 7093; G2 AND 7091 7092 7094;
  G2 XOR 7090 7094 7095; G2 XOR 6903 101 7096; G2 XOR 7095 101 7097; G2 XOR 7096 7095 7098;
  G2 AND 7096 7097 7099; G2 XOR 7095 7099 7100; G2 XOR 6906 102 7101; G2 XOR 7100 102 7102;
  G2 XOR 7101 7100 7103; G2 AND 7101 7102 7104; G2 XOR 7100 7104 7105; G2 XOR 6909 103 7106;
  G2 XOR 7105 103 7107; G2 XOR 7106 7105 7108; G2 AND 7106 7107 7109; G2 XOR 7105 7109 7110;
  G2 XOR 6912 104 7111; G2 XOR 7110 104 7112; G2 XOR 7111 7110 7113; G2 AND 7111 7112 7114;
  G2 XOR 7110 7114 7115; G2 AND 7115 193 7116; G2 XOR 7115 193 7117; G2 XOR 7117 7116 7118;
  G2 XOR 23 6914 7119; G2 AND 7118 7119 7120; G2 XOR 7120 6914 7121; G2 XOR 6795 6918 7122;
  G2 AND 7118 7122 7123; G2 XOR 7123 6918 7124; G2 XOR 6798 6923 7125; G2 AND 7118 7125 7126;
  G2 XOR 7126 6923 7127; G2 XOR 6801 6928 7128; G2 AND 7118 7128 7129; G2 XOR 7129 6928 7130;
  G2 XOR 6804 6933 7131; G2 AND 7118 7131 7132; G2 XOR 7132 6933 7133; G2 XOR 6807 6938 7134;
  G2 AND 7118 7134 7135; G2 XOR 7135 6938 7136; G2 XOR 6810 6943 7137; G2 AND 7118 7137 7138;
  G2 XOR 7138 6943 7139; G2 XOR 6813 6948 7140; G2 AND 7118 7140 7141; G2 XOR 7141 6948 7142;
  G2 XOR 6816 6953 7143; G2 AND 7118 7143 7144; G2 XOR 7144 6953 7145; G2 XOR 6819 6958 7146;
  G2 AND 7118 7146 7147; G2 XOR 7147 6958 7148; G2 XOR 6822 6963 7149; G2 AND 7118 7149 7150;
  G2 XOR 7150 6963 7151; G2 XOR 6825 6968 7152; G2 AND 7118 7152 7153; G2 XOR 7153 6968 7154;
  G2 XOR 6828 6973 7155; G2 AND 7118 7155 7156; G2 XOR 7156 6973 7157; G2 XOR 6831 6978 7158;
  G2 AND 7118 7158 7159; G2 XOR 7159 6978 7160; G2 XOR 6834 6983 7161; G2 AND 7118 7161 7162;
  G2 XOR 7162 6983 7163; G2 XOR 6837 6988 7164; G2 AND 7118 7164 7165; G2 XOR 7165 6988 7166;
  G2 XOR 6840 6993 7167; G2 AND 7118 7167 7168; G2 XOR 7168 6993 7169; G2 XOR 6843 6998 7170;
  G2 AND 7118 7170 7171; G2 XOR 7171 6998 7172; G2 XOR 6846 7003 7173; G2 AND 7118 7173 7174;
  G2 XOR 7174 7003 7175; G2 XOR 6849 7008 7176; G2 AND 7118 7176 7177; G2 XOR 7177 7008 7178;
  G2 XOR 6852 7013 7179; G2 AND 7118 7179 7180; G2 XOR 7180 7013 7181; G2 XOR 6855 7018 7182;
  G2 AND 7118 7182 7183; G2 XOR 7183 7018 7184; G2 XOR 6858 7023 7185; G2 AND 7118 7185 7186;
  G2 XOR 7186 7023 7187; G2 XOR 6861 7028 7188; G2 AND 7118 7188 7189; G2 XOR 7189 7028 7190;
  G2 XOR 6864 7033 7191; G2 AND 7118 7191 7192; G2 XOR 7192 7033 7193; G2 XOR 6867 7038 7194;
  G2 AND 7118 7194 7195; G2 XOR 7195 7038 7196; G2 XOR 6870 7043 7197; G2 AND 7118 7197 7198;
  G2 XOR 7198 7043 7199; G2 XOR 6873 7048 7200; G2 AND 7118 7200 7201; G2 XOR 7201 7048 7202;
  G2 XOR 6876 7053 7203; G2 AND 7118 7203 7204; G2 XOR 7204 7053 7205; G2 XOR 6879 7058 7206;
  G2 AND 7118 7206 7207; G2 XOR 7207 7058 7208; G2 XOR 6882 7063 7209; G2 AND 7118 7209 7210;
  G2 XOR 7210 7063 7211; G2 XOR 6885 7068 7212; G2 AND 7118 7212 7213; G2 XOR 7213 7068 7214;
  G2 XOR 6888 7073 7215; G2 AND 7118 7215 7216; G2 XOR 7216 7073 7217; G2 XOR 6891 7078 7218;
  G2 AND 7118 7218 7219; G2 XOR 7219 7078 7220; G2 XOR 6894 7083 7221; G2 AND 7118 7221 7222;
  G2 XOR 7222 7083 7223; G2 XOR 6897 7088 7224; G2 AND 7118 7224 7225; G2 XOR 7225 7088 7226;
  G2 XOR 6900 7093 7227; G2 AND 7118 7227 7228; G2 XOR 7228 7093 7229; G2 XOR 6903 7098 7230;
  G2 AND 7118 7230 7231; G2 XOR 7231 7098 7232; G2 XOR 6906 7103 7233; G2 AND 7118 7233 7234;
  G2 XOR 7234 7103 7235; G2 XOR 6909 7108 7236; G2 AND 7118 7236 7237; G2 XOR 7237 7108 7238;
  G2 XOR 6912 7113 7239; G2 AND 7118 7239 7240; G2 XOR 7240 7113 7241; G1 INV 7118 7242; G2 XOR 22 64 7243;
  G2 AND 7243 64 7244; G2 XOR 7121 65 7245; G2 XOR 7244 65 7246; G2 XOR 7245 7244 7247;
  G2 AND 7245 7246 7248; G2 XOR 7244 7248 7249; G2 XOR 7124 66 7250; G2 XOR 7249 66 7251;
  G2 XOR 7250 7249 7252; G2 AND 7250 7251 7253; G2 XOR 7249 7253 7254; G2 XOR 7127 67 7255;
  G2 XOR 7254 67 7256; G2 XOR 7255 7254 7257; G2 AND 7255 7256 7258; G2 XOR 7254 7258 7259;
  G2 XOR 7130 68 7260; G2 XOR 7259 68 7261; G2 XOR 7260 7259 7262; G2 AND 7260 7261 7263;
  G2 XOR 7259 7263 7264; G2 XOR 7133 69 7265; G2 XOR 7264 69 7266; G2 XOR 7265 7264 7267;
  G2 AND 7265 7266 7268; G2 XOR 7264 7268 7269; G2 XOR 7136 70 7270; G2 XOR 7269 70 7271;
  G2 XOR 7270 7269 7272; G2 AND 7270 7271 7273; G2 XOR 7269 7273 7274; G2 XOR 7139 71 7275;
  G2 XOR 7274 71 7276; G2 XOR 7275 7274 7277; G2 AND 7275 7276 7278; G2 XOR 7274 7278 7279;
  G2 XOR 7142 72 7280; G2 XOR 7279 72 7281; G2 XOR 7280 7279 7282; G2 AND 7280 7281 7283;
  G2 XOR 7279 7283 7284; G2 XOR 7145 73 7285; G2 XOR 7284 73 7286; G2 XOR 7285 7284 7287;
  G2 AND 7285 7286 7288; G2 XOR 7284 7288 7289; G2 XOR 7148 74 7290; G2 XOR 7289 74 7291;
  G2 XOR 7290 7289 7292; G2 AND 7290 7291 7293; G2 XOR 7289 7293 7294; G2 XOR 7151 75 7295;
  G2 XOR 7294 75 7296; G2 XOR 7295 7294 7297; G2 AND 7295 7296 7298; G2 XOR 7294 7298 7299;
  G2 XOR 7154 76 7300; G2 XOR 7299 76 7301; G2 XOR 7300 7299 7302; G2 AND 7300 7301 7303;
  G2 XOR 7299 7303 7304; G2 XOR 7157 77 7305; G2 XOR 7304 77 7306; G2 XOR 7305 7304 7307;
  G2 AND 7305 7306 7308; G2 XOR 7304 7308 7309; G2 XOR 7160 78 7310; G2 XOR 7309 78 7311;
  G2 XOR 7310 7309 7312; G2 AND 7310 7311 7313; G2 XOR 7309 7313 7314; G2 XOR 7163 79 7315;
  G2 XOR 7314 79 7316; G2 XOR 7315 7314 7317; G2 AND 7315 7316 7318; G2 XOR 7314 7318 7319;
  G2 XOR 7166 80 7320; G2 XOR 7319 80 7321; G2 XOR 7320 7319 7322; G2 AND 7320 7321 7323;
  G2 XOR 7319 7323 7324; G2 XOR 7169 81 7325; G2 XOR 7324 81 7326; G2 XOR 7325 7324 7327;
  G2 AND 7325 7326 7328; G2 XOR 7324 7328 7329; G2 XOR 7172 82 7330; G2 XOR 7329 82 7331;
  G2 XOR 7330 7329 7332; G2 AND 7330 7331 7333; G2 XOR 7329 7333 7334; G2 XOR 7175 83 7335;
  G2 XOR 7334 83 7336; G2 XOR 7335 7334 7337; G2 AND 7335 7336 7338; G2 XOR 7334 7338 7339;
  G2 XOR 7178 84 7340; G2 XOR 7339 84 7341; G2 XOR 7340 7339 7342; G2 AND 7340 7341 7343;
  G2 XOR 7339 7343 7344; G2 XOR 7181 85 7345; G2 XOR 7344 85 7346; G2 XOR 7345 7344 7347;
  G2 AND 7345 7346 7348; G2 XOR 7344 7348 7349; G2 XOR 7184 86 7350; G2 XOR 7349 86 7351;
  G2 XOR 7350 7349 7352; G2 AND 7350 7351 7353; G2 XOR 7349 7353 7354; G2 XOR 7187 87 7355;
  G2 XOR 7354 87 7356; G2 XOR 7355 7354 7357; G2 AND 7355 7356 7358; G2 XOR 7354 7358 7359;
  G2 XOR 7190 88 7360; G2 XOR 7359 88 7361; G2 XOR 7360 7359 7362; G2 AND 7360 7361 7363;
  G2 XOR 7359 7363 7364; G2 XOR 7193 89 7365; G2 XOR 7364 89 7366; G2 XOR 7365 7364 7367;
  G2 AND 7365 7366 7368; G2 XOR 7364 7368 7369; G2 XOR 7196 90 7370; G2 XOR 7369 90 7371;
  G2 XOR 7370 7369 7372; G2 AND 7370 7371 7373; G2 XOR 7369 7373 7374; G2 XOR 7199 91 7375;
  G2 XOR 7374 91 7376; G2 XOR 7375 7374 7377; G2 AND 7375 7376 7378; G2 XOR 7374 7378 7379;
  G2 XOR 7202 92 7380; G2 XOR 7379 92 7381; G2 XOR 7380 7379 7382; G2 AND 7380 7381 7383;
  G2 XOR 7379 7383 7384; G2 XOR 7205 93 7385; G2 XOR 7384 93 7386; G2 XOR 7385 7384 7387;
  G2 AND 7385 7386 7388; G2 XOR 7384 7388 7389; G2 XOR 7208 94 7390; G2 XOR 7389 94 7391;
  G2 XOR 7390 7389 7392; G2 AND 7390 7391 7393; G2 XOR 7389 7393 7394; G2 XOR 7211 95 7395;
  G2 XOR 7394 95 7396; G2 XOR 7395 7394 7397; G2 AND 7395 7396 7398; G2 XOR 7394 7398 7399;
  G2 XOR 7214 96 7400; G2 XOR 7399 96 7401; G2 XOR 7400 7399 7402; G2 AND 7400 7401 7403;
  G2 XOR 7399 7403 7404; G2 XOR 7217 97 7405; G2 XOR 7404 97 7406; G2 XOR 7405 7404 7407;
  G2 AND 7405 7406 7408; G2 XOR 7404 7408 7409; G2 XOR 7220 98 7410; G2 XOR 7409 98 7411;
  G2 XOR 7410 7409 7412; G2 AND 7410 7411 7413; G2 XOR 7409 7413 7414; G2 XOR 7223 99 7415;
  G2 XOR 7414 99 7416; G2 XOR 7415 7414 7417; G2 AND 7415 7416 7418; G2 XOR 7414 7418 7419;
  G2 XOR 7226 100 7420; G2 XOR 7419 100 7421; G2 XOR 7420 7419 7422; G2 AND 7420 7421 7423;
  G2 XOR 7419 7423 7424; G2 XOR 7229 101 7425; G2 XOR 7424 101 7426; G2 XOR 7425 7424 7427;
  G2 AND 7425 7426 7428; G2 XOR 7424 7428 7429; G2 XOR 7232 102 7430; G2 XOR 7429 102 7431;
  G2 XOR 7430 7429 7432; G2 AND 7430 7431 7433; G2 XOR 7429 7433 7434; G2 XOR 7235 103 7435;
  G2 XOR 7434 103 7436; G2 XOR 7435 7434 7437; G2 AND 7435 7436 7438; G2 XOR 7434 7438 7439;
  G2 XOR 7238 104 7440; G2 XOR 7439 104 7441; G2 XOR 7440 7439 7442; G2 AND 7440 7441 7443;
  G2 XOR 7439 7443 7444; G2 XOR 7241 105 7445; G2 XOR 7444 105 7446; G2 XOR 7445 7444 7447;
  G2 AND 7445 7446 7448; G2 XOR 7444 7448 7449; G2 AND 7449 190 7450; G2 XOR 7449 190 7451;
  G2 XOR 7451 7450 7452; G2 XOR 22 7243 7453; G2 AND 7452 7453 7454; G2 XOR 7454 7243 7455;
  G2 XOR 7121 7247 7456; G2 AND 7452 7456 7457; G2 XOR 7457 7247 7458; G2 XOR 7124 7252 7459;
  G2 AND 7452 7459 7460; G2 XOR 7460 7252 7461; G2 XOR 7127 7257 7462; G2 AND 7452 7462 7463;
  G2 XOR 7463 7257 7464; G2 XOR 7130 7262 7465; G2 AND 7452 7465 7466; G2 XOR 7466 7262 7467;
  G2 XOR 7133 7267 7468; G2 AND 7452 7468 7469; G2 XOR 7469 7267 7470; G2 XOR 7136 7272 7471;
  G2 AND 7452 7471 7472; G2 XOR 7472 7272 7473; G2 XOR 7139 7277 7474; G2 AND 7452 7474 7475;
  G2 XOR 7475 7277 7476; G2 XOR 7142 7282 7477; G2 AND 7452 7477 7478; G2 XOR 7478 7282 7479;
  G2 XOR 7145 7287 7480; G2 AND 7452 7480 7481; G2 XOR 7481 7287 7482; G2 XOR 7148 7292 7483;
  G2 AND 7452 7483 7484; G2 XOR 7484 7292 7485; G2 XOR 7151 7297 7486; G2 AND 7452 7486 7487;
  G2 XOR 7487 7297 7488; G2 XOR 7154 7302 7489; G2 AND 7452 7489 7490; G2 XOR 7490 7302 7491;
  G2 XOR 7157 7307 7492; G2 AND 7452 7492 7493; G2 XOR 7493 7307 7494; G2 XOR 7160 7312 7495;
  G2 AND 7452 7495 7496; G2 XOR 7496 7312 7497; G2 XOR 7163 7317 7498; G2 AND 7452 7498 7499;
  G2 XOR 7499 7317 7500; G2 XOR 7166 7322 7501; G2 AND 7452 7501 7502; G2 XOR 7502 7322 7503;
  G2 XOR 7169 7327 7504; G2 AND 7452 7504 7505; G2 XOR 7505 7327 7506; G2 XOR 7172 7332 7507;
  G2 AND 7452 7507 7508; G2 XOR 7508 7332 7509; G2 XOR 7175 7337 7510; G2 AND 7452 7510 7511;
  G2 XOR 7511 7337 7512; G2 XOR 7178 7342 7513; G2 AND 7452 7513 7514; G2 XOR 7514 7342 7515;
  G2 XOR 7181 7347 7516; G2 AND 7452 7516 7517; G2 XOR 7517 7347 7518; G2 XOR 7184 7352 7519;
  G2 AND 7452 7519 7520; G2 XOR 7520 7352 7521; G2 XOR 7187 7357 7522; G2 AND 7452 7522 7523;
  G2 XOR 7523 7357 7524; G2 XOR 7190 7362 7525; G2 AND 7452 7525 7526; G2 XOR 7526 7362 7527;
  G2 XOR 7193 7367 7528; G2 AND 7452 7528 7529; G2 XOR 7529 7367 7530; G2 XOR 7196 7372 7531;
  G2 AND 7452 7531 7532; G2 XOR 7532 7372 7533; G2 XOR 7199 7377 7534; G2 AND 7452 7534 7535;
  G2 XOR 7535 7377 7536; G2 XOR 7202 7382 7537; G2 AND 7452 7537 7538; G2 XOR 7538 7382 7539;
  G2 XOR 7205 7387 7540; G2 AND 7452 7540 7541; G2 XOR 7541 7387 7542; G2 XOR 7208 7392 7543;
  G2 AND 7452 7543 7544; G2 XOR 7544 7392 7545; G2 XOR 7211 7397 7546; G2 AND 7452 7546 7547;
  G2 XOR 7547 7397 7548; G2 XOR 7214 7402 7549; G2 AND 7452 7549 7550; G2 XOR 7550 7402 7551;
  G2 XOR 7217 7407 7552; G2 AND 7452 7552 7553; G2 XOR 7553 7407 7554; G2 XOR 7220 7412 7555;
  G2 AND 7452 7555 7556; G2 XOR 7556 7412 7557; G2 XOR 7223 7417 7558; G2 AND 7452 7558 7559;
  G2 XOR 7559 7417 7560; G2 XOR 7226 7422 7561; G2 AND 7452 7561 7562; G2 XOR 7562 7422 7563;
  G2 XOR 7229 7427 7564; G2 AND 7452 7564 7565; G2 XOR 7565 7427 7566; G2 XOR 7232 7432 7567;
  G2 AND 7452 7567 7568; G2 XOR 7568 7432 7569; G2 XOR 7235 7437 7570; G2 AND 7452 7570 7571;
  G2 XOR 7571 7437 7572; G2 XOR 7238 7442 7573; G2 AND 7452 7573 7574; G2 XOR 7574 7442 7575;
  G2 XOR 7241 7447 7576; G2 AND 7452 7576 7577; G2 XOR 7577 7447 7578; G1 INV 7452 7579; G2 XOR 21 64 7580;
  G2 AND 7580 64 7581; G2 XOR 7455 65 7582; G2 XOR 7581 65 7583; G2 XOR 7582 7581 7584;
  G2 AND 7582 7583 7585; G2 XOR 7581 7585 7586; G2 XOR 7458 66 7587; G2 XOR 7586 66 7588;
  G2 XOR 7587 7586 7589; G2 AND 7587 7588 7590; G2 XOR 7586 7590 7591; G2 XOR 7461 67 7592;
  G2 XOR 7591 67 7593; G2 XOR 7592 7591 7594; G2 AND 7592 7593 7595; G2 XOR 7591 7595 7596;
  G2 XOR 7464 68 7597; G2 XOR 7596 68 7598; G2 XOR 7597 7596 7599; G2 AND 7597 7598 7600;
  G2 XOR 7596 7600 7601; G2 XOR 7467 69 7602; G2 XOR 7601 69 7603; G2 XOR 7602 7601 7604;
  G2 AND 7602 7603 7605; G2 XOR 7601 7605 7606; G2 XOR 7470 70 7607; G2 XOR 7606 70 7608;
  G2 XOR 7607 7606 7609; G2 AND 7607 7608 7610; G2 XOR 7606 7610 7611; G2 XOR 7473 71 7612;
  G2 XOR 7611 71 7613; G2 XOR 7612 7611 7614; G2 AND 7612 7613 7615; G2 XOR 7611 7615 7616;
  G2 XOR 7476 72 7617; G2 XOR 7616 72 7618; G2 XOR 7617 7616 7619; G2 AND 7617 7618 7620;
  G2 XOR 7616 7620 7621; G2 XOR 7479 73 7622; G2 XOR 7621 73 7623; G2 XOR 7622 7621 7624;
  G2 AND 7622 7623 7625; G2 XOR 7621 7625 7626; G2 XOR 7482 74 7627; G2 XOR 7626 74 7628;
  G2 XOR 7627 7626 7629; G2 AND 7627 7628 7630; G2 XOR 7626 7630 7631; G2 XOR 7485 75 7632;
  G2 XOR 7631 75 7633; G2 XOR 7632 7631 7634; G2 AND 7632 7633 7635; G2 XOR 7631 7635 7636;
  G2 XOR 7488 76 7637; G2 XOR 7636 76 7638; G2 XOR 7637 7636 7639; G2 AND 7637 7638 7640;
  G2 XOR 7636 7640 7641; G2 XOR 7491 77 7642; G2 XOR 7641 77 7643; G2 XOR 7642 7641 7644;
  G2 AND 7642 7643 7645; G2 XOR 7641 7645 7646; G2 XOR 7494 78 7647; G2 XOR 7646 78 7648;
  G2 XOR 7647 7646 7649; G2 AND 7647 7648 7650; G2 XOR 7646 7650 7651; G2 XOR 7497 79 7652;
  G2 XOR 7651 79 7653; G2 XOR 7652 7651 7654; G2 AND 7652 7653 7655; G2 XOR 7651 7655 7656;
  G2 XOR 7500 80 7657; G2 XOR 7656 80 7658; G2 XOR 7657 7656 7659; G2 AND 7657 7658 7660;
  G2 XOR 7656 7660 7661; G2 XOR 7503 81 7662; G2 XOR 7661 81 7663; G2 XOR 7662 7661 7664;
  G2 AND 7662 7663 7665; G2 XOR 7661 7665 7666; G2 XOR 7506 82 7667; G2 XOR 7666 82 7668;
  G2 XOR 7667 7666 7669; G2 AND 7667 7668 7670; G2 XOR 7666 7670 7671; G2 XOR 7509 83 7672;
  G2 XOR 7671 83 7673; G2 XOR 7672 7671 7674; G2 AND 7672 7673 7675; G2 XOR 7671 7675 7676;
  G2 XOR 7512 84 7677; G2 XOR 7676 84 7678; G2 XOR 7677 7676 7679; G2 AND 7677 7678 7680;
  G2 XOR 7676 7680 7681; G2 XOR 7515 85 7682; G2 XOR 7681 85 7683; G2 XOR 7682 7681 7684;
  G2 AND 7682 7683 7685; G2 XOR 7681 7685 7686; G2 XOR 7518 86 7687; G2 XOR 7686 86 7688;
  G2 XOR 7687 7686 7689; G2 AND 7687 7688 7690; G2 XOR 7686 7690 7691; G2 XOR 7521 87 7692;
  G2 XOR 7691 87 7693; G2 XOR 7692 7691 7694; G2 AND 7692 7693 7695; G2 XOR 7691 7695 7696;
  G2 XOR 7524 88 7697; G2 XOR 7696 88 7698; G2 XOR 7697 7696 7699; G2 AND 7697 7698 7700;
  G2 XOR 7696 7700 7701; G2 XOR 7527 89 7702; G2 XOR 7701 89 7703; G2 XOR 7702 7701 7704;
  G2 AND 7702 7703 7705; G2 XOR 7701 7705 7706; G2 XOR 7530 90 7707; G2 XOR 7706 90 7708;
  G2 XOR 7707 7706 7709; G2 AND 7707 7708 7710; G2 XOR 7706 7710 7711; G2 XOR 7533 91 7712;
  G2 XOR 7711 91 7713; G2 XOR 7712 7711 7714; G2 AND 7712 7713 7715; G2 XOR 7711 7715 7716;
  G2 XOR 7536 92 7717; G2 XOR 7716 92 7718; G2 XOR 7717 7716 7719; G2 AND 7717 7718 7720;
  G2 XOR 7716 7720 7721; G2 XOR 7539 93 7722; G2 XOR 7721 93 7723; G2 XOR 7722 7721 7724;
  G2 AND 7722 7723 7725; G2 XOR 7721 7725 7726; G2 XOR 7542 94 7727; G2 XOR 7726 94 7728;
  G2 XOR 7727 7726 7729; G2 AND 7727 7728 7730; G2 XOR 7726 7730 7731; G2 XOR 7545 95 7732;
  G2 XOR 7731 95 7733; G2 XOR 7732 7731 7734; G2 AND 7732 7733 7735; G2 XOR 7731 7735 7736;
  G2 XOR 7548 96 7737; G2 XOR 7736 96 7738; G2 XOR 7737 7736 7739; G2 AND 7737 7738 7740;
  G2 XOR 7736 7740 7741; G2 XOR 7551 97 7742; G2 XOR 7741 97 7743; G2 XOR 7742 7741 7744;
  G2 AND 7742 7743 7745; G2 XOR 7741 7745 7746; G2 XOR 7554 98 7747; G2 XOR 7746 98 7748;
  G2 XOR 7747 7746 7749; G2 AND 7747 7748 7750; G2 XOR 7746 7750 7751; G2 XOR 7557 99 7752;
  G2 XOR 7751 99 7753; G2 XOR 7752 7751 7754; G2 AND 7752 7753 7755; G2 XOR 7751 7755 7756;
  G2 XOR 7560 100 7757; G2 XOR 7756 100 7758; G2 XOR 7757 7756 7759; G2 AND 7757 7758 7760;
  G2 XOR 7756 7760 7761; G2 XOR 7563 101 7762; G2 XOR 7761 101 7763; G2 XOR 7762 7761 7764;
  G2 AND 7762 7763 7765; G2 XOR 7761 7765 7766; G2 XOR 7566 102 7767; G2 XOR 7766 102 7768;
  G2 XOR 7767 7766 7769; G2 AND 7767 7768 7770; G2 XOR 7766 7770 7771; G2 XOR 7569 103 7772;
  G2 XOR 7771 103 7773; G2 XOR 7772 7771 7774; G2 AND 7772 7773 7775; G2 XOR 7771 7775 7776;
  G2 XOR 7572 104 7777; G2 XOR 7776 104 7778; G2 XOR 7777 7776 7779; G2 AND 7777 7778 7780;
  G2 XOR 7776 7780 7781; G2 XOR 7575 105 7782; G2 XOR 7781 105 7783; G2 XOR 7782 7781 7784;
  G2 AND 7782 7783 7785; G2 XOR 7781 7785 7786; G2 XOR 7578 106 7787; G2 XOR 7786 106 7788;
  G2 XOR 7787 7786 7789; G2 AND 7787 7788 7790; G2 XOR 7786 7790 7791; G2 AND 7791 187 7792;
  G2 XOR 7791 187 7793; G2 XOR 7793 7792 7794; G2 XOR 21 7580 7795; G2 AND 7794 7795 7796;
  G2 XOR 7796 7580 7797; G2 XOR 7455 7584 7798; G2 AND 7794 7798 7799; G2 XOR 7799 7584 7800;
  G2 XOR 7458 7589 7801; G2 AND 7794 7801 7802; G2 XOR 7802 7589 7803; G2 XOR 7461 7594 7804;
  G2 AND 7794 7804 7805; G2 XOR 7805 7594 7806; G2 XOR 7464 7599 7807; G2 AND 7794 7807 7808;
  G2 XOR 7808 7599 7809; G2 XOR 7467 7604 7810; G2 AND 7794 7810 7811; G2 XOR 7811 7604 7812;
  G2 XOR 7470 7609 7813; G2 AND 7794 7813 7814; G2 XOR 7814 7609 7815; G2 XOR 7473 7614 7816;
  G2 AND 7794 7816 7817; G2 XOR 7817 7614 7818; G2 XOR 7476 7619 7819; G2 AND 7794 7819 7820;
  G2 XOR 7820 7619 7821; G2 XOR 7479 7624 7822; G2 AND 7794 7822 7823; G2 XOR 7823 7624 7824;
  G2 XOR 7482 7629 7825; G2 AND 7794 7825 7826; G2 XOR 7826 7629 7827; G2 XOR 7485 7634 7828;
  G2 AND 7794 7828 7829; G2 XOR 7829 7634 7830; G2 XOR 7488 7639 7831; G2 AND 7794 7831 7832;
  G2 XOR 7832 7639 7833; G2 XOR 7491 7644 7834; G2 AND 7794 7834 7835; G2 XOR 7835 7644 7836;
  G2 XOR 7494 7649 7837; G2 AND 7794 7837 7838; G2 XOR 7838 7649 7839; G2 XOR 7497 7654 7840;
  G2 AND 7794 7840 7841; G2 XOR 7841 7654 7842; G2 XOR 7500 7659 7843; G2 AND 7794 7843 7844;
  G2 XOR 7844 7659 7845; G2 XOR 7503 7664 7846; G2 AND 7794 7846 7847; G2 XOR 7847 7664 7848;
  G2 XOR 7506 7669 7849; G2 AND 7794 7849 7850; G2 XOR 7850 7669 7851; G2 XOR 7509 7674 7852;
  G2 AND 7794 7852 7853; G2 XOR 7853 7674 7854; G2 XOR 7512 7679 7855; G2 AND 7794 7855 7856;
  G2 XOR 7856 7679 7857; G2 XOR 7515 7684 7858; G2 AND 7794 7858 7859; G2 XOR 7859 7684 7860;
  G2 XOR 7518 7689 7861; G2 AND 7794 7861 7862; G2 XOR 7862 7689 7863; G2 XOR 7521 7694 7864;
  G2 AND 7794 7864 7865; G2 XOR 7865 7694 7866; G2 XOR 7524 7699 7867; G2 AND 7794 7867 7868;
  G2 XOR 7868 7699 7869; G2 XOR 7527 7704 7870; G2 AND 7794 7870 7871; G2 XOR 7871 7704 7872;
  G2 XOR 7530 7709 7873; G2 AND 7794 7873 7874; G2 XOR 7874 7709 7875; G2 XOR 7533 7714 7876;
  G2 AND 7794 7876 7877; G2 XOR 7877 7714 7878; G2 XOR 7536 7719 7879; G2 AND 7794 7879 7880;
  G2 XOR 7880 7719 7881; G2 XOR 7539 7724 7882; G2 AND 7794 7882 7883; G2 XOR 7883 7724 7884;
  G2 XOR 7542 7729 7885; G2 AND 7794 7885 7886; G2 XOR 7886 7729 7887; G2 XOR 7545 7734 7888;
  G2 AND 7794 7888 7889; G2 XOR 7889 7734 7890; G2 XOR 7548 7739 7891; G2 AND 7794 7891 7892;
  G2 XOR 7892 7739 7893; G2 XOR 7551 7744 7894; G2 AND 7794 7894 7895; G2 XOR 7895 7744 7896;
  G2 XOR 7554 7749 7897; G2 AND 7794 7897 7898; G2 XOR 7898 7749 7899; G2 XOR 7557 7754 7900;
  G2 AND 7794 7900 7901; G2 XOR 7901 7754 7902; G2 XOR 7560 7759 7903; G2 AND 7794 7903 7904;
  G2 XOR 7904 7759 7905; G2 XOR 7563 7764 7906; G2 AND 7794 7906 7907; G2 XOR 7907 7764 7908;
  G2 XOR 7566 7769 7909; G2 AND 7794 7909 7910; G2 XOR 7910 7769 7911; G2 XOR 7569 7774 7912;
  G2 AND 7794 7912 7913; G2 XOR 7913 7774 7914; G2 XOR 7572 7779 7915; G2 AND 7794 7915 7916;
  G2 XOR 7916 7779 7917; G2 XOR 7575 7784 7918; G2 AND 7794 7918 7919; G2 XOR 7919 7784 7920;
  G2 XOR 7578 7789 7921; G2 AND 7794 7921 7922; G2 XOR 7922 7789 7923; G1 INV 7794 7924; G2 XOR 20 64 7925;
  G2 AND 7925 64 7926; G2 XOR 7797 65 7927; G2 XOR 7926 65 7928; G2 XOR 7927 7926 7929;
  G2 AND 7927 7928 7930; G2 XOR 7926 7930 7931; G2 XOR 7800 66 7932; G2 XOR 7931 66 7933;
  G2 XOR 7932 7931 7934; G2 AND 7932 7933 7935; G2 XOR 7931 7935 7936; G2 XOR 7803 67 7937;
  G2 XOR 7936 67 7938; G2 XOR 7937 7936 7939; G2 AND 7937 7938 7940; G2 XOR 7936 7940 7941;
  G2 XOR 7806 68 7942; G2 XOR 7941 68 7943; G2 XOR 7942 7941 7944; G2 AND 7942 7943 7945;
  G2 XOR 7941 7945 7946; G2 XOR 7809 69 7947; G2 XOR 7946 69 7948; G2 XOR 7947 7946 7949;
  G2 AND 7947 7948 7950; G2 XOR 7946 7950 7951; G2 XOR 7812 70 7952; G2 XOR 7951 70 7953;
  G2 XOR 7952 7951 7954; G2 AND 7952 7953 7955; G2 XOR 7951 7955 7956; G2 XOR 7815 71 7957;
  G2 XOR 7956 71 7958; G2 XOR 7957 7956 7959; G2 AND 7957 7958 7960; G2 XOR 7956 7960 7961;
  G2 XOR 7818 72 7962; G2 XOR 7961 72 7963; G2 XOR 7962 7961 7964; G2 AND 7962 7963 7965;
  G2 XOR 7961 7965 7966; G2 XOR 7821 73 7967; G2 XOR 7966 73 7968; G2 XOR 7967 7966 7969;
  G2 AND 7967 7968 7970; G2 XOR 7966 7970 7971; G2 XOR 7824 74 7972; G2 XOR 7971 74 7973;
  G2 XOR 7972 7971 7974; G2 AND 7972 7973 7975; G2 XOR 7971 7975 7976; G2 XOR 7827 75 7977;
  G2 XOR 7976 75 7978; G2 XOR 7977 7976 7979; G2 AND 7977 7978 7980; G2 XOR 7976 7980 7981;
  G2 XOR 7830 76 7982; G2 XOR 7981 76 7983; G2 XOR 7982 7981 7984; G2 AND 7982 7983 7985;
  G2 XOR 7981 7985 7986; G2 XOR 7833 77 7987; G2 XOR 7986 77 7988; G2 XOR 7987 7986 7989;
  G2 AND 7987 7988 7990; G2 XOR 7986 7990 7991; G2 XOR 7836 78 7992; G2 XOR 7991 78 7993;
  G2 XOR 7992 7991 7994; G2 AND 7992 7993 7995; G2 XOR 7991 7995 7996; G2 XOR 7839 79 7997;
  G2 XOR 7996 79 7998; G2 XOR 7997 7996 7999; G2 AND 7997 7998 8000; G2 XOR 7996 8000 8001;
  G2 XOR 7842 80 8002; G2 XOR 8001 80 8003; G2 XOR 8002 8001 8004; G2 AND 8002 8003 8005;
  G2 XOR 8001 8005 8006; G2 XOR 7845 81 8007; G2 XOR 8006 81 8008; G2 XOR 8007 8006 8009;
  G2 AND 8007 8008 8010; G2 XOR 8006 8010 8011; G2 XOR 7848 82 8012; G2 XOR 8011 82 8013;
  G2 XOR 8012 8011 8014; G2 AND 8012 8013 8015; G2 XOR 8011 8015 8016; G2 XOR 7851 83 8017;
  G2 XOR 8016 83 8018; G2 XOR 8017 8016 8019; G2 AND 8017 8018 8020; G2 XOR 8016 8020 8021;
  G2 XOR 7854 84 8022; G2 XOR 8021 84 8023; G2 XOR 8022 8021 8024; G2 AND 8022 8023 8025;
  G2 XOR 8021 8025 8026; G2 XOR 7857 85 8027; G2 XOR 8026 85 8028; G2 XOR 8027 8026 8029;
  G2 AND 8027 8028 8030; G2 XOR 8026 8030 8031; G2 XOR 7860 86 8032; G2 XOR 8031 86 8033;
  G2 XOR 8032 8031 8034; G2 AND 8032 8033 8035; G2 XOR 8031 8035 8036; G2 XOR 7863 87 8037;
  G2 XOR 8036 87 8038; G2 XOR 8037 8036 8039; G2 AND 8037 8038 8040; G2 XOR 8036 8040 8041;
  G2 XOR 7866 88 8042; G2 XOR 8041 88 8043; G2 XOR 8042 8041 8044; G2 AND 8042 8043 8045;
  G2 XOR 8041 8045 8046; G2 XOR 7869 89 8047; G2 XOR 8046 89 8048; G2 XOR 8047 8046 8049;
  G2 AND 8047 8048 8050; G2 XOR 8046 8050 8051; G2 XOR 7872 90 8052; G2 XOR 8051 90 8053;
  G2 XOR 8052 8051 8054; G2 AND 8052 8053 8055; G2 XOR 8051 8055 8056; G2 XOR 7875 91 8057;
  G2 XOR 8056 91 8058; G2 XOR 8057 8056 8059; G2 AND 8057 8058 8060; G2 XOR 8056 8060 8061;
  G2 XOR 7878 92 8062; G2 XOR 8061 92 8063; G2 XOR 8062 8061 8064; G2 AND 8062 8063 8065;
  G2 XOR 8061 8065 8066; G2 XOR 7881 93 8067; G2 XOR 8066 93 8068; G2 XOR 8067 8066 8069;
  G2 AND 8067 8068 8070; G2 XOR 8066 8070 8071; G2 XOR 7884 94 8072; G2 XOR 8071 94 8073;
  G2 XOR 8072 8071 8074; G2 AND 8072 8073 8075; G2 XOR 8071 8075 8076; G2 XOR 7887 95 8077;
  G2 XOR 8076 95 8078; G2 XOR 8077 8076 8079; G2 AND 8077 8078 8080; G2 XOR 8076 8080 8081;
  G2 XOR 7890 96 8082; G2 XOR 8081 96 8083; G2 XOR 8082 8081 8084; G2 AND 8082 8083 8085;
  G2 XOR 8081 8085 8086; G2 XOR 7893 97 8087; G2 XOR 8086 97 8088; G2 XOR 8087 8086 8089;
  G2 AND 8087 8088 8090; G2 XOR 8086 8090 8091; G2 XOR 7896 98 8092; G2 XOR 8091 98 8093;
  G2 XOR 8092 8091 8094; G2 AND 8092 8093 8095; G2 XOR 8091 8095 8096; G2 XOR 7899 99 8097;
  G2 XOR 8096 99 8098; G2 XOR 8097 8096 8099; G2 AND 8097 8098 8100; G2 XOR 8096 8100 8101;
  G2 XOR 7902 100 8102; G2 XOR 8101 100 8103; G2 XOR 8102 8101 8104; G2 AND 8102 8103 8105;
  G2 XOR 8101 8105 8106; G2 XOR 7905 101 8107; G2 XOR 8106 101 8108; G2 XOR 8107 8106 8109;
  G2 AND 8107 8108 8110; G2 XOR 8106 8110 8111; G2 XOR 7908 102 8112; G2 XOR 8111 102 8113;
  G2 XOR 8112 8111 8114; G2 AND 8112 8113 8115; G2 XOR 8111 8115 8116; G2 XOR 7911 103 8117;
  G2 XOR 8116 103 8118; G2 XOR 8117 8116 8119; G2 AND 8117 8118 8120; G2 XOR 8116 8120 8121;
  G2 XOR 7914 104 8122; G2 XOR 8121 104 8123; G2 XOR 8122 8121 8124; G2 AND 8122 8123 8125;
  G2 XOR 8121 8125 8126; G2 XOR 7917 105 8127; G2 XOR 8126 105 8128; G2 XOR 8127 8126 8129;
  G2 AND 8127 8128 8130; G2 XOR 8126 8130 8131; G2 XOR 7920 106 8132; G2 XOR 8131 106 8133;
  G2 XOR 8132 8131 8134; G2 AND 8132 8133 8135; G2 XOR 8131 8135 8136; G2 XOR 7923 107 8137;
  G2 XOR 8136 107 8138; G2 XOR 8137 8136 8139; G2 AND 8137 8138 8140; G2 XOR 8136 8140 8141;
  G2 AND 8141 184 8142; G2 XOR 8141 184 8143; G2 XOR 8143 8142 8144; G2 XOR 20 7925 8145;
  G2 AND 8144 8145 8146; G2 XOR 8146 7925 8147; G2 XOR 7797 7929 8148; G2 AND 8144 8148 8149;
  G2 XOR 8149 7929 8150; G2 XOR 7800 7934 8151; G2 AND 8144 8151 8152; G2 XOR 8152 7934 8153;
  G2 XOR 7803 7939 8154; G2 AND 8144 8154 8155; G2 XOR 8155 7939 8156; G2 XOR 7806 7944 8157;
  G2 AND 8144 8157 8158; G2 XOR 8158 7944 8159; G2 XOR 7809 7949 8160; G2 AND 8144 8160 8161;
  G2 XOR 8161 7949 8162; G2 XOR 7812 7954 8163; G2 AND 8144 8163 8164; G2 XOR 8164 7954 8165;
  G2 XOR 7815 7959 8166; G2 AND 8144 8166 8167; G2 XOR 8167 7959 8168; G2 XOR 7818 7964 8169;
  G2 AND 8144 8169 8170; G2 XOR 8170 7964 8171; G2 XOR 7821 7969 8172; G2 AND 8144 8172 8173;
  G2 XOR 8173 7969 8174; G2 XOR 7824 7974 8175; G2 AND 8144 8175 8176; G2 XOR 8176 7974 8177;
  G2 XOR 7827 7979 8178; G2 AND 8144 8178 8179; G2 XOR 8179 7979 8180; G2 XOR 7830 7984 8181;
  G2 AND 8144 8181 8182; G2 XOR 8182 7984 8183; G2 XOR 7833 7989 8184; G2 AND 8144 8184 8185;
  G2 XOR 8185 7989 8186; G2 XOR 7836 7994 8187; G2 AND 8144 8187 8188; G2 XOR 8188 7994 8189;
  G2 XOR 7839 7999 8190; G2 AND 8144 8190 8191; G2 XOR 8191 7999 8192; G2 XOR 7842 8004 8193;
  G2 AND 8144 8193 8194; G2 XOR 8194 8004 8195; G2 XOR 7845 8009 8196; G2 AND 8144 8196 8197;
  G2 XOR 8197 8009 8198; G2 XOR 7848 8014 8199; G2 AND 8144 8199 8200; G2 XOR 8200 8014 8201;
  G2 XOR 7851 8019 8202; G2 AND 8144 8202 8203; G2 XOR 8203 8019 8204; G2 XOR 7854 8024 8205;
  G2 AND 8144 8205 8206; G2 XOR 8206 8024 8207; G2 XOR 7857 8029 8208; G2 AND 8144 8208 8209;
  G2 XOR 8209 8029 8210; G2 XOR 7860 8034 8211; G2 AND 8144 8211 8212; G2 XOR 8212 8034 8213;
  G2 XOR 7863 8039 8214; G2 AND 8144 8214 8215; G2 XOR 8215 8039 8216; G2 XOR 7866 8044 8217;
  G2 AND 8144 8217 8218; G2 XOR 8218 8044 8219; G2 XOR 7869 8049 8220; G2 AND 8144 8220 8221;
  G2 XOR 8221 8049 8222; G2 XOR 7872 8054 8223; G2 AND 8144 8223 8224; G2 XOR 8224 8054 8225;
  G2 XOR 7875 8059 8226; G2 AND 8144 8226 8227; G2 XOR 8227 8059 8228; G2 XOR 7878 8064 8229;
  G2 AND 8144 8229 8230; G2 XOR 8230 8064 8231; G2 XOR 7881 8069 8232; G2 AND 8144 8232 8233;
  G2 XOR 8233 8069 8234; G2 XOR 7884 8074 8235; G2 AND 8144 8235 8236; G2 XOR 8236 8074 8237;
  G2 XOR 7887 8079 8238; G2 AND 8144 8238 8239; G2 XOR 8239 8079 8240; G2 XOR 7890 8084 8241;
  G2 AND 8144 8241 8242; G2 XOR 8242 8084 8243; G2 XOR 7893 8089 8244; G2 AND 8144 8244 8245;
  G2 XOR 8245 8089 8246; G2 XOR 7896 8094 8247; G2 AND 8144 8247 8248; G2 XOR 8248 8094 8249;
  G2 XOR 7899 8099 8250; G2 AND 8144 8250 8251; G2 XOR 8251 8099 8252; G2 XOR 7902 8104 8253;
  G2 AND 8144 8253 8254; G2 XOR 8254 8104 8255; G2 XOR 7905 8109 8256; G2 AND 8144 8256 8257;
  G2 XOR 8257 8109 8258; G2 XOR 7908 8114 8259; G2 AND 8144 8259 8260; G2 XOR 8260 8114 8261;
  G2 XOR 7911 8119 8262; G2 AND 8144 8262 8263; G2 XOR 8263 8119 8264; G2 XOR 7914 8124 8265;
  G2 AND 8144 8265 8266; G2 XOR 8266 8124 8267; G2 XOR 7917 8129 8268; G2 AND 8144 8268 8269;
  G2 XOR 8269 8129 8270; G2 XOR 7920 8134 8271; G2 AND 8144 8271 8272; G2 XOR 8272 8134 8273;
  G2 XOR 7923 8139 8274; G2 AND 8144 8274 8275; G2 XOR 8275 8139 8276; G1 INV 8144 8277; G2 XOR 19 64 8278;
  G2 AND 8278 64 8279; G2 XOR 8147 65 8280; G2 XOR 8279 65 8281; G2 XOR 8280 8279 8282;
  G2 AND 8280 8281 8283; G2 XOR 8279 8283 8284; G2 XOR 8150 66 8285; G2 XOR 8284 66 8286;
  G2 XOR 8285 8284 8287; G2 AND 8285 8286 8288; G2 XOR 8284 8288 8289; G2 XOR 8153 67 8290;
  G2 XOR 8289 67 8291; G2 XOR 8290 8289 8292; G2 AND 8290 8291 8293; G2 XOR 8289 8293 8294;
  G2 XOR 8156 68 8295; G2 XOR 8294 68 8296; G2 XOR 8295 8294 8297; G2 AND 8295 8296 8298;
  G2 XOR 8294 8298 8299; G2 XOR 8159 69 8300; G2 XOR 8299 69 8301; G2 XOR 8300 8299 8302;
  G2 AND 8300 8301 8303; G2 XOR 8299 8303 8304; G2 XOR 8162 70 8305; G2 XOR 8304 70 8306;
  G2 XOR 8305 8304 8307; G2 AND 8305 8306 8308; G2 XOR 8304 8308 8309; G2 XOR 8165 71 8310;
  G2 XOR 8309 71 8311; G2 XOR 8310 8309 8312; G2 AND 8310 8311 8313; G2 XOR 8309 8313 8314;
  G2 XOR 8168 72 8315; G2 XOR 8314 72 8316; G2 XOR 8315 8314 8317; G2 AND 8315 8316 8318;
  G2 XOR 8314 8318 8319; G2 XOR 8171 73 8320; G2 XOR 8319 73 8321; G2 XOR 8320 8319 8322;
  G2 AND 8320 8321 8323; G2 XOR 8319 8323 8324; G2 XOR 8174 74 8325; G2 XOR 8324 74 8326;
  G2 XOR 8325 8324 8327; G2 AND 8325 8326 8328; G2 XOR 8324 8328 8329; G2 XOR 8177 75 8330;
  G2 XOR 8329 75 8331; G2 XOR 8330 8329 8332; G2 AND 8330 8331 8333; G2 XOR 8329 8333 8334;
  G2 XOR 8180 76 8335; G2 XOR 8334 76 8336; G2 XOR 8335 8334 8337; G2 AND 8335 8336 8338;
  G2 XOR 8334 8338 8339; G2 XOR 8183 77 8340; G2 XOR 8339 77 8341; G2 XOR 8340 8339 8342;
  G2 AND 8340 8341 8343; G2 XOR 8339 8343 8344; G2 XOR 8186 78 8345; G2 XOR 8344 78 8346;
  G2 XOR 8345 8344 8347; G2 AND 8345 8346 8348; G2 XOR 8344 8348 8349; G2 XOR 8189 79 8350;
  G2 XOR 8349 79 8351; G2 XOR 8350 8349 8352; G2 AND 8350 8351 8353; G2 XOR 8349 8353 8354;
  G2 XOR 8192 80 8355; G2 XOR 8354 80 8356; G2 XOR 8355 8354 8357; G2 AND 8355 8356 8358;
  G2 XOR 8354 8358 8359; G2 XOR 8195 81 8360; G2 XOR 8359 81 8361; G2 XOR 8360 8359 8362;
  G2 AND 8360 8361 8363; G2 XOR 8359 8363 8364; G2 XOR 8198 82 8365; G2 XOR 8364 82 8366;
  G2 XOR 8365 8364 8367; G2 AND 8365 8366 8368; G2 XOR 8364 8368 8369; G2 XOR 8201 83 8370;
  G2 XOR 8369 83 8371; G2 XOR 8370 8369 8372; G2 AND 8370 8371 8373; G2 XOR 8369 8373 8374;
  G2 XOR 8204 84 8375; G2 XOR 8374 84 8376; G2 XOR 8375 8374 8377; G2 AND 8375 8376 8378;
  G2 XOR 8374 8378 8379; G2 XOR 8207 85 8380; G2 XOR 8379 85 8381; G2 XOR 8380 8379 8382;
  G2 AND 8380 8381 8383; G2 XOR 8379 8383 8384; G2 XOR 8210 86 8385; G2 XOR 8384 86 8386;
  G2 XOR 8385 8384 8387; G2 AND 8385 8386 8388; G2 XOR 8384 8388 8389; G2 XOR 8213 87 8390;
  G2 XOR 8389 87 8391; G2 XOR 8390 8389 8392; G2 AND 8390 8391 8393; G2 XOR 8389 8393 8394;
  G2 XOR 8216 88 8395; G2 XOR 8394 88 8396; G2 XOR 8395 8394 8397; G2 AND 8395 8396 8398;
  G2 XOR 8394 8398 8399; G2 XOR 8219 89 8400; G2 XOR 8399 89 8401; G2 XOR 8400 8399 8402;
  G2 AND 8400 8401 8403; G2 XOR 8399 8403 8404; G2 XOR 8222 90 8405; G2 XOR 8404 90 8406;
  G2 XOR 8405 8404 8407; G2 AND 8405 8406 8408; G2 XOR 8404 8408 8409; G2 XOR 8225 91 8410;
  G2 XOR 8409 91 8411; G2 XOR 8410 8409 8412; G2 AND 8410 8411 8413; G2 XOR 8409 8413 8414;
  G2 XOR 8228 92 8415; G2 XOR 8414 92 8416; G2 XOR 8415 8414 8417; G2 AND 8415 8416 8418;
  G2 XOR 8414 8418 8419; G2 XOR 8231 93 8420; G2 XOR 8419 93 8421; G2 XOR 8420 8419 8422;
  G2 AND 8420 8421 8423; G2 XOR 8419 8423 8424; G2 XOR 8234 94 8425; G2 XOR 8424 94 8426;
  G2 XOR 8425 8424 8427; G2 AND 8425 8426 8428; G2 XOR 8424 8428 8429; G2 XOR 8237 95 8430;
  G2 XOR 8429 95 8431; G2 XOR 8430 8429 8432; G2 AND 8430 8431 8433; G2 XOR 8429 8433 8434;
  G2 XOR 8240 96 8435; G2 XOR 8434 96 8436; G2 XOR 8435 8434 8437; G2 AND 8435 8436 8438;
  G2 XOR 8434 8438 8439; G2 XOR 8243 97 8440; G2 XOR 8439 97 8441; G2 XOR 8440 8439 8442;
  G2 AND 8440 8441 8443; G2 XOR 8439 8443 8444; G2 XOR 8246 98 8445; G2 XOR 8444 98 8446;
  G2 XOR 8445 8444 8447; G2 AND 8445 8446 8448; G2 XOR 8444 8448 8449; G2 XOR 8249 99 8450;
  G2 XOR 8449 99 8451; G2 XOR 8450 8449 8452; G2 AND 8450 8451 8453; G2 XOR 8449 8453 8454;
  G2 XOR 8252 100 8455; G2 XOR 8454 100 8456; G2 XOR 8455 8454 8457; G2 AND 8455 8456 8458;
  G2 XOR 8454 8458 8459; G2 XOR 8255 101 8460; G2 XOR 8459 101 8461; G2 XOR 8460 8459 8462;
  G2 AND 8460 8461 8463; G2 XOR 8459 8463 8464; G2 XOR 8258 102 8465; G2 XOR 8464 102 8466;
  G2 XOR 8465 8464 8467; G2 AND 8465 8466 8468; G2 XOR 8464 8468 8469; G2 XOR 8261 103 8470;
  G2 XOR 8469 103 8471; G2 XOR 8470 8469 8472; G2 AND 8470 8471 8473; G2 XOR 8469 8473 8474;
  G2 XOR 8264 104 8475; G2 XOR 8474 104 8476; G2 XOR 8475 8474 8477; G2 AND 8475 8476 8478;
  G2 XOR 8474 8478 8479; G2 XOR 8267 105 8480; G2 XOR 8479 105 8481; G2 XOR 8480 8479 8482;
  G2 AND 8480 8481 8483; G2 XOR 8479 8483 8484; G2 XOR 8270 106 8485; G2 XOR 8484 106 8486;
  G2 XOR 8485 8484 8487; G2 AND 8485 8486 8488; G2 XOR 8484 8488 8489; G2 XOR 8273 107 8490;
  G2 XOR 8489 107 8491; G2 XOR 8490 8489 8492; G2 AND 8490 8491 8493; G2 XOR 8489 8493 8494;
  G2 XOR 8276 108 8495; G2 XOR 8494 108 8496; G2 XOR 8495 8494 8497; G2 AND 8495 8496 8498;
  G2 XOR 8494 8498 8499; G2 AND 8499 181 8500; G2 XOR 8499 181 8501; G2 XOR 8501 8500 8502;
  G2 XOR 19 8278 8503; G2 AND 8502 8503 8504; G2 XOR 8504 8278 8505; G2 XOR 8147 8282 8506;
  G2 AND 8502 8506 8507; G2 XOR 8507 8282 8508; G2 XOR 8150 8287 8509; G2 AND 8502 8509 8510;
  G2 XOR 8510 8287 8511; G2 XOR 8153 8292 8512; G2 AND 8502 8512 8513; G2 XOR 8513 8292 8514;
  G2 XOR 8156 8297 8515; G2 AND 8502 8515 8516; G2 XOR 8516 8297 8517; G2 XOR 8159 8302 8518;
  G2 AND 8502 8518 8519; G2 XOR 8519 8302 8520; G2 XOR 8162 8307 8521; G2 AND 8502 8521 8522;
  G2 XOR 8522 8307 8523; G2 XOR 8165 8312 8524; G2 AND 8502 8524 8525; G2 XOR 8525 8312 8526;
  G2 XOR 8168 8317 8527; G2 AND 8502 8527 8528; G2 XOR 8528 8317 8529; G2 XOR 8171 8322 8530;
  G2 AND 8502 8530 8531; G2 XOR 8531 8322 8532; G2 XOR 8174 8327 8533; G2 AND 8502 8533 8534;
  G2 XOR 8534 8327 8535; G2 XOR 8177 8332 8536; G2 AND 8502 8536 8537; G2 XOR 8537 8332 8538;
  G2 XOR 8180 8337 8539; G2 AND 8502 8539 8540; G2 XOR 8540 8337 8541; G2 XOR 8183 8342 8542;
  G2 AND 8502 8542 8543; G2 XOR 8543 8342 8544; G2 XOR 8186 8347 8545; G2 AND 8502 8545 8546;
  G2 XOR 8546 8347 8547; G2 XOR 8189 8352 8548; G2 AND 8502 8548 8549; G2 XOR 8549 8352 8550;
  G2 XOR 8192 8357 8551; G2 AND 8502 8551 8552; G2 XOR 8552 8357 8553; G2 XOR 8195 8362 8554;
  G2 AND 8502 8554 8555; G2 XOR 8555 8362 8556; G2 XOR 8198 8367 8557; G2 AND 8502 8557 8558;
  G2 XOR 8558 8367 8559; G2 XOR 8201 8372 8560; G2 AND 8502 8560 8561; G2 XOR 8561 8372 8562;
  G2 XOR 8204 8377 8563; G2 AND 8502 8563 8564; G2 XOR 8564 8377 8565; G2 XOR 8207 8382 8566;
  G2 AND 8502 8566 8567; G2 XOR 8567 8382 8568; G2 XOR 8210 8387 8569; G2 AND 8502 8569 8570;
  G2 XOR 8570 8387 8571; G2 XOR 8213 8392 8572; G2 AND 8502 8572 8573; G2 XOR 8573 8392 8574;
  G2 XOR 8216 8397 8575; G2 AND 8502 8575 8576; G2 XOR 8576 8397 8577; G2 XOR 8219 8402 8578;
  G2 AND 8502 8578 8579; G2 XOR 8579 8402 8580; G2 XOR 8222 8407 8581; G2 AND 8502 8581 8582;
  G2 XOR 8582 8407 8583; G2 XOR 8225 8412 8584; G2 AND 8502 8584 8585; G2 XOR 8585 8412 8586;
  G2 XOR 8228 8417 8587; G2 AND 8502 8587 8588; G2 XOR 8588 8417 8589; G2 XOR 8231 8422 8590;
  G2 AND 8502 8590 8591; G2 XOR 8591 8422 8592; G2 XOR 8234 8427 8593; G2 AND 8502 8593 8594;
  G2 XOR 8594 8427 8595; G2 XOR 8237 8432 8596; G2 AND 8502 8596 8597; G2 XOR 8597 8432 8598;
  G2 XOR 8240 8437 8599; G2 AND 8502 8599 8600; G2 XOR 8600 8437 8601; G2 XOR 8243 8442 8602;
  G2 AND 8502 8602 8603; G2 XOR 8603 8442 8604; G2 XOR 8246 8447 8605; G2 AND 8502 8605 8606;
  G2 XOR 8606 8447 8607; G2 XOR 8249 8452 8608; G2 AND 8502 8608 8609; G2 XOR 8609 8452 8610;
  G2 XOR 8252 8457 8611; G2 AND 8502 8611 8612; G2 XOR 8612 8457 8613; G2 XOR 8255 8462 8614;
  G2 AND 8502 8614 8615; G2 XOR 8615 8462 8616; G2 XOR 8258 8467 8617; G2 AND 8502 8617 8618;
  G2 XOR 8618 8467 8619; G2 XOR 8261 8472 8620; G2 AND 8502 8620 8621; G2 XOR 8621 8472 8622;
  G2 XOR 8264 8477 8623; G2 AND 8502 8623 8624; G2 XOR 8624 8477 8625; G2 XOR 8267 8482 8626;
  G2 AND 8502 8626 8627; G2 XOR 8627 8482 8628; G2 XOR 8270 8487 8629; G2 AND 8502 8629 8630;
  G2 XOR 8630 8487 8631; G2 XOR 8273 8492 8632; G2 AND 8502 8632 8633; G2 XOR 8633 8492 8634;
  G2 XOR 8276 8497 8635; G2 AND 8502 8635 8636; G2 XOR 8636 8497 8637; G1 INV 8502 8638; G2 XOR 18 64 8639;
  G2 AND 8639 64 8640; G2 XOR 8505 65 8641; G2 XOR 8640 65 8642; G2 XOR 8641 8640 8643;
  G2 AND 8641 8642 8644; G2 XOR 8640 8644 8645; G2 XOR 8508 66 8646; G2 XOR 8645 66 8647;
  G2 XOR 8646 8645 8648; G2 AND 8646 8647 8649; G2 XOR 8645 8649 8650; G2 XOR 8511 67 8651;
  G2 XOR 8650 67 8652; G2 XOR 8651 8650 8653; G2 AND 8651 8652 8654; G2 XOR 8650 8654 8655;
  G2 XOR 8514 68 8656; G2 XOR 8655 68 8657; G2 XOR 8656 8655 8658; G2 AND 8656 8657 8659;
  G2 XOR 8655 8659 8660; G2 XOR 8517 69 8661; G2 XOR 8660 69 8662; G2 XOR 8661 8660 8663;
  G2 AND 8661 8662 8664; G2 XOR 8660 8664 8665; G2 XOR 8520 70 8666; G2 XOR 8665 70 8667;
  G2 XOR 8666 8665 8668; G2 AND 8666 8667 8669; G2 XOR 8665 8669 8670; G2 XOR 8523 71 8671;
  G2 XOR 8670 71 8672; G2 XOR 8671 8670 8673; G2 AND 8671 8672 8674; G2 XOR 8670 8674 8675;
  G2 XOR 8526 72 8676; G2 XOR 8675 72 8677; G2 XOR 8676 8675 8678; G2 AND 8676 8677 8679;
  G2 XOR 8675 8679 8680; G2 XOR 8529 73 8681; G2 XOR 8680 73 8682; G2 XOR 8681 8680 8683;
  G2 AND 8681 8682 8684; G2 XOR 8680 8684 8685; G2 XOR 8532 74 8686; G2 XOR 8685 74 8687;
  G2 XOR 8686 8685 8688; G2 AND 8686 8687 8689; G2 XOR 8685 8689 8690; G2 XOR 8535 75 8691;
  G2 XOR 8690 75 8692; G2 XOR 8691 8690 8693; G2 AND 8691 8692 8694; G2 XOR 8690 8694 8695;
  G2 XOR 8538 76 8696; G2 XOR 8695 76 8697; G2 XOR 8696 8695 8698; G2 AND 8696 8697 8699;
  G2 XOR 8695 8699 8700; G2 XOR 8541 77 8701; G2 XOR 8700 77 8702; G2 XOR 8701 8700 8703;
  G2 AND 8701 8702 8704; G2 XOR 8700 8704 8705; G2 XOR 8544 78 8706; G2 XOR 8705 78 8707;
  G2 XOR 8706 8705 8708; G2 AND 8706 8707 8709; G2 XOR 8705 8709 8710; G2 XOR 8547 79 8711;
  G2 XOR 8710 79 8712; G2 XOR 8711 8710 8713; G2 AND 8711 8712 8714; G2 XOR 8710 8714 8715;
  G2 XOR 8550 80 8716; G2 XOR 8715 80 8717; G2 XOR 8716 8715 8718; G2 AND 8716 8717 8719;
  G2 XOR 8715 8719 8720; G2 XOR 8553 81 8721; G2 XOR 8720 81 8722; G2 XOR 8721 8720 8723;
  G2 AND 8721 8722 8724; G2 XOR 8720 8724 8725; G2 XOR 8556 82 8726; G2 XOR 8725 82 8727;
  G2 XOR 8726 8725 8728; G2 AND 8726 8727 8729; G2 XOR 8725 8729 8730; G2 XOR 8559 83 8731;
  G2 XOR 8730 83 8732; G2 XOR 8731 8730 8733; G2 AND 8731 8732 8734; G2 XOR 8730 8734 8735;
  G2 XOR 8562 84 8736; G2 XOR 8735 84 8737; G2 XOR 8736 8735 8738; G2 AND 8736 8737 8739;
  G2 XOR 8735 8739 8740; G2 XOR 8565 85 8741; G2 XOR 8740 85 8742; G2 XOR 8741 8740 8743;
  G2 AND 8741 8742 8744; G2 XOR 8740 8744 8745; G2 XOR 8568 86 8746; G2 XOR 8745 86 8747;
  G2 XOR 8746 8745 8748; G2 AND 8746 8747 8749; G2 XOR 8745 8749 8750; G2 XOR 8571 87 8751;
  G2 XOR 8750 87 8752; G2 XOR 8751 8750 8753; G2 AND 8751 8752 8754; G2 XOR 8750 8754 8755;
  G2 XOR 8574 88 8756; G2 XOR 8755 88 8757; G2 XOR 8756 8755 8758; G2 AND 8756 8757 8759;
  G2 XOR 8755 8759 8760; G2 XOR 8577 89 8761; G2 XOR 8760 89 8762; G2 XOR 8761 8760 8763;
  G2 AND 8761 8762 8764; G2 XOR 8760 8764 8765; G2 XOR 8580 90 8766; G2 XOR 8765 90 8767;
  G2 XOR 8766 8765 8768; G2 AND 8766 8767 8769; G2 XOR 8765 8769 8770; G2 XOR 8583 91 8771;
  G2 XOR 8770 91 8772; G2 XOR 8771 8770 8773; G2 AND 8771 8772 8774; G2 XOR 8770 8774 8775;
  G2 XOR 8586 92 8776; G2 XOR 8775 92 8777; G2 XOR 8776 8775 8778; G2 AND 8776 8777 8779;
  G2 XOR 8775 8779 8780; G2 XOR 8589 93 8781; G2 XOR 8780 93 8782; G2 XOR 8781 8780 8783;
  G2 AND 8781 8782 8784; G2 XOR 8780 8784 8785; G2 XOR 8592 94 8786; G2 XOR 8785 94 8787;
  G2 XOR 8786 8785 8788; G2 AND 8786 8787 8789; G2 XOR 8785 8789 8790; G2 XOR 8595 95 8791;
  G2 XOR 8790 95 8792; G2 XOR 8791 8790 8793; G2 AND 8791 8792 8794; G2 XOR 8790 8794 8795;
  G2 XOR 8598 96 8796; G2 XOR 8795 96 8797; G2 XOR 8796 8795 8798; G2 AND 8796 8797 8799;
  G2 XOR 8795 8799 8800; G2 XOR 8601 97 8801; G2 XOR 8800 97 8802; G2 XOR 8801 8800 8803;
  G2 AND 8801 8802 8804; G2 XOR 8800 8804 8805; G2 XOR 8604 98 8806; G2 XOR 8805 98 8807;
  G2 XOR 8806 8805 8808; G2 AND 8806 8807 8809; G2 XOR 8805 8809 8810; G2 XOR 8607 99 8811;
  G2 XOR 8810 99 8812; G2 XOR 8811 8810 8813; G2 AND 8811 8812 8814; G2 XOR 8810 8814 8815;
  G2 XOR 8610 100 8816; G2 XOR 8815 100 8817; G2 XOR 8816 8815 8818; G2 AND 8816 8817 8819;
  G2 XOR 8815 8819 8820; G2 XOR 8613 101 8821; G2 XOR 8820 101 8822; G2 XOR 8821 8820 8823;
  G2 AND 8821 8822 8824; G2 XOR 8820 8824 8825; G2 XOR 8616 102 8826; G2 XOR 8825 102 8827;
  G2 XOR 8826 8825 8828; G2 AND 8826 8827 8829; G2 XOR 8825 8829 8830; G2 XOR 8619 103 8831;
  G2 XOR 8830 103 8832; G2 XOR 8831 8830 8833; G2 AND 8831 8832 8834; G2 XOR 8830 8834 8835;
  G2 XOR 8622 104 8836; G2 XOR 8835 104 8837; G2 XOR 8836 8835 8838; G2 AND 8836 8837 8839;
  G2 XOR 8835 8839 8840; G2 XOR 8625 105 8841; G2 XOR 8840 105 8842; G2 XOR 8841 8840 8843;
  G2 AND 8841 8842 8844; G2 XOR 8840 8844 8845; G2 XOR 8628 106 8846; G2 XOR 8845 106 8847;
  G2 XOR 8846 8845 8848; G2 AND 8846 8847 8849; G2 XOR 8845 8849 8850; G2 XOR 8631 107 8851;
  G2 XOR 8850 107 8852; G2 XOR 8851 8850 8853; G2 AND 8851 8852 8854; G2 XOR 8850 8854 8855;
  G2 XOR 8634 108 8856; G2 XOR 8855 108 8857; G2 XOR 8856 8855 8858; G2 AND 8856 8857 8859;
  G2 XOR 8855 8859 8860; G2 XOR 8637 109 8861; G2 XOR 8860 109 8862; G2 XOR 8861 8860 8863;
  G2 AND 8861 8862 8864; G2 XOR 8860 8864 8865; G2 AND 8865 178 8866; G2 XOR 8865 178 8867;
  G2 XOR 8867 8866 8868; G2 XOR 18 8639 8869; G2 AND 8868 8869 8870; G2 XOR 8870 8639 8871;
  G2 XOR 8505 8643 8872; G2 AND 8868 8872 8873; G2 XOR 8873 8643 8874; G2 XOR 8508 8648 8875;
  G2 AND 8868 8875 8876; G2 XOR 8876 8648 8877; G2 XOR 8511 8653 8878; G2 AND 8868 8878 8879;
  G2 XOR 8879 8653 8880; G2 XOR 8514 8658 8881; G2 AND 8868 8881 8882; G2 XOR 8882 8658 8883;
  G2 XOR 8517 8663 8884; G2 AND 8868 8884 8885; G2 XOR 8885 8663 8886; G2 XOR 8520 8668 8887;
  G2 AND 8868 8887 8888; G2 XOR 8888 8668 8889; G2 XOR 8523 8673 8890; G2 AND 8868 8890 8891;
  G2 XOR 8891 8673 8892; G2 XOR 8526 8678 8893; G2 AND 8868 8893 8894; G2 XOR 8894 8678 8895;
  G2 XOR 8529 8683 8896; G2 AND 8868 8896 8897; G2 XOR 8897 8683 8898; G2 XOR 8532 8688 8899;
  G2 AND 8868 8899 8900; G2 XOR 8900 8688 8901; G2 XOR 8535 8693 8902; G2 AND 8868 8902 8903;
  G2 XOR 8903 8693 8904; G2 XOR 8538 8698 8905; G2 AND 8868 8905 8906; G2 XOR 8906 8698 8907;
  G2 XOR 8541 8703 8908; G2 AND 8868 8908 8909; G2 XOR 8909 8703 8910; G2 XOR 8544 8708 8911;
  G2 AND 8868 8911 8912; G2 XOR 8912 8708 8913; G2 XOR 8547 8713 8914; G2 AND 8868 8914 8915;
  G2 XOR 8915 8713 8916; G2 XOR 8550 8718 8917; G2 AND 8868 8917 8918; G2 XOR 8918 8718 8919;
  G2 XOR 8553 8723 8920; G2 AND 8868 8920 8921; G2 XOR 8921 8723 8922; G2 XOR 8556 8728 8923;
  G2 AND 8868 8923 8924; G2 XOR 8924 8728 8925; G2 XOR 8559 8733 8926; G2 AND 8868 8926 8927;
  G2 XOR 8927 8733 8928; G2 XOR 8562 8738 8929; G2 AND 8868 8929 8930; G2 XOR 8930 8738 8931;
  G2 XOR 8565 8743 8932; G2 AND 8868 8932 8933; G2 XOR 8933 8743 8934; G2 XOR 8568 8748 8935;
  G2 AND 8868 8935 8936; G2 XOR 8936 8748 8937; G2 XOR 8571 8753 8938; G2 AND 8868 8938 8939;
  G2 XOR 8939 8753 8940; G2 XOR 8574 8758 8941; G2 AND 8868 8941 8942; G2 XOR 8942 8758 8943;
  G2 XOR 8577 8763 8944; G2 AND 8868 8944 8945; G2 XOR 8945 8763 8946; G2 XOR 8580 8768 8947;
  G2 AND 8868 8947 8948; G2 XOR 8948 8768 8949; G2 XOR 8583 8773 8950; G2 AND 8868 8950 8951;
  G2 XOR 8951 8773 8952; G2 XOR 8586 8778 8953; G2 AND 8868 8953 8954; G2 XOR 8954 8778 8955;
  G2 XOR 8589 8783 8956; G2 AND 8868 8956 8957; G2 XOR 8957 8783 8958; G2 XOR 8592 8788 8959;
  G2 AND 8868 8959 8960; G2 XOR 8960 8788 8961; G2 XOR 8595 8793 8962; G2 AND 8868 8962 8963;
  G2 XOR 8963 8793 8964; G2 XOR 8598 8798 8965; G2 AND 8868 8965 8966; G2 XOR 8966 8798 8967;
  G2 XOR 8601 8803 8968; G2 AND 8868 8968 8969; G2 XOR 8969 8803 8970; G2 XOR 8604 8808 8971;
  G2 AND 8868 8971 8972; G2 XOR 8972 8808 8973; G2 XOR 8607 8813 8974; G2 AND 8868 8974 8975;
  G2 XOR 8975 8813 8976; G2 XOR 8610 8818 8977; G2 AND 8868 8977 8978; G2 XOR 8978 8818 8979;
  G2 XOR 8613 8823 8980; G2 AND 8868 8980 8981; G2 XOR 8981 8823 8982; G2 XOR 8616 8828 8983;
  G2 AND 8868 8983 8984; G2 XOR 8984 8828 8985; G2 XOR 8619 8833 8986; G2 AND 8868 8986 8987;
  G2 XOR 8987 8833 8988; G2 XOR 8622 8838 8989; G2 AND 8868 8989 8990; G2 XOR 8990 8838 8991;
  G2 XOR 8625 8843 8992; G2 AND 8868 8992 8993; G2 XOR 8993 8843 8994; G2 XOR 8628 8848 8995;
  G2 AND 8868 8995 8996; G2 XOR 8996 8848 8997; G2 XOR 8631 8853 8998; G2 AND 8868 8998 8999;
  G2 XOR 8999 8853 9000; G2 XOR 8634 8858 9001; G2 AND 8868 9001 9002; G2 XOR 9002 8858 9003;
  G2 XOR 8637 8863 9004; G2 AND 8868 9004 9005; G2 XOR 9005 8863 9006; G1 INV 8868 9007; G2 XOR 17 64 9008;
  G2 AND 9008 64 9009; G2 XOR 8871 65 9010; G2 XOR 9009 65 9011; G2 XOR 9010 9009 9012;
  G2 AND 9010 9011 9013; G2 XOR 9009 9013 9014; G2 XOR 8874 66 9015; G2 XOR 9014 66 9016;
  G2 XOR 9015 9014 9017; G2 AND 9015 9016 9018; G2 XOR 9014 9018 9019; G2 XOR 8877 67 9020;
  G2 XOR 9019 67 9021; G2 XOR 9020 9019 9022; G2 AND 9020 9021 9023; G2 XOR 9019 9023 9024;
  G2 XOR 8880 68 9025; G2 XOR 9024 68 9026; G2 XOR 9025 9024 9027; G2 AND 9025 9026 9028;
  G2 XOR 9024 9028 9029; G2 XOR 8883 69 9030; G2 XOR 9029 69 9031; G2 XOR 9030 9029 9032;
  G2 AND 9030 9031 9033; G2 XOR 9029 9033 9034; G2 XOR 8886 70 9035; G2 XOR 9034 70 9036;
  G2 XOR 9035 9034 9037; G2 AND 9035 9036 9038; G2 XOR 9034 9038 9039; G2 XOR 8889 71 9040;
  G2 XOR 9039 71 9041; G2 XOR 9040 9039 9042; G2 AND 9040 9041 9043; G2 XOR 9039 9043 9044;
  G2 XOR 8892 72 9045; G2 XOR 9044 72 9046; G2 XOR 9045 9044 9047; G2 AND 9045 9046 9048;
  G2 XOR 9044 9048 9049; G2 XOR 8895 73 9050; G2 XOR 9049 73 9051; G2 XOR 9050 9049 9052;
  G2 AND 9050 9051 9053; G2 XOR 9049 9053 9054; G2 XOR 8898 74 9055; G2 XOR 9054 74 9056;
  G2 XOR 9055 9054 9057; G2 AND 9055 9056 9058; G2 XOR 9054 9058 9059; G2 XOR 8901 75 9060;
  G2 XOR 9059 75 9061; G2 XOR 9060 9059 9062; G2 AND 9060 9061 9063; G2 XOR 9059 9063 9064;
  G2 XOR 8904 76 9065; G2 XOR 9064 76 9066; G2 XOR 9065 9064 9067; G2 AND 9065 9066 9068;
  G2 XOR 9064 9068 9069; G2 XOR 8907 77 9070; G2 XOR 9069 77 9071; G2 XOR 9070 9069 9072;
  G2 AND 9070 9071 9073; G2 XOR 9069 9073 9074; G2 XOR 8910 78 9075; G2 XOR 9074 78 9076;
  G2 XOR 9075 9074 9077; G2 AND 9075 9076 9078; G2 XOR 9074 9078 9079; G2 XOR 8913 79 9080;
  G2 XOR 9079 79 9081; G2 XOR 9080 9079 9082; G2 AND 9080 9081 9083; G2 XOR 9079 9083 9084;
  G2 XOR 8916 80 9085; G2 XOR 9084 80 9086; G2 XOR 9085 9084 9087; G2 AND 9085 9086 9088;
  G2 XOR 9084 9088 9089; G2 XOR 8919 81 9090; G2 XOR 9089 81 9091; G2 XOR 9090 9089 9092;
  G2 AND 9090 9091 9093; G2 XOR 9089 9093 9094; G2 XOR 8922 82 9095; G2 XOR 9094 82 9096;
  G2 XOR 9095 9094 9097; G2 AND 9095 9096 9098; G2 XOR 9094 9098 9099; G2 XOR 8925 83 9100;
  G2 XOR 9099 83 9101; G2 XOR 9100 9099 9102; G2 AND 9100 9101 9103; G2 XOR 9099 9103 9104;
  G2 XOR 8928 84 9105; G2 XOR 9104 84 9106; G2 XOR 9105 9104 9107; G2 AND 9105 9106 9108;
  G2 XOR 9104 9108 9109; G2 XOR 8931 85 9110; G2 XOR 9109 85 9111; G2 XOR 9110 9109 9112;
  G2 AND 9110 9111 9113; G2 XOR 9109 9113 9114; G2 XOR 8934 86 9115; G2 XOR 9114 86 9116;
  G2 XOR 9115 9114 9117; G2 AND 9115 9116 9118; G2 XOR 9114 9118 9119; G2 XOR 8937 87 9120;
  G2 XOR 9119 87 9121; G2 XOR 9120 9119 9122; G2 AND 9120 9121 9123; G2 XOR 9119 9123 9124;
  G2 XOR 8940 88 9125; G2 XOR 9124 88 9126; G2 XOR 9125 9124 9127; G2 AND 9125 9126 9128;
  G2 XOR 9124 9128 9129; G2 XOR 8943 89 9130; G2 XOR 9129 89 9131; G2 XOR 9130 9129 9132;
  G2 AND 9130 9131 9133; G2 XOR 9129 9133 9134; G2 XOR 8946 90 9135; G2 XOR 9134 90 9136;
  G2 XOR 9135 9134 9137; G2 AND 9135 9136 9138; G2 XOR 9134 9138 9139; G2 XOR 8949 91 9140;
  G2 XOR 9139 91 9141; G2 XOR 9140 9139 9142; G2 AND 9140 9141 9143; G2 XOR 9139 9143 9144;
  G2 XOR 8952 92 9145; G2 XOR 9144 92 9146; G2 XOR 9145 9144 9147; G2 AND 9145 9146 9148;
  G2 XOR 9144 9148 9149; G2 XOR 8955 93 9150; G2 XOR 9149 93 9151; G2 XOR 9150 9149 9152;
  G2 AND 9150 9151 9153; G2 XOR 9149 9153 9154; G2 XOR 8958 94 9155; G2 XOR 9154 94 9156;
  G2 XOR 9155 9154 9157; G2 AND 9155 9156 9158; G2 XOR 9154 9158 9159; G2 XOR 8961 95 9160;
  G2 XOR 9159 95 9161; G2 XOR 9160 9159 9162; G2 AND 9160 9161 9163; G2 XOR 9159 9163 9164;
  G2 XOR 8964 96 9165; G2 XOR 9164 96 9166; G2 XOR 9165 9164 9167; G2 AND 9165 9166 9168;
  G2 XOR 9164 9168 9169; G2 XOR 8967 97 9170; G2 XOR 9169 97 9171; G2 XOR 9170 9169 9172;
  G2 AND 9170 9171 9173; G2 XOR 9169 9173 9174; G2 XOR 8970 98 9175; G2 XOR 9174 98 9176;
  G2 XOR 9175 9174 9177; G2 AND 9175 9176 9178; G2 XOR 9174 9178 9179; G2 XOR 8973 99 9180;
  G2 XOR 9179 99 9181; G2 XOR 9180 9179 9182; G2 AND 9180 9181 9183; G2 XOR 9179 9183 9184;
  G2 XOR 8976 100 9185; G2 XOR 9184 100 9186; G2 XOR 9185 9184 9187; G2 AND 9185 9186 9188;
  G2 XOR 9184 9188 9189; G2 XOR 8979 101 9190; G2 XOR 9189 101 9191; G2 XOR 9190 9189 9192;
  G2 AND 9190 9191 9193; G2 XOR 9189 9193 9194; G2 XOR 8982 102 9195; G2 XOR 9194 102 9196;
  G2 XOR 9195 9194 9197; G2 AND 9195 9196 9198; G2 XOR 9194 9198 9199; G2 XOR 8985 103 9200;
  G2 XOR 9199 103 9201; G2 XOR 9200 9199 9202; G2 AND 9200 9201 9203; G2 XOR 9199 9203 9204;
  G2 XOR 8988 104 9205; G2 XOR 9204 104 9206; G2 XOR 9205 9204 9207; G2 AND 9205 9206 9208;
  G2 XOR 9204 9208 9209; G2 XOR 8991 105 9210; G2 XOR 9209 105 9211; G2 XOR 9210 9209 9212;
  G2 AND 9210 9211 9213; G2 XOR 9209 9213 9214; G2 XOR 8994 106 9215; G2 XOR 9214 106 9216;
  G2 XOR 9215 9214 9217; G2 AND 9215 9216 9218; G2 XOR 9214 9218 9219; G2 XOR 8997 107 9220;
  G2 XOR 9219 107 9221; G2 XOR 9220 9219 9222; G2 AND 9220 9221 9223; G2 XOR 9219 9223 9224;
  G2 XOR 9000 108 9225; G2 XOR 9224 108 9226; G2 XOR 9225 9224 9227; G2 AND 9225 9226 9228;
  G2 XOR 9224 9228 9229; G2 XOR 9003 109 9230; G2 XOR 9229 109 9231; G2 XOR 9230 9229 9232;
  G2 AND 9230 9231 9233; G2 XOR 9229 9233 9234; G2 XOR 9006 110 9235; G2 XOR 9234 110 9236;
  G2 XOR 9235 9234 9237; G2 AND 9235 9236 9238; G2 XOR 9234 9238 9239; G2 AND 9239 175 9240;
  G2 XOR 9239 175 9241; G2 XOR 9241 9240 9242; G2 XOR 17 9008 9243; G2 AND 9242 9243 9244;
  G2 XOR 9244 9008 9245; G2 XOR 8871 9012 9246; G2 AND 9242 9246 9247; G2 XOR 9247 9012 9248;
  G2 XOR 8874 9017 9249; G2 AND 9242 9249 9250; G2 XOR 9250 9017 9251; G2 XOR 8877 9022 9252;
  G2 AND 9242 9252 9253; G2 XOR 9253 9022 9254; G2 XOR 8880 9027 9255; G2 AND 9242 9255 9256;
  G2 XOR 9256 9027 9257; G2 XOR 8883 9032 9258; G2 AND 9242 9258 9259; G2 XOR 9259 9032 9260;
  G2 XOR 8886 9037 9261; G2 AND 9242 9261 9262; G2 XOR 9262 9037 9263; G2 XOR 8889 9042 9264;
  G2 AND 9242 9264 9265; G2 XOR 9265 9042 9266; G2 XOR 8892 9047 9267; G2 AND 9242 9267 9268;
  G2 XOR 9268 9047 9269; G2 XOR 8895 9052 9270; G2 AND 9242 9270 9271; G2 XOR 9271 9052 9272;
  G2 XOR 8898 9057 9273; G2 AND 9242 9273 9274; G2 XOR 9274 9057 9275; G2 XOR 8901 9062 9276;
  G2 AND 9242 9276 9277; G2 XOR 9277 9062 9278; G2 XOR 8904 9067 9279; G2 AND 9242 9279 9280;
  G2 XOR 9280 9067 9281; G2 XOR 8907 9072 9282; G2 AND 9242 9282 9283; G2 XOR 9283 9072 9284;
  G2 XOR 8910 9077 9285; G2 AND 9242 9285 9286; G2 XOR 9286 9077 9287; G2 XOR 8913 9082 9288;
  G2 AND 9242 9288 9289; G2 XOR 9289 9082 9290; G2 XOR 8916 9087 9291; G2 AND 9242 9291 9292;
  G2 XOR 9292 9087 9293; G2 XOR 8919 9092 9294; G2 AND 9242 9294 9295; G2 XOR 9295 9092 9296;
  G2 XOR 8922 9097 9297; G2 AND 9242 9297 9298; G2 XOR 9298 9097 9299; G2 XOR 8925 9102 9300;
  G2 AND 9242 9300 9301; G2 XOR 9301 9102 9302; G2 XOR 8928 9107 9303; G2 AND 9242 9303 9304;
  G2 XOR 9304 9107 9305; G2 XOR 8931 9112 9306; G2 AND 9242 9306 9307; G2 XOR 9307 9112 9308;
  G2 XOR 8934 9117 9309; G2 AND 9242 9309 9310; G2 XOR 9310 9117 9311; G2 XOR 8937 9122 9312;
  G2 AND 9242 9312 9313; G2 XOR 9313 9122 9314; G2 XOR 8940 9127 9315; G2 AND 9242 9315 9316;
  G2 XOR 9316 9127 9317; G2 XOR 8943 9132 9318; G2 AND 9242 9318 9319; G2 XOR 9319 9132 9320;
  G2 XOR 8946 9137 9321; G2 AND 9242 9321 9322; G2 XOR 9322 9137 9323; G2 XOR 8949 9142 9324;
  G2 AND 9242 9324 9325; G2 XOR 9325 9142 9326; G2 XOR 8952 9147 9327; G2 AND 9242 9327 9328;
  G2 XOR 9328 9147 9329; G2 XOR 8955 9152 9330; G2 AND 9242 9330 9331; G2 XOR 9331 9152 9332;
  G2 XOR 8958 9157 9333; G2 AND 9242 9333 9334; G2 XOR 9334 9157 9335; G2 XOR 8961 9162 9336;
  G2 AND 9242 9336 9337; G2 XOR 9337 9162 9338; G2 XOR 8964 9167 9339; G2 AND 9242 9339 9340;
  G2 XOR 9340 9167 9341; G2 XOR 8967 9172 9342; G2 AND 9242 9342 9343; G2 XOR 9343 9172 9344;
  G2 XOR 8970 9177 9345; G2 AND 9242 9345 9346; G2 XOR 9346 9177 9347; G2 XOR 8973 9182 9348;
  G2 AND 9242 9348 9349; G2 XOR 9349 9182 9350; G2 XOR 8976 9187 9351; G2 AND 9242 9351 9352;
  G2 XOR 9352 9187 9353; G2 XOR 8979 9192 9354; G2 AND 9242 9354 9355; G2 XOR 9355 9192 9356;
  G2 XOR 8982 9197 9357; G2 AND 9242 9357 9358; G2 XOR 9358 9197 9359; G2 XOR 8985 9202 9360;
  G2 AND 9242 9360 9361; G2 XOR 9361 9202 9362; G2 XOR 8988 9207 9363; G2 AND 9242 9363 9364;
  G2 XOR 9364 9207 9365; G2 XOR 8991 9212 9366; G2 AND 9242 9366 9367; G2 XOR 9367 9212 9368;
  G2 XOR 8994 9217 9369; G2 AND 9242 9369 9370; G2 XOR 9370 9217 9371; G2 XOR 8997 9222 9372;
  G2 AND 9242 9372 9373; G2 XOR 9373 9222 9374; G2 XOR 9000 9227 9375; G2 AND 9242 9375 9376;
  G2 XOR 9376 9227 9377; G2 XOR 9003 9232 9378; G2 AND 9242 9378 9379; G2 XOR 9379 9232 9380;
  G2 XOR 9006 9237 9381; G2 AND 9242 9381 9382; G2 XOR 9382 9237 9383; G1 INV 9242 9384; G2 XOR 16 64 9385;
  G2 AND 9385 64 9386; G2 XOR 9245 65 9387; G2 XOR 9386 65 9388; G2 XOR 9387 9386 9389;
  G2 AND 9387 9388 9390; G2 XOR 9386 9390 9391; G2 XOR 9248 66 9392; G2 XOR 9391 66 9393;
  G2 XOR 9392 9391 9394; G2 AND 9392 9393 9395; G2 XOR 9391 9395 9396; G2 XOR 9251 67 9397;
  G2 XOR 9396 67 9398; G2 XOR 9397 9396 9399; G2 AND 9397 9398 9400; G2 XOR 9396 9400 9401;
  G2 XOR 9254 68 9402; G2 XOR 9401 68 9403; G2 XOR 9402 9401 9404; G2 AND 9402 9403 9405;
  G2 XOR 9401 9405 9406; G2 XOR 9257 69 9407; G2 XOR 9406 69 9408; G2 XOR 9407 9406 9409;
  G2 AND 9407 9408 9410; G2 XOR 9406 9410 9411; G2 XOR 9260 70 9412; G2 XOR 9411 70 9413;
  G2 XOR 9412 9411 9414; G2 AND 9412 9413 9415; G2 XOR 9411 9415 9416; G2 XOR 9263 71 9417;
  G2 XOR 9416 71 9418; G2 XOR 9417 9416 9419; G2 AND 9417 9418 9420; G2 XOR 9416 9420 9421;
  G2 XOR 9266 72 9422; G2 XOR 9421 72 9423; G2 XOR 9422 9421 9424; G2 AND 9422 9423 9425;
  G2 XOR 9421 9425 9426; G2 XOR 9269 73 9427; G2 XOR 9426 73 9428; G2 XOR 9427 9426 9429;
  G2 AND 9427 9428 9430; G2 XOR 9426 9430 9431; G2 XOR 9272 74 9432; G2 XOR 9431 74 9433;
  G2 XOR 9432 9431 9434; G2 AND 9432 9433 9435; G2 XOR 9431 9435 9436; G2 XOR 9275 75 9437;
  G2 XOR 9436 75 9438; G2 XOR 9437 9436 9439; G2 AND 9437 9438 9440; G2 XOR 9436 9440 9441;
  G2 XOR 9278 76 9442; G2 XOR 9441 76 9443; G2 XOR 9442 9441 9444; G2 AND 9442 9443 9445;
  G2 XOR 9441 9445 9446; G2 XOR 9281 77 9447; G2 XOR 9446 77 9448; G2 XOR 9447 9446 9449;
  G2 AND 9447 9448 9450; G2 XOR 9446 9450 9451; G2 XOR 9284 78 9452; G2 XOR 9451 78 9453;
  G2 XOR 9452 9451 9454; G2 AND 9452 9453 9455; G2 XOR 9451 9455 9456; G2 XOR 9287 79 9457;
  G2 XOR 9456 79 9458; G2 XOR 9457 9456 9459; G2 AND 9457 9458 9460; G2 XOR 9456 9460 9461;
  G2 XOR 9290 80 9462; G2 XOR 9461 80 9463; G2 XOR 9462 9461 9464; G2 AND 9462 9463 9465;
  G2 XOR 9461 9465 9466; G2 XOR 9293 81 9467; G2 XOR 9466 81 9468; G2 XOR 9467 9466 9469;
  G2 AND 9467 9468 9470; G2 XOR 9466 9470 9471; G2 XOR 9296 82 9472; G2 XOR 9471 82 9473;
  G2 XOR 9472 9471 9474; G2 AND 9472 9473 9475; G2 XOR 9471 9475 9476; G2 XOR 9299 83 9477;
  G2 XOR 9476 83 9478; G2 XOR 9477 9476 9479; G2 AND 9477 9478 9480; G2 XOR 9476 9480 9481;
  G2 XOR 9302 84 9482; G2 XOR 9481 84 9483; G2 XOR 9482 9481 9484; G2 AND 9482 9483 9485;
  G2 XOR 9481 9485 9486; G2 XOR 9305 85 9487; G2 XOR 9486 85 9488; G2 XOR 9487 9486 9489;
  G2 AND 9487 9488 9490; G2 XOR 9486 9490 9491; G2 XOR 9308 86 9492; G2 XOR 9491 86 9493;
  G2 XOR 9492 9491 9494; G2 AND 9492 9493 9495; G2 XOR 9491 9495 9496; G2 XOR 9311 87 9497;
  G2 XOR 9496 87 9498; G2 XOR 9497 9496 9499; G2 AND 9497 9498 9500; G2 XOR 9496 9500 9501;
  G2 XOR 9314 88 9502; G2 XOR 9501 88 9503; G2 XOR 9502 9501 9504; G2 AND 9502 9503 9505;
  G2 XOR 9501 9505 9506; G2 XOR 9317 89 9507; G2 XOR 9506 89 9508; G2 XOR 9507 9506 9509;
  G2 AND 9507 9508 9510; G2 XOR 9506 9510 9511; G2 XOR 9320 90 9512; G2 XOR 9511 90 9513;
  G2 XOR 9512 9511 9514; G2 AND 9512 9513 9515; G2 XOR 9511 9515 9516; G2 XOR 9323 91 9517;
  G2 XOR 9516 91 9518; G2 XOR 9517 9516 9519; G2 AND 9517 9518 9520; G2 XOR 9516 9520 9521;
  G2 XOR 9326 92 9522; G2 XOR 9521 92 9523; G2 XOR 9522 9521 9524; G2 AND 9522 9523 9525;
  G2 XOR 9521 9525 9526; G2 XOR 9329 93 9527; G2 XOR 9526 93 9528; G2 XOR 9527 9526 9529;
  G2 AND 9527 9528 9530; G2 XOR 9526 9530 9531; G2 XOR 9332 94 9532; G2 XOR 9531 94 9533;
  G2 XOR 9532 9531 9534; G2 AND 9532 9533 9535; G2 XOR 9531 9535 9536; G2 XOR 9335 95 9537;
  G2 XOR 9536 95 9538; G2 XOR 9537 9536 9539; G2 AND 9537 9538 9540; G2 XOR 9536 9540 9541;
  G2 XOR 9338 96 9542; G2 XOR 9541 96 9543; G2 XOR 9542 9541 9544; G2 AND 9542 9543 9545;
  G2 XOR 9541 9545 9546; G2 XOR 9341 97 9547; G2 XOR 9546 97 9548; G2 XOR 9547 9546 9549;
  G2 AND 9547 9548 9550; G2 XOR 9546 9550 9551; G2 XOR 9344 98 9552; G2 XOR 9551 98 9553;
  G2 XOR 9552 9551 9554; G2 AND 9552 9553 9555; G2 XOR 9551 9555 9556; G2 XOR 9347 99 9557;
  G2 XOR 9556 99 9558; G2 XOR 9557 9556 9559; G2 AND 9557 9558 9560; G2 XOR 9556 9560 9561;
  G2 XOR 9350 100 9562; G2 XOR 9561 100 9563; G2 XOR 9562 9561 9564; G2 AND 9562 9563 9565;
  G2 XOR 9561 9565 9566; G2 XOR 9353 101 9567; G2 XOR 9566 101 9568; G2 XOR 9567 9566 9569;
  G2 AND 9567 9568 9570; G2 XOR 9566 9570 9571; G2 XOR 9356 102 9572; G2 XOR 9571 102 9573;
  G2 XOR 9572 9571 9574; G2 AND 9572 9573 9575; G2 XOR 9571 9575 9576; G2 XOR 9359 103 9577;
  G2 XOR 9576 103 9578; G2 XOR 9577 9576 9579; G2 AND 9577 9578 9580; G2 XOR 9576 9580 9581;
  G2 XOR 9362 104 9582; G2 XOR 9581 104 9583; G2 XOR 9582 9581 9584; G2 AND 9582 9583 9585;
  G2 XOR 9581 9585 9586; G2 XOR 9365 105 9587; G2 XOR 9586 105 9588; G2 XOR 9587 9586 9589;
  G2 AND 9587 9588 9590; G2 XOR 9586 9590 9591; G2 XOR 9368 106 9592; G2 XOR 9591 106 9593;
  G2 XOR 9592 9591 9594; G2 AND 9592 9593 9595; G2 XOR 9591 9595 9596; G2 XOR 9371 107 9597;
  G2 XOR 9596 107 9598; G2 XOR 9597 9596 9599; G2 AND 9597 9598 9600; G2 XOR 9596 9600 9601;
  G2 XOR 9374 108 9602; G2 XOR 9601 108 9603; G2 XOR 9602 9601 9604; G2 AND 9602 9603 9605;
  G2 XOR 9601 9605 9606; G2 XOR 9377 109 9607; G2 XOR 9606 109 9608; G2 XOR 9607 9606 9609;
  G2 AND 9607 9608 9610; G2 XOR 9606 9610 9611; G2 XOR 9380 110 9612; G2 XOR 9611 110 9613;
  G2 XOR 9612 9611 9614; G2 AND 9612 9613 9615; G2 XOR 9611 9615 9616; G2 XOR 9383 111 9617;
  G2 XOR 9616 111 9618; G2 XOR 9617 9616 9619; G2 AND 9617 9618 9620; G2 XOR 9616 9620 9621;
  G2 AND 9621 172 9622; G2 XOR 9621 172 9623; G2 XOR 9623 9622 9624; G2 XOR 16 9385 9625;
  G2 AND 9624 9625 9626; G2 XOR 9626 9385 9627; G2 XOR 9245 9389 9628; G2 AND 9624 9628 9629;
  G2 XOR 9629 9389 9630; G2 XOR 9248 9394 9631; G2 AND 9624 9631 9632; G2 XOR 9632 9394 9633;
  G2 XOR 9251 9399 9634; G2 AND 9624 9634 9635; G2 XOR 9635 9399 9636; G2 XOR 9254 9404 9637;
  G2 AND 9624 9637 9638; G2 XOR 9638 9404 9639; G2 XOR 9257 9409 9640; G2 AND 9624 9640 9641;
  G2 XOR 9641 9409 9642; G2 XOR 9260 9414 9643; G2 AND 9624 9643 9644; G2 XOR 9644 9414 9645;
  G2 XOR 9263 9419 9646; G2 AND 9624 9646 9647; G2 XOR 9647 9419 9648; G2 XOR 9266 9424 9649;
  G2 AND 9624 9649 9650; G2 XOR 9650 9424 9651; G2 XOR 9269 9429 9652; G2 AND 9624 9652 9653;
  G2 XOR 9653 9429 9654; G2 XOR 9272 9434 9655; G2 AND 9624 9655 9656; G2 XOR 9656 9434 9657;
  G2 XOR 9275 9439 9658; G2 AND 9624 9658 9659; G2 XOR 9659 9439 9660; G2 XOR 9278 9444 9661;
  G2 AND 9624 9661 9662; G2 XOR 9662 9444 9663; G2 XOR 9281 9449 9664; G2 AND 9624 9664 9665;
  G2 XOR 9665 9449 9666; G2 XOR 9284 9454 9667; G2 AND 9624 9667 9668; G2 XOR 9668 9454 9669;
  G2 XOR 9287 9459 9670; G2 AND 9624 9670 9671; G2 XOR 9671 9459 9672; G2 XOR 9290 9464 9673;
  G2 AND 9624 9673 9674; G2 XOR 9674 9464 9675; G2 XOR 9293 9469 9676; G2 AND 9624 9676 9677;
  G2 XOR 9677 9469 9678; G2 XOR 9296 9474 9679; G2 AND 9624 9679 9680; G2 XOR 9680 9474 9681;
  G2 XOR 9299 9479 9682; G2 AND 9624 9682 9683; G2 XOR 9683 9479 9684; G2 XOR 9302 9484 9685;
  G2 AND 9624 9685 9686; G2 XOR 9686 9484 9687; G2 XOR 9305 9489 9688; G2 AND 9624 9688 9689;
  G2 XOR 9689 9489 9690; G2 XOR 9308 9494 9691; G2 AND 9624 9691 9692; G2 XOR 9692 9494 9693;
  G2 XOR 9311 9499 9694; G2 AND 9624 9694 9695; G2 XOR 9695 9499 9696; G2 XOR 9314 9504 9697;
  G2 AND 9624 9697 9698; G2 XOR 9698 9504 9699; G2 XOR 9317 9509 9700; G2 AND 9624 9700 9701;
  G2 XOR 9701 9509 9702; G2 XOR 9320 9514 9703; G2 AND 9624 9703 9704; G2 XOR 9704 9514 9705;
  G2 XOR 9323 9519 9706; G2 AND 9624 9706 9707; G2 XOR 9707 9519 9708; G2 XOR 9326 9524 9709;
  G2 AND 9624 9709 9710; G2 XOR 9710 9524 9711; G2 XOR 9329 9529 9712; G2 AND 9624 9712 9713;
  G2 XOR 9713 9529 9714; G2 XOR 9332 9534 9715; G2 AND 9624 9715 9716; G2 XOR 9716 9534 9717;
  G2 XOR 9335 9539 9718; G2 AND 9624 9718 9719; G2 XOR 9719 9539 9720; G2 XOR 9338 9544 9721;
  G2 AND 9624 9721 9722; G2 XOR 9722 9544 9723; G2 XOR 9341 9549 9724; G2 AND 9624 9724 9725;
  G2 XOR 9725 9549 9726; G2 XOR 9344 9554 9727; G2 AND 9624 9727 9728; G2 XOR 9728 9554 9729;
  G2 XOR 9347 9559 9730; G2 AND 9624 9730 9731; G2 XOR 9731 9559 9732; G2 XOR 9350 9564 9733;
  G2 AND 9624 9733 9734; G2 XOR 9734 9564 9735; G2 XOR 9353 9569 9736; G2 AND 9624 9736 9737;
  G2 XOR 9737 9569 9738; G2 XOR 9356 9574 9739; G2 AND 9624 9739 9740; G2 XOR 9740 9574 9741;
  G2 XOR 9359 9579 9742; G2 AND 9624 9742 9743; G2 XOR 9743 9579 9744; G2 XOR 9362 9584 9745;
  G2 AND 9624 9745 9746; G2 XOR 9746 9584 9747; G2 XOR 9365 9589 9748; G2 AND 9624 9748 9749;
  G2 XOR 9749 9589 9750; G2 XOR 9368 9594 9751; G2 AND 9624 9751 9752; G2 XOR 9752 9594 9753;
  G2 XOR 9371 9599 9754; G2 AND 9624 9754 9755; G2 XOR 9755 9599 9756; G2 XOR 9374 9604 9757;
  G2 AND 9624 9757 9758; G2 XOR 9758 9604 9759; G2 XOR 9377 9609 9760; G2 AND 9624 9760 9761;
  G2 XOR 9761 9609 9762; G2 XOR 9380 9614 9763; G2 AND 9624 9763 9764; G2 XOR 9764 9614 9765;
  G2 XOR 9383 9619 9766; G2 AND 9624 9766 9767; G2 XOR 9767 9619 9768; G1 INV 9624 9769; G2 XOR 15 64 9770;
  G2 AND 9770 64 9771; G2 XOR 9627 65 9772; G2 XOR 9771 65 9773; G2 XOR 9772 9771 9774;
  G2 AND 9772 9773 9775; G2 XOR 9771 9775 9776; G2 XOR 9630 66 9777; G2 XOR 9776 66 9778;
  G2 XOR 9777 9776 9779; G2 AND 9777 9778 9780; G2 XOR 9776 9780 9781; G2 XOR 9633 67 9782;
  G2 XOR 9781 67 9783; G2 XOR 9782 9781 9784; G2 AND 9782 9783 9785; G2 XOR 9781 9785 9786;
  G2 XOR 9636 68 9787; G2 XOR 9786 68 9788; G2 XOR 9787 9786 9789; G2 AND 9787 9788 9790;
  G2 XOR 9786 9790 9791; G2 XOR 9639 69 9792; G2 XOR 9791 69 9793; G2 XOR 9792 9791 9794;
  G2 AND 9792 9793 9795; G2 XOR 9791 9795 9796; G2 XOR 9642 70 9797; G2 XOR 9796 70 9798;
  G2 XOR 9797 9796 9799; G2 AND 9797 9798 9800; G2 XOR 9796 9800 9801; G2 XOR 9645 71 9802;
  G2 XOR 9801 71 9803; G2 XOR 9802 9801 9804; G2 AND 9802 9803 9805; G2 XOR 9801 9805 9806;
  G2 XOR 9648 72 9807; G2 XOR 9806 72 9808; G2 XOR 9807 9806 9809; G2 AND 9807 9808 9810;
  G2 XOR 9806 9810 9811; G2 XOR 9651 73 9812; G2 XOR 9811 73 9813; G2 XOR 9812 9811 9814;
  G2 AND 9812 9813 9815; G2 XOR 9811 9815 9816; G2 XOR 9654 74 9817; G2 XOR 9816 74 9818;
  G2 XOR 9817 9816 9819; G2 AND 9817 9818 9820; G2 XOR 9816 9820 9821; G2 XOR 9657 75 9822;
  G2 XOR 9821 75 9823; G2 XOR 9822 9821 9824; G2 AND 9822 9823 9825; G2 XOR 9821 9825 9826;
  G2 XOR 9660 76 9827; G2 XOR 9826 76 9828; G2 XOR 9827 9826 9829; G2 AND 9827 9828 9830;
  G2 XOR 9826 9830 9831; G2 XOR 9663 77 9832; G2 XOR 9831 77 9833; G2 XOR 9832 9831 9834;
  G2 AND 9832 9833 9835; G2 XOR 9831 9835 9836; G2 XOR 9666 78 9837; G2 XOR 9836 78 9838;
  G2 XOR 9837 9836 9839; G2 AND 9837 9838 9840; G2 XOR 9836 9840 9841; G2 XOR 9669 79 9842;
  G2 XOR 9841 79 9843; G2 XOR 9842 9841 9844; G2 AND 9842 9843 9845; G2 XOR 9841 9845 9846;
  G2 XOR 9672 80 9847; G2 XOR 9846 80 9848; G2 XOR 9847 9846 9849; G2 AND 9847 9848 9850;
  G2 XOR 9846 9850 9851; G2 XOR 9675 81 9852; G2 XOR 9851 81 9853; G2 XOR 9852 9851 9854;
  G2 AND 9852 9853 9855; G2 XOR 9851 9855 9856; G2 XOR 9678 82 9857; G2 XOR 9856 82 9858;
  G2 XOR 9857 9856 9859; G2 AND 9857 9858 9860; G2 XOR 9856 9860 9861; G2 XOR 9681 83 9862;
  G2 XOR 9861 83 9863; G2 XOR 9862 9861 9864; G2 AND 9862 9863 9865; G2 XOR 9861 9865 9866;
  G2 XOR 9684 84 9867; G2 XOR 9866 84 9868; G2 XOR 9867 9866 9869; G2 AND 9867 9868 9870;
  G2 XOR 9866 9870 9871; G2 XOR 9687 85 9872; G2 XOR 9871 85 9873; G2 XOR 9872 9871 9874;
  G2 AND 9872 9873 9875; G2 XOR 9871 9875 9876; G2 XOR 9690 86 9877; G2 XOR 9876 86 9878;
  G2 XOR 9877 9876 9879; G2 AND 9877 9878 9880; G2 XOR 9876 9880 9881; G2 XOR 9693 87 9882;
  G2 XOR 9881 87 9883; G2 XOR 9882 9881 9884; G2 AND 9882 9883 9885; G2 XOR 9881 9885 9886;
  G2 XOR 9696 88 9887; G2 XOR 9886 88 9888; G2 XOR 9887 9886 9889; G2 AND 9887 9888 9890;
  G2 XOR 9886 9890 9891; G2 XOR 9699 89 9892; G2 XOR 9891 89 9893; G2 XOR 9892 9891 9894;
  G2 AND 9892 9893 9895; G2 XOR 9891 9895 9896; G2 XOR 9702 90 9897; G2 XOR 9896 90 9898;
  G2 XOR 9897 9896 9899; G2 AND 9897 9898 9900; G2 XOR 9896 9900 9901; G2 XOR 9705 91 9902;
  G2 XOR 9901 91 9903; G2 XOR 9902 9901 9904; G2 AND 9902 9903 9905; G2 XOR 9901 9905 9906;
  G2 XOR 9708 92 9907; G2 XOR 9906 92 9908; G2 XOR 9907 9906 9909; G2 AND 9907 9908 9910;
  G2 XOR 9906 9910 9911; G2 XOR 9711 93 9912; G2 XOR 9911 93 9913; G2 XOR 9912 9911 9914;
  G2 AND 9912 9913 9915; G2 XOR 9911 9915 9916; G2 XOR 9714 94 9917; G2 XOR 9916 94 9918;
  G2 XOR 9917 9916 9919; G2 AND 9917 9918 9920; G2 XOR 9916 9920 9921; G2 XOR 9717 95 9922;
  G2 XOR 9921 95 9923; G2 XOR 9922 9921 9924; G2 AND 9922 9923 9925; G2 XOR 9921 9925 9926;
  G2 XOR 9720 96 9927; G2 XOR 9926 96 9928; G2 XOR 9927 9926 9929; G2 AND 9927 9928 9930;
  G2 XOR 9926 9930 9931; G2 XOR 9723 97 9932; G2 XOR 9931 97 9933; G2 XOR 9932 9931 9934;
  G2 AND 9932 9933 9935; G2 XOR 9931 9935 9936; G2 XOR 9726 98 9937; G2 XOR 9936 98 9938;
  G2 XOR 9937 9936 9939; G2 AND 9937 9938 9940; G2 XOR 9936 9940 9941; G2 XOR 9729 99 9942;
  G2 XOR 9941 99 9943; G2 XOR 9942 9941 9944; G2 AND 9942 9943 9945; G2 XOR 9941 9945 9946;
  G2 XOR 9732 100 9947; G2 XOR 9946 100 9948; G2 XOR 9947 9946 9949; G2 AND 9947 9948 9950;
  G2 XOR 9946 9950 9951; G2 XOR 9735 101 9952; G2 XOR 9951 101 9953; G2 XOR 9952 9951 9954;
  G2 AND 9952 9953 9955; G2 XOR 9951 9955 9956; G2 XOR 9738 102 9957; G2 XOR 9956 102 9958;
  G2 XOR 9957 9956 9959; G2 AND 9957 9958 9960; G2 XOR 9956 9960 9961; G2 XOR 9741 103 9962;
  G2 XOR 9961 103 9963; G2 XOR 9962 9961 9964; G2 AND 9962 9963 9965; G2 XOR 9961 9965 9966;
  G2 XOR 9744 104 9967; G2 XOR 9966 104 9968; G2 XOR 9967 9966 9969; G2 AND 9967 9968 9970;
  G2 XOR 9966 9970 9971; G2 XOR 9747 105 9972; G2 XOR 9971 105 9973; G2 XOR 9972 9971 9974;
  G2 AND 9972 9973 9975; G2 XOR 9971 9975 9976; G2 XOR 9750 106 9977; G2 XOR 9976 106 9978;
  G2 XOR 9977 9976 9979; G2 AND 9977 9978 9980; G2 XOR 9976 9980 9981; G2 XOR 9753 107 9982;
  G2 XOR 9981 107 9983; G2 XOR 9982 9981 9984; G2 AND 9982 9983 9985; G2 XOR 9981 9985 9986;
  G2 XOR 9756 108 9987; G2 XOR 9986 108 9988; G2 XOR 9987 9986 9989; G2 AND 9987 9988 9990;
  G2 XOR 9986 9990 9991; G2 XOR 9759 109 9992; G2 XOR 9991 109 9993; G2 XOR 9992 9991 9994;
  G2 AND 9992 9993 9995; G2 XOR 9991 9995 9996; G2 XOR 9762 110 9997; G2 XOR 9996 110 9998;
  G2 XOR 9997 9996 9999; G2 AND 9997 9998 10000; G2 XOR 9996 10000 10001; G2 XOR 9765 111 10002;
  G2 XOR 10001 111 10003; G2 XOR 10002 10001 10004; G2 AND 10002 10003 10005; G2 XOR 10001 10005 10006;
  G2 XOR 9768 112 10007; G2 XOR 10006 112 10008; G2 XOR 10007 10006 10009; G2 AND 10007 10008 10010;
  G2 XOR 10006 10010 10011; G2 AND 10011 169 10012; G2 XOR 10011 169 10013; G2 XOR 10013 10012 10014;
  G2 XOR 15 9770 10015; G2 AND 10014 10015 10016; G2 XOR 10016 9770 10017; G2 XOR 9627 9774 10018;
  G2 AND 10014 10018 10019; G2 XOR 10019 9774 10020; G2 XOR 9630 9779 10021; G2 AND 10014 10021 10022;
  G2 XOR 10022 9779 10023; G2 XOR 9633 9784 10024; G2 AND 10014 10024 10025; G2 XOR 10025 9784 10026;
  G2 XOR 9636 9789 10027; G2 AND 10014 10027 10028; G2 XOR 10028 9789 10029; G2 XOR 9639 9794 10030;
  G2 AND 10014 10030 10031; G2 XOR 10031 9794 10032; G2 XOR 9642 9799 10033; G2 AND 10014 10033 10034;
  G2 XOR 10034 9799 10035; G2 XOR 9645 9804 10036; G2 AND 10014 10036 10037; G2 XOR 10037 9804 10038;
  G2 XOR 9648 9809 10039; G2 AND 10014 10039 10040; G2 XOR 10040 9809 10041; G2 XOR 9651 9814 10042;
  G2 AND 10014 10042 10043; G2 XOR 10043 9814 10044; G2 XOR 9654 9819 10045; G2 AND 10014 10045 10046;
  G2 XOR 10046 9819 10047; G2 XOR 9657 9824 10048; G2 AND 10014 10048 10049; G2 XOR 10049 9824 10050;
  G2 XOR 9660 9829 10051; G2 AND 10014 10051 10052; G2 XOR 10052 9829 10053; G2 XOR 9663 9834 10054;
  G2 AND 10014 10054 10055; G2 XOR 10055 9834 10056; G2 XOR 9666 9839 10057; G2 AND 10014 10057 10058;
  G2 XOR 10058 9839 10059; G2 XOR 9669 9844 10060; G2 AND 10014 10060 10061; G2 XOR 10061 9844 10062;
  G2 XOR 9672 9849 10063; G2 AND 10014 10063 10064; G2 XOR 10064 9849 10065; G2 XOR 9675 9854 10066;
  G2 AND 10014 10066 10067; G2 XOR 10067 9854 10068; G2 XOR 9678 9859 10069; G2 AND 10014 10069 10070;
  G2 XOR 10070 9859 10071; G2 XOR 9681 9864 10072; G2 AND 10014 10072 10073; G2 XOR 10073 9864 10074;
  G2 XOR 9684 9869 10075; G2 AND 10014 10075 10076; G2 XOR 10076 9869 10077; G2 XOR 9687 9874 10078;
  G2 AND 10014 10078 10079; G2 XOR 10079 9874 10080; G2 XOR 9690 9879 10081; G2 AND 10014 10081 10082;
  G2 XOR 10082 9879 10083; G2 XOR 9693 9884 10084; G2 AND 10014 10084 10085; G2 XOR 10085 9884 10086;
  G2 XOR 9696 9889 10087; G2 AND 10014 10087 10088; G2 XOR 10088 9889 10089; G2 XOR 9699 9894 10090;
  G2 AND 10014 10090 10091; G2 XOR 10091 9894 10092; G2 XOR 9702 9899 10093; G2 AND 10014 10093 10094;
  G2 XOR 10094 9899 10095; G2 XOR 9705 9904 10096; G2 AND 10014 10096 10097; G2 XOR 10097 9904 10098;
  G2 XOR 9708 9909 10099; G2 AND 10014 10099 10100; G2 XOR 10100 9909 10101; G2 XOR 9711 9914 10102;
  G2 AND 10014 10102 10103; G2 XOR 10103 9914 10104; G2 XOR 9714 9919 10105; G2 AND 10014 10105 10106;
  G2 XOR 10106 9919 10107; G2 XOR 9717 9924 10108; G2 AND 10014 10108 10109; G2 XOR 10109 9924 10110;
  G2 XOR 9720 9929 10111; G2 AND 10014 10111 10112; G2 XOR 10112 9929 10113; G2 XOR 9723 9934 10114;
  G2 AND 10014 10114 10115; G2 XOR 10115 9934 10116; G2 XOR 9726 9939 10117; G2 AND 10014 10117 10118;
  G2 XOR 10118 9939 10119; G2 XOR 9729 9944 10120; G2 AND 10014 10120 10121; G2 XOR 10121 9944 10122;
  G2 XOR 9732 9949 10123; G2 AND 10014 10123 10124; G2 XOR 10124 9949 10125; G2 XOR 9735 9954 10126;
  G2 AND 10014 10126 10127; G2 XOR 10127 9954 10128; G2 XOR 9738 9959 10129; G2 AND 10014 10129 10130;
  G2 XOR 10130 9959 10131; G2 XOR 9741 9964 10132; G2 AND 10014 10132 10133; G2 XOR 10133 9964 10134;
  G2 XOR 9744 9969 10135; G2 AND 10014 10135 10136; G2 XOR 10136 9969 10137; G2 XOR 9747 9974 10138;
  G2 AND 10014 10138 10139; G2 XOR 10139 9974 10140; G2 XOR 9750 9979 10141; G2 AND 10014 10141 10142;
  G2 XOR 10142 9979 10143; G2 XOR 9753 9984 10144; G2 AND 10014 10144 10145; G2 XOR 10145 9984 10146;
  G2 XOR 9756 9989 10147; G2 AND 10014 10147 10148; G2 XOR 10148 9989 10149; G2 XOR 9759 9994 10150;
  G2 AND 10014 10150 10151; G2 XOR 10151 9994 10152; G2 XOR 9762 9999 10153; G2 AND 10014 10153 10154;
  G2 XOR 10154 9999 10155; G2 XOR 9765 10004 10156; G2 AND 10014 10156 10157; G2 XOR 10157 10004 10158;
  G2 XOR 9768 10009 10159; G2 AND 10014 10159 10160; G2 XOR 10160 10009 10161; G1 INV 10014 10162;
  G2 XOR 14 64 10163; G2 AND 10163 64 10164; G2 XOR 10017 65 10165; G2 XOR 10164 65 10166;
  G2 XOR 10165 10164 10167; G2 AND 10165 10166 10168; G2 XOR 10164 10168 10169; G2 XOR 10020 66 10170;
  G2 XOR 10169 66 10171; G2 XOR 10170 10169 10172; G2 AND 10170 10171 10173; G2 XOR 10169 10173 10174;
  G2 XOR 10023 67 10175; G2 XOR 10174 67 10176; G2 XOR 10175 10174 10177; G2 AND 10175 10176 10178;
  G2 XOR 10174 10178 10179; G2 XOR 10026 68 10180; G2 XOR 10179 68 10181; G2 XOR 10180 10179 10182;
  G2 AND 10180 10181 10183; G2 XOR 10179 10183 10184; G2 XOR 10029 69 10185; G2 XOR 10184 69 10186;
  G2 XOR 10185 10184 10187; G2 AND 10185 10186 10188; G2 XOR 10184 10188 10189; G2 XOR 10032 70 10190;
  G2 XOR 10189 70 10191; G2 XOR 10190 10189 10192; G2 AND 10190 10191 10193; G2 XOR 10189 10193 10194;
  G2 XOR 10035 71 10195; G2 XOR 10194 71 10196; G2 XOR 10195 10194 10197; G2 AND 10195 10196 10198;
  G2 XOR 10194 10198 10199; G2 XOR 10038 72 10200; G2 XOR 10199 72 10201; G2 XOR 10200 10199 10202;
  G2 AND 10200 10201 10203; G2 XOR 10199 10203 10204; G2 XOR 10041 73 10205; G2 XOR 10204 73 10206;
  G2 XOR 10205 10204 10207; G2 AND 10205 10206 10208; G2 XOR 10204 10208 10209; G2 XOR 10044 74 10210;
  G2 XOR 10209 74 10211; G2 XOR 10210 10209 10212; G2 AND 10210 10211 10213; G2 XOR 10209 10213 10214;
  G2 XOR 10047 75 10215; G2 XOR 10214 75 10216; G2 XOR 10215 10214 10217; G2 AND 10215 10216 10218;
  G2 XOR 10214 10218 10219; G2 XOR 10050 76 10220; G2 XOR 10219 76 10221; G2 XOR 10220 10219 10222;
  G2 AND 10220 10221 10223; G2 XOR 10219 10223 10224; G2 XOR 10053 77 10225; G2 XOR 10224 77 10226;
  G2 XOR 10225 10224 10227; G2 AND 10225 10226 10228; G2 XOR 10224 10228 10229; G2 XOR 10056 78 10230;
  G2 XOR 10229 78 10231; G2 XOR 10230 10229 10232; G2 AND 10230 10231 10233; G2 XOR 10229 10233 10234;
  G2 XOR 10059 79 10235; G2 XOR 10234 79 10236; G2 XOR 10235 10234 10237; G2 AND 10235 10236 10238;
  G2 XOR 10234 10238 10239; G2 XOR 10062 80 10240; G2 XOR 10239 80 10241; G2 XOR 10240 10239 10242;
  G2 AND 10240 10241 10243; G2 XOR 10239 10243 10244; G2 XOR 10065 81 10245; G2 XOR 10244 81 10246;
  G2 XOR 10245 10244 10247; G2 AND 10245 10246 10248; G2 XOR 10244 10248 10249; G2 XOR 10068 82 10250;
  G2 XOR 10249 82 10251; G2 XOR 10250 10249 10252; G2 AND 10250 10251 10253; G2 XOR 10249 10253 10254;
  G2 XOR 10071 83 10255; G2 XOR 10254 83 10256; G2 XOR 10255 10254 10257; G2 AND 10255 10256 10258;
  G2 XOR 10254 10258 10259; G2 XOR 10074 84 10260; G2 XOR 10259 84 10261; G2 XOR 10260 10259 10262;
  G2 AND 10260 10261 10263; G2 XOR 10259 10263 10264; G2 XOR 10077 85 10265; G2 XOR 10264 85 10266;
  G2 XOR 10265 10264 10267; G2 AND 10265 10266 10268; G2 XOR 10264 10268 10269; G2 XOR 10080 86 10270;
  G2 XOR 10269 86 10271; G2 XOR 10270 10269 10272; G2 AND 10270 10271 10273; G2 XOR 10269 10273 10274;
  G2 XOR 10083 87 10275; G2 XOR 10274 87 10276; G2 XOR 10275 10274 10277; G2 AND 10275 10276 10278;
  G2 XOR 10274 10278 10279; G2 XOR 10086 88 10280; G2 XOR 10279 88 10281; G2 XOR 10280 10279 10282;
  G2 AND 10280 10281 10283; G2 XOR 10279 10283 10284; G2 XOR 10089 89 10285; G2 XOR 10284 89 10286;
  G2 XOR 10285 10284 10287; G2 AND 10285 10286 10288; G2 XOR 10284 10288 10289; G2 XOR 10092 90 10290;
  G2 XOR 10289 90 10291; G2 XOR 10290 10289 10292; G2 AND 10290 10291 10293; G2 XOR 10289 10293 10294;
  G2 XOR 10095 91 10295; G2 XOR 10294 91 10296; G2 XOR 10295 10294 10297; G2 AND 10295 10296 10298;
  G2 XOR 10294 10298 10299; G2 XOR 10098 92 10300; G2 XOR 10299 92 10301; G2 XOR 10300 10299 10302;
  G2 AND 10300 10301 10303; G2 XOR 10299 10303 10304; G2 XOR 10101 93 10305; G2 XOR 10304 93 10306;
  G2 XOR 10305 10304 10307; G2 AND 10305 10306 10308; G2 XOR 10304 10308 10309; G2 XOR 10104 94 10310;
  G2 XOR 10309 94 10311; G2 XOR 10310 10309 10312; G2 AND 10310 10311 10313; G2 XOR 10309 10313 10314;
  G2 XOR 10107 95 10315; G2 XOR 10314 95 10316; G2 XOR 10315 10314 10317; G2 AND 10315 10316 10318;
  G2 XOR 10314 10318 10319; G2 XOR 10110 96 10320; G2 XOR 10319 96 10321; G2 XOR 10320 10319 10322;
  G2 AND 10320 10321 10323; G2 XOR 10319 10323 10324; G2 XOR 10113 97 10325; G2 XOR 10324 97 10326;
  G2 XOR 10325 10324 10327; G2 AND 10325 10326 10328; G2 XOR 10324 10328 10329; G2 XOR 10116 98 10330;
  G2 XOR 10329 98 10331; G2 XOR 10330 10329 10332; G2 AND 10330 10331 10333; G2 XOR 10329 10333 10334;
  G2 XOR 10119 99 10335; G2 XOR 10334 99 10336; G2 XOR 10335 10334 10337; G2 AND 10335 10336 10338;
  G2 XOR 10334 10338 10339; G2 XOR 10122 100 10340; G2 XOR 10339 100 10341; G2 XOR 10340 10339 10342;
  G2 AND 10340 10341 10343; G2 XOR 10339 10343 10344; G2 XOR 10125 101 10345; G2 XOR 10344 101 10346;
  G2 XOR 10345 10344 10347; G2 AND 10345 10346 10348; G2 XOR 10344 10348 10349; G2 XOR 10128 102 10350;
  G2 XOR 10349 102 10351; G2 XOR 10350 10349 10352; G2 AND 10350 10351 10353; G2 XOR 10349 10353 10354;
  G2 XOR 10131 103 10355; G2 XOR 10354 103 10356; G2 XOR 10355 10354 10357; G2 AND 10355 10356 10358;
  G2 XOR 10354 10358 10359; G2 XOR 10134 104 10360; G2 XOR 10359 104 10361; G2 XOR 10360 10359 10362;
  G2 AND 10360 10361 10363; G2 XOR 10359 10363 10364; G2 XOR 10137 105 10365; G2 XOR 10364 105 10366;
  G2 XOR 10365 10364 10367; G2 AND 10365 10366 10368; G2 XOR 10364 10368 10369; G2 XOR 10140 106 10370;
  G2 XOR 10369 106 10371; G2 XOR 10370 10369 10372; G2 AND 10370 10371 10373; G2 XOR 10369 10373 10374;
  G2 XOR 10143 107 10375; G2 XOR 10374 107 10376; G2 XOR 10375 10374 10377; G2 AND 10375 10376 10378;
  G2 XOR 10374 10378 10379; G2 XOR 10146 108 10380; G2 XOR 10379 108 10381; G2 XOR 10380 10379 10382;
  G2 AND 10380 10381 10383; G2 XOR 10379 10383 10384; G2 XOR 10149 109 10385; G2 XOR 10384 109 10386;
  G2 XOR 10385 10384 10387; G2 AND 10385 10386 10388; G2 XOR 10384 10388 10389; G2 XOR 10152 110 10390;
  G2 XOR 10389 110 10391; G2 XOR 10390 10389 10392; G2 AND 10390 10391 10393; G2 XOR 10389 10393 10394;
  G2 XOR 10155 111 10395; G2 XOR 10394 111 10396; G2 XOR 10395 10394 10397; G2 AND 10395 10396 10398;
  G2 XOR 10394 10398 10399; G2 XOR 10158 112 10400; G2 XOR 10399 112 10401; G2 XOR 10400 10399 10402;
  G2 AND 10400 10401 10403; G2 XOR 10399 10403 10404; G2 XOR 10161 113 10405; G2 XOR 10404 113 10406;
  G2 XOR 10405 10404 10407; G2 AND 10405 10406 10408; G2 XOR 10404 10408 10409; G2 AND 10409 166 10410;
  G2 XOR 10409 166 10411; G2 XOR 10411 10410 10412; G2 XOR 14 10163 10413; G2 AND 10412 10413 10414;
  G2 XOR 10414 10163 10415; G2 XOR 10017 10167 10416; G2 AND 10412 10416 10417; G2 XOR 10417 10167 10418;
  G2 XOR 10020 10172 10419; G2 AND 10412 10419 10420; G2 XOR 10420 10172 10421; G2 XOR 10023 10177 10422;
  G2 AND 10412 10422 10423; G2 XOR 10423 10177 10424; G2 XOR 10026 10182 10425; G2 AND 10412 10425 10426;
  G2 XOR 10426 10182 10427; G2 XOR 10029 10187 10428; G2 AND 10412 10428 10429; G2 XOR 10429 10187 10430;
  G2 XOR 10032 10192 10431; G2 AND 10412 10431 10432; G2 XOR 10432 10192 10433; G2 XOR 10035 10197 10434;
  G2 AND 10412 10434 10435; G2 XOR 10435 10197 10436; G2 XOR 10038 10202 10437; G2 AND 10412 10437 10438;
  G2 XOR 10438 10202 10439; G2 XOR 10041 10207 10440; G2 AND 10412 10440 10441; G2 XOR 10441 10207 10442;
  G2 XOR 10044 10212 10443; G2 AND 10412 10443 10444; G2 XOR 10444 10212 10445; G2 XOR 10047 10217 10446;
  G2 AND 10412 10446 10447; G2 XOR 10447 10217 10448; G2 XOR 10050 10222 10449; G2 AND 10412 10449 10450;
  G2 XOR 10450 10222 10451; G2 XOR 10053 10227 10452; G2 AND 10412 10452 10453; G2 XOR 10453 10227 10454;
  G2 XOR 10056 10232 10455; G2 AND 10412 10455 10456; G2 XOR 10456 10232 10457; G2 XOR 10059 10237 10458;
  G2 AND 10412 10458 10459; G2 XOR 10459 10237 10460; G2 XOR 10062 10242 10461; G2 AND 10412 10461 10462;
  G2 XOR 10462 10242 10463; G2 XOR 10065 10247 10464; G2 AND 10412 10464 10465; G2 XOR 10465 10247 10466;
  G2 XOR 10068 10252 10467; G2 AND 10412 10467 10468; G2 XOR 10468 10252 10469; G2 XOR 10071 10257 10470;
  G2 AND 10412 10470 10471; G2 XOR 10471 10257 10472; G2 XOR 10074 10262 10473; G2 AND 10412 10473 10474;
  G2 XOR 10474 10262 10475; G2 XOR 10077 10267 10476; G2 AND 10412 10476 10477; G2 XOR 10477 10267 10478;
  G2 XOR 10080 10272 10479; G2 AND 10412 10479 10480; G2 XOR 10480 10272 10481; G2 XOR 10083 10277 10482;
  G2 AND 10412 10482 10483; G2 XOR 10483 10277 10484; G2 XOR 10086 10282 10485; G2 AND 10412 10485 10486;
  G2 XOR 10486 10282 10487; G2 XOR 10089 10287 10488; G2 AND 10412 10488 10489; G2 XOR 10489 10287 10490;
  G2 XOR 10092 10292 10491; G2 AND 10412 10491 10492; G2 XOR 10492 10292 10493; G2 XOR 10095 10297 10494;
  G2 AND 10412 10494 10495; G2 XOR 10495 10297 10496; G2 XOR 10098 10302 10497; G2 AND 10412 10497 10498;
  G2 XOR 10498 10302 10499; G2 XOR 10101 10307 10500; G2 AND 10412 10500 10501; G2 XOR 10501 10307 10502;
  G2 XOR 10104 10312 10503; G2 AND 10412 10503 10504; G2 XOR 10504 10312 10505; G2 XOR 10107 10317 10506;
  G2 AND 10412 10506 10507; G2 XOR 10507 10317 10508; G2 XOR 10110 10322 10509; G2 AND 10412 10509 10510;
  G2 XOR 10510 10322 10511; G2 XOR 10113 10327 10512; G2 AND 10412 10512 10513; G2 XOR 10513 10327 10514;
  G2 XOR 10116 10332 10515; G2 AND 10412 10515 10516; G2 XOR 10516 10332 10517; G2 XOR 10119 10337 10518;
  G2 AND 10412 10518 10519; G2 XOR 10519 10337 10520; G2 XOR 10122 10342 10521; G2 AND 10412 10521 10522;
  G2 XOR 10522 10342 10523; G2 XOR 10125 10347 10524; G2 AND 10412 10524 10525; G2 XOR 10525 10347 10526;
  G2 XOR 10128 10352 10527; G2 AND 10412 10527 10528; G2 XOR 10528 10352 10529; G2 XOR 10131 10357 10530;
  G2 AND 10412 10530 10531; G2 XOR 10531 10357 10532; G2 XOR 10134 10362 10533; G2 AND 10412 10533 10534;
  G2 XOR 10534 10362 10535; G2 XOR 10137 10367 10536; G2 AND 10412 10536 10537; G2 XOR 10537 10367 10538;
  G2 XOR 10140 10372 10539; G2 AND 10412 10539 10540; G2 XOR 10540 10372 10541; G2 XOR 10143 10377 10542;
  G2 AND 10412 10542 10543; G2 XOR 10543 10377 10544; G2 XOR 10146 10382 10545; G2 AND 10412 10545 10546;
  G2 XOR 10546 10382 10547; G2 XOR 10149 10387 10548; G2 AND 10412 10548 10549; G2 XOR 10549 10387 10550;
  G2 XOR 10152 10392 10551; G2 AND 10412 10551 10552; G2 XOR 10552 10392 10553; G2 XOR 10155 10397 10554;
  G2 AND 10412 10554 10555; G2 XOR 10555 10397 10556; G2 XOR 10158 10402 10557; G2 AND 10412 10557 10558;
  G2 XOR 10558 10402 10559; G2 XOR 10161 10407 10560; G2 AND 10412 10560 10561; G2 XOR 10561 10407 10562;
  G1 INV 10412 10563; G2 XOR 13 64 10564; G2 AND 10564 64 10565; G2 XOR 10415 65 10566;
  G2 XOR 10565 65 10567; G2 XOR 10566 10565 10568; G2 AND 10566 10567 10569; G2 XOR 10565 10569 10570;
  G2 XOR 10418 66 10571; G2 XOR 10570 66 10572; G2 XOR 10571 10570 10573; G2 AND 10571 10572 10574;
  G2 XOR 10570 10574 10575; G2 XOR 10421 67 10576; G2 XOR 10575 67 10577; G2 XOR 10576 10575 10578;
  G2 AND 10576 10577 10579; G2 XOR 10575 10579 10580; G2 XOR 10424 68 10581; G2 XOR 10580 68 10582;
  G2 XOR 10581 10580 10583; G2 AND 10581 10582 10584; G2 XOR 10580 10584 10585; G2 XOR 10427 69 10586;
  G2 XOR 10585 69 10587; G2 XOR 10586 10585 10588; G2 AND 10586 10587 10589; G2 XOR 10585 10589 10590;
  G2 XOR 10430 70 10591; G2 XOR 10590 70 10592; G2 XOR 10591 10590 10593; G2 AND 10591 10592 10594;
  G2 XOR 10590 10594 10595; G2 XOR 10433 71 10596; G2 XOR 10595 71 10597; G2 XOR 10596 10595 10598;
  G2 AND 10596 10597 10599; G2 XOR 10595 10599 10600; G2 XOR 10436 72 10601; G2 XOR 10600 72 10602;
  G2 XOR 10601 10600 10603; G2 AND 10601 10602 10604; G2 XOR 10600 10604 10605; G2 XOR 10439 73 10606;
  G2 XOR 10605 73 10607; G2 XOR 10606 10605 10608; G2 AND 10606 10607 10609; G2 XOR 10605 10609 10610;
  G2 XOR 10442 74 10611; G2 XOR 10610 74 10612; G2 XOR 10611 10610 10613; G2 AND 10611 10612 10614;
  G2 XOR 10610 10614 10615; G2 XOR 10445 75 10616; G2 XOR 10615 75 10617; G2 XOR 10616 10615 10618;
  G2 AND 10616 10617 10619; G2 XOR 10615 10619 10620; G2 XOR 10448 76 10621; G2 XOR 10620 76 10622;
  G2 XOR 10621 10620 10623; G2 AND 10621 10622 10624; G2 XOR 10620 10624 10625; G2 XOR 10451 77 10626;
  G2 XOR 10625 77 10627; G2 XOR 10626 10625 10628; G2 AND 10626 10627 10629; G2 XOR 10625 10629 10630;
  G2 XOR 10454 78 10631; G2 XOR 10630 78 10632; G2 XOR 10631 10630 10633; G2 AND 10631 10632 10634;
  G2 XOR 10630 10634 10635; G2 XOR 10457 79 10636; G2 XOR 10635 79 10637; G2 XOR 10636 10635 10638;
  G2 AND 10636 10637 10639; G2 XOR 10635 10639 10640; G2 XOR 10460 80 10641; G2 XOR 10640 80 10642;
  G2 XOR 10641 10640 10643; G2 AND 10641 10642 10644; G2 XOR 10640 10644 10645; G2 XOR 10463 81 10646;
  G2 XOR 10645 81 10647; G2 XOR 10646 10645 10648; G2 AND 10646 10647 10649; G2 XOR 10645 10649 10650;
  G2 XOR 10466 82 10651; G2 XOR 10650 82 10652; G2 XOR 10651 10650 10653; G2 AND 10651 10652 10654;
  G2 XOR 10650 10654 10655; G2 XOR 10469 83 10656; G2 XOR 10655 83 10657; G2 XOR 10656 10655 10658;
  G2 AND 10656 10657 10659; G2 XOR 10655 10659 10660; G2 XOR 10472 84 10661; G2 XOR 10660 84 10662;
  G2 XOR 10661 10660 10663; G2 AND 10661 10662 10664; G2 XOR 10660 10664 10665; G2 XOR 10475 85 10666;
  G2 XOR 10665 85 10667; G2 XOR 10666 10665 10668; G2 AND 10666 10667 10669; G2 XOR 10665 10669 10670;
  G2 XOR 10478 86 10671; G2 XOR 10670 86 10672; G2 XOR 10671 10670 10673; G2 AND 10671 10672 10674;
  G2 XOR 10670 10674 10675; G2 XOR 10481 87 10676; G2 XOR 10675 87 10677; G2 XOR 10676 10675 10678;
  G2 AND 10676 10677 10679; G2 XOR 10675 10679 10680; G2 XOR 10484 88 10681; G2 XOR 10680 88 10682;
  G2 XOR 10681 10680 10683; G2 AND 10681 10682 10684; G2 XOR 10680 10684 10685; G2 XOR 10487 89 10686;
  G2 XOR 10685 89 10687; G2 XOR 10686 10685 10688; G2 AND 10686 10687 10689; G2 XOR 10685 10689 10690;
  G2 XOR 10490 90 10691; G2 XOR 10690 90 10692; G2 XOR 10691 10690 10693; G2 AND 10691 10692 10694;
  G2 XOR 10690 10694 10695; G2 XOR 10493 91 10696; G2 XOR 10695 91 10697; G2 XOR 10696 10695 10698;
  G2 AND 10696 10697 10699; G2 XOR 10695 10699 10700; G2 XOR 10496 92 10701; G2 XOR 10700 92 10702;
  G2 XOR 10701 10700 10703; G2 AND 10701 10702 10704; G2 XOR 10700 10704 10705; G2 XOR 10499 93 10706;
  G2 XOR 10705 93 10707; G2 XOR 10706 10705 10708; G2 AND 10706 10707 10709; G2 XOR 10705 10709 10710;
  G2 XOR 10502 94 10711; G2 XOR 10710 94 10712; G2 XOR 10711 10710 10713; G2 AND 10711 10712 10714;
  G2 XOR 10710 10714 10715; G2 XOR 10505 95 10716; G2 XOR 10715 95 10717; G2 XOR 10716 10715 10718;
  G2 AND 10716 10717 10719; G2 XOR 10715 10719 10720; G2 XOR 10508 96 10721; G2 XOR 10720 96 10722;
  G2 XOR 10721 10720 10723; G2 AND 10721 10722 10724; G2 XOR 10720 10724 10725; G2 XOR 10511 97 10726;
  G2 XOR 10725 97 10727; G2 XOR 10726 10725 10728; G2 AND 10726 10727 10729; G2 XOR 10725 10729 10730;
  G2 XOR 10514 98 10731; G2 XOR 10730 98 10732; G2 XOR 10731 10730 10733; G2 AND 10731 10732 10734;
  G2 XOR 10730 10734 10735; G2 XOR 10517 99 10736; G2 XOR 10735 99 10737; G2 XOR 10736 10735 10738;
  G2 AND 10736 10737 10739; G2 XOR 10735 10739 10740; G2 XOR 10520 100 10741; G2 XOR 10740 100 10742;
  G2 XOR 10741 10740 10743; G2 AND 10741 10742 10744; G2 XOR 10740 10744 10745; G2 XOR 10523 101 10746;
  G2 XOR 10745 101 10747; G2 XOR 10746 10745 10748; G2 AND 10746 10747 10749; G2 XOR 10745 10749 10750;
  G2 XOR 10526 102 10751; G2 XOR 10750 102 10752; G2 XOR 10751 10750 10753; G2 AND 10751 10752 10754;
  G2 XOR 10750 10754 10755; G2 XOR 10529 103 10756; G2 XOR 10755 103 10757; G2 XOR 10756 10755 10758;
  G2 AND 10756 10757 10759; G2 XOR 10755 10759 10760; G2 XOR 10532 104 10761; G2 XOR 10760 104 10762;
  G2 XOR 10761 10760 10763; G2 AND 10761 10762 10764; G2 XOR 10760 10764 10765; G2 XOR 10535 105 10766;
  G2 XOR 10765 105 10767; G2 XOR 10766 10765 10768; G2 AND 10766 10767 10769; G2 XOR 10765 10769 10770;
  G2 XOR 10538 106 10771; G2 XOR 10770 106 10772; G2 XOR 10771 10770 10773; G2 AND 10771 10772 10774;
  G2 XOR 10770 10774 10775; G2 XOR 10541 107 10776; G2 XOR 10775 107 10777; G2 XOR 10776 10775 10778;
  G2 AND 10776 10777 10779; G2 XOR 10775 10779 10780; G2 XOR 10544 108 10781; G2 XOR 10780 108 10782;
  G2 XOR 10781 10780 10783; G2 AND 10781 10782 10784; G2 XOR 10780 10784 10785; G2 XOR 10547 109 10786;
  G2 XOR 10785 109 10787; G2 XOR 10786 10785 10788; G2 AND 10786 10787 10789; G2 XOR 10785 10789 10790;
  G2 XOR 10550 110 10791; G2 XOR 10790 110 10792; G2 XOR 10791 10790 10793; G2 AND 10791 10792 10794;
  G2 XOR 10790 10794 10795; G2 XOR 10553 111 10796; G2 XOR 10795 111 10797; G2 XOR 10796 10795 10798;
  G2 AND 10796 10797 10799; G2 XOR 10795 10799 10800; G2 XOR 10556 112 10801; G2 XOR 10800 112 10802;
  G2 XOR 10801 10800 10803; G2 AND 10801 10802 10804; G2 XOR 10800 10804 10805; G2 XOR 10559 113 10806;
  G2 XOR 10805 113 10807; G2 XOR 10806 10805 10808; G2 AND 10806 10807 10809; G2 XOR 10805 10809 10810;
  G2 XOR 10562 114 10811; G2 XOR 10810 114 10812; G2 XOR 10811 10810 10813; G2 AND 10811 10812 10814;
  G2 XOR 10810 10814 10815; G2 AND 10815 163 10816; G2 XOR 10815 163 10817; G2 XOR 10817 10816 10818;
  G2 XOR 13 10564 10819; G2 AND 10818 10819 10820; G2 XOR 10820 10564 10821; G2 XOR 10415 10568 10822;
  G2 AND 10818 10822 10823; G2 XOR 10823 10568 10824; G2 XOR 10418 10573 10825; G2 AND 10818 10825 10826;
  G2 XOR 10826 10573 10827; G2 XOR 10421 10578 10828; G2 AND 10818 10828 10829; G2 XOR 10829 10578 10830;
  G2 XOR 10424 10583 10831; G2 AND 10818 10831 10832; G2 XOR 10832 10583 10833; G2 XOR 10427 10588 10834;
  G2 AND 10818 10834 10835; G2 XOR 10835 10588 10836; G2 XOR 10430 10593 10837; G2 AND 10818 10837 10838;
  G2 XOR 10838 10593 10839; G2 XOR 10433 10598 10840; G2 AND 10818 10840 10841; G2 XOR 10841 10598 10842;
  G2 XOR 10436 10603 10843; G2 AND 10818 10843 10844; G2 XOR 10844 10603 10845; G2 XOR 10439 10608 10846;
  G2 AND 10818 10846 10847; G2 XOR 10847 10608 10848; G2 XOR 10442 10613 10849; G2 AND 10818 10849 10850;
  G2 XOR 10850 10613 10851; G2 XOR 10445 10618 10852; G2 AND 10818 10852 10853; G2 XOR 10853 10618 10854;
  G2 XOR 10448 10623 10855; G2 AND 10818 10855 10856; G2 XOR 10856 10623 10857; G2 XOR 10451 10628 10858;
  G2 AND 10818 10858 10859; G2 XOR 10859 10628 10860; G2 XOR 10454 10633 10861; G2 AND 10818 10861 10862;
  G2 XOR 10862 10633 10863; G2 XOR 10457 10638 10864; G2 AND 10818 10864 10865; G2 XOR 10865 10638 10866;
  G2 XOR 10460 10643 10867; G2 AND 10818 10867 10868; G2 XOR 10868 10643 10869; G2 XOR 10463 10648 10870;
  G2 AND 10818 10870 10871; G2 XOR 10871 10648 10872; G2 XOR 10466 10653 10873; G2 AND 10818 10873 10874;
  G2 XOR 10874 10653 10875; G2 XOR 10469 10658 10876; G2 AND 10818 10876 10877; G2 XOR 10877 10658 10878;
  G2 XOR 10472 10663 10879; G2 AND 10818 10879 10880; G2 XOR 10880 10663 10881; G2 XOR 10475 10668 10882;
  G2 AND 10818 10882 10883; G2 XOR 10883 10668 10884; G2 XOR 10478 10673 10885; G2 AND 10818 10885 10886;
  G2 XOR 10886 10673 10887; G2 XOR 10481 10678 10888; G2 AND 10818 10888 10889; G2 XOR 10889 10678 10890;
  G2 XOR 10484 10683 10891; G2 AND 10818 10891 10892; G2 XOR 10892 10683 10893; G2 XOR 10487 10688 10894;
  G2 AND 10818 10894 10895; G2 XOR 10895 10688 10896; G2 XOR 10490 10693 10897; G2 AND 10818 10897 10898;
  G2 XOR 10898 10693 10899; G2 XOR 10493 10698 10900; G2 AND 10818 10900 10901; G2 XOR 10901 10698 10902;
  G2 XOR 10496 10703 10903; G2 AND 10818 10903 10904; G2 XOR 10904 10703 10905; G2 XOR 10499 10708 10906;
  G2 AND 10818 10906 10907; G2 XOR 10907 10708 10908; G2 XOR 10502 10713 10909; G2 AND 10818 10909 10910;
  G2 XOR 10910 10713 10911; G2 XOR 10505 10718 10912; G2 AND 10818 10912 10913; G2 XOR 10913 10718 10914;
  G2 XOR 10508 10723 10915; G2 AND 10818 10915 10916; G2 XOR 10916 10723 10917; G2 XOR 10511 10728 10918;
  G2 AND 10818 10918 10919; G2 XOR 10919 10728 10920; G2 XOR 10514 10733 10921; G2 AND 10818 10921 10922;
  G2 XOR 10922 10733 10923; G2 XOR 10517 10738 10924; G2 AND 10818 10924 10925; G2 XOR 10925 10738 10926;
  G2 XOR 10520 10743 10927; G2 AND 10818 10927 10928; G2 XOR 10928 10743 10929; G2 XOR 10523 10748 10930;
  G2 AND 10818 10930 10931; G2 XOR 10931 10748 10932; G2 XOR 10526 10753 10933; G2 AND 10818 10933 10934;
  G2 XOR 10934 10753 10935; G2 XOR 10529 10758 10936; G2 AND 10818 10936 10937; G2 XOR 10937 10758 10938;
  G2 XOR 10532 10763 10939; G2 AND 10818 10939 10940; G2 XOR 10940 10763 10941; G2 XOR 10535 10768 10942;
  G2 AND 10818 10942 10943; G2 XOR 10943 10768 10944; G2 XOR 10538 10773 10945; G2 AND 10818 10945 10946;
  G2 XOR 10946 10773 10947; G2 XOR 10541 10778 10948; G2 AND 10818 10948 10949; G2 XOR 10949 10778 10950;
  G2 XOR 10544 10783 10951; G2 AND 10818 10951 10952; G2 XOR 10952 10783 10953; G2 XOR 10547 10788 10954;
  G2 AND 10818 10954 10955; G2 XOR 10955 10788 10956; G2 XOR 10550 10793 10957; G2 AND 10818 10957 10958;
  G2 XOR 10958 10793 10959; G2 XOR 10553 10798 10960; G2 AND 10818 10960 10961; G2 XOR 10961 10798 10962;
  G2 XOR 10556 10803 10963; G2 AND 10818 10963 10964; G2 XOR 10964 10803 10965; G2 XOR 10559 10808 10966;
  G2 AND 10818 10966 10967; G2 XOR 10967 10808 10968; G2 XOR 10562 10813 10969; G2 AND 10818 10969 10970;
  G2 XOR 10970 10813 10971; G1 INV 10818 10972; G2 XOR 12 64 10973; G2 AND 10973 64 10974;
  G2 XOR 10821 65 10975; G2 XOR 10974 65 10976; G2 XOR 10975 10974 10977; G2 AND 10975 10976 10978;
  G2 XOR 10974 10978 10979; G2 XOR 10824 66 10980; G2 XOR 10979 66 10981; G2 XOR 10980 10979 10982;
  G2 AND 10980 10981 10983; G2 XOR 10979 10983 10984; G2 XOR 10827 67 10985; G2 XOR 10984 67 10986;
  G2 XOR 10985 10984 10987; G2 AND 10985 10986 10988; G2 XOR 10984 10988 10989; G2 XOR 10830 68 10990;
  G2 XOR 10989 68 10991; G2 XOR 10990 10989 10992; G2 AND 10990 10991 10993; G2 XOR 10989 10993 10994;
  G2 XOR 10833 69 10995; G2 XOR 10994 69 10996; G2 XOR 10995 10994 10997; G2 AND 10995 10996 10998;
  G2 XOR 10994 10998 10999; G2 XOR 10836 70 11000; G2 XOR 10999 70 11001; G2 XOR 11000 10999 11002;
  G2 AND 11000 11001 11003; G2 XOR 10999 11003 11004; G2 XOR 10839 71 11005; G2 XOR 11004 71 11006;
  G2 XOR 11005 11004 11007; G2 AND 11005 11006 11008; G2 XOR 11004 11008 11009; G2 XOR 10842 72 11010;
  G2 XOR 11009 72 11011; G2 XOR 11010 11009 11012; G2 AND 11010 11011 11013; G2 XOR 11009 11013 11014;
  G2 XOR 10845 73 11015; G2 XOR 11014 73 11016; G2 XOR 11015 11014 11017; G2 AND 11015 11016 11018;
  G2 XOR 11014 11018 11019; G2 XOR 10848 74 11020; G2 XOR 11019 74 11021; G2 XOR 11020 11019 11022;
  G2 AND 11020 11021 11023; G2 XOR 11019 11023 11024; G2 XOR 10851 75 11025; G2 XOR 11024 75 11026;
  G2 XOR 11025 11024 11027; G2 AND 11025 11026 11028; G2 XOR 11024 11028 11029; G2 XOR 10854 76 11030;
  G2 XOR 11029 76 11031; G2 XOR 11030 11029 11032; G2 AND 11030 11031 11033; G2 XOR 11029 11033 11034;
  G2 XOR 10857 77 11035; G2 XOR 11034 77 11036; G2 XOR 11035 11034 11037; G2 AND 11035 11036 11038;
  G2 XOR 11034 11038 11039; G2 XOR 10860 78 11040; G2 XOR 11039 78 11041; G2 XOR 11040 11039 11042;
  G2 AND 11040 11041 11043; G2 XOR 11039 11043 11044; G2 XOR 10863 79 11045; G2 XOR 11044 79 11046;
  G2 XOR 11045 11044 11047; G2 AND 11045 11046 11048; G2 XOR 11044 11048 11049; G2 XOR 10866 80 11050;
  G2 XOR 11049 80 11051; G2 XOR 11050 11049 11052; G2 AND 11050 11051 11053; G2 XOR 11049 11053 11054;
  G2 XOR 10869 81 11055; G2 XOR 11054 81 11056; G2 XOR 11055 11054 11057; G2 AND 11055 11056 11058;
  G2 XOR 11054 11058 11059; G2 XOR 10872 82 11060; G2 XOR 11059 82 11061; G2 XOR 11060 11059 11062;
  G2 AND 11060 11061 11063; G2 XOR 11059 11063 11064; G2 XOR 10875 83 11065; G2 XOR 11064 83 11066;
  G2 XOR 11065 11064 11067; G2 AND 11065 11066 11068; G2 XOR 11064 11068 11069; G2 XOR 10878 84 11070;
  G2 XOR 11069 84 11071; G2 XOR 11070 11069 11072; G2 AND 11070 11071 11073; G2 XOR 11069 11073 11074;
  G2 XOR 10881 85 11075; G2 XOR 11074 85 11076; G2 XOR 11075 11074 11077; G2 AND 11075 11076 11078;
  G2 XOR 11074 11078 11079; G2 XOR 10884 86 11080; G2 XOR 11079 86 11081; G2 XOR 11080 11079 11082;
  G2 AND 11080 11081 11083; G2 XOR 11079 11083 11084; G2 XOR 10887 87 11085; G2 XOR 11084 87 11086;
  G2 XOR 11085 11084 11087; G2 AND 11085 11086 11088; G2 XOR 11084 11088 11089; G2 XOR 10890 88 11090;
  G2 XOR 11089 88 11091; G2 XOR 11090 11089 11092; G2 AND 11090 11091 11093; G2 XOR 11089 11093 11094;
  G2 XOR 10893 89 11095; G2 XOR 11094 89 11096; G2 XOR 11095 11094 11097; G2 AND 11095 11096 11098;
  G2 XOR 11094 11098 11099; G2 XOR 10896 90 11100; G2 XOR 11099 90 11101; G2 XOR 11100 11099 11102;
  G2 AND 11100 11101 11103; G2 XOR 11099 11103 11104; G2 XOR 10899 91 11105; G2 XOR 11104 91 11106;
  G2 XOR 11105 11104 11107; G2 AND 11105 11106 11108; G2 XOR 11104 11108 11109; G2 XOR 10902 92 11110;
  G2 XOR 11109 92 11111; G2 XOR 11110 11109 11112; G2 AND 11110 11111 11113; G2 XOR 11109 11113 11114;
  G2 XOR 10905 93 11115; G2 XOR 11114 93 11116; G2 XOR 11115 11114 11117; G2 AND 11115 11116 11118;
  G2 XOR 11114 11118 11119; G2 XOR 10908 94 11120; G2 XOR 11119 94 11121; G2 XOR 11120 11119 11122;
  G2 AND 11120 11121 11123; G2 XOR 11119 11123 11124; G2 XOR 10911 95 11125; G2 XOR 11124 95 11126;
  G2 XOR 11125 11124 11127; G2 AND 11125 11126 11128; G2 XOR 11124 11128 11129; G2 XOR 10914 96 11130;
  G2 XOR 11129 96 11131; G2 XOR 11130 11129 11132; G2 AND 11130 11131 11133; G2 XOR 11129 11133 11134;
  G2 XOR 10917 97 11135; G2 XOR 11134 97 11136; G2 XOR 11135 11134 11137; G2 AND 11135 11136 11138;
  G2 XOR 11134 11138 11139; G2 XOR 10920 98 11140; G2 XOR 11139 98 11141; G2 XOR 11140 11139 11142;
  G2 AND 11140 11141 11143; G2 XOR 11139 11143 11144; G2 XOR 10923 99 11145; G2 XOR 11144 99 11146;
  G2 XOR 11145 11144 11147; G2 AND 11145 11146 11148; G2 XOR 11144 11148 11149; G2 XOR 10926 100 11150;
  G2 XOR 11149 100 11151; G2 XOR 11150 11149 11152; G2 AND 11150 11151 11153; G2 XOR 11149 11153 11154;
  G2 XOR 10929 101 11155; G2 XOR 11154 101 11156; G2 XOR 11155 11154 11157; G2 AND 11155 11156 11158;
  G2 XOR 11154 11158 11159; G2 XOR 10932 102 11160; G2 XOR 11159 102 11161; G2 XOR 11160 11159 11162;
  G2 AND 11160 11161 11163; G2 XOR 11159 11163 11164; G2 XOR 10935 103 11165; G2 XOR 11164 103 11166;
  G2 XOR 11165 11164 11167; G2 AND 11165 11166 11168; G2 XOR 11164 11168 11169; G2 XOR 10938 104 11170;
  G2 XOR 11169 104 11171; G2 XOR 11170 11169 11172; G2 AND 11170 11171 11173; G2 XOR 11169 11173 11174;
  G2 XOR 10941 105 11175; G2 XOR 11174 105 11176; G2 XOR 11175 11174 11177; G2 AND 11175 11176 11178;
  G2 XOR 11174 11178 11179; G2 XOR 10944 106 11180; G2 XOR 11179 106 11181; G2 XOR 11180 11179 11182;
  G2 AND 11180 11181 11183; G2 XOR 11179 11183 11184; G2 XOR 10947 107 11185; G2 XOR 11184 107 11186;
  G2 XOR 11185 11184 11187; G2 AND 11185 11186 11188; G2 XOR 11184 11188 11189; G2 XOR 10950 108 11190;
  G2 XOR 11189 108 11191; G2 XOR 11190 11189 11192; G2 AND 11190 11191 11193; G2 XOR 11189 11193 11194;
  G2 XOR 10953 109 11195; G2 XOR 11194 109 11196; G2 XOR 11195 11194 11197; G2 AND 11195 11196 11198;
  G2 XOR 11194 11198 11199; G2 XOR 10956 110 11200; G2 XOR 11199 110 11201; G2 XOR 11200 11199 11202;
  G2 AND 11200 11201 11203; G2 XOR 11199 11203 11204; G2 XOR 10959 111 11205; G2 XOR 11204 111 11206;
  G2 XOR 11205 11204 11207; G2 AND 11205 11206 11208; G2 XOR 11204 11208 11209; G2 XOR 10962 112 11210;
  G2 XOR 11209 112 11211; G2 XOR 11210 11209 11212; G2 AND 11210 11211 11213; G2 XOR 11209 11213 11214;
  G2 XOR 10965 113 11215; G2 XOR 11214 113 11216; G2 XOR 11215 11214 11217; G2 AND 11215 11216 11218;
  G2 XOR 11214 11218 11219; G2 XOR 10968 114 11220; G2 XOR 11219 114 11221; G2 XOR 11220 11219 11222;
  G2 AND 11220 11221 11223; G2 XOR 11219 11223 11224; G2 XOR 10971 115 11225; G2 XOR 11224 115 11226;
  G2 XOR 11225 11224 11227; G2 AND 11225 11226 11228; G2 XOR 11224 11228 11229; G2 AND 11229 160 11230;
  G2 XOR 11229 160 11231; G2 XOR 11231 11230 11232; G2 XOR 12 10973 11233; G2 AND 11232 11233 11234;
  G2 XOR 11234 10973 11235; G2 XOR 10821 10977 11236; G2 AND 11232 11236 11237; G2 XOR 11237 10977 11238;
  G2 XOR 10824 10982 11239; G2 AND 11232 11239 11240; G2 XOR 11240 10982 11241; G2 XOR 10827 10987 11242;
  G2 AND 11232 11242 11243; G2 XOR 11243 10987 11244; G2 XOR 10830 10992 11245; G2 AND 11232 11245 11246;
  G2 XOR 11246 10992 11247; G2 XOR 10833 10997 11248; G2 AND 11232 11248 11249; G2 XOR 11249 10997 11250;
  G2 XOR 10836 11002 11251; G2 AND 11232 11251 11252; G2 XOR 11252 11002 11253; G2 XOR 10839 11007 11254;
  G2 AND 11232 11254 11255; G2 XOR 11255 11007 11256; G2 XOR 10842 11012 11257; G2 AND 11232 11257 11258;
  G2 XOR 11258 11012 11259; G2 XOR 10845 11017 11260; G2 AND 11232 11260 11261; G2 XOR 11261 11017 11262;
  G2 XOR 10848 11022 11263; G2 AND 11232 11263 11264; G2 XOR 11264 11022 11265; G2 XOR 10851 11027 11266;
  G2 AND 11232 11266 11267; G2 XOR 11267 11027 11268; G2 XOR 10854 11032 11269; G2 AND 11232 11269 11270;
  G2 XOR 11270 11032 11271; G2 XOR 10857 11037 11272; G2 AND 11232 11272 11273; G2 XOR 11273 11037 11274;
  G2 XOR 10860 11042 11275; G2 AND 11232 11275 11276; G2 XOR 11276 11042 11277; G2 XOR 10863 11047 11278;
  G2 AND 11232 11278 11279; G2 XOR 11279 11047 11280; G2 XOR 10866 11052 11281; G2 AND 11232 11281 11282;
  G2 XOR 11282 11052 11283; G2 XOR 10869 11057 11284; G2 AND 11232 11284 11285; G2 XOR 11285 11057 11286;
  G2 XOR 10872 11062 11287; G2 AND 11232 11287 11288; G2 XOR 11288 11062 11289; G2 XOR 10875 11067 11290;
  G2 AND 11232 11290 11291; G2 XOR 11291 11067 11292; G2 XOR 10878 11072 11293; G2 AND 11232 11293 11294;
  G2 XOR 11294 11072 11295; G2 XOR 10881 11077 11296; G2 AND 11232 11296 11297; G2 XOR 11297 11077 11298;
  G2 XOR 10884 11082 11299; G2 AND 11232 11299 11300; G2 XOR 11300 11082 11301; G2 XOR 10887 11087 11302;
  G2 AND 11232 11302 11303; G2 XOR 11303 11087 11304; G2 XOR 10890 11092 11305; G2 AND 11232 11305 11306;
  G2 XOR 11306 11092 11307; G2 XOR 10893 11097 11308; G2 AND 11232 11308 11309; G2 XOR 11309 11097 11310;
  G2 XOR 10896 11102 11311; G2 AND 11232 11311 11312; G2 XOR 11312 11102 11313; G2 XOR 10899 11107 11314;
  G2 AND 11232 11314 11315; G2 XOR 11315 11107 11316; G2 XOR 10902 11112 11317; G2 AND 11232 11317 11318;
  G2 XOR 11318 11112 11319; G2 XOR 10905 11117 11320; G2 AND 11232 11320 11321; G2 XOR 11321 11117 11322;
  G2 XOR 10908 11122 11323; G2 AND 11232 11323 11324; G2 XOR 11324 11122 11325; G2 XOR 10911 11127 11326;
  G2 AND 11232 11326 11327; G2 XOR 11327 11127 11328; G2 XOR 10914 11132 11329; G2 AND 11232 11329 11330;
  G2 XOR 11330 11132 11331; G2 XOR 10917 11137 11332; G2 AND 11232 11332 11333; G2 XOR 11333 11137 11334;
  G2 XOR 10920 11142 11335; G2 AND 11232 11335 11336; G2 XOR 11336 11142 11337; G2 XOR 10923 11147 11338;
  G2 AND 11232 11338 11339; G2 XOR 11339 11147 11340; G2 XOR 10926 11152 11341; G2 AND 11232 11341 11342;
  G2 XOR 11342 11152 11343; G2 XOR 10929 11157 11344; G2 AND 11232 11344 11345; G2 XOR 11345 11157 11346;
  G2 XOR 10932 11162 11347; G2 AND 11232 11347 11348; G2 XOR 11348 11162 11349; G2 XOR 10935 11167 11350;
  G2 AND 11232 11350 11351; G2 XOR 11351 11167 11352; G2 XOR 10938 11172 11353; G2 AND 11232 11353 11354;
  G2 XOR 11354 11172 11355; G2 XOR 10941 11177 11356; G2 AND 11232 11356 11357; G2 XOR 11357 11177 11358;
  G2 XOR 10944 11182 11359; G2 AND 11232 11359 11360; G2 XOR 11360 11182 11361; G2 XOR 10947 11187 11362;
  G2 AND 11232 11362 11363; G2 XOR 11363 11187 11364; G2 XOR 10950 11192 11365; G2 AND 11232 11365 11366;
  G2 XOR 11366 11192 11367; G2 XOR 10953 11197 11368; G2 AND 11232 11368 11369; G2 XOR 11369 11197 11370;
  G2 XOR 10956 11202 11371; G2 AND 11232 11371 11372; G2 XOR 11372 11202 11373; G2 XOR 10959 11207 11374;
  G2 AND 11232 11374 11375; G2 XOR 11375 11207 11376; G2 XOR 10962 11212 11377; G2 AND 11232 11377 11378;
  G2 XOR 11378 11212 11379; G2 XOR 10965 11217 11380; G2 AND 11232 11380 11381; G2 XOR 11381 11217 11382;
  G2 XOR 10968 11222 11383; G2 AND 11232 11383 11384; G2 XOR 11384 11222 11385; G2 XOR 10971 11227 11386;
  G2 AND 11232 11386 11387; G2 XOR 11387 11227 11388; G1 INV 11232 11389; G2 XOR 11 64 11390;
  G2 AND 11390 64 11391; G2 XOR 11235 65 11392; G2 XOR 11391 65 11393; G2 XOR 11392 11391 11394;
  G2 AND 11392 11393 11395; G2 XOR 11391 11395 11396; G2 XOR 11238 66 11397; G2 XOR 11396 66 11398;
  G2 XOR 11397 11396 11399; G2 AND 11397 11398 11400; G2 XOR 11396 11400 11401; G2 XOR 11241 67 11402;
  G2 XOR 11401 67 11403; G2 XOR 11402 11401 11404; G2 AND 11402 11403 11405; G2 XOR 11401 11405 11406;
  G2 XOR 11244 68 11407; G2 XOR 11406 68 11408; G2 XOR 11407 11406 11409; G2 AND 11407 11408 11410;
  G2 XOR 11406 11410 11411; G2 XOR 11247 69 11412; G2 XOR 11411 69 11413; G2 XOR 11412 11411 11414;
  G2 AND 11412 11413 11415; G2 XOR 11411 11415 11416; G2 XOR 11250 70 11417; G2 XOR 11416 70 11418;
  G2 XOR 11417 11416 11419; G2 AND 11417 11418 11420; G2 XOR 11416 11420 11421; G2 XOR 11253 71 11422;
  G2 XOR 11421 71 11423; G2 XOR 11422 11421 11424; G2 AND 11422 11423 11425; G2 XOR 11421 11425 11426;
  G2 XOR 11256 72 11427; G2 XOR 11426 72 11428; G2 XOR 11427 11426 11429; G2 AND 11427 11428 11430;
  G2 XOR 11426 11430 11431; G2 XOR 11259 73 11432; G2 XOR 11431 73 11433; G2 XOR 11432 11431 11434;
  G2 AND 11432 11433 11435; G2 XOR 11431 11435 11436; G2 XOR 11262 74 11437; G2 XOR 11436 74 11438;
  G2 XOR 11437 11436 11439; G2 AND 11437 11438 11440; G2 XOR 11436 11440 11441; G2 XOR 11265 75 11442;
  G2 XOR 11441 75 11443; G2 XOR 11442 11441 11444; G2 AND 11442 11443 11445; G2 XOR 11441 11445 11446;
  G2 XOR 11268 76 11447; G2 XOR 11446 76 11448; G2 XOR 11447 11446 11449; G2 AND 11447 11448 11450;
  G2 XOR 11446 11450 11451; G2 XOR 11271 77 11452; G2 XOR 11451 77 11453; G2 XOR 11452 11451 11454;
  G2 AND 11452 11453 11455; G2 XOR 11451 11455 11456; G2 XOR 11274 78 11457; G2 XOR 11456 78 11458;
  G2 XOR 11457 11456 11459; G2 AND 11457 11458 11460; G2 XOR 11456 11460 11461; G2 XOR 11277 79 11462;
  G2 XOR 11461 79 11463; G2 XOR 11462 11461 11464; G2 AND 11462 11463 11465; G2 XOR 11461 11465 11466;
  G2 XOR 11280 80 11467; G2 XOR 11466 80 11468; G2 XOR 11467 11466 11469; G2 AND 11467 11468 11470;
  G2 XOR 11466 11470 11471; G2 XOR 11283 81 11472; G2 XOR 11471 81 11473; G2 XOR 11472 11471 11474;
  G2 AND 11472 11473 11475; G2 XOR 11471 11475 11476; G2 XOR 11286 82 11477; G2 XOR 11476 82 11478;
  G2 XOR 11477 11476 11479; G2 AND 11477 11478 11480; G2 XOR 11476 11480 11481; G2 XOR 11289 83 11482;
  G2 XOR 11481 83 11483; G2 XOR 11482 11481 11484; G2 AND 11482 11483 11485; G2 XOR 11481 11485 11486;
  G2 XOR 11292 84 11487; G2 XOR 11486 84 11488; G2 XOR 11487 11486 11489; G2 AND 11487 11488 11490;
  G2 XOR 11486 11490 11491; G2 XOR 11295 85 11492; G2 XOR 11491 85 11493; G2 XOR 11492 11491 11494;
  G2 AND 11492 11493 11495; G2 XOR 11491 11495 11496; G2 XOR 11298 86 11497; G2 XOR 11496 86 11498;
  G2 XOR 11497 11496 11499; G2 AND 11497 11498 11500; G2 XOR 11496 11500 11501; G2 XOR 11301 87 11502;
  G2 XOR 11501 87 11503; G2 XOR 11502 11501 11504; G2 AND 11502 11503 11505; G2 XOR 11501 11505 11506;
  G2 XOR 11304 88 11507; G2 XOR 11506 88 11508; G2 XOR 11507 11506 11509; G2 AND 11507 11508 11510;
  G2 XOR 11506 11510 11511; G2 XOR 11307 89 11512; G2 XOR 11511 89 11513; G2 XOR 11512 11511 11514;
  G2 AND 11512 11513 11515; G2 XOR 11511 11515 11516; G2 XOR 11310 90 11517; G2 XOR 11516 90 11518;
  G2 XOR 11517 11516 11519; G2 AND 11517 11518 11520; G2 XOR 11516 11520 11521; G2 XOR 11313 91 11522;
  G2 XOR 11521 91 11523; G2 XOR 11522 11521 11524; G2 AND 11522 11523 11525; G2 XOR 11521 11525 11526;
  G2 XOR 11316 92 11527; G2 XOR 11526 92 11528; G2 XOR 11527 11526 11529; G2 AND 11527 11528 11530;
  G2 XOR 11526 11530 11531; G2 XOR 11319 93 11532; G2 XOR 11531 93 11533; G2 XOR 11532 11531 11534;
  G2 AND 11532 11533 11535; G2 XOR 11531 11535 11536; G2 XOR 11322 94 11537; G2 XOR 11536 94 11538;
  G2 XOR 11537 11536 11539; G2 AND 11537 11538 11540; G2 XOR 11536 11540 11541; G2 XOR 11325 95 11542;
  G2 XOR 11541 95 11543; G2 XOR 11542 11541 11544; G2 AND 11542 11543 11545; G2 XOR 11541 11545 11546;
  G2 XOR 11328 96 11547; G2 XOR 11546 96 11548; G2 XOR 11547 11546 11549; G2 AND 11547 11548 11550;
  G2 XOR 11546 11550 11551; G2 XOR 11331 97 11552; G2 XOR 11551 97 11553; G2 XOR 11552 11551 11554;
  G2 AND 11552 11553 11555; G2 XOR 11551 11555 11556; G2 XOR 11334 98 11557; G2 XOR 11556 98 11558;
  G2 XOR 11557 11556 11559; G2 AND 11557 11558 11560; G2 XOR 11556 11560 11561; G2 XOR 11337 99 11562;
  G2 XOR 11561 99 11563; G2 XOR 11562 11561 11564; G2 AND 11562 11563 11565; G2 XOR 11561 11565 11566;
  G2 XOR 11340 100 11567; G2 XOR 11566 100 11568; G2 XOR 11567 11566 11569; G2 AND 11567 11568 11570;
  G2 XOR 11566 11570 11571; G2 XOR 11343 101 11572; G2 XOR 11571 101 11573; G2 XOR 11572 11571 11574;
  G2 AND 11572 11573 11575; G2 XOR 11571 11575 11576; G2 XOR 11346 102 11577; G2 XOR 11576 102 11578;
  G2 XOR 11577 11576 11579; G2 AND 11577 11578 11580; G2 XOR 11576 11580 11581; G2 XOR 11349 103 11582;
  G2 XOR 11581 103 11583; G2 XOR 11582 11581 11584; G2 AND 11582 11583 11585; G2 XOR 11581 11585 11586;
  G2 XOR 11352 104 11587; G2 XOR 11586 104 11588; G2 XOR 11587 11586 11589; G2 AND 11587 11588 11590;
  G2 XOR 11586 11590 11591; G2 XOR 11355 105 11592; G2 XOR 11591 105 11593; G2 XOR 11592 11591 11594;
  G2 AND 11592 11593 11595; G2 XOR 11591 11595 11596; G2 XOR 11358 106 11597; G2 XOR 11596 106 11598;
  G2 XOR 11597 11596 11599; G2 AND 11597 11598 11600; G2 XOR 11596 11600 11601; G2 XOR 11361 107 11602;
  G2 XOR 11601 107 11603; G2 XOR 11602 11601 11604; G2 AND 11602 11603 11605; G2 XOR 11601 11605 11606;
  G2 XOR 11364 108 11607; G2 XOR 11606 108 11608; G2 XOR 11607 11606 11609; G2 AND 11607 11608 11610;
  G2 XOR 11606 11610 11611; G2 XOR 11367 109 11612; G2 XOR 11611 109 11613; G2 XOR 11612 11611 11614;
  G2 AND 11612 11613 11615; G2 XOR 11611 11615 11616; G2 XOR 11370 110 11617; G2 XOR 11616 110 11618;
  G2 XOR 11617 11616 11619; G2 AND 11617 11618 11620; G2 XOR 11616 11620 11621; G2 XOR 11373 111 11622;
  G2 XOR 11621 111 11623; G2 XOR 11622 11621 11624; G2 AND 11622 11623 11625; G2 XOR 11621 11625 11626;
  G2 XOR 11376 112 11627; G2 XOR 11626 112 11628; G2 XOR 11627 11626 11629; G2 AND 11627 11628 11630;
  G2 XOR 11626 11630 11631; G2 XOR 11379 113 11632; G2 XOR 11631 113 11633; G2 XOR 11632 11631 11634;
  G2 AND 11632 11633 11635; G2 XOR 11631 11635 11636; G2 XOR 11382 114 11637; G2 XOR 11636 114 11638;
  G2 XOR 11637 11636 11639; G2 AND 11637 11638 11640; G2 XOR 11636 11640 11641; G2 XOR 11385 115 11642;
  G2 XOR 11641 115 11643; G2 XOR 11642 11641 11644; G2 AND 11642 11643 11645; G2 XOR 11641 11645 11646;
  G2 XOR 11388 116 11647; G2 XOR 11646 116 11648; G2 XOR 11647 11646 11649; G2 AND 11647 11648 11650;
  G2 XOR 11646 11650 11651; G2 AND 11651 157 11652; G2 XOR 11651 157 11653; G2 XOR 11653 11652 11654;
  G2 XOR 11 11390 11655; G2 AND 11654 11655 11656; G2 XOR 11656 11390 11657; G2 XOR 11235 11394 11658;
  G2 AND 11654 11658 11659; G2 XOR 11659 11394 11660; G2 XOR 11238 11399 11661; G2 AND 11654 11661 11662;
  G2 XOR 11662 11399 11663; G2 XOR 11241 11404 11664; G2 AND 11654 11664 11665; G2 XOR 11665 11404 11666;
  G2 XOR 11244 11409 11667; G2 AND 11654 11667 11668; G2 XOR 11668 11409 11669; G2 XOR 11247 11414 11670;
  G2 AND 11654 11670 11671; G2 XOR 11671 11414 11672; G2 XOR 11250 11419 11673; G2 AND 11654 11673 11674;
  G2 XOR 11674 11419 11675; G2 XOR 11253 11424 11676; G2 AND 11654 11676 11677; G2 XOR 11677 11424 11678;
  G2 XOR 11256 11429 11679; G2 AND 11654 11679 11680; G2 XOR 11680 11429 11681; G2 XOR 11259 11434 11682;
  G2 AND 11654 11682 11683; G2 XOR 11683 11434 11684; G2 XOR 11262 11439 11685; G2 AND 11654 11685 11686;
  G2 XOR 11686 11439 11687; G2 XOR 11265 11444 11688; G2 AND 11654 11688 11689; G2 XOR 11689 11444 11690;
  G2 XOR 11268 11449 11691; G2 AND 11654 11691 11692; G2 XOR 11692 11449 11693; G2 XOR 11271 11454 11694;
  G2 AND 11654 11694 11695; G2 XOR 11695 11454 11696; G2 XOR 11274 11459 11697; G2 AND 11654 11697 11698;
  G2 XOR 11698 11459 11699; G2 XOR 11277 11464 11700; G2 AND 11654 11700 11701; G2 XOR 11701 11464 11702;
  G2 XOR 11280 11469 11703; G2 AND 11654 11703 11704; G2 XOR 11704 11469 11705; G2 XOR 11283 11474 11706;
  G2 AND 11654 11706 11707; G2 XOR 11707 11474 11708; G2 XOR 11286 11479 11709; G2 AND 11654 11709 11710;
  G2 XOR 11710 11479 11711; G2 XOR 11289 11484 11712; G2 AND 11654 11712 11713; G2 XOR 11713 11484 11714;
  G2 XOR 11292 11489 11715; G2 AND 11654 11715 11716; G2 XOR 11716 11489 11717; G2 XOR 11295 11494 11718;
  G2 AND 11654 11718 11719; G2 XOR 11719 11494 11720; G2 XOR 11298 11499 11721; G2 AND 11654 11721 11722;
  G2 XOR 11722 11499 11723; G2 XOR 11301 11504 11724; G2 AND 11654 11724 11725; G2 XOR 11725 11504 11726;
  G2 XOR 11304 11509 11727; G2 AND 11654 11727 11728; G2 XOR 11728 11509 11729; G2 XOR 11307 11514 11730;
  G2 AND 11654 11730 11731; G2 XOR 11731 11514 11732; G2 XOR 11310 11519 11733; G2 AND 11654 11733 11734;
  G2 XOR 11734 11519 11735; G2 XOR 11313 11524 11736; G2 AND 11654 11736 11737; G2 XOR 11737 11524 11738;
  G2 XOR 11316 11529 11739; G2 AND 11654 11739 11740; G2 XOR 11740 11529 11741; G2 XOR 11319 11534 11742;
  G2 AND 11654 11742 11743; G2 XOR 11743 11534 11744; G2 XOR 11322 11539 11745; G2 AND 11654 11745 11746;
  G2 XOR 11746 11539 11747; G2 XOR 11325 11544 11748; G2 AND 11654 11748 11749; G2 XOR 11749 11544 11750;
  G2 XOR 11328 11549 11751; G2 AND 11654 11751 11752; G2 XOR 11752 11549 11753; G2 XOR 11331 11554 11754;
  G2 AND 11654 11754 11755; G2 XOR 11755 11554 11756; G2 XOR 11334 11559 11757; G2 AND 11654 11757 11758;
  G2 XOR 11758 11559 11759; G2 XOR 11337 11564 11760; G2 AND 11654 11760 11761; G2 XOR 11761 11564 11762;
  G2 XOR 11340 11569 11763; G2 AND 11654 11763 11764; G2 XOR 11764 11569 11765; G2 XOR 11343 11574 11766;
  G2 AND 11654 11766 11767; G2 XOR 11767 11574 11768; G2 XOR 11346 11579 11769; G2 AND 11654 11769 11770;
  G2 XOR 11770 11579 11771; G2 XOR 11349 11584 11772; G2 AND 11654 11772 11773; G2 XOR 11773 11584 11774;
  G2 XOR 11352 11589 11775; G2 AND 11654 11775 11776; G2 XOR 11776 11589 11777; G2 XOR 11355 11594 11778;
  G2 AND 11654 11778 11779; G2 XOR 11779 11594 11780; G2 XOR 11358 11599 11781; G2 AND 11654 11781 11782;
  G2 XOR 11782 11599 11783; G2 XOR 11361 11604 11784; G2 AND 11654 11784 11785; G2 XOR 11785 11604 11786;
  G2 XOR 11364 11609 11787; G2 AND 11654 11787 11788; G2 XOR 11788 11609 11789; G2 XOR 11367 11614 11790;
  G2 AND 11654 11790 11791; G2 XOR 11791 11614 11792; G2 XOR 11370 11619 11793; G2 AND 11654 11793 11794;
  G2 XOR 11794 11619 11795; G2 XOR 11373 11624 11796; G2 AND 11654 11796 11797; G2 XOR 11797 11624 11798;
  G2 XOR 11376 11629 11799; G2 AND 11654 11799 11800; G2 XOR 11800 11629 11801; G2 XOR 11379 11634 11802;
  G2 AND 11654 11802 11803; G2 XOR 11803 11634 11804; G2 XOR 11382 11639 11805; G2 AND 11654 11805 11806;
  G2 XOR 11806 11639 11807; G2 XOR 11385 11644 11808; G2 AND 11654 11808 11809; G2 XOR 11809 11644 11810;
  G2 XOR 11388 11649 11811; G2 AND 11654 11811 11812; G2 XOR 11812 11649 11813; G1 INV 11654 11814;
  G2 XOR 10 64 11815; G2 AND 11815 64 11816; G2 XOR 11657 65 11817; G2 XOR 11816 65 11818;
  G2 XOR 11817 11816 11819; G2 AND 11817 11818 11820; G2 XOR 11816 11820 11821; G2 XOR 11660 66 11822;
  G2 XOR 11821 66 11823; G2 XOR 11822 11821 11824; G2 AND 11822 11823 11825; G2 XOR 11821 11825 11826;
  G2 XOR 11663 67 11827; G2 XOR 11826 67 11828; G2 XOR 11827 11826 11829; G2 AND 11827 11828 11830;
  G2 XOR 11826 11830 11831; G2 XOR 11666 68 11832; G2 XOR 11831 68 11833; G2 XOR 11832 11831 11834;
  G2 AND 11832 11833 11835; G2 XOR 11831 11835 11836; G2 XOR 11669 69 11837; G2 XOR 11836 69 11838;
  G2 XOR 11837 11836 11839; G2 AND 11837 11838 11840; G2 XOR 11836 11840 11841; G2 XOR 11672 70 11842;
  G2 XOR 11841 70 11843; G2 XOR 11842 11841 11844; G2 AND 11842 11843 11845; G2 XOR 11841 11845 11846;
  G2 XOR 11675 71 11847; G2 XOR 11846 71 11848; G2 XOR 11847 11846 11849; G2 AND 11847 11848 11850;
  G2 XOR 11846 11850 11851; G2 XOR 11678 72 11852; G2 XOR 11851 72 11853; G2 XOR 11852 11851 11854;
  G2 AND 11852 11853 11855; G2 XOR 11851 11855 11856; G2 XOR 11681 73 11857; G2 XOR 11856 73 11858;
  G2 XOR 11857 11856 11859; G2 AND 11857 11858 11860; G2 XOR 11856 11860 11861; G2 XOR 11684 74 11862;
  G2 XOR 11861 74 11863; G2 XOR 11862 11861 11864; G2 AND 11862 11863 11865; G2 XOR 11861 11865 11866;
  G2 XOR 11687 75 11867; G2 XOR 11866 75 11868; G2 XOR 11867 11866 11869; G2 AND 11867 11868 11870;
  G2 XOR 11866 11870 11871; G2 XOR 11690 76 11872; G2 XOR 11871 76 11873; G2 XOR 11872 11871 11874;
  G2 AND 11872 11873 11875; G2 XOR 11871 11875 11876; G2 XOR 11693 77 11877; G2 XOR 11876 77 11878;
  G2 XOR 11877 11876 11879; G2 AND 11877 11878 11880; G2 XOR 11876 11880 11881; G2 XOR 11696 78 11882;
  G2 XOR 11881 78 11883; G2 XOR 11882 11881 11884; G2 AND 11882 11883 11885; G2 XOR 11881 11885 11886;
  G2 XOR 11699 79 11887; G2 XOR 11886 79 11888; G2 XOR 11887 11886 11889; G2 AND 11887 11888 11890;
  G2 XOR 11886 11890 11891; G2 XOR 11702 80 11892; G2 XOR 11891 80 11893; G2 XOR 11892 11891 11894;
  G2 AND 11892 11893 11895; G2 XOR 11891 11895 11896; G2 XOR 11705 81 11897; G2 XOR 11896 81 11898;
  G2 XOR 11897 11896 11899; G2 AND 11897 11898 11900; G2 XOR 11896 11900 11901; G2 XOR 11708 82 11902;
  G2 XOR 11901 82 11903; G2 XOR 11902 11901 11904; G2 AND 11902 11903 11905; G2 XOR 11901 11905 11906;
  G2 XOR 11711 83 11907; G2 XOR 11906 83 11908; G2 XOR 11907 11906 11909; G2 AND 11907 11908 11910;
  G2 XOR 11906 11910 11911; G2 XOR 11714 84 11912; G2 XOR 11911 84 11913; G2 XOR 11912 11911 11914;
  G2 AND 11912 11913 11915; G2 XOR 11911 11915 11916; G2 XOR 11717 85 11917; G2 XOR 11916 85 11918;
  G2 XOR 11917 11916 11919; G2 AND 11917 11918 11920; G2 XOR 11916 11920 11921; G2 XOR 11720 86 11922;
  G2 XOR 11921 86 11923; G2 XOR 11922 11921 11924; G2 AND 11922 11923 11925; G2 XOR 11921 11925 11926;
  G2 XOR 11723 87 11927; G2 XOR 11926 87 11928; G2 XOR 11927 11926 11929; G2 AND 11927 11928 11930;
  G2 XOR 11926 11930 11931; G2 XOR 11726 88 11932; G2 XOR 11931 88 11933; G2 XOR 11932 11931 11934;
  G2 AND 11932 11933 11935; G2 XOR 11931 11935 11936; G2 XOR 11729 89 11937; G2 XOR 11936 89 11938;
  G2 XOR 11937 11936 11939; G2 AND 11937 11938 11940; G2 XOR 11936 11940 11941; G2 XOR 11732 90 11942;
  G2 XOR 11941 90 11943; G2 XOR 11942 11941 11944; G2 AND 11942 11943 11945; G2 XOR 11941 11945 11946;
  G2 XOR 11735 91 11947; G2 XOR 11946 91 11948; G2 XOR 11947 11946 11949; G2 AND 11947 11948 11950;
  G2 XOR 11946 11950 11951; G2 XOR 11738 92 11952; G2 XOR 11951 92 11953; G2 XOR 11952 11951 11954;
  G2 AND 11952 11953 11955; G2 XOR 11951 11955 11956; G2 XOR 11741 93 11957; G2 XOR 11956 93 11958;
  G2 XOR 11957 11956 11959; G2 AND 11957 11958 11960; G2 XOR 11956 11960 11961; G2 XOR 11744 94 11962;
  G2 XOR 11961 94 11963; G2 XOR 11962 11961 11964; G2 AND 11962 11963 11965; G2 XOR 11961 11965 11966;
  G2 XOR 11747 95 11967; G2 XOR 11966 95 11968; G2 XOR 11967 11966 11969; G2 AND 11967 11968 11970;
  G2 XOR 11966 11970 11971; G2 XOR 11750 96 11972; G2 XOR 11971 96 11973; G2 XOR 11972 11971 11974;
  G2 AND 11972 11973 11975; G2 XOR 11971 11975 11976; G2 XOR 11753 97 11977; G2 XOR 11976 97 11978;
  G2 XOR 11977 11976 11979; G2 AND 11977 11978 11980; G2 XOR 11976 11980 11981; G2 XOR 11756 98 11982;
  G2 XOR 11981 98 11983; G2 XOR 11982 11981 11984; G2 AND 11982 11983 11985; G2 XOR 11981 11985 11986;
  G2 XOR 11759 99 11987; G2 XOR 11986 99 11988; G2 XOR 11987 11986 11989; G2 AND 11987 11988 11990;
  G2 XOR 11986 11990 11991; G2 XOR 11762 100 11992; G2 XOR 11991 100 11993; G2 XOR 11992 11991 11994;
  G2 AND 11992 11993 11995; G2 XOR 11991 11995 11996; G2 XOR 11765 101 11997; G2 XOR 11996 101 11998;
  G2 XOR 11997 11996 11999; G2 AND 11997 11998 12000; G2 XOR 11996 12000 12001; G2 XOR 11768 102 12002;
  G2 XOR 12001 102 12003; G2 XOR 12002 12001 12004; G2 AND 12002 12003 12005; G2 XOR 12001 12005 12006;
  G2 XOR 11771 103 12007; G2 XOR 12006 103 12008; G2 XOR 12007 12006 12009; G2 AND 12007 12008 12010;
  G2 XOR 12006 12010 12011; G2 XOR 11774 104 12012; G2 XOR 12011 104 12013; G2 XOR 12012 12011 12014;
  G2 AND 12012 12013 12015; G2 XOR 12011 12015 12016; G2 XOR 11777 105 12017; G2 XOR 12016 105 12018;
  G2 XOR 12017 12016 12019; G2 AND 12017 12018 12020; G2 XOR 12016 12020 12021; G2 XOR 11780 106 12022;
  G2 XOR 12021 106 12023; G2 XOR 12022 12021 12024; G2 AND 12022 12023 12025; G2 XOR 12021 12025 12026;
  G2 XOR 11783 107 12027; G2 XOR 12026 107 12028; G2 XOR 12027 12026 12029; G2 AND 12027 12028 12030;
  G2 XOR 12026 12030 12031; G2 XOR 11786 108 12032; G2 XOR 12031 108 12033; G2 XOR 12032 12031 12034;
  G2 AND 12032 12033 12035; G2 XOR 12031 12035 12036; G2 XOR 11789 109 12037; G2 XOR 12036 109 12038;
  G2 XOR 12037 12036 12039; G2 AND 12037 12038 12040; G2 XOR 12036 12040 12041; G2 XOR 11792 110 12042;
  G2 XOR 12041 110 12043; G2 XOR 12042 12041 12044; G2 AND 12042 12043 12045; G2 XOR 12041 12045 12046;
  G2 XOR 11795 111 12047; G2 XOR 12046 111 12048; G2 XOR 12047 12046 12049; G2 AND 12047 12048 12050;
  G2 XOR 12046 12050 12051; G2 XOR 11798 112 12052; G2 XOR 12051 112 12053; G2 XOR 12052 12051 12054;
  G2 AND 12052 12053 12055; G2 XOR 12051 12055 12056; G2 XOR 11801 113 12057; G2 XOR 12056 113 12058;
  G2 XOR 12057 12056 12059; G2 AND 12057 12058 12060; G2 XOR 12056 12060 12061; G2 XOR 11804 114 12062;
  G2 XOR 12061 114 12063; G2 XOR 12062 12061 12064; G2 AND 12062 12063 12065; G2 XOR 12061 12065 12066;
  G2 XOR 11807 115 12067; G2 XOR 12066 115 12068; G2 XOR 12067 12066 12069; G2 AND 12067 12068 12070;
  G2 XOR 12066 12070 12071; G2 XOR 11810 116 12072; G2 XOR 12071 116 12073; G2 XOR 12072 12071 12074;
  G2 AND 12072 12073 12075; G2 XOR 12071 12075 12076; G2 XOR 11813 117 12077; G2 XOR 12076 117 12078;
  G2 XOR 12077 12076 12079; G2 AND 12077 12078 12080; G2 XOR 12076 12080 12081; G2 AND 12081 154 12082;
  G2 XOR 12081 154 12083; G2 XOR 12083 12082 12084; G2 XOR 10 11815 12085; G2 AND 12084 12085 12086;
  G2 XOR 12086 11815 12087; G2 XOR 11657 11819 12088; G2 AND 12084 12088 12089; G2 XOR 12089 11819 12090;
  G2 XOR 11660 11824 12091; G2 AND 12084 12091 12092; G2 XOR 12092 11824 12093; G2 XOR 11663 11829 12094;
  G2 AND 12084 12094 12095; G2 XOR 12095 11829 12096; G2 XOR 11666 11834 12097; G2 AND 12084 12097 12098;
  G2 XOR 12098 11834 12099; G2 XOR 11669 11839 12100; G2 AND 12084 12100 12101; G2 XOR 12101 11839 12102;
  G2 XOR 11672 11844 12103; G2 AND 12084 12103 12104; G2 XOR 12104 11844 12105; G2 XOR 11675 11849 12106;
  G2 AND 12084 12106 12107; G2 XOR 12107 11849 12108; G2 XOR 11678 11854 12109; G2 AND 12084 12109 12110;
  G2 XOR 12110 11854 12111; G2 XOR 11681 11859 12112; G2 AND 12084 12112 12113; G2 XOR 12113 11859 12114;
  G2 XOR 11684 11864 12115; G2 AND 12084 12115 12116; G2 XOR 12116 11864 12117; G2 XOR 11687 11869 12118;
  G2 AND 12084 12118 12119; G2 XOR 12119 11869 12120; G2 XOR 11690 11874 12121; G2 AND 12084 12121 12122;
  G2 XOR 12122 11874 12123; G2 XOR 11693 11879 12124; G2 AND 12084 12124 12125; G2 XOR 12125 11879 12126;
  G2 XOR 11696 11884 12127; G2 AND 12084 12127 12128; G2 XOR 12128 11884 12129; G2 XOR 11699 11889 12130;
  G2 AND 12084 12130 12131; G2 XOR 12131 11889 12132; G2 XOR 11702 11894 12133; G2 AND 12084 12133 12134;
  G2 XOR 12134 11894 12135; G2 XOR 11705 11899 12136; G2 AND 12084 12136 12137; G2 XOR 12137 11899 12138;
  G2 XOR 11708 11904 12139; G2 AND 12084 12139 12140; G2 XOR 12140 11904 12141; G2 XOR 11711 11909 12142;
  G2 AND 12084 12142 12143; G2 XOR 12143 11909 12144; G2 XOR 11714 11914 12145; G2 AND 12084 12145 12146;
  G2 XOR 12146 11914 12147; G2 XOR 11717 11919 12148; G2 AND 12084 12148 12149; G2 XOR 12149 11919 12150;
  G2 XOR 11720 11924 12151; G2 AND 12084 12151 12152; G2 XOR 12152 11924 12153; G2 XOR 11723 11929 12154;
  G2 AND 12084 12154 12155; G2 XOR 12155 11929 12156; G2 XOR 11726 11934 12157; G2 AND 12084 12157 12158;
  G2 XOR 12158 11934 12159; G2 XOR 11729 11939 12160; G2 AND 12084 12160 12161; G2 XOR 12161 11939 12162;
  G2 XOR 11732 11944 12163; G2 AND 12084 12163 12164; G2 XOR 12164 11944 12165; G2 XOR 11735 11949 12166;
  G2 AND 12084 12166 12167; G2 XOR 12167 11949 12168; G2 XOR 11738 11954 12169; G2 AND 12084 12169 12170;
  G2 XOR 12170 11954 12171; G2 XOR 11741 11959 12172; G2 AND 12084 12172 12173; G2 XOR 12173 11959 12174;
  G2 XOR 11744 11964 12175; G2 AND 12084 12175 12176; G2 XOR 12176 11964 12177; G2 XOR 11747 11969 12178;
  G2 AND 12084 12178 12179; G2 XOR 12179 11969 12180; G2 XOR 11750 11974 12181; G2 AND 12084 12181 12182;
  G2 XOR 12182 11974 12183; G2 XOR 11753 11979 12184; G2 AND 12084 12184 12185; G2 XOR 12185 11979 12186;
  G2 XOR 11756 11984 12187; G2 AND 12084 12187 12188; G2 XOR 12188 11984 12189; G2 XOR 11759 11989 12190;
  G2 AND 12084 12190 12191; G2 XOR 12191 11989 12192; G2 XOR 11762 11994 12193; G2 AND 12084 12193 12194;
  G2 XOR 12194 11994 12195; G2 XOR 11765 11999 12196; G2 AND 12084 12196 12197; G2 XOR 12197 11999 12198;
  G2 XOR 11768 12004 12199; G2 AND 12084 12199 12200; G2 XOR 12200 12004 12201; G2 XOR 11771 12009 12202;
  G2 AND 12084 12202 12203; G2 XOR 12203 12009 12204; G2 XOR 11774 12014 12205; G2 AND 12084 12205 12206;
  G2 XOR 12206 12014 12207; G2 XOR 11777 12019 12208; G2 AND 12084 12208 12209; G2 XOR 12209 12019 12210;
  G2 XOR 11780 12024 12211; G2 AND 12084 12211 12212; G2 XOR 12212 12024 12213; G2 XOR 11783 12029 12214;
  G2 AND 12084 12214 12215; G2 XOR 12215 12029 12216; G2 XOR 11786 12034 12217; G2 AND 12084 12217 12218;
  G2 XOR 12218 12034 12219; G2 XOR 11789 12039 12220; G2 AND 12084 12220 12221; G2 XOR 12221 12039 12222;
  G2 XOR 11792 12044 12223; G2 AND 12084 12223 12224; G2 XOR 12224 12044 12225; G2 XOR 11795 12049 12226;
  G2 AND 12084 12226 12227; G2 XOR 12227 12049 12228; G2 XOR 11798 12054 12229; G2 AND 12084 12229 12230;
  G2 XOR 12230 12054 12231; G2 XOR 11801 12059 12232; G2 AND 12084 12232 12233; G2 XOR 12233 12059 12234;
  G2 XOR 11804 12064 12235; G2 AND 12084 12235 12236; G2 XOR 12236 12064 12237; G2 XOR 11807 12069 12238;
  G2 AND 12084 12238 12239; G2 XOR 12239 12069 12240; G2 XOR 11810 12074 12241; G2 AND 12084 12241 12242;
  G2 XOR 12242 12074 12243; G2 XOR 11813 12079 12244; G2 AND 12084 12244 12245; G2 XOR 12245 12079 12246;
  G1 INV 12084 12247; G2 XOR 9 64 12248; G2 AND 12248 64 12249; G2 XOR 12087 65 12250; G2 XOR 12249 65 12251;
  G2 XOR 12250 12249 12252; G2 AND 12250 12251 12253; G2 XOR 12249 12253 12254; G2 XOR 12090 66 12255;
  G2 XOR 12254 66 12256; G2 XOR 12255 12254 12257; G2 AND 12255 12256 12258; G2 XOR 12254 12258 12259;
  G2 XOR 12093 67 12260; G2 XOR 12259 67 12261; G2 XOR 12260 12259 12262; G2 AND 12260 12261 12263;
  G2 XOR 12259 12263 12264; G2 XOR 12096 68 12265; G2 XOR 12264 68 12266; G2 XOR 12265 12264 12267;
  G2 AND 12265 12266 12268; G2 XOR 12264 12268 12269; G2 XOR 12099 69 12270; G2 XOR 12269 69 12271;
  G2 XOR 12270 12269 12272; G2 AND 12270 12271 12273; G2 XOR 12269 12273 12274; G2 XOR 12102 70 12275;
  G2 XOR 12274 70 12276; G2 XOR 12275 12274 12277; G2 AND 12275 12276 12278; G2 XOR 12274 12278 12279;
  G2 XOR 12105 71 12280; G2 XOR 12279 71 12281; G2 XOR 12280 12279 12282; G2 AND 12280 12281 12283;
  G2 XOR 12279 12283 12284; G2 XOR 12108 72 12285; G2 XOR 12284 72 12286; G2 XOR 12285 12284 12287;
  G2 AND 12285 12286 12288; G2 XOR 12284 12288 12289; G2 XOR 12111 73 12290; G2 XOR 12289 73 12291;
  G2 XOR 12290 12289 12292; G2 AND 12290 12291 12293; G2 XOR 12289 12293 12294; G2 XOR 12114 74 12295;
  G2 XOR 12294 74 12296; G2 XOR 12295 12294 12297; G2 AND 12295 12296 12298; G2 XOR 12294 12298 12299;
  G2 XOR 12117 75 12300; G2 XOR 12299 75 12301; G2 XOR 12300 12299 12302; G2 AND 12300 12301 12303;
  G2 XOR 12299 12303 12304; G2 XOR 12120 76 12305; G2 XOR 12304 76 12306; G2 XOR 12305 12304 12307;
  G2 AND 12305 12306 12308; G2 XOR 12304 12308 12309; G2 XOR 12123 77 12310; G2 XOR 12309 77 12311;
  G2 XOR 12310 12309 12312; G2 AND 12310 12311 12313; G2 XOR 12309 12313 12314; G2 XOR 12126 78 12315;
  G2 XOR 12314 78 12316; G2 XOR 12315 12314 12317; G2 AND 12315 12316 12318; G2 XOR 12314 12318 12319;
  G2 XOR 12129 79 12320; G2 XOR 12319 79 12321; G2 XOR 12320 12319 12322; G2 AND 12320 12321 12323;
  G2 XOR 12319 12323 12324; G2 XOR 12132 80 12325; G2 XOR 12324 80 12326; G2 XOR 12325 12324 12327;
  G2 AND 12325 12326 12328; G2 XOR 12324 12328 12329; G2 XOR 12135 81 12330; G2 XOR 12329 81 12331;
  G2 XOR 12330 12329 12332; G2 AND 12330 12331 12333; G2 XOR 12329 12333 12334; G2 XOR 12138 82 12335;
  G2 XOR 12334 82 12336; G2 XOR 12335 12334 12337; G2 AND 12335 12336 12338; G2 XOR 12334 12338 12339;
  G2 XOR 12141 83 12340; G2 XOR 12339 83 12341; G2 XOR 12340 12339 12342; G2 AND 12340 12341 12343;
  G2 XOR 12339 12343 12344; G2 XOR 12144 84 12345; G2 XOR 12344 84 12346; G2 XOR 12345 12344 12347;
  G2 AND 12345 12346 12348; G2 XOR 12344 12348 12349; G2 XOR 12147 85 12350; G2 XOR 12349 85 12351;
  G2 XOR 12350 12349 12352; G2 AND 12350 12351 12353; G2 XOR 12349 12353 12354; G2 XOR 12150 86 12355;
  G2 XOR 12354 86 12356; G2 XOR 12355 12354 12357; G2 AND 12355 12356 12358; G2 XOR 12354 12358 12359;
  G2 XOR 12153 87 12360; G2 XOR 12359 87 12361; G2 XOR 12360 12359 12362; G2 AND 12360 12361 12363;
  G2 XOR 12359 12363 12364; G2 XOR 12156 88 12365; G2 XOR 12364 88 12366; G2 XOR 12365 12364 12367;
  G2 AND 12365 12366 12368; G2 XOR 12364 12368 12369; G2 XOR 12159 89 12370; G2 XOR 12369 89 12371;
  G2 XOR 12370 12369 12372; G2 AND 12370 12371 12373; G2 XOR 12369 12373 12374; G2 XOR 12162 90 12375;
  G2 XOR 12374 90 12376; G2 XOR 12375 12374 12377; G2 AND 12375 12376 12378; G2 XOR 12374 12378 12379;
  G2 XOR 12165 91 12380; G2 XOR 12379 91 12381; G2 XOR 12380 12379 12382; G2 AND 12380 12381 12383;
  G2 XOR 12379 12383 12384; G2 XOR 12168 92 12385; G2 XOR 12384 92 12386; G2 XOR 12385 12384 12387;
  G2 AND 12385 12386 12388; G2 XOR 12384 12388 12389; G2 XOR 12171 93 12390; G2 XOR 12389 93 12391;
  G2 XOR 12390 12389 12392; G2 AND 12390 12391 12393; G2 XOR 12389 12393 12394; G2 XOR 12174 94 12395;
  G2 XOR 12394 94 12396; G2 XOR 12395 12394 12397; G2 AND 12395 12396 12398; G2 XOR 12394 12398 12399;
  G2 XOR 12177 95 12400; G2 XOR 12399 95 12401; G2 XOR 12400 12399 12402; G2 AND 12400 12401 12403;
  G2 XOR 12399 12403 12404; G2 XOR 12180 96 12405; G2 XOR 12404 96 12406; G2 XOR 12405 12404 12407;
  G2 AND 12405 12406 12408; G2 XOR 12404 12408 12409; G2 XOR 12183 97 12410; G2 XOR 12409 97 12411;
  G2 XOR 12410 12409 12412; G2 AND 12410 12411 12413; G2 XOR 12409 12413 12414; G2 XOR 12186 98 12415;
  G2 XOR 12414 98 12416; G2 XOR 12415 12414 12417; G2 AND 12415 12416 12418; G2 XOR 12414 12418 12419;
  G2 XOR 12189 99 12420; G2 XOR 12419 99 12421; G2 XOR 12420 12419 12422; G2 AND 12420 12421 12423;
  G2 XOR 12419 12423 12424; G2 XOR 12192 100 12425; G2 XOR 12424 100 12426; G2 XOR 12425 12424 12427;
  G2 AND 12425 12426 12428; G2 XOR 12424 12428 12429; G2 XOR 12195 101 12430; G2 XOR 12429 101 12431;
  G2 XOR 12430 12429 12432; G2 AND 12430 12431 12433; G2 XOR 12429 12433 12434; G2 XOR 12198 102 12435;
  G2 XOR 12434 102 12436; G2 XOR 12435 12434 12437; G2 AND 12435 12436 12438; G2 XOR 12434 12438 12439;
  G2 XOR 12201 103 12440; G2 XOR 12439 103 12441; G2 XOR 12440 12439 12442; G2 AND 12440 12441 12443;
  G2 XOR 12439 12443 12444; G2 XOR 12204 104 12445; G2 XOR 12444 104 12446; G2 XOR 12445 12444 12447;
  G2 AND 12445 12446 12448; G2 XOR 12444 12448 12449; G2 XOR 12207 105 12450; G2 XOR 12449 105 12451;
  G2 XOR 12450 12449 12452; G2 AND 12450 12451 12453; G2 XOR 12449 12453 12454; G2 XOR 12210 106 12455;
  G2 XOR 12454 106 12456; G2 XOR 12455 12454 12457; G2 AND 12455 12456 12458; G2 XOR 12454 12458 12459;
  G2 XOR 12213 107 12460; G2 XOR 12459 107 12461; G2 XOR 12460 12459 12462; G2 AND 12460 12461 12463;
  G2 XOR 12459 12463 12464; G2 XOR 12216 108 12465; G2 XOR 12464 108 12466; G2 XOR 12465 12464 12467;
  G2 AND 12465 12466 12468; G2 XOR 12464 12468 12469; G2 XOR 12219 109 12470; G2 XOR 12469 109 12471;
  G2 XOR 12470 12469 12472; G2 AND 12470 12471 12473; G2 XOR 12469 12473 12474; G2 XOR 12222 110 12475;
  G2 XOR 12474 110 12476; G2 XOR 12475 12474 12477; G2 AND 12475 12476 12478; G2 XOR 12474 12478 12479;
  G2 XOR 12225 111 12480; G2 XOR 12479 111 12481; G2 XOR 12480 12479 12482; G2 AND 12480 12481 12483;
  G2 XOR 12479 12483 12484; G2 XOR 12228 112 12485; G2 XOR 12484 112 12486; G2 XOR 12485 12484 12487;
  G2 AND 12485 12486 12488; G2 XOR 12484 12488 12489; G2 XOR 12231 113 12490; G2 XOR 12489 113 12491;
  G2 XOR 12490 12489 12492; G2 AND 12490 12491 12493; G2 XOR 12489 12493 12494; G2 XOR 12234 114 12495;
  G2 XOR 12494 114 12496; G2 XOR 12495 12494 12497; G2 AND 12495 12496 12498; G2 XOR 12494 12498 12499;
  G2 XOR 12237 115 12500; G2 XOR 12499 115 12501; G2 XOR 12500 12499 12502; G2 AND 12500 12501 12503;
  G2 XOR 12499 12503 12504; G2 XOR 12240 116 12505; G2 XOR 12504 116 12506; G2 XOR 12505 12504 12507;
  G2 AND 12505 12506 12508; G2 XOR 12504 12508 12509; G2 XOR 12243 117 12510; G2 XOR 12509 117 12511;
  G2 XOR 12510 12509 12512; G2 AND 12510 12511 12513; G2 XOR 12509 12513 12514; G2 XOR 12246 118 12515;
  G2 XOR 12514 118 12516; G2 XOR 12515 12514 12517; G2 AND 12515 12516 12518; G2 XOR 12514 12518 12519;
  G2 AND 12519 151 12520; G2 XOR 12519 151 12521; G2 XOR 12521 12520 12522; G2 XOR 9 12248 12523;
  G2 AND 12522 12523 12524; G2 XOR 12524 12248 12525; G2 XOR 12087 12252 12526; G2 AND 12522 12526 12527;
  G2 XOR 12527 12252 12528; G2 XOR 12090 12257 12529; G2 AND 12522 12529 12530; G2 XOR 12530 12257 12531;
  G2 XOR 12093 12262 12532; G2 AND 12522 12532 12533; G2 XOR 12533 12262 12534; G2 XOR 12096 12267 12535;
  G2 AND 12522 12535 12536; G2 XOR 12536 12267 12537; G2 XOR 12099 12272 12538; G2 AND 12522 12538 12539;
  G2 XOR 12539 12272 12540; G2 XOR 12102 12277 12541; G2 AND 12522 12541 12542; G2 XOR 12542 12277 12543;
  G2 XOR 12105 12282 12544; G2 AND 12522 12544 12545; G2 XOR 12545 12282 12546; G2 XOR 12108 12287 12547;
  G2 AND 12522 12547 12548; G2 XOR 12548 12287 12549; G2 XOR 12111 12292 12550; G2 AND 12522 12550 12551;
  G2 XOR 12551 12292 12552; G2 XOR 12114 12297 12553; G2 AND 12522 12553 12554; G2 XOR 12554 12297 12555;
  G2 XOR 12117 12302 12556; G2 AND 12522 12556 12557; G2 XOR 12557 12302 12558; G2 XOR 12120 12307 12559;
  G2 AND 12522 12559 12560; G2 XOR 12560 12307 12561; G2 XOR 12123 12312 12562; G2 AND 12522 12562 12563;
  G2 XOR 12563 12312 12564; G2 XOR 12126 12317 12565; G2 AND 12522 12565 12566; G2 XOR 12566 12317 12567;
  G2 XOR 12129 12322 12568; G2 AND 12522 12568 12569; G2 XOR 12569 12322 12570; G2 XOR 12132 12327 12571;
  G2 AND 12522 12571 12572; G2 XOR 12572 12327 12573; G2 XOR 12135 12332 12574; G2 AND 12522 12574 12575;
  G2 XOR 12575 12332 12576; G2 XOR 12138 12337 12577; G2 AND 12522 12577 12578; G2 XOR 12578 12337 12579;
  G2 XOR 12141 12342 12580; G2 AND 12522 12580 12581; G2 XOR 12581 12342 12582; G2 XOR 12144 12347 12583;
  G2 AND 12522 12583 12584; G2 XOR 12584 12347 12585; G2 XOR 12147 12352 12586; G2 AND 12522 12586 12587;
  G2 XOR 12587 12352 12588; G2 XOR 12150 12357 12589; G2 AND 12522 12589 12590; G2 XOR 12590 12357 12591;
  G2 XOR 12153 12362 12592; G2 AND 12522 12592 12593; G2 XOR 12593 12362 12594; G2 XOR 12156 12367 12595;
  G2 AND 12522 12595 12596; G2 XOR 12596 12367 12597; G2 XOR 12159 12372 12598; G2 AND 12522 12598 12599;
  G2 XOR 12599 12372 12600; G2 XOR 12162 12377 12601; G2 AND 12522 12601 12602; G2 XOR 12602 12377 12603;
  G2 XOR 12165 12382 12604; G2 AND 12522 12604 12605; G2 XOR 12605 12382 12606; G2 XOR 12168 12387 12607;
  G2 AND 12522 12607 12608; G2 XOR 12608 12387 12609; G2 XOR 12171 12392 12610; G2 AND 12522 12610 12611;
  G2 XOR 12611 12392 12612; G2 XOR 12174 12397 12613; G2 AND 12522 12613 12614; G2 XOR 12614 12397 12615;
  G2 XOR 12177 12402 12616; G2 AND 12522 12616 12617; G2 XOR 12617 12402 12618; G2 XOR 12180 12407 12619;
  G2 AND 12522 12619 12620; G2 XOR 12620 12407 12621; G2 XOR 12183 12412 12622; G2 AND 12522 12622 12623;
  G2 XOR 12623 12412 12624; G2 XOR 12186 12417 12625; G2 AND 12522 12625 12626; G2 XOR 12626 12417 12627;
  G2 XOR 12189 12422 12628; G2 AND 12522 12628 12629; G2 XOR 12629 12422 12630; G2 XOR 12192 12427 12631;
  G2 AND 12522 12631 12632; G2 XOR 12632 12427 12633; G2 XOR 12195 12432 12634; G2 AND 12522 12634 12635;
  G2 XOR 12635 12432 12636; G2 XOR 12198 12437 12637; G2 AND 12522 12637 12638; G2 XOR 12638 12437 12639;
  G2 XOR 12201 12442 12640; G2 AND 12522 12640 12641; G2 XOR 12641 12442 12642; G2 XOR 12204 12447 12643;
  G2 AND 12522 12643 12644; G2 XOR 12644 12447 12645; G2 XOR 12207 12452 12646; G2 AND 12522 12646 12647;
  G2 XOR 12647 12452 12648; G2 XOR 12210 12457 12649; G2 AND 12522 12649 12650; G2 XOR 12650 12457 12651;
  G2 XOR 12213 12462 12652; G2 AND 12522 12652 12653; G2 XOR 12653 12462 12654; G2 XOR 12216 12467 12655;
  G2 AND 12522 12655 12656; G2 XOR 12656 12467 12657; G2 XOR 12219 12472 12658; G2 AND 12522 12658 12659;
  G2 XOR 12659 12472 12660; G2 XOR 12222 12477 12661; G2 AND 12522 12661 12662; G2 XOR 12662 12477 12663;
  G2 XOR 12225 12482 12664; G2 AND 12522 12664 12665; G2 XOR 12665 12482 12666; G2 XOR 12228 12487 12667;
  G2 AND 12522 12667 12668; G2 XOR 12668 12487 12669; G2 XOR 12231 12492 12670; G2 AND 12522 12670 12671;
  G2 XOR 12671 12492 12672; G2 XOR 12234 12497 12673; G2 AND 12522 12673 12674; G2 XOR 12674 12497 12675;
  G2 XOR 12237 12502 12676; G2 AND 12522 12676 12677; G2 XOR 12677 12502 12678; G2 XOR 12240 12507 12679;
  G2 AND 12522 12679 12680; G2 XOR 12680 12507 12681; G2 XOR 12243 12512 12682; G2 AND 12522 12682 12683;
  G2 XOR 12683 12512 12684; G2 XOR 12246 12517 12685; G2 AND 12522 12685 12686; G2 XOR 12686 12517 12687;
  G1 INV 12522 12688; G2 XOR 8 64 12689; G2 AND 12689 64 12690; G2 XOR 12525 65 12691; G2 XOR 12690 65 12692;
  G2 XOR 12691 12690 12693; G2 AND 12691 12692 12694; G2 XOR 12690 12694 12695; G2 XOR 12528 66 12696;
  G2 XOR 12695 66 12697; G2 XOR 12696 12695 12698; G2 AND 12696 12697 12699; G2 XOR 12695 12699 12700;
  G2 XOR 12531 67 12701; G2 XOR 12700 67 12702; G2 XOR 12701 12700 12703; G2 AND 12701 12702 12704;
  G2 XOR 12700 12704 12705; G2 XOR 12534 68 12706; G2 XOR 12705 68 12707; G2 XOR 12706 12705 12708;
  G2 AND 12706 12707 12709; G2 XOR 12705 12709 12710; G2 XOR 12537 69 12711; G2 XOR 12710 69 12712;
  G2 XOR 12711 12710 12713; G2 AND 12711 12712 12714; G2 XOR 12710 12714 12715; G2 XOR 12540 70 12716;
  G2 XOR 12715 70 12717; G2 XOR 12716 12715 12718; G2 AND 12716 12717 12719; G2 XOR 12715 12719 12720;
  G2 XOR 12543 71 12721; G2 XOR 12720 71 12722; G2 XOR 12721 12720 12723; G2 AND 12721 12722 12724;
  G2 XOR 12720 12724 12725; G2 XOR 12546 72 12726; G2 XOR 12725 72 12727; G2 XOR 12726 12725 12728;
  G2 AND 12726 12727 12729; G2 XOR 12725 12729 12730; G2 XOR 12549 73 12731; G2 XOR 12730 73 12732;
  G2 XOR 12731 12730 12733; G2 AND 12731 12732 12734; G2 XOR 12730 12734 12735; G2 XOR 12552 74 12736;
  G2 XOR 12735 74 12737; G2 XOR 12736 12735 12738; G2 AND 12736 12737 12739; G2 XOR 12735 12739 12740;
  G2 XOR 12555 75 12741; G2 XOR 12740 75 12742; G2 XOR 12741 12740 12743; G2 AND 12741 12742 12744;
  G2 XOR 12740 12744 12745; G2 XOR 12558 76 12746; G2 XOR 12745 76 12747; G2 XOR 12746 12745 12748;
  G2 AND 12746 12747 12749; G2 XOR 12745 12749 12750; G2 XOR 12561 77 12751; G2 XOR 12750 77 12752;
  G2 XOR 12751 12750 12753; G2 AND 12751 12752 12754; G2 XOR 12750 12754 12755; G2 XOR 12564 78 12756;
  G2 XOR 12755 78 12757; G2 XOR 12756 12755 12758; G2 AND 12756 12757 12759; G2 XOR 12755 12759 12760;
  G2 XOR 12567 79 12761; G2 XOR 12760 79 12762; G2 XOR 12761 12760 12763; G2 AND 12761 12762 12764;
  G2 XOR 12760 12764 12765; G2 XOR 12570 80 12766; G2 XOR 12765 80 12767; G2 XOR 12766 12765 12768;
  G2 AND 12766 12767 12769; G2 XOR 12765 12769 12770; G2 XOR 12573 81 12771; G2 XOR 12770 81 12772;
  G2 XOR 12771 12770 12773; G2 AND 12771 12772 12774; G2 XOR 12770 12774 12775; G2 XOR 12576 82 12776;
  G2 XOR 12775 82 12777; G2 XOR 12776 12775 12778; G2 AND 12776 12777 12779; G2 XOR 12775 12779 12780;
  G2 XOR 12579 83 12781; G2 XOR 12780 83 12782; G2 XOR 12781 12780 12783; G2 AND 12781 12782 12784;
  G2 XOR 12780 12784 12785; G2 XOR 12582 84 12786; G2 XOR 12785 84 12787; G2 XOR 12786 12785 12788;
  G2 AND 12786 12787 12789; G2 XOR 12785 12789 12790; G2 XOR 12585 85 12791; G2 XOR 12790 85 12792;
  G2 XOR 12791 12790 12793; G2 AND 12791 12792 12794; G2 XOR 12790 12794 12795; G2 XOR 12588 86 12796;
  G2 XOR 12795 86 12797; G2 XOR 12796 12795 12798; G2 AND 12796 12797 12799; G2 XOR 12795 12799 12800;
  G2 XOR 12591 87 12801; G2 XOR 12800 87 12802; G2 XOR 12801 12800 12803; G2 AND 12801 12802 12804;
  G2 XOR 12800 12804 12805; G2 XOR 12594 88 12806; G2 XOR 12805 88 12807; G2 XOR 12806 12805 12808;
  G2 AND 12806 12807 12809; G2 XOR 12805 12809 12810; G2 XOR 12597 89 12811; G2 XOR 12810 89 12812;
  G2 XOR 12811 12810 12813; G2 AND 12811 12812 12814; G2 XOR 12810 12814 12815; G2 XOR 12600 90 12816;
  G2 XOR 12815 90 12817; G2 XOR 12816 12815 12818; G2 AND 12816 12817 12819; G2 XOR 12815 12819 12820;
  G2 XOR 12603 91 12821; G2 XOR 12820 91 12822; G2 XOR 12821 12820 12823; G2 AND 12821 12822 12824;
  G2 XOR 12820 12824 12825; G2 XOR 12606 92 12826; G2 XOR 12825 92 12827; G2 XOR 12826 12825 12828;
  G2 AND 12826 12827 12829; G2 XOR 12825 12829 12830; G2 XOR 12609 93 12831; G2 XOR 12830 93 12832;
  G2 XOR 12831 12830 12833; G2 AND 12831 12832 12834; G2 XOR 12830 12834 12835; G2 XOR 12612 94 12836;
  G2 XOR 12835 94 12837; G2 XOR 12836 12835 12838; G2 AND 12836 12837 12839; G2 XOR 12835 12839 12840;
  G2 XOR 12615 95 12841; G2 XOR 12840 95 12842; G2 XOR 12841 12840 12843; G2 AND 12841 12842 12844;
  G2 XOR 12840 12844 12845; G2 XOR 12618 96 12846; G2 XOR 12845 96 12847; G2 XOR 12846 12845 12848;
  G2 AND 12846 12847 12849; G2 XOR 12845 12849 12850; G2 XOR 12621 97 12851; G2 XOR 12850 97 12852;
  G2 XOR 12851 12850 12853; G2 AND 12851 12852 12854; G2 XOR 12850 12854 12855; G2 XOR 12624 98 12856;
  G2 XOR 12855 98 12857; G2 XOR 12856 12855 12858; G2 AND 12856 12857 12859; G2 XOR 12855 12859 12860;
  G2 XOR 12627 99 12861; G2 XOR 12860 99 12862; G2 XOR 12861 12860 12863; G2 AND 12861 12862 12864;
  G2 XOR 12860 12864 12865; G2 XOR 12630 100 12866; G2 XOR 12865 100 12867; G2 XOR 12866 12865 12868;
  G2 AND 12866 12867 12869; G2 XOR 12865 12869 12870; G2 XOR 12633 101 12871; G2 XOR 12870 101 12872;
  G2 XOR 12871 12870 12873; G2 AND 12871 12872 12874; G2 XOR 12870 12874 12875; G2 XOR 12636 102 12876;
  G2 XOR 12875 102 12877; G2 XOR 12876 12875 12878; G2 AND 12876 12877 12879; G2 XOR 12875 12879 12880;
  G2 XOR 12639 103 12881; G2 XOR 12880 103 12882; G2 XOR 12881 12880 12883; G2 AND 12881 12882 12884;
  G2 XOR 12880 12884 12885; G2 XOR 12642 104 12886; G2 XOR 12885 104 12887; G2 XOR 12886 12885 12888;
  G2 AND 12886 12887 12889; G2 XOR 12885 12889 12890; G2 XOR 12645 105 12891; G2 XOR 12890 105 12892;
  G2 XOR 12891 12890 12893; G2 AND 12891 12892 12894; G2 XOR 12890 12894 12895; G2 XOR 12648 106 12896;
  G2 XOR 12895 106 12897; G2 XOR 12896 12895 12898; G2 AND 12896 12897 12899; G2 XOR 12895 12899 12900;
  G2 XOR 12651 107 12901; G2 XOR 12900 107 12902; G2 XOR 12901 12900 12903; G2 AND 12901 12902 12904;
  G2 XOR 12900 12904 12905; G2 XOR 12654 108 12906; G2 XOR 12905 108 12907; G2 XOR 12906 12905 12908;
  G2 AND 12906 12907 12909; G2 XOR 12905 12909 12910; G2 XOR 12657 109 12911; G2 XOR 12910 109 12912;
  G2 XOR 12911 12910 12913; G2 AND 12911 12912 12914; G2 XOR 12910 12914 12915; G2 XOR 12660 110 12916;
  G2 XOR 12915 110 12917; G2 XOR 12916 12915 12918; G2 AND 12916 12917 12919; G2 XOR 12915 12919 12920;
  G2 XOR 12663 111 12921; G2 XOR 12920 111 12922; G2 XOR 12921 12920 12923; G2 AND 12921 12922 12924;
  G2 XOR 12920 12924 12925; G2 XOR 12666 112 12926; G2 XOR 12925 112 12927; G2 XOR 12926 12925 12928;
  G2 AND 12926 12927 12929; G2 XOR 12925 12929 12930; G2 XOR 12669 113 12931; G2 XOR 12930 113 12932;
  G2 XOR 12931 12930 12933; G2 AND 12931 12932 12934; G2 XOR 12930 12934 12935; G2 XOR 12672 114 12936;
  G2 XOR 12935 114 12937; G2 XOR 12936 12935 12938; G2 AND 12936 12937 12939; G2 XOR 12935 12939 12940;
  G2 XOR 12675 115 12941; G2 XOR 12940 115 12942; G2 XOR 12941 12940 12943; G2 AND 12941 12942 12944;
  G2 XOR 12940 12944 12945; G2 XOR 12678 116 12946; G2 XOR 12945 116 12947; G2 XOR 12946 12945 12948;
  G2 AND 12946 12947 12949; G2 XOR 12945 12949 12950; G2 XOR 12681 117 12951; G2 XOR 12950 117 12952;
  G2 XOR 12951 12950 12953; G2 AND 12951 12952 12954; G2 XOR 12950 12954 12955; G2 XOR 12684 118 12956;
  G2 XOR 12955 118 12957; G2 XOR 12956 12955 12958; G2 AND 12956 12957 12959; G2 XOR 12955 12959 12960;
  G2 XOR 12687 119 12961; G2 XOR 12960 119 12962; G2 XOR 12961 12960 12963; G2 AND 12961 12962 12964;
  G2 XOR 12960 12964 12965; G2 AND 12965 148 12966; G2 XOR 12965 148 12967; G2 XOR 12967 12966 12968;
  G2 XOR 8 12689 12969; G2 AND 12968 12969 12970; G2 XOR 12970 12689 12971; G2 XOR 12525 12693 12972;
  G2 AND 12968 12972 12973; G2 XOR 12973 12693 12974; G2 XOR 12528 12698 12975; G2 AND 12968 12975 12976;
  G2 XOR 12976 12698 12977; G2 XOR 12531 12703 12978; G2 AND 12968 12978 12979; G2 XOR 12979 12703 12980;
  G2 XOR 12534 12708 12981; G2 AND 12968 12981 12982; G2 XOR 12982 12708 12983; G2 XOR 12537 12713 12984;
  G2 AND 12968 12984 12985; G2 XOR 12985 12713 12986; G2 XOR 12540 12718 12987; G2 AND 12968 12987 12988;
  G2 XOR 12988 12718 12989; G2 XOR 12543 12723 12990; G2 AND 12968 12990 12991; G2 XOR 12991 12723 12992;
  G2 XOR 12546 12728 12993; G2 AND 12968 12993 12994; G2 XOR 12994 12728 12995; G2 XOR 12549 12733 12996;
  G2 AND 12968 12996 12997; G2 XOR 12997 12733 12998; G2 XOR 12552 12738 12999; G2 AND 12968 12999 13000;
  G2 XOR 13000 12738 13001; G2 XOR 12555 12743 13002; G2 AND 12968 13002 13003; G2 XOR 13003 12743 13004;
  G2 XOR 12558 12748 13005; G2 AND 12968 13005 13006; G2 XOR 13006 12748 13007; G2 XOR 12561 12753 13008;
  G2 AND 12968 13008 13009; G2 XOR 13009 12753 13010; G2 XOR 12564 12758 13011; G2 AND 12968 13011 13012;
  G2 XOR 13012 12758 13013; G2 XOR 12567 12763 13014; G2 AND 12968 13014 13015; G2 XOR 13015 12763 13016;
  G2 XOR 12570 12768 13017; G2 AND 12968 13017 13018; G2 XOR 13018 12768 13019; G2 XOR 12573 12773 13020;
  G2 AND 12968 13020 13021; G2 XOR 13021 12773 13022; G2 XOR 12576 12778 13023; G2 AND 12968 13023 13024;
  G2 XOR 13024 12778 13025; G2 XOR 12579 12783 13026; G2 AND 12968 13026 13027; G2 XOR 13027 12783 13028;
  G2 XOR 12582 12788 13029; G2 AND 12968 13029 13030; G2 XOR 13030 12788 13031; G2 XOR 12585 12793 13032;
  G2 AND 12968 13032 13033; G2 XOR 13033 12793 13034; G2 XOR 12588 12798 13035; G2 AND 12968 13035 13036;
  G2 XOR 13036 12798 13037; G2 XOR 12591 12803 13038; G2 AND 12968 13038 13039; G2 XOR 13039 12803 13040;
  G2 XOR 12594 12808 13041; G2 AND 12968 13041 13042; G2 XOR 13042 12808 13043; G2 XOR 12597 12813 13044;
  G2 AND 12968 13044 13045; G2 XOR 13045 12813 13046; G2 XOR 12600 12818 13047; G2 AND 12968 13047 13048;
  G2 XOR 13048 12818 13049; G2 XOR 12603 12823 13050; G2 AND 12968 13050 13051; G2 XOR 13051 12823 13052;
  G2 XOR 12606 12828 13053; G2 AND 12968 13053 13054; G2 XOR 13054 12828 13055; G2 XOR 12609 12833 13056;
  G2 AND 12968 13056 13057; G2 XOR 13057 12833 13058; G2 XOR 12612 12838 13059; G2 AND 12968 13059 13060;
  G2 XOR 13060 12838 13061; G2 XOR 12615 12843 13062; G2 AND 12968 13062 13063; G2 XOR 13063 12843 13064;
  G2 XOR 12618 12848 13065; G2 AND 12968 13065 13066; G2 XOR 13066 12848 13067; G2 XOR 12621 12853 13068;
  G2 AND 12968 13068 13069; G2 XOR 13069 12853 13070; G2 XOR 12624 12858 13071; G2 AND 12968 13071 13072;
  G2 XOR 13072 12858 13073; G2 XOR 12627 12863 13074; G2 AND 12968 13074 13075; G2 XOR 13075 12863 13076;
  G2 XOR 12630 12868 13077; G2 AND 12968 13077 13078; G2 XOR 13078 12868 13079; G2 XOR 12633 12873 13080;
  G2 AND 12968 13080 13081; G2 XOR 13081 12873 13082; G2 XOR 12636 12878 13083; G2 AND 12968 13083 13084;
  G2 XOR 13084 12878 13085; G2 XOR 12639 12883 13086; G2 AND 12968 13086 13087; G2 XOR 13087 12883 13088;
  G2 XOR 12642 12888 13089; G2 AND 12968 13089 13090; G2 XOR 13090 12888 13091; G2 XOR 12645 12893 13092;
  G2 AND 12968 13092 13093; G2 XOR 13093 12893 13094; G2 XOR 12648 12898 13095; G2 AND 12968 13095 13096;
  G2 XOR 13096 12898 13097; G2 XOR 12651 12903 13098; G2 AND 12968 13098 13099; G2 XOR 13099 12903 13100;
  G2 XOR 12654 12908 13101; G2 AND 12968 13101 13102; G2 XOR 13102 12908 13103; G2 XOR 12657 12913 13104;
  G2 AND 12968 13104 13105; G2 XOR 13105 12913 13106; G2 XOR 12660 12918 13107; G2 AND 12968 13107 13108;
  G2 XOR 13108 12918 13109; G2 XOR 12663 12923 13110; G2 AND 12968 13110 13111; G2 XOR 13111 12923 13112;
  G2 XOR 12666 12928 13113; G2 AND 12968 13113 13114; G2 XOR 13114 12928 13115; G2 XOR 12669 12933 13116;
  G2 AND 12968 13116 13117; G2 XOR 13117 12933 13118; G2 XOR 12672 12938 13119; G2 AND 12968 13119 13120;
  G2 XOR 13120 12938 13121; G2 XOR 12675 12943 13122; G2 AND 12968 13122 13123; G2 XOR 13123 12943 13124;
  G2 XOR 12678 12948 13125; G2 AND 12968 13125 13126; G2 XOR 13126 12948 13127; G2 XOR 12681 12953 13128;
  G2 AND 12968 13128 13129; G2 XOR 13129 12953 13130; G2 XOR 12684 12958 13131; G2 AND 12968 13131 13132;
  G2 XOR 13132 12958 13133; G2 XOR 12687 12963 13134; G2 AND 12968 13134 13135; G2 XOR 13135 12963 13136;
  G1 INV 12968 13137; G2 XOR 7 64 13138; G2 AND 13138 64 13139; G2 XOR 12971 65 13140; G2 XOR 13139 65 13141;
  G2 XOR 13140 13139 13142; G2 AND 13140 13141 13143; G2 XOR 13139 13143 13144; G2 XOR 12974 66 13145;
  G2 XOR 13144 66 13146; G2 XOR 13145 13144 13147; G2 AND 13145 13146 13148; G2 XOR 13144 13148 13149;
  G2 XOR 12977 67 13150; G2 XOR 13149 67 13151; G2 XOR 13150 13149 13152; G2 AND 13150 13151 13153;
  G2 XOR 13149 13153 13154; G2 XOR 12980 68 13155; G2 XOR 13154 68 13156; G2 XOR 13155 13154 13157;
  G2 AND 13155 13156 13158; G2 XOR 13154 13158 13159; G2 XOR 12983 69 13160; G2 XOR 13159 69 13161;
  G2 XOR 13160 13159 13162; G2 AND 13160 13161 13163; G2 XOR 13159 13163 13164; G2 XOR 12986 70 13165;
  G2 XOR 13164 70 13166; G2 XOR 13165 13164 13167; G2 AND 13165 13166 13168; G2 XOR 13164 13168 13169;
  G2 XOR 12989 71 13170; G2 XOR 13169 71 13171; G2 XOR 13170 13169 13172; G2 AND 13170 13171 13173;
  G2 XOR 13169 13173 13174; G2 XOR 12992 72 13175; G2 XOR 13174 72 13176; G2 XOR 13175 13174 13177;
  G2 AND 13175 13176 13178; G2 XOR 13174 13178 13179; G2 XOR 12995 73 13180; G2 XOR 13179 73 13181;
  G2 XOR 13180 13179 13182; G2 AND 13180 13181 13183; G2 XOR 13179 13183 13184; G2 XOR 12998 74 13185;
  G2 XOR 13184 74 13186; G2 XOR 13185 13184 13187; G2 AND 13185 13186 13188; G2 XOR 13184 13188 13189;
  G2 XOR 13001 75 13190; G2 XOR 13189 75 13191; G2 XOR 13190 13189 13192; G2 AND 13190 13191 13193;
  G2 XOR 13189 13193 13194; G2 XOR 13004 76 13195; G2 XOR 13194 76 13196; G2 XOR 13195 13194 13197;
  G2 AND 13195 13196 13198; G2 XOR 13194 13198 13199; G2 XOR 13007 77 13200; G2 XOR 13199 77 13201;
  G2 XOR 13200 13199 13202; G2 AND 13200 13201 13203; G2 XOR 13199 13203 13204; G2 XOR 13010 78 13205;
  G2 XOR 13204 78 13206; G2 XOR 13205 13204 13207; G2 AND 13205 13206 13208; G2 XOR 13204 13208 13209;
  G2 XOR 13013 79 13210; G2 XOR 13209 79 13211; G2 XOR 13210 13209 13212; G2 AND 13210 13211 13213;
  G2 XOR 13209 13213 13214; G2 XOR 13016 80 13215; G2 XOR 13214 80 13216; G2 XOR 13215 13214 13217;
  G2 AND 13215 13216 13218; G2 XOR 13214 13218 13219; G2 XOR 13019 81 13220; G2 XOR 13219 81 13221;
  G2 XOR 13220 13219 13222; G2 AND 13220 13221 13223; G2 XOR 13219 13223 13224; G2 XOR 13022 82 13225;
  G2 XOR 13224 82 13226; G2 XOR 13225 13224 13227; G2 AND 13225 13226 13228; G2 XOR 13224 13228 13229;
  G2 XOR 13025 83 13230; G2 XOR 13229 83 13231; G2 XOR 13230 13229 13232; G2 AND 13230 13231 13233;
  G2 XOR 13229 13233 13234; G2 XOR 13028 84 13235; G2 XOR 13234 84 13236; G2 XOR 13235 13234 13237;
  G2 AND 13235 13236 13238; G2 XOR 13234 13238 13239; G2 XOR 13031 85 13240; G2 XOR 13239 85 13241;
  G2 XOR 13240 13239 13242; G2 AND 13240 13241 13243; G2 XOR 13239 13243 13244; G2 XOR 13034 86 13245;
  G2 XOR 13244 86 13246; G2 XOR 13245 13244 13247; G2 AND 13245 13246 13248; G2 XOR 13244 13248 13249;
  G2 XOR 13037 87 13250; G2 XOR 13249 87 13251; G2 XOR 13250 13249 13252; G2 AND 13250 13251 13253;
  G2 XOR 13249 13253 13254; G2 XOR 13040 88 13255; G2 XOR 13254 88 13256; G2 XOR 13255 13254 13257;
  G2 AND 13255 13256 13258; G2 XOR 13254 13258 13259; G2 XOR 13043 89 13260; G2 XOR 13259 89 13261;
  G2 XOR 13260 13259 13262; G2 AND 13260 13261 13263; G2 XOR 13259 13263 13264; G2 XOR 13046 90 13265;
  G2 XOR 13264 90 13266; G2 XOR 13265 13264 13267; G2 AND 13265 13266 13268; G2 XOR 13264 13268 13269;
  G2 XOR 13049 91 13270; G2 XOR 13269 91 13271; G2 XOR 13270 13269 13272; G2 AND 13270 13271 13273;
  G2 XOR 13269 13273 13274; G2 XOR 13052 92 13275; G2 XOR 13274 92 13276; G2 XOR 13275 13274 13277;
  G2 AND 13275 13276 13278; G2 XOR 13274 13278 13279; G2 XOR 13055 93 13280; G2 XOR 13279 93 13281;
  G2 XOR 13280 13279 13282; G2 AND 13280 13281 13283; G2 XOR 13279 13283 13284; G2 XOR 13058 94 13285;
  G2 XOR 13284 94 13286; G2 XOR 13285 13284 13287; G2 AND 13285 13286 13288; G2 XOR 13284 13288 13289;
  G2 XOR 13061 95 13290; G2 XOR 13289 95 13291; G2 XOR 13290 13289 13292; G2 AND 13290 13291 13293;
  G2 XOR 13289 13293 13294; G2 XOR 13064 96 13295; G2 XOR 13294 96 13296; G2 XOR 13295 13294 13297;
  G2 AND 13295 13296 13298; G2 XOR 13294 13298 13299; G2 XOR 13067 97 13300; G2 XOR 13299 97 13301;
  G2 XOR 13300 13299 13302; G2 AND 13300 13301 13303; G2 XOR 13299 13303 13304; G2 XOR 13070 98 13305;
  G2 XOR 13304 98 13306; G2 XOR 13305 13304 13307; G2 AND 13305 13306 13308; G2 XOR 13304 13308 13309;
  G2 XOR 13073 99 13310; G2 XOR 13309 99 13311; G2 XOR 13310 13309 13312; G2 AND 13310 13311 13313;
  G2 XOR 13309 13313 13314; G2 XOR 13076 100 13315; G2 XOR 13314 100 13316; G2 XOR 13315 13314 13317;
  G2 AND 13315 13316 13318; G2 XOR 13314 13318 13319; G2 XOR 13079 101 13320; G2 XOR 13319 101 13321;
  G2 XOR 13320 13319 13322; G2 AND 13320 13321 13323; G2 XOR 13319 13323 13324; G2 XOR 13082 102 13325;
  G2 XOR 13324 102 13326; G2 XOR 13325 13324 13327; G2 AND 13325 13326 13328; G2 XOR 13324 13328 13329;
  G2 XOR 13085 103 13330; G2 XOR 13329 103 13331; G2 XOR 13330 13329 13332; G2 AND 13330 13331 13333;
  G2 XOR 13329 13333 13334; G2 XOR 13088 104 13335; G2 XOR 13334 104 13336; G2 XOR 13335 13334 13337;
  G2 AND 13335 13336 13338; G2 XOR 13334 13338 13339; G2 XOR 13091 105 13340; G2 XOR 13339 105 13341;
  G2 XOR 13340 13339 13342; G2 AND 13340 13341 13343; G2 XOR 13339 13343 13344; G2 XOR 13094 106 13345;
  G2 XOR 13344 106 13346; G2 XOR 13345 13344 13347; G2 AND 13345 13346 13348; G2 XOR 13344 13348 13349;
  G2 XOR 13097 107 13350; G2 XOR 13349 107 13351; G2 XOR 13350 13349 13352; G2 AND 13350 13351 13353;
  G2 XOR 13349 13353 13354; G2 XOR 13100 108 13355; G2 XOR 13354 108 13356; G2 XOR 13355 13354 13357;
  G2 AND 13355 13356 13358; G2 XOR 13354 13358 13359; G2 XOR 13103 109 13360; G2 XOR 13359 109 13361;
  G2 XOR 13360 13359 13362; G2 AND 13360 13361 13363; G2 XOR 13359 13363 13364; G2 XOR 13106 110 13365;
  G2 XOR 13364 110 13366; G2 XOR 13365 13364 13367; G2 AND 13365 13366 13368; G2 XOR 13364 13368 13369;
  G2 XOR 13109 111 13370; G2 XOR 13369 111 13371; G2 XOR 13370 13369 13372; G2 AND 13370 13371 13373;
  G2 XOR 13369 13373 13374; G2 XOR 13112 112 13375; G2 XOR 13374 112 13376; G2 XOR 13375 13374 13377;
  G2 AND 13375 13376 13378; G2 XOR 13374 13378 13379; G2 XOR 13115 113 13380; G2 XOR 13379 113 13381;
  G2 XOR 13380 13379 13382; G2 AND 13380 13381 13383; G2 XOR 13379 13383 13384; G2 XOR 13118 114 13385;
  G2 XOR 13384 114 13386; G2 XOR 13385 13384 13387; G2 AND 13385 13386 13388; G2 XOR 13384 13388 13389;
  G2 XOR 13121 115 13390; G2 XOR 13389 115 13391; G2 XOR 13390 13389 13392; G2 AND 13390 13391 13393;
  G2 XOR 13389 13393 13394; G2 XOR 13124 116 13395; G2 XOR 13394 116 13396; G2 XOR 13395 13394 13397;
  G2 AND 13395 13396 13398; G2 XOR 13394 13398 13399; G2 XOR 13127 117 13400; G2 XOR 13399 117 13401;
  G2 XOR 13400 13399 13402; G2 AND 13400 13401 13403; G2 XOR 13399 13403 13404; G2 XOR 13130 118 13405;
  G2 XOR 13404 118 13406; G2 XOR 13405 13404 13407; G2 AND 13405 13406 13408; G2 XOR 13404 13408 13409;
  G2 XOR 13133 119 13410; G2 XOR 13409 119 13411; G2 XOR 13410 13409 13412; G2 AND 13410 13411 13413;
  G2 XOR 13409 13413 13414; G2 XOR 13136 120 13415; G2 XOR 13414 120 13416; G2 XOR 13415 13414 13417;
  G2 AND 13415 13416 13418; G2 XOR 13414 13418 13419; G2 AND 13419 145 13420; G2 XOR 13419 145 13421;
  G2 XOR 13421 13420 13422; G2 XOR 7 13138 13423; G2 AND 13422 13423 13424; G2 XOR 13424 13138 13425;
  G2 XOR 12971 13142 13426; G2 AND 13422 13426 13427; G2 XOR 13427 13142 13428; G2 XOR 12974 13147 13429;
  G2 AND 13422 13429 13430; G2 XOR 13430 13147 13431; G2 XOR 12977 13152 13432; G2 AND 13422 13432 13433;
  G2 XOR 13433 13152 13434; G2 XOR 12980 13157 13435; G2 AND 13422 13435 13436; G2 XOR 13436 13157 13437;
  G2 XOR 12983 13162 13438; G2 AND 13422 13438 13439; G2 XOR 13439 13162 13440; G2 XOR 12986 13167 13441;
  G2 AND 13422 13441 13442; G2 XOR 13442 13167 13443; G2 XOR 12989 13172 13444; G2 AND 13422 13444 13445;
  G2 XOR 13445 13172 13446; G2 XOR 12992 13177 13447; G2 AND 13422 13447 13448; G2 XOR 13448 13177 13449;
  G2 XOR 12995 13182 13450; G2 AND 13422 13450 13451; G2 XOR 13451 13182 13452; G2 XOR 12998 13187 13453;
  G2 AND 13422 13453 13454; G2 XOR 13454 13187 13455; G2 XOR 13001 13192 13456; G2 AND 13422 13456 13457;
  G2 XOR 13457 13192 13458; G2 XOR 13004 13197 13459; G2 AND 13422 13459 13460; G2 XOR 13460 13197 13461;
  G2 XOR 13007 13202 13462; G2 AND 13422 13462 13463; G2 XOR 13463 13202 13464; G2 XOR 13010 13207 13465;
  G2 AND 13422 13465 13466; G2 XOR 13466 13207 13467; G2 XOR 13013 13212 13468; G2 AND 13422 13468 13469;
  G2 XOR 13469 13212 13470; G2 XOR 13016 13217 13471; G2 AND 13422 13471 13472; G2 XOR 13472 13217 13473;
  G2 XOR 13019 13222 13474; G2 AND 13422 13474 13475; G2 XOR 13475 13222 13476; G2 XOR 13022 13227 13477;
  G2 AND 13422 13477 13478; G2 XOR 13478 13227 13479; G2 XOR 13025 13232 13480; G2 AND 13422 13480 13481;
  G2 XOR 13481 13232 13482; G2 XOR 13028 13237 13483; G2 AND 13422 13483 13484; G2 XOR 13484 13237 13485;
  G2 XOR 13031 13242 13486; G2 AND 13422 13486 13487; G2 XOR 13487 13242 13488; G2 XOR 13034 13247 13489;
  G2 AND 13422 13489 13490; G2 XOR 13490 13247 13491; G2 XOR 13037 13252 13492; G2 AND 13422 13492 13493;
  G2 XOR 13493 13252 13494; G2 XOR 13040 13257 13495; G2 AND 13422 13495 13496; G2 XOR 13496 13257 13497;
  G2 XOR 13043 13262 13498; G2 AND 13422 13498 13499; G2 XOR 13499 13262 13500; G2 XOR 13046 13267 13501;
  G2 AND 13422 13501 13502; G2 XOR 13502 13267 13503; G2 XOR 13049 13272 13504; G2 AND 13422 13504 13505;
  G2 XOR 13505 13272 13506; G2 XOR 13052 13277 13507; G2 AND 13422 13507 13508; G2 XOR 13508 13277 13509;
  G2 XOR 13055 13282 13510; G2 AND 13422 13510 13511; G2 XOR 13511 13282 13512; G2 XOR 13058 13287 13513;
  G2 AND 13422 13513 13514; G2 XOR 13514 13287 13515; G2 XOR 13061 13292 13516; G2 AND 13422 13516 13517;
  G2 XOR 13517 13292 13518; G2 XOR 13064 13297 13519; G2 AND 13422 13519 13520; G2 XOR 13520 13297 13521;
  G2 XOR 13067 13302 13522; G2 AND 13422 13522 13523; G2 XOR 13523 13302 13524; G2 XOR 13070 13307 13525;
  G2 AND 13422 13525 13526; G2 XOR 13526 13307 13527; G2 XOR 13073 13312 13528; G2 AND 13422 13528 13529;
  G2 XOR 13529 13312 13530; G2 XOR 13076 13317 13531; G2 AND 13422 13531 13532; G2 XOR 13532 13317 13533;
  G2 XOR 13079 13322 13534; G2 AND 13422 13534 13535; G2 XOR 13535 13322 13536; G2 XOR 13082 13327 13537;
  G2 AND 13422 13537 13538; G2 XOR 13538 13327 13539; G2 XOR 13085 13332 13540; G2 AND 13422 13540 13541;
  G2 XOR 13541 13332 13542; G2 XOR 13088 13337 13543; G2 AND 13422 13543 13544; G2 XOR 13544 13337 13545;
  G2 XOR 13091 13342 13546; G2 AND 13422 13546 13547; G2 XOR 13547 13342 13548; G2 XOR 13094 13347 13549;
  G2 AND 13422 13549 13550; G2 XOR 13550 13347 13551; G2 XOR 13097 13352 13552; G2 AND 13422 13552 13553;
  G2 XOR 13553 13352 13554; G2 XOR 13100 13357 13555; G2 AND 13422 13555 13556; G2 XOR 13556 13357 13557;
  G2 XOR 13103 13362 13558; G2 AND 13422 13558 13559; G2 XOR 13559 13362 13560; G2 XOR 13106 13367 13561;
  G2 AND 13422 13561 13562; G2 XOR 13562 13367 13563; G2 XOR 13109 13372 13564; G2 AND 13422 13564 13565;
  G2 XOR 13565 13372 13566; G2 XOR 13112 13377 13567; G2 AND 13422 13567 13568; G2 XOR 13568 13377 13569;
  G2 XOR 13115 13382 13570; G2 AND 13422 13570 13571; G2 XOR 13571 13382 13572; G2 XOR 13118 13387 13573;
  G2 AND 13422 13573 13574; G2 XOR 13574 13387 13575; G2 XOR 13121 13392 13576; G2 AND 13422 13576 13577;
  G2 XOR 13577 13392 13578; G2 XOR 13124 13397 13579; G2 AND 13422 13579 13580; G2 XOR 13580 13397 13581;
  G2 XOR 13127 13402 13582; G2 AND 13422 13582 13583; G2 XOR 13583 13402 13584; G2 XOR 13130 13407 13585;
  G2 AND 13422 13585 13586; G2 XOR 13586 13407 13587; G2 XOR 13133 13412 13588; G2 AND 13422 13588 13589;
  G2 XOR 13589 13412 13590; G2 XOR 13136 13417 13591; G2 AND 13422 13591 13592; G2 XOR 13592 13417 13593;
  G1 INV 13422 13594; G2 XOR 6 64 13595; G2 AND 13595 64 13596; G2 XOR 13425 65 13597; G2 XOR 13596 65 13598;
  G2 XOR 13597 13596 13599; G2 AND 13597 13598 13600; G2 XOR 13596 13600 13601; G2 XOR 13428 66 13602;
  G2 XOR 13601 66 13603; G2 XOR 13602 13601 13604; G2 AND 13602 13603 13605; G2 XOR 13601 13605 13606;
  G2 XOR 13431 67 13607; G2 XOR 13606 67 13608; G2 XOR 13607 13606 13609; G2 AND 13607 13608 13610;
  G2 XOR 13606 13610 13611; G2 XOR 13434 68 13612; G2 XOR 13611 68 13613; G2 XOR 13612 13611 13614;
  G2 AND 13612 13613 13615; G2 XOR 13611 13615 13616; G2 XOR 13437 69 13617; G2 XOR 13616 69 13618;
  G2 XOR 13617 13616 13619; G2 AND 13617 13618 13620; G2 XOR 13616 13620 13621; G2 XOR 13440 70 13622;
  G2 XOR 13621 70 13623; G2 XOR 13622 13621 13624; G2 AND 13622 13623 13625; G2 XOR 13621 13625 13626;
  G2 XOR 13443 71 13627; G2 XOR 13626 71 13628; G2 XOR 13627 13626 13629; G2 AND 13627 13628 13630;
  G2 XOR 13626 13630 13631; G2 XOR 13446 72 13632; G2 XOR 13631 72 13633; G2 XOR 13632 13631 13634;
  G2 AND 13632 13633 13635; G2 XOR 13631 13635 13636; G2 XOR 13449 73 13637; G2 XOR 13636 73 13638;
  G2 XOR 13637 13636 13639; G2 AND 13637 13638 13640; G2 XOR 13636 13640 13641; G2 XOR 13452 74 13642;
  G2 XOR 13641 74 13643; G2 XOR 13642 13641 13644; G2 AND 13642 13643 13645; G2 XOR 13641 13645 13646;
  G2 XOR 13455 75 13647; G2 XOR 13646 75 13648; G2 XOR 13647 13646 13649; G2 AND 13647 13648 13650;
  G2 XOR 13646 13650 13651; G2 XOR 13458 76 13652; G2 XOR 13651 76 13653; G2 XOR 13652 13651 13654;
  G2 AND 13652 13653 13655; G2 XOR 13651 13655 13656; G2 XOR 13461 77 13657; G2 XOR 13656 77 13658;
  G2 XOR 13657 13656 13659; G2 AND 13657 13658 13660; G2 XOR 13656 13660 13661; G2 XOR 13464 78 13662;
  G2 XOR 13661 78 13663; G2 XOR 13662 13661 13664; G2 AND 13662 13663 13665; G2 XOR 13661 13665 13666;
  G2 XOR 13467 79 13667; G2 XOR 13666 79 13668; G2 XOR 13667 13666 13669; G2 AND 13667 13668 13670;
  G2 XOR 13666 13670 13671; G2 XOR 13470 80 13672; G2 XOR 13671 80 13673; G2 XOR 13672 13671 13674;
  G2 AND 13672 13673 13675; G2 XOR 13671 13675 13676; G2 XOR 13473 81 13677; G2 XOR 13676 81 13678;
  G2 XOR 13677 13676 13679; G2 AND 13677 13678 13680; G2 XOR 13676 13680 13681; G2 XOR 13476 82 13682;
  G2 XOR 13681 82 13683; G2 XOR 13682 13681 13684; G2 AND 13682 13683 13685; G2 XOR 13681 13685 13686;
  G2 XOR 13479 83 13687; G2 XOR 13686 83 13688; G2 XOR 13687 13686 13689; G2 AND 13687 13688 13690;
  G2 XOR 13686 13690 13691; G2 XOR 13482 84 13692; G2 XOR 13691 84 13693; G2 XOR 13692 13691 13694;
  G2 AND 13692 13693 13695; G2 XOR 13691 13695 13696; G2 XOR 13485 85 13697; G2 XOR 13696 85 13698;
  G2 XOR 13697 13696 13699; G2 AND 13697 13698 13700; G2 XOR 13696 13700 13701; G2 XOR 13488 86 13702;
  G2 XOR 13701 86 13703; G2 XOR 13702 13701 13704; G2 AND 13702 13703 13705; G2 XOR 13701 13705 13706;
  G2 XOR 13491 87 13707; G2 XOR 13706 87 13708; G2 XOR 13707 13706 13709; G2 AND 13707 13708 13710;
  G2 XOR 13706 13710 13711; G2 XOR 13494 88 13712; G2 XOR 13711 88 13713; G2 XOR 13712 13711 13714;
  G2 AND 13712 13713 13715; G2 XOR 13711 13715 13716; G2 XOR 13497 89 13717; G2 XOR 13716 89 13718;
  G2 XOR 13717 13716 13719; G2 AND 13717 13718 13720; G2 XOR 13716 13720 13721; G2 XOR 13500 90 13722;
  G2 XOR 13721 90 13723; G2 XOR 13722 13721 13724; G2 AND 13722 13723 13725; G2 XOR 13721 13725 13726;
  G2 XOR 13503 91 13727; G2 XOR 13726 91 13728; G2 XOR 13727 13726 13729; G2 AND 13727 13728 13730;
  G2 XOR 13726 13730 13731; G2 XOR 13506 92 13732; G2 XOR 13731 92 13733; G2 XOR 13732 13731 13734;
  G2 AND 13732 13733 13735; G2 XOR 13731 13735 13736; G2 XOR 13509 93 13737; G2 XOR 13736 93 13738;
  G2 XOR 13737 13736 13739; G2 AND 13737 13738 13740; G2 XOR 13736 13740 13741; G2 XOR 13512 94 13742;
  G2 XOR 13741 94 13743; G2 XOR 13742 13741 13744; G2 AND 13742 13743 13745; G2 XOR 13741 13745 13746;
  G2 XOR 13515 95 13747; G2 XOR 13746 95 13748; G2 XOR 13747 13746 13749; G2 AND 13747 13748 13750;
  G2 XOR 13746 13750 13751; G2 XOR 13518 96 13752; G2 XOR 13751 96 13753; G2 XOR 13752 13751 13754;
  G2 AND 13752 13753 13755; G2 XOR 13751 13755 13756; G2 XOR 13521 97 13757; G2 XOR 13756 97 13758;
  G2 XOR 13757 13756 13759; G2 AND 13757 13758 13760; G2 XOR 13756 13760 13761; G2 XOR 13524 98 13762;
  G2 XOR 13761 98 13763; G2 XOR 13762 13761 13764; G2 AND 13762 13763 13765; G2 XOR 13761 13765 13766;
  G2 XOR 13527 99 13767; G2 XOR 13766 99 13768; G2 XOR 13767 13766 13769; G2 AND 13767 13768 13770;
  G2 XOR 13766 13770 13771; G2 XOR 13530 100 13772; G2 XOR 13771 100 13773; G2 XOR 13772 13771 13774;
  G2 AND 13772 13773 13775; G2 XOR 13771 13775 13776; G2 XOR 13533 101 13777; G2 XOR 13776 101 13778;
  G2 XOR 13777 13776 13779; G2 AND 13777 13778 13780; G2 XOR 13776 13780 13781; G2 XOR 13536 102 13782;
  G2 XOR 13781 102 13783; G2 XOR 13782 13781 13784; G2 AND 13782 13783 13785; G2 XOR 13781 13785 13786;
  G2 XOR 13539 103 13787; G2 XOR 13786 103 13788; G2 XOR 13787 13786 13789; G2 AND 13787 13788 13790;
  G2 XOR 13786 13790 13791; G2 XOR 13542 104 13792; G2 XOR 13791 104 13793; G2 XOR 13792 13791 13794;
  G2 AND 13792 13793 13795; G2 XOR 13791 13795 13796; G2 XOR 13545 105 13797; G2 XOR 13796 105 13798;
  G2 XOR 13797 13796 13799; G2 AND 13797 13798 13800; G2 XOR 13796 13800 13801; G2 XOR 13548 106 13802;
  G2 XOR 13801 106 13803; G2 XOR 13802 13801 13804; G2 AND 13802 13803 13805; G2 XOR 13801 13805 13806;
  G2 XOR 13551 107 13807; G2 XOR 13806 107 13808; G2 XOR 13807 13806 13809; G2 AND 13807 13808 13810;
  G2 XOR 13806 13810 13811; G2 XOR 13554 108 13812; G2 XOR 13811 108 13813; G2 XOR 13812 13811 13814;
  G2 AND 13812 13813 13815; G2 XOR 13811 13815 13816; G2 XOR 13557 109 13817; G2 XOR 13816 109 13818;
  G2 XOR 13817 13816 13819; G2 AND 13817 13818 13820; G2 XOR 13816 13820 13821; G2 XOR 13560 110 13822;
  G2 XOR 13821 110 13823; G2 XOR 13822 13821 13824; G2 AND 13822 13823 13825; G2 XOR 13821 13825 13826;
  G2 XOR 13563 111 13827; G2 XOR 13826 111 13828; G2 XOR 13827 13826 13829; G2 AND 13827 13828 13830;
  G2 XOR 13826 13830 13831; G2 XOR 13566 112 13832; G2 XOR 13831 112 13833; G2 XOR 13832 13831 13834;
  G2 AND 13832 13833 13835; G2 XOR 13831 13835 13836; G2 XOR 13569 113 13837; G2 XOR 13836 113 13838;
  G2 XOR 13837 13836 13839; G2 AND 13837 13838 13840; G2 XOR 13836 13840 13841; G2 XOR 13572 114 13842;
  G2 XOR 13841 114 13843; G2 XOR 13842 13841 13844; G2 AND 13842 13843 13845; G2 XOR 13841 13845 13846;
  G2 XOR 13575 115 13847; G2 XOR 13846 115 13848; G2 XOR 13847 13846 13849; G2 AND 13847 13848 13850;
  G2 XOR 13846 13850 13851; G2 XOR 13578 116 13852; G2 XOR 13851 116 13853; G2 XOR 13852 13851 13854;
  G2 AND 13852 13853 13855; G2 XOR 13851 13855 13856; G2 XOR 13581 117 13857; G2 XOR 13856 117 13858;
  G2 XOR 13857 13856 13859; G2 AND 13857 13858 13860; G2 XOR 13856 13860 13861; G2 XOR 13584 118 13862;
  G2 XOR 13861 118 13863; G2 XOR 13862 13861 13864; G2 AND 13862 13863 13865; G2 XOR 13861 13865 13866;
  G2 XOR 13587 119 13867; G2 XOR 13866 119 13868; G2 XOR 13867 13866 13869; G2 AND 13867 13868 13870;
  G2 XOR 13866 13870 13871; G2 XOR 13590 120 13872; G2 XOR 13871 120 13873; G2 XOR 13872 13871 13874;
  G2 AND 13872 13873 13875; G2 XOR 13871 13875 13876; G2 XOR 13593 121 13877; G2 XOR 13876 121 13878;
  G2 XOR 13877 13876 13879; G2 AND 13877 13878 13880; G2 XOR 13876 13880 13881; G2 AND 13881 142 13882;
  G2 XOR 13881 142 13883; G2 XOR 13883 13882 13884; G2 XOR 6 13595 13885; G2 AND 13884 13885 13886;
  G2 XOR 13886 13595 13887; G2 XOR 13425 13599 13888; G2 AND 13884 13888 13889; G2 XOR 13889 13599 13890;
  G2 XOR 13428 13604 13891; G2 AND 13884 13891 13892; G2 XOR 13892 13604 13893; G2 XOR 13431 13609 13894;
  G2 AND 13884 13894 13895; G2 XOR 13895 13609 13896; G2 XOR 13434 13614 13897; G2 AND 13884 13897 13898;
  G2 XOR 13898 13614 13899; G2 XOR 13437 13619 13900; G2 AND 13884 13900 13901; G2 XOR 13901 13619 13902;
  G2 XOR 13440 13624 13903; G2 AND 13884 13903 13904; G2 XOR 13904 13624 13905; G2 XOR 13443 13629 13906;
  G2 AND 13884 13906 13907; G2 XOR 13907 13629 13908; G2 XOR 13446 13634 13909; G2 AND 13884 13909 13910;
  G2 XOR 13910 13634 13911; G2 XOR 13449 13639 13912; G2 AND 13884 13912 13913; G2 XOR 13913 13639 13914;
  G2 XOR 13452 13644 13915; G2 AND 13884 13915 13916; G2 XOR 13916 13644 13917; G2 XOR 13455 13649 13918;
  G2 AND 13884 13918 13919; G2 XOR 13919 13649 13920; G2 XOR 13458 13654 13921; G2 AND 13884 13921 13922;
  G2 XOR 13922 13654 13923; G2 XOR 13461 13659 13924; G2 AND 13884 13924 13925; G2 XOR 13925 13659 13926;
  G2 XOR 13464 13664 13927; G2 AND 13884 13927 13928; G2 XOR 13928 13664 13929; G2 XOR 13467 13669 13930;
  G2 AND 13884 13930 13931; G2 XOR 13931 13669 13932; G2 XOR 13470 13674 13933; G2 AND 13884 13933 13934;
  G2 XOR 13934 13674 13935; G2 XOR 13473 13679 13936; G2 AND 13884 13936 13937; G2 XOR 13937 13679 13938;
  G2 XOR 13476 13684 13939; G2 AND 13884 13939 13940; G2 XOR 13940 13684 13941; G2 XOR 13479 13689 13942;
  G2 AND 13884 13942 13943; G2 XOR 13943 13689 13944; G2 XOR 13482 13694 13945; G2 AND 13884 13945 13946;
  G2 XOR 13946 13694 13947; G2 XOR 13485 13699 13948; G2 AND 13884 13948 13949; G2 XOR 13949 13699 13950;
  G2 XOR 13488 13704 13951; G2 AND 13884 13951 13952; G2 XOR 13952 13704 13953; G2 XOR 13491 13709 13954;
  G2 AND 13884 13954 13955; G2 XOR 13955 13709 13956; G2 XOR 13494 13714 13957; G2 AND 13884 13957 13958;
  G2 XOR 13958 13714 13959; G2 XOR 13497 13719 13960; G2 AND 13884 13960 13961; G2 XOR 13961 13719 13962;
  G2 XOR 13500 13724 13963; G2 AND 13884 13963 13964; G2 XOR 13964 13724 13965; G2 XOR 13503 13729 13966;
  G2 AND 13884 13966 13967; G2 XOR 13967 13729 13968; G2 XOR 13506 13734 13969; G2 AND 13884 13969 13970;
  G2 XOR 13970 13734 13971; G2 XOR 13509 13739 13972; G2 AND 13884 13972 13973; G2 XOR 13973 13739 13974;
  G2 XOR 13512 13744 13975; G2 AND 13884 13975 13976; G2 XOR 13976 13744 13977; G2 XOR 13515 13749 13978;
  G2 AND 13884 13978 13979; G2 XOR 13979 13749 13980; G2 XOR 13518 13754 13981; G2 AND 13884 13981 13982;
  G2 XOR 13982 13754 13983; G2 XOR 13521 13759 13984; G2 AND 13884 13984 13985; G2 XOR 13985 13759 13986;
  G2 XOR 13524 13764 13987; G2 AND 13884 13987 13988; G2 XOR 13988 13764 13989; G2 XOR 13527 13769 13990;
  G2 AND 13884 13990 13991; G2 XOR 13991 13769 13992; G2 XOR 13530 13774 13993; G2 AND 13884 13993 13994;
  G2 XOR 13994 13774 13995; G2 XOR 13533 13779 13996; G2 AND 13884 13996 13997; G2 XOR 13997 13779 13998;
  G2 XOR 13536 13784 13999; G2 AND 13884 13999 14000; G2 XOR 14000 13784 14001; G2 XOR 13539 13789 14002;
  G2 AND 13884 14002 14003; G2 XOR 14003 13789 14004; G2 XOR 13542 13794 14005; G2 AND 13884 14005 14006;
  G2 XOR 14006 13794 14007; G2 XOR 13545 13799 14008; G2 AND 13884 14008 14009; G2 XOR 14009 13799 14010;
  G2 XOR 13548 13804 14011; G2 AND 13884 14011 14012; G2 XOR 14012 13804 14013; G2 XOR 13551 13809 14014;
  G2 AND 13884 14014 14015; G2 XOR 14015 13809 14016; G2 XOR 13554 13814 14017; G2 AND 13884 14017 14018;
  G2 XOR 14018 13814 14019; G2 XOR 13557 13819 14020; G2 AND 13884 14020 14021; G2 XOR 14021 13819 14022;
  G2 XOR 13560 13824 14023; G2 AND 13884 14023 14024; G2 XOR 14024 13824 14025; G2 XOR 13563 13829 14026;
  G2 AND 13884 14026 14027; G2 XOR 14027 13829 14028; G2 XOR 13566 13834 14029; G2 AND 13884 14029 14030;
  G2 XOR 14030 13834 14031; G2 XOR 13569 13839 14032; G2 AND 13884 14032 14033; G2 XOR 14033 13839 14034;
  G2 XOR 13572 13844 14035; G2 AND 13884 14035 14036; G2 XOR 14036 13844 14037; G2 XOR 13575 13849 14038;
  G2 AND 13884 14038 14039; G2 XOR 14039 13849 14040; G2 XOR 13578 13854 14041; G2 AND 13884 14041 14042;
  G2 XOR 14042 13854 14043; G2 XOR 13581 13859 14044; G2 AND 13884 14044 14045; G2 XOR 14045 13859 14046;
  G2 XOR 13584 13864 14047; G2 AND 13884 14047 14048; G2 XOR 14048 13864 14049; G2 XOR 13587 13869 14050;
  G2 AND 13884 14050 14051; G2 XOR 14051 13869 14052; G2 XOR 13590 13874 14053; G2 AND 13884 14053 14054;
  G2 XOR 14054 13874 14055; G2 XOR 13593 13879 14056; G2 AND 13884 14056 14057; G2 XOR 14057 13879 14058;
  G1 INV 13884 14059; G2 XOR 5 64 14060; G2 AND 14060 64 14061; G2 XOR 13887 65 14062; G2 XOR 14061 65 14063;
  G2 XOR 14062 14061 14064; G2 AND 14062 14063 14065; G2 XOR 14061 14065 14066; G2 XOR 13890 66 14067;
  G2 XOR 14066 66 14068; G2 XOR 14067 14066 14069; G2 AND 14067 14068 14070; G2 XOR 14066 14070 14071;
  G2 XOR 13893 67 14072; G2 XOR 14071 67 14073; G2 XOR 14072 14071 14074; G2 AND 14072 14073 14075;
  G2 XOR 14071 14075 14076; G2 XOR 13896 68 14077; G2 XOR 14076 68 14078; G2 XOR 14077 14076 14079;
  G2 AND 14077 14078 14080; G2 XOR 14076 14080 14081; G2 XOR 13899 69 14082; G2 XOR 14081 69 14083;
  G2 XOR 14082 14081 14084; G2 AND 14082 14083 14085; G2 XOR 14081 14085 14086; G2 XOR 13902 70 14087;
  G2 XOR 14086 70 14088; G2 XOR 14087 14086 14089; G2 AND 14087 14088 14090; G2 XOR 14086 14090 14091;
  G2 XOR 13905 71 14092; G2 XOR 14091 71 14093; G2 XOR 14092 14091 14094; G2 AND 14092 14093 14095;
  G2 XOR 14091 14095 14096; G2 XOR 13908 72 14097; G2 XOR 14096 72 14098; G2 XOR 14097 14096 14099;
  G2 AND 14097 14098 14100; G2 XOR 14096 14100 14101; G2 XOR 13911 73 14102; G2 XOR 14101 73 14103;
  G2 XOR 14102 14101 14104; G2 AND 14102 14103 14105; G2 XOR 14101 14105 14106; G2 XOR 13914 74 14107;
  G2 XOR 14106 74 14108; G2 XOR 14107 14106 14109; G2 AND 14107 14108 14110; G2 XOR 14106 14110 14111;
  G2 XOR 13917 75 14112; G2 XOR 14111 75 14113; G2 XOR 14112 14111 14114; G2 AND 14112 14113 14115;
  G2 XOR 14111 14115 14116; G2 XOR 13920 76 14117; G2 XOR 14116 76 14118; G2 XOR 14117 14116 14119;
  G2 AND 14117 14118 14120; G2 XOR 14116 14120 14121; G2 XOR 13923 77 14122; G2 XOR 14121 77 14123;
  G2 XOR 14122 14121 14124; G2 AND 14122 14123 14125; G2 XOR 14121 14125 14126; G2 XOR 13926 78 14127;
  G2 XOR 14126 78 14128; G2 XOR 14127 14126 14129; G2 AND 14127 14128 14130; G2 XOR 14126 14130 14131;
  G2 XOR 13929 79 14132; G2 XOR 14131 79 14133; G2 XOR 14132 14131 14134; G2 AND 14132 14133 14135;
  G2 XOR 14131 14135 14136; G2 XOR 13932 80 14137; G2 XOR 14136 80 14138; G2 XOR 14137 14136 14139;
  G2 AND 14137 14138 14140; G2 XOR 14136 14140 14141; G2 XOR 13935 81 14142; G2 XOR 14141 81 14143;
  G2 XOR 14142 14141 14144; G2 AND 14142 14143 14145; G2 XOR 14141 14145 14146; G2 XOR 13938 82 14147;
  G2 XOR 14146 82 14148; G2 XOR 14147 14146 14149; G2 AND 14147 14148 14150; G2 XOR 14146 14150 14151;
  G2 XOR 13941 83 14152; G2 XOR 14151 83 14153; G2 XOR 14152 14151 14154; G2 AND 14152 14153 14155;
  G2 XOR 14151 14155 14156; G2 XOR 13944 84 14157; G2 XOR 14156 84 14158; G2 XOR 14157 14156 14159;
  G2 AND 14157 14158 14160; G2 XOR 14156 14160 14161; G2 XOR 13947 85 14162; G2 XOR 14161 85 14163;
  G2 XOR 14162 14161 14164; G2 AND 14162 14163 14165; G2 XOR 14161 14165 14166; G2 XOR 13950 86 14167;
  G2 XOR 14166 86 14168; G2 XOR 14167 14166 14169; G2 AND 14167 14168 14170; G2 XOR 14166 14170 14171;
  G2 XOR 13953 87 14172; G2 XOR 14171 87 14173; G2 XOR 14172 14171 14174; G2 AND 14172 14173 14175;
  G2 XOR 14171 14175 14176; G2 XOR 13956 88 14177; G2 XOR 14176 88 14178; G2 XOR 14177 14176 14179;
  G2 AND 14177 14178 14180; G2 XOR 14176 14180 14181; G2 XOR 13959 89 14182; G2 XOR 14181 89 14183;
  G2 XOR 14182 14181 14184; G2 AND 14182 14183 14185; G2 XOR 14181 14185 14186; G2 XOR 13962 90 14187;
  G2 XOR 14186 90 14188; G2 XOR 14187 14186 14189; G2 AND 14187 14188 14190; G2 XOR 14186 14190 14191;
  G2 XOR 13965 91 14192; G2 XOR 14191 91 14193; G2 XOR 14192 14191 14194; G2 AND 14192 14193 14195;
  G2 XOR 14191 14195 14196; G2 XOR 13968 92 14197; G2 XOR 14196 92 14198; G2 XOR 14197 14196 14199;
  G2 AND 14197 14198 14200; G2 XOR 14196 14200 14201; G2 XOR 13971 93 14202; G2 XOR 14201 93 14203;
  G2 XOR 14202 14201 14204; G2 AND 14202 14203 14205; G2 XOR 14201 14205 14206; G2 XOR 13974 94 14207;
  G2 XOR 14206 94 14208; G2 XOR 14207 14206 14209; G2 AND 14207 14208 14210; G2 XOR 14206 14210 14211;
  G2 XOR 13977 95 14212; G2 XOR 14211 95 14213; G2 XOR 14212 14211 14214; G2 AND 14212 14213 14215;
  G2 XOR 14211 14215 14216; G2 XOR 13980 96 14217; G2 XOR 14216 96 14218; G2 XOR 14217 14216 14219;
  G2 AND 14217 14218 14220; G2 XOR 14216 14220 14221; G2 XOR 13983 97 14222; G2 XOR 14221 97 14223;
  G2 XOR 14222 14221 14224; G2 AND 14222 14223 14225; G2 XOR 14221 14225 14226; G2 XOR 13986 98 14227;
  G2 XOR 14226 98 14228; G2 XOR 14227 14226 14229; G2 AND 14227 14228 14230; G2 XOR 14226 14230 14231;
  G2 XOR 13989 99 14232; G2 XOR 14231 99 14233; G2 XOR 14232 14231 14234; G2 AND 14232 14233 14235;
  G2 XOR 14231 14235 14236; G2 XOR 13992 100 14237; G2 XOR 14236 100 14238; G2 XOR 14237 14236 14239;
  G2 AND 14237 14238 14240; G2 XOR 14236 14240 14241; G2 XOR 13995 101 14242; G2 XOR 14241 101 14243;
  G2 XOR 14242 14241 14244; G2 AND 14242 14243 14245; G2 XOR 14241 14245 14246; G2 XOR 13998 102 14247;
  G2 XOR 14246 102 14248; G2 XOR 14247 14246 14249; G2 AND 14247 14248 14250; G2 XOR 14246 14250 14251;
  G2 XOR 14001 103 14252; G2 XOR 14251 103 14253; G2 XOR 14252 14251 14254; G2 AND 14252 14253 14255;
  G2 XOR 14251 14255 14256; G2 XOR 14004 104 14257; G2 XOR 14256 104 14258; G2 XOR 14257 14256 14259;
  G2 AND 14257 14258 14260; G2 XOR 14256 14260 14261; G2 XOR 14007 105 14262; G2 XOR 14261 105 14263;
  G2 XOR 14262 14261 14264; G2 AND 14262 14263 14265; G2 XOR 14261 14265 14266; G2 XOR 14010 106 14267;
  G2 XOR 14266 106 14268; G2 XOR 14267 14266 14269; G2 AND 14267 14268 14270; G2 XOR 14266 14270 14271;
  G2 XOR 14013 107 14272; G2 XOR 14271 107 14273; G2 XOR 14272 14271 14274; G2 AND 14272 14273 14275;
  G2 XOR 14271 14275 14276; G2 XOR 14016 108 14277; G2 XOR 14276 108 14278; G2 XOR 14277 14276 14279;
  G2 AND 14277 14278 14280; G2 XOR 14276 14280 14281; G2 XOR 14019 109 14282; G2 XOR 14281 109 14283;
  G2 XOR 14282 14281 14284; G2 AND 14282 14283 14285; G2 XOR 14281 14285 14286; G2 XOR 14022 110 14287;
  G2 XOR 14286 110 14288; G2 XOR 14287 14286 14289; G2 AND 14287 14288 14290; G2 XOR 14286 14290 14291;
  G2 XOR 14025 111 14292; G2 XOR 14291 111 14293; G2 XOR 14292 14291 14294; G2 AND 14292 14293 14295;
  G2 XOR 14291 14295 14296; G2 XOR 14028 112 14297; G2 XOR 14296 112 14298; G2 XOR 14297 14296 14299;
  G2 AND 14297 14298 14300; G2 XOR 14296 14300 14301; G2 XOR 14031 113 14302; G2 XOR 14301 113 14303;
  G2 XOR 14302 14301 14304; G2 AND 14302 14303 14305; G2 XOR 14301 14305 14306; G2 XOR 14034 114 14307;
  G2 XOR 14306 114 14308; G2 XOR 14307 14306 14309; G2 AND 14307 14308 14310; G2 XOR 14306 14310 14311;
  G2 XOR 14037 115 14312; G2 XOR 14311 115 14313; G2 XOR 14312 14311 14314; G2 AND 14312 14313 14315;
  G2 XOR 14311 14315 14316; G2 XOR 14040 116 14317; G2 XOR 14316 116 14318; G2 XOR 14317 14316 14319;
  G2 AND 14317 14318 14320; G2 XOR 14316 14320 14321; G2 XOR 14043 117 14322; G2 XOR 14321 117 14323;
  G2 XOR 14322 14321 14324; G2 AND 14322 14323 14325; G2 XOR 14321 14325 14326; G2 XOR 14046 118 14327;
  G2 XOR 14326 118 14328; G2 XOR 14327 14326 14329; G2 AND 14327 14328 14330; G2 XOR 14326 14330 14331;
  G2 XOR 14049 119 14332; G2 XOR 14331 119 14333; G2 XOR 14332 14331 14334; G2 AND 14332 14333 14335;
  G2 XOR 14331 14335 14336; G2 XOR 14052 120 14337; G2 XOR 14336 120 14338; G2 XOR 14337 14336 14339;
  G2 AND 14337 14338 14340; G2 XOR 14336 14340 14341; G2 XOR 14055 121 14342; G2 XOR 14341 121 14343;
  G2 XOR 14342 14341 14344; G2 AND 14342 14343 14345; G2 XOR 14341 14345 14346; G2 XOR 14058 122 14347;
  G2 XOR 14346 122 14348; G2 XOR 14347 14346 14349; G2 AND 14347 14348 14350; G2 XOR 14346 14350 14351;
  G2 AND 14351 139 14352; G2 XOR 14351 139 14353; G2 XOR 14353 14352 14354; G2 XOR 5 14060 14355;
  G2 AND 14354 14355 14356; G2 XOR 14356 14060 14357; G2 XOR 13887 14064 14358; G2 AND 14354 14358 14359;
  G2 XOR 14359 14064 14360; G2 XOR 13890 14069 14361; G2 AND 14354 14361 14362; G2 XOR 14362 14069 14363;
  G2 XOR 13893 14074 14364; G2 AND 14354 14364 14365; G2 XOR 14365 14074 14366; G2 XOR 13896 14079 14367;
  G2 AND 14354 14367 14368; G2 XOR 14368 14079 14369; G2 XOR 13899 14084 14370; G2 AND 14354 14370 14371;
  G2 XOR 14371 14084 14372; G2 XOR 13902 14089 14373; G2 AND 14354 14373 14374; G2 XOR 14374 14089 14375;
  G2 XOR 13905 14094 14376; G2 AND 14354 14376 14377; G2 XOR 14377 14094 14378; G2 XOR 13908 14099 14379;
  G2 AND 14354 14379 14380; G2 XOR 14380 14099 14381; G2 XOR 13911 14104 14382; G2 AND 14354 14382 14383;
  G2 XOR 14383 14104 14384; G2 XOR 13914 14109 14385; G2 AND 14354 14385 14386; G2 XOR 14386 14109 14387;
  G2 XOR 13917 14114 14388; G2 AND 14354 14388 14389; G2 XOR 14389 14114 14390; G2 XOR 13920 14119 14391;
  G2 AND 14354 14391 14392; G2 XOR 14392 14119 14393; G2 XOR 13923 14124 14394; G2 AND 14354 14394 14395;
  G2 XOR 14395 14124 14396; G2 XOR 13926 14129 14397; G2 AND 14354 14397 14398; G2 XOR 14398 14129 14399;
  G2 XOR 13929 14134 14400; G2 AND 14354 14400 14401; G2 XOR 14401 14134 14402; G2 XOR 13932 14139 14403;
  G2 AND 14354 14403 14404; G2 XOR 14404 14139 14405; G2 XOR 13935 14144 14406; G2 AND 14354 14406 14407;
  G2 XOR 14407 14144 14408; G2 XOR 13938 14149 14409; G2 AND 14354 14409 14410; G2 XOR 14410 14149 14411;
  G2 XOR 13941 14154 14412; G2 AND 14354 14412 14413; G2 XOR 14413 14154 14414; G2 XOR 13944 14159 14415;
  G2 AND 14354 14415 14416; G2 XOR 14416 14159 14417; G2 XOR 13947 14164 14418; G2 AND 14354 14418 14419;
  G2 XOR 14419 14164 14420; G2 XOR 13950 14169 14421; G2 AND 14354 14421 14422; G2 XOR 14422 14169 14423;
  G2 XOR 13953 14174 14424; G2 AND 14354 14424 14425; G2 XOR 14425 14174 14426; G2 XOR 13956 14179 14427;
  G2 AND 14354 14427 14428; G2 XOR 14428 14179 14429; G2 XOR 13959 14184 14430; G2 AND 14354 14430 14431;
  G2 XOR 14431 14184 14432; G2 XOR 13962 14189 14433; G2 AND 14354 14433 14434; G2 XOR 14434 14189 14435;
  G2 XOR 13965 14194 14436; G2 AND 14354 14436 14437; G2 XOR 14437 14194 14438; G2 XOR 13968 14199 14439;
  G2 AND 14354 14439 14440; G2 XOR 14440 14199 14441; G2 XOR 13971 14204 14442; G2 AND 14354 14442 14443;
  G2 XOR 14443 14204 14444; G2 XOR 13974 14209 14445; G2 AND 14354 14445 14446; G2 XOR 14446 14209 14447;
  G2 XOR 13977 14214 14448; G2 AND 14354 14448 14449; G2 XOR 14449 14214 14450; G2 XOR 13980 14219 14451;
  G2 AND 14354 14451 14452; G2 XOR 14452 14219 14453; G2 XOR 13983 14224 14454; G2 AND 14354 14454 14455;
  G2 XOR 14455 14224 14456; G2 XOR 13986 14229 14457; G2 AND 14354 14457 14458; G2 XOR 14458 14229 14459;
  G2 XOR 13989 14234 14460; G2 AND 14354 14460 14461; G2 XOR 14461 14234 14462; G2 XOR 13992 14239 14463;
  G2 AND 14354 14463 14464; G2 XOR 14464 14239 14465; G2 XOR 13995 14244 14466; G2 AND 14354 14466 14467;
  G2 XOR 14467 14244 14468; G2 XOR 13998 14249 14469; G2 AND 14354 14469 14470; G2 XOR 14470 14249 14471;
  G2 XOR 14001 14254 14472; G2 AND 14354 14472 14473; G2 XOR 14473 14254 14474; G2 XOR 14004 14259 14475;
  G2 AND 14354 14475 14476; G2 XOR 14476 14259 14477; G2 XOR 14007 14264 14478; G2 AND 14354 14478 14479;
  G2 XOR 14479 14264 14480; G2 XOR 14010 14269 14481; G2 AND 14354 14481 14482; G2 XOR 14482 14269 14483;
  G2 XOR 14013 14274 14484; G2 AND 14354 14484 14485; G2 XOR 14485 14274 14486; G2 XOR 14016 14279 14487;
  G2 AND 14354 14487 14488; G2 XOR 14488 14279 14489; G2 XOR 14019 14284 14490; G2 AND 14354 14490 14491;
  G2 XOR 14491 14284 14492; G2 XOR 14022 14289 14493; G2 AND 14354 14493 14494; G2 XOR 14494 14289 14495;
  G2 XOR 14025 14294 14496; G2 AND 14354 14496 14497; G2 XOR 14497 14294 14498; G2 XOR 14028 14299 14499;
  G2 AND 14354 14499 14500; G2 XOR 14500 14299 14501; G2 XOR 14031 14304 14502; G2 AND 14354 14502 14503;
  G2 XOR 14503 14304 14504; G2 XOR 14034 14309 14505; G2 AND 14354 14505 14506; G2 XOR 14506 14309 14507;
  G2 XOR 14037 14314 14508; G2 AND 14354 14508 14509; G2 XOR 14509 14314 14510; G2 XOR 14040 14319 14511;
  G2 AND 14354 14511 14512; G2 XOR 14512 14319 14513; G2 XOR 14043 14324 14514; G2 AND 14354 14514 14515;
  G2 XOR 14515 14324 14516; G2 XOR 14046 14329 14517; G2 AND 14354 14517 14518; G2 XOR 14518 14329 14519;
  G2 XOR 14049 14334 14520; G2 AND 14354 14520 14521; G2 XOR 14521 14334 14522; G2 XOR 14052 14339 14523;
  G2 AND 14354 14523 14524; G2 XOR 14524 14339 14525; G2 XOR 14055 14344 14526; G2 AND 14354 14526 14527;
  G2 XOR 14527 14344 14528; G2 XOR 14058 14349 14529; G2 AND 14354 14529 14530; G2 XOR 14530 14349 14531;
  G1 INV 14354 14532; G2 XOR 4 64 14533; G2 AND 14533 64 14534; G2 XOR 14357 65 14535; G2 XOR 14534 65 14536;
  G2 XOR 14535 14534 14537; G2 AND 14535 14536 14538; G2 XOR 14534 14538 14539; G2 XOR 14360 66 14540;
  G2 XOR 14539 66 14541; G2 XOR 14540 14539 14542; G2 AND 14540 14541 14543; G2 XOR 14539 14543 14544;
  G2 XOR 14363 67 14545; G2 XOR 14544 67 14546; G2 XOR 14545 14544 14547; G2 AND 14545 14546 14548;
  G2 XOR 14544 14548 14549; G2 XOR 14366 68 14550; G2 XOR 14549 68 14551; G2 XOR 14550 14549 14552;
  G2 AND 14550 14551 14553; G2 XOR 14549 14553 14554; G2 XOR 14369 69 14555; G2 XOR 14554 69 14556;
  G2 XOR 14555 14554 14557; G2 AND 14555 14556 14558; G2 XOR 14554 14558 14559; G2 XOR 14372 70 14560;
  G2 XOR 14559 70 14561; G2 XOR 14560 14559 14562; G2 AND 14560 14561 14563; G2 XOR 14559 14563 14564;
  G2 XOR 14375 71 14565; G2 XOR 14564 71 14566; G2 XOR 14565 14564 14567; G2 AND 14565 14566 14568;
  G2 XOR 14564 14568 14569; G2 XOR 14378 72 14570; G2 XOR 14569 72 14571; G2 XOR 14570 14569 14572;
  G2 AND 14570 14571 14573; G2 XOR 14569 14573 14574; G2 XOR 14381 73 14575; G2 XOR 14574 73 14576;
  G2 XOR 14575 14574 14577; G2 AND 14575 14576 14578; G2 XOR 14574 14578 14579; G2 XOR 14384 74 14580;
  G2 XOR 14579 74 14581; G2 XOR 14580 14579 14582; G2 AND 14580 14581 14583; G2 XOR 14579 14583 14584;
  G2 XOR 14387 75 14585; G2 XOR 14584 75 14586; G2 XOR 14585 14584 14587; G2 AND 14585 14586 14588;
  G2 XOR 14584 14588 14589; G2 XOR 14390 76 14590; G2 XOR 14589 76 14591; G2 XOR 14590 14589 14592;
  G2 AND 14590 14591 14593; G2 XOR 14589 14593 14594; G2 XOR 14393 77 14595; G2 XOR 14594 77 14596;
  G2 XOR 14595 14594 14597; G2 AND 14595 14596 14598; G2 XOR 14594 14598 14599; G2 XOR 14396 78 14600;
  G2 XOR 14599 78 14601; G2 XOR 14600 14599 14602; G2 AND 14600 14601 14603; G2 XOR 14599 14603 14604;
  G2 XOR 14399 79 14605; G2 XOR 14604 79 14606; G2 XOR 14605 14604 14607; G2 AND 14605 14606 14608;
  G2 XOR 14604 14608 14609; G2 XOR 14402 80 14610; G2 XOR 14609 80 14611; G2 XOR 14610 14609 14612;
  G2 AND 14610 14611 14613; G2 XOR 14609 14613 14614; G2 XOR 14405 81 14615; G2 XOR 14614 81 14616;
  G2 XOR 14615 14614 14617; G2 AND 14615 14616 14618; G2 XOR 14614 14618 14619; G2 XOR 14408 82 14620;
  G2 XOR 14619 82 14621; G2 XOR 14620 14619 14622; G2 AND 14620 14621 14623; G2 XOR 14619 14623 14624;
  G2 XOR 14411 83 14625; G2 XOR 14624 83 14626; G2 XOR 14625 14624 14627; G2 AND 14625 14626 14628;
  G2 XOR 14624 14628 14629; G2 XOR 14414 84 14630; G2 XOR 14629 84 14631; G2 XOR 14630 14629 14632;
  G2 AND 14630 14631 14633; G2 XOR 14629 14633 14634; G2 XOR 14417 85 14635; G2 XOR 14634 85 14636;
  G2 XOR 14635 14634 14637; G2 AND 14635 14636 14638; G2 XOR 14634 14638 14639; G2 XOR 14420 86 14640;
  G2 XOR 14639 86 14641; G2 XOR 14640 14639 14642; G2 AND 14640 14641 14643; G2 XOR 14639 14643 14644;
  G2 XOR 14423 87 14645; G2 XOR 14644 87 14646; G2 XOR 14645 14644 14647; G2 AND 14645 14646 14648;
  G2 XOR 14644 14648 14649; G2 XOR 14426 88 14650; G2 XOR 14649 88 14651; G2 XOR 14650 14649 14652;
  G2 AND 14650 14651 14653; G2 XOR 14649 14653 14654; G2 XOR 14429 89 14655; G2 XOR 14654 89 14656;
  G2 XOR 14655 14654 14657; G2 AND 14655 14656 14658; G2 XOR 14654 14658 14659; G2 XOR 14432 90 14660;
  G2 XOR 14659 90 14661; G2 XOR 14660 14659 14662; G2 AND 14660 14661 14663; G2 XOR 14659 14663 14664;
  G2 XOR 14435 91 14665; G2 XOR 14664 91 14666; G2 XOR 14665 14664 14667; G2 AND 14665 14666 14668;
  G2 XOR 14664 14668 14669; G2 XOR 14438 92 14670; G2 XOR 14669 92 14671; G2 XOR 14670 14669 14672;
  G2 AND 14670 14671 14673; G2 XOR 14669 14673 14674; G2 XOR 14441 93 14675; G2 XOR 14674 93 14676;
  G2 XOR 14675 14674 14677; G2 AND 14675 14676 14678; G2 XOR 14674 14678 14679; G2 XOR 14444 94 14680;
  G2 XOR 14679 94 14681; G2 XOR 14680 14679 14682; G2 AND 14680 14681 14683; G2 XOR 14679 14683 14684;
  G2 XOR 14447 95 14685; G2 XOR 14684 95 14686; G2 XOR 14685 14684 14687; G2 AND 14685 14686 14688;
  G2 XOR 14684 14688 14689; G2 XOR 14450 96 14690; G2 XOR 14689 96 14691; G2 XOR 14690 14689 14692;
  G2 AND 14690 14691 14693; G2 XOR 14689 14693 14694; G2 XOR 14453 97 14695; G2 XOR 14694 97 14696;
  G2 XOR 14695 14694 14697; G2 AND 14695 14696 14698; G2 XOR 14694 14698 14699; G2 XOR 14456 98 14700;
  G2 XOR 14699 98 14701; G2 XOR 14700 14699 14702; G2 AND 14700 14701 14703; G2 XOR 14699 14703 14704;
  G2 XOR 14459 99 14705; G2 XOR 14704 99 14706; G2 XOR 14705 14704 14707; G2 AND 14705 14706 14708;
  G2 XOR 14704 14708 14709; G2 XOR 14462 100 14710; G2 XOR 14709 100 14711; G2 XOR 14710 14709 14712;
  G2 AND 14710 14711 14713; G2 XOR 14709 14713 14714; G2 XOR 14465 101 14715; G2 XOR 14714 101 14716;
  G2 XOR 14715 14714 14717; G2 AND 14715 14716 14718; G2 XOR 14714 14718 14719; G2 XOR 14468 102 14720;
  G2 XOR 14719 102 14721; G2 XOR 14720 14719 14722; G2 AND 14720 14721 14723; G2 XOR 14719 14723 14724;
  G2 XOR 14471 103 14725; G2 XOR 14724 103 14726; G2 XOR 14725 14724 14727; G2 AND 14725 14726 14728;
  G2 XOR 14724 14728 14729; G2 XOR 14474 104 14730; G2 XOR 14729 104 14731; G2 XOR 14730 14729 14732;
  G2 AND 14730 14731 14733; G2 XOR 14729 14733 14734; G2 XOR 14477 105 14735; G2 XOR 14734 105 14736;
  G2 XOR 14735 14734 14737; G2 AND 14735 14736 14738; G2 XOR 14734 14738 14739; G2 XOR 14480 106 14740;
  G2 XOR 14739 106 14741; G2 XOR 14740 14739 14742; G2 AND 14740 14741 14743; G2 XOR 14739 14743 14744;
  G2 XOR 14483 107 14745; G2 XOR 14744 107 14746; G2 XOR 14745 14744 14747; G2 AND 14745 14746 14748;
  G2 XOR 14744 14748 14749; G2 XOR 14486 108 14750; G2 XOR 14749 108 14751; G2 XOR 14750 14749 14752;
  G2 AND 14750 14751 14753; G2 XOR 14749 14753 14754; G2 XOR 14489 109 14755; G2 XOR 14754 109 14756;
  G2 XOR 14755 14754 14757; G2 AND 14755 14756 14758; G2 XOR 14754 14758 14759; G2 XOR 14492 110 14760;
  G2 XOR 14759 110 14761; G2 XOR 14760 14759 14762; G2 AND 14760 14761 14763; G2 XOR 14759 14763 14764;
  G2 XOR 14495 111 14765; G2 XOR 14764 111 14766; G2 XOR 14765 14764 14767; G2 AND 14765 14766 14768;
  G2 XOR 14764 14768 14769; G2 XOR 14498 112 14770; G2 XOR 14769 112 14771; G2 XOR 14770 14769 14772;
  G2 AND 14770 14771 14773; G2 XOR 14769 14773 14774; G2 XOR 14501 113 14775; G2 XOR 14774 113 14776;
  G2 XOR 14775 14774 14777; G2 AND 14775 14776 14778; G2 XOR 14774 14778 14779; G2 XOR 14504 114 14780;
  G2 XOR 14779 114 14781; G2 XOR 14780 14779 14782; G2 AND 14780 14781 14783; G2 XOR 14779 14783 14784;
  G2 XOR 14507 115 14785; G2 XOR 14784 115 14786; G2 XOR 14785 14784 14787; G2 AND 14785 14786 14788;
  G2 XOR 14784 14788 14789; G2 XOR 14510 116 14790; G2 XOR 14789 116 14791; G2 XOR 14790 14789 14792;
  G2 AND 14790 14791 14793; G2 XOR 14789 14793 14794; G2 XOR 14513 117 14795; G2 XOR 14794 117 14796;
  G2 XOR 14795 14794 14797; G2 AND 14795 14796 14798; G2 XOR 14794 14798 14799; G2 XOR 14516 118 14800;
  G2 XOR 14799 118 14801; G2 XOR 14800 14799 14802; G2 AND 14800 14801 14803; G2 XOR 14799 14803 14804;
  G2 XOR 14519 119 14805; G2 XOR 14804 119 14806; G2 XOR 14805 14804 14807; G2 AND 14805 14806 14808;
  G2 XOR 14804 14808 14809; G2 XOR 14522 120 14810; G2 XOR 14809 120 14811; G2 XOR 14810 14809 14812;
  G2 AND 14810 14811 14813; G2 XOR 14809 14813 14814; G2 XOR 14525 121 14815; G2 XOR 14814 121 14816;
  G2 XOR 14815 14814 14817; G2 AND 14815 14816 14818; G2 XOR 14814 14818 14819; G2 XOR 14528 122 14820;
  G2 XOR 14819 122 14821; G2 XOR 14820 14819 14822; G2 AND 14820 14821 14823; G2 XOR 14819 14823 14824;
  G2 XOR 14531 123 14825; G2 XOR 14824 123 14826; G2 XOR 14825 14824 14827; G2 AND 14825 14826 14828;
  G2 XOR 14824 14828 14829; G2 AND 14829 136 14830; G2 XOR 14829 136 14831; G2 XOR 14831 14830 14832;
  G2 XOR 4 14533 14833; G2 AND 14832 14833 14834; G2 XOR 14834 14533 14835; G2 XOR 14357 14537 14836;
  G2 AND 14832 14836 14837; G2 XOR 14837 14537 14838; G2 XOR 14360 14542 14839; G2 AND 14832 14839 14840;
  G2 XOR 14840 14542 14841; G2 XOR 14363 14547 14842; G2 AND 14832 14842 14843; G2 XOR 14843 14547 14844;
  G2 XOR 14366 14552 14845; G2 AND 14832 14845 14846; G2 XOR 14846 14552 14847; G2 XOR 14369 14557 14848;
  G2 AND 14832 14848 14849; G2 XOR 14849 14557 14850; G2 XOR 14372 14562 14851; G2 AND 14832 14851 14852;
  G2 XOR 14852 14562 14853; G2 XOR 14375 14567 14854; G2 AND 14832 14854 14855; G2 XOR 14855 14567 14856;
  G2 XOR 14378 14572 14857; G2 AND 14832 14857 14858; G2 XOR 14858 14572 14859; G2 XOR 14381 14577 14860;
  G2 AND 14832 14860 14861; G2 XOR 14861 14577 14862; G2 XOR 14384 14582 14863; G2 AND 14832 14863 14864;
  G2 XOR 14864 14582 14865; G2 XOR 14387 14587 14866; G2 AND 14832 14866 14867; G2 XOR 14867 14587 14868;
  G2 XOR 14390 14592 14869; G2 AND 14832 14869 14870; G2 XOR 14870 14592 14871; G2 XOR 14393 14597 14872;
  G2 AND 14832 14872 14873; G2 XOR 14873 14597 14874; G2 XOR 14396 14602 14875; G2 AND 14832 14875 14876;
  G2 XOR 14876 14602 14877; G2 XOR 14399 14607 14878; G2 AND 14832 14878 14879; G2 XOR 14879 14607 14880;
  G2 XOR 14402 14612 14881; G2 AND 14832 14881 14882; G2 XOR 14882 14612 14883; G2 XOR 14405 14617 14884;
  G2 AND 14832 14884 14885; G2 XOR 14885 14617 14886; G2 XOR 14408 14622 14887; G2 AND 14832 14887 14888;
  G2 XOR 14888 14622 14889; G2 XOR 14411 14627 14890; G2 AND 14832 14890 14891; G2 XOR 14891 14627 14892;
  G2 XOR 14414 14632 14893; G2 AND 14832 14893 14894; G2 XOR 14894 14632 14895; G2 XOR 14417 14637 14896;
  G2 AND 14832 14896 14897; G2 XOR 14897 14637 14898; G2 XOR 14420 14642 14899; G2 AND 14832 14899 14900;
  G2 XOR 14900 14642 14901; G2 XOR 14423 14647 14902; G2 AND 14832 14902 14903; G2 XOR 14903 14647 14904;
  G2 XOR 14426 14652 14905; G2 AND 14832 14905 14906; G2 XOR 14906 14652 14907; G2 XOR 14429 14657 14908;
  G2 AND 14832 14908 14909; G2 XOR 14909 14657 14910; G2 XOR 14432 14662 14911; G2 AND 14832 14911 14912;
  G2 XOR 14912 14662 14913; G2 XOR 14435 14667 14914; G2 AND 14832 14914 14915; G2 XOR 14915 14667 14916;
  G2 XOR 14438 14672 14917; G2 AND 14832 14917 14918; G2 XOR 14918 14672 14919; G2 XOR 14441 14677 14920;
  G2 AND 14832 14920 14921; G2 XOR 14921 14677 14922; G2 XOR 14444 14682 14923; G2 AND 14832 14923 14924;
  G2 XOR 14924 14682 14925; G2 XOR 14447 14687 14926; G2 AND 14832 14926 14927; G2 XOR 14927 14687 14928;
  G2 XOR 14450 14692 14929; G2 AND 14832 14929 14930; G2 XOR 14930 14692 14931; G2 XOR 14453 14697 14932;
  G2 AND 14832 14932 14933; G2 XOR 14933 14697 14934; G2 XOR 14456 14702 14935; G2 AND 14832 14935 14936;
  G2 XOR 14936 14702 14937; G2 XOR 14459 14707 14938; G2 AND 14832 14938 14939; G2 XOR 14939 14707 14940;
  G2 XOR 14462 14712 14941; G2 AND 14832 14941 14942; G2 XOR 14942 14712 14943; G2 XOR 14465 14717 14944;
  G2 AND 14832 14944 14945; G2 XOR 14945 14717 14946; G2 XOR 14468 14722 14947; G2 AND 14832 14947 14948;
  G2 XOR 14948 14722 14949; G2 XOR 14471 14727 14950; G2 AND 14832 14950 14951; G2 XOR 14951 14727 14952;
  G2 XOR 14474 14732 14953; G2 AND 14832 14953 14954; G2 XOR 14954 14732 14955; G2 XOR 14477 14737 14956;
  G2 AND 14832 14956 14957; G2 XOR 14957 14737 14958; G2 XOR 14480 14742 14959; G2 AND 14832 14959 14960;
  G2 XOR 14960 14742 14961; G2 XOR 14483 14747 14962; G2 AND 14832 14962 14963; G2 XOR 14963 14747 14964;
  G2 XOR 14486 14752 14965; G2 AND 14832 14965 14966; G2 XOR 14966 14752 14967; G2 XOR 14489 14757 14968;
  G2 AND 14832 14968 14969; G2 XOR 14969 14757 14970; G2 XOR 14492 14762 14971; G2 AND 14832 14971 14972;
  G2 XOR 14972 14762 14973; G2 XOR 14495 14767 14974; G2 AND 14832 14974 14975; G2 XOR 14975 14767 14976;
  G2 XOR 14498 14772 14977; G2 AND 14832 14977 14978; G2 XOR 14978 14772 14979; G2 XOR 14501 14777 14980;
  G2 AND 14832 14980 14981; G2 XOR 14981 14777 14982; G2 XOR 14504 14782 14983; G2 AND 14832 14983 14984;
  G2 XOR 14984 14782 14985; G2 XOR 14507 14787 14986; G2 AND 14832 14986 14987; G2 XOR 14987 14787 14988;
  G2 XOR 14510 14792 14989; G2 AND 14832 14989 14990; G2 XOR 14990 14792 14991; G2 XOR 14513 14797 14992;
  G2 AND 14832 14992 14993; G2 XOR 14993 14797 14994; G2 XOR 14516 14802 14995; G2 AND 14832 14995 14996;
  G2 XOR 14996 14802 14997; G2 XOR 14519 14807 14998; G2 AND 14832 14998 14999; G2 XOR 14999 14807 15000;
  G2 XOR 14522 14812 15001; G2 AND 14832 15001 15002; G2 XOR 15002 14812 15003; G2 XOR 14525 14817 15004;
  G2 AND 14832 15004 15005; G2 XOR 15005 14817 15006; G2 XOR 14528 14822 15007; G2 AND 14832 15007 15008;
  G2 XOR 15008 14822 15009; G2 XOR 14531 14827 15010; G2 AND 14832 15010 15011; G2 XOR 15011 14827 15012;
  G1 INV 14832 15013; G2 XOR 3 64 15014; G2 AND 15014 64 15015; G2 XOR 14835 65 15016; G2 XOR 15015 65 15017;
  G2 XOR 15016 15015 15018; G2 AND 15016 15017 15019; G2 XOR 15015 15019 15020; G2 XOR 14838 66 15021;
  G2 XOR 15020 66 15022; G2 XOR 15021 15020 15023; G2 AND 15021 15022 15024; G2 XOR 15020 15024 15025;
  G2 XOR 14841 67 15026; G2 XOR 15025 67 15027; G2 XOR 15026 15025 15028; G2 AND 15026 15027 15029;
  G2 XOR 15025 15029 15030; G2 XOR 14844 68 15031; G2 XOR 15030 68 15032; G2 XOR 15031 15030 15033;
  G2 AND 15031 15032 15034; G2 XOR 15030 15034 15035; G2 XOR 14847 69 15036; G2 XOR 15035 69 15037;
  G2 XOR 15036 15035 15038; G2 AND 15036 15037 15039; G2 XOR 15035 15039 15040; G2 XOR 14850 70 15041;
  G2 XOR 15040 70 15042; G2 XOR 15041 15040 15043; G2 AND 15041 15042 15044; G2 XOR 15040 15044 15045;
  G2 XOR 14853 71 15046; G2 XOR 15045 71 15047; G2 XOR 15046 15045 15048; G2 AND 15046 15047 15049;
  G2 XOR 15045 15049 15050; G2 XOR 14856 72 15051; G2 XOR 15050 72 15052; G2 XOR 15051 15050 15053;
  G2 AND 15051 15052 15054; G2 XOR 15050 15054 15055; G2 XOR 14859 73 15056; G2 XOR 15055 73 15057;
  G2 XOR 15056 15055 15058; G2 AND 15056 15057 15059; G2 XOR 15055 15059 15060; G2 XOR 14862 74 15061;
  G2 XOR 15060 74 15062; G2 XOR 15061 15060 15063; G2 AND 15061 15062 15064; G2 XOR 15060 15064 15065;
  G2 XOR 14865 75 15066; G2 XOR 15065 75 15067; G2 XOR 15066 15065 15068; G2 AND 15066 15067 15069;
  G2 XOR 15065 15069 15070; G2 XOR 14868 76 15071; G2 XOR 15070 76 15072; G2 XOR 15071 15070 15073;
  G2 AND 15071 15072 15074; G2 XOR 15070 15074 15075; G2 XOR 14871 77 15076; G2 XOR 15075 77 15077;
  G2 XOR 15076 15075 15078; G2 AND 15076 15077 15079; G2 XOR 15075 15079 15080; G2 XOR 14874 78 15081;
  G2 XOR 15080 78 15082; G2 XOR 15081 15080 15083; G2 AND 15081 15082 15084; G2 XOR 15080 15084 15085;
  G2 XOR 14877 79 15086; G2 XOR 15085 79 15087; G2 XOR 15086 15085 15088; G2 AND 15086 15087 15089;
  G2 XOR 15085 15089 15090; G2 XOR 14880 80 15091; G2 XOR 15090 80 15092; G2 XOR 15091 15090 15093;
  G2 AND 15091 15092 15094; G2 XOR 15090 15094 15095; G2 XOR 14883 81 15096; G2 XOR 15095 81 15097;
  G2 XOR 15096 15095 15098; G2 AND 15096 15097 15099; G2 XOR 15095 15099 15100; G2 XOR 14886 82 15101;
  G2 XOR 15100 82 15102; G2 XOR 15101 15100 15103; G2 AND 15101 15102 15104; G2 XOR 15100 15104 15105;
  G2 XOR 14889 83 15106; G2 XOR 15105 83 15107; G2 XOR 15106 15105 15108; G2 AND 15106 15107 15109;
  G2 XOR 15105 15109 15110; G2 XOR 14892 84 15111; G2 XOR 15110 84 15112; G2 XOR 15111 15110 15113;
  G2 AND 15111 15112 15114; G2 XOR 15110 15114 15115; G2 XOR 14895 85 15116; G2 XOR 15115 85 15117;
  G2 XOR 15116 15115 15118; G2 AND 15116 15117 15119; G2 XOR 15115 15119 15120; G2 XOR 14898 86 15121;
  G2 XOR 15120 86 15122; G2 XOR 15121 15120 15123; G2 AND 15121 15122 15124; G2 XOR 15120 15124 15125;
  G2 XOR 14901 87 15126; G2 XOR 15125 87 15127; G2 XOR 15126 15125 15128; G2 AND 15126 15127 15129;
  G2 XOR 15125 15129 15130; G2 XOR 14904 88 15131; G2 XOR 15130 88 15132; G2 XOR 15131 15130 15133;
  G2 AND 15131 15132 15134; G2 XOR 15130 15134 15135; G2 XOR 14907 89 15136; G2 XOR 15135 89 15137;
  G2 XOR 15136 15135 15138; G2 AND 15136 15137 15139; G2 XOR 15135 15139 15140; G2 XOR 14910 90 15141;
  G2 XOR 15140 90 15142; G2 XOR 15141 15140 15143; G2 AND 15141 15142 15144; G2 XOR 15140 15144 15145;
  G2 XOR 14913 91 15146; G2 XOR 15145 91 15147; G2 XOR 15146 15145 15148; G2 AND 15146 15147 15149;
  G2 XOR 15145 15149 15150; G2 XOR 14916 92 15151; G2 XOR 15150 92 15152; G2 XOR 15151 15150 15153;
  G2 AND 15151 15152 15154; G2 XOR 15150 15154 15155; G2 XOR 14919 93 15156; G2 XOR 15155 93 15157;
  G2 XOR 15156 15155 15158; G2 AND 15156 15157 15159; G2 XOR 15155 15159 15160; G2 XOR 14922 94 15161;
  G2 XOR 15160 94 15162; G2 XOR 15161 15160 15163; G2 AND 15161 15162 15164; G2 XOR 15160 15164 15165;
  G2 XOR 14925 95 15166; G2 XOR 15165 95 15167; G2 XOR 15166 15165 15168; G2 AND 15166 15167 15169;
  G2 XOR 15165 15169 15170; G2 XOR 14928 96 15171; G2 XOR 15170 96 15172; G2 XOR 15171 15170 15173;
  G2 AND 15171 15172 15174; G2 XOR 15170 15174 15175; G2 XOR 14931 97 15176; G2 XOR 15175 97 15177;
  G2 XOR 15176 15175 15178; G2 AND 15176 15177 15179; G2 XOR 15175 15179 15180; G2 XOR 14934 98 15181;
  G2 XOR 15180 98 15182; G2 XOR 15181 15180 15183; G2 AND 15181 15182 15184; G2 XOR 15180 15184 15185;
  G2 XOR 14937 99 15186; G2 XOR 15185 99 15187; G2 XOR 15186 15185 15188; G2 AND 15186 15187 15189;
  G2 XOR 15185 15189 15190; G2 XOR 14940 100 15191; G2 XOR 15190 100 15192; G2 XOR 15191 15190 15193;
  G2 AND 15191 15192 15194; G2 XOR 15190 15194 15195; G2 XOR 14943 101 15196; G2 XOR 15195 101 15197;
  G2 XOR 15196 15195 15198; G2 AND 15196 15197 15199; G2 XOR 15195 15199 15200; G2 XOR 14946 102 15201;
  G2 XOR 15200 102 15202; G2 XOR 15201 15200 15203; G2 AND 15201 15202 15204; G2 XOR 15200 15204 15205;
  G2 XOR 14949 103 15206; G2 XOR 15205 103 15207; G2 XOR 15206 15205 15208; G2 AND 15206 15207 15209;
  G2 XOR 15205 15209 15210; G2 XOR 14952 104 15211; G2 XOR 15210 104 15212; G2 XOR 15211 15210 15213;
  G2 AND 15211 15212 15214; G2 XOR 15210 15214 15215; G2 XOR 14955 105 15216; G2 XOR 15215 105 15217;
  G2 XOR 15216 15215 15218; G2 AND 15216 15217 15219; G2 XOR 15215 15219 15220; G2 XOR 14958 106 15221;
  G2 XOR 15220 106 15222; G2 XOR 15221 15220 15223; G2 AND 15221 15222 15224; G2 XOR 15220 15224 15225;
  G2 XOR 14961 107 15226; G2 XOR 15225 107 15227; G2 XOR 15226 15225 15228; G2 AND 15226 15227 15229;
  G2 XOR 15225 15229 15230; G2 XOR 14964 108 15231; G2 XOR 15230 108 15232; G2 XOR 15231 15230 15233;
  G2 AND 15231 15232 15234; G2 XOR 15230 15234 15235; G2 XOR 14967 109 15236; G2 XOR 15235 109 15237;
  G2 XOR 15236 15235 15238; G2 AND 15236 15237 15239; G2 XOR 15235 15239 15240; G2 XOR 14970 110 15241;
  G2 XOR 15240 110 15242; G2 XOR 15241 15240 15243; G2 AND 15241 15242 15244; G2 XOR 15240 15244 15245;
  G2 XOR 14973 111 15246; G2 XOR 15245 111 15247; G2 XOR 15246 15245 15248; G2 AND 15246 15247 15249;
  G2 XOR 15245 15249 15250; G2 XOR 14976 112 15251; G2 XOR 15250 112 15252; G2 XOR 15251 15250 15253;
  G2 AND 15251 15252 15254; G2 XOR 15250 15254 15255; G2 XOR 14979 113 15256; G2 XOR 15255 113 15257;
  G2 XOR 15256 15255 15258; G2 AND 15256 15257 15259; G2 XOR 15255 15259 15260; G2 XOR 14982 114 15261;
  G2 XOR 15260 114 15262; G2 XOR 15261 15260 15263; G2 AND 15261 15262 15264; G2 XOR 15260 15264 15265;
  G2 XOR 14985 115 15266; G2 XOR 15265 115 15267; G2 XOR 15266 15265 15268; G2 AND 15266 15267 15269;
  G2 XOR 15265 15269 15270; G2 XOR 14988 116 15271; G2 XOR 15270 116 15272; G2 XOR 15271 15270 15273;
  G2 AND 15271 15272 15274; G2 XOR 15270 15274 15275; G2 XOR 14991 117 15276; G2 XOR 15275 117 15277;
  G2 XOR 15276 15275 15278; G2 AND 15276 15277 15279; G2 XOR 15275 15279 15280; G2 XOR 14994 118 15281;
  G2 XOR 15280 118 15282; G2 XOR 15281 15280 15283; G2 AND 15281 15282 15284; G2 XOR 15280 15284 15285;
  G2 XOR 14997 119 15286; G2 XOR 15285 119 15287; G2 XOR 15286 15285 15288; G2 AND 15286 15287 15289;
  G2 XOR 15285 15289 15290; G2 XOR 15000 120 15291; G2 XOR 15290 120 15292; G2 XOR 15291 15290 15293;
  G2 AND 15291 15292 15294; G2 XOR 15290 15294 15295; G2 XOR 15003 121 15296; G2 XOR 15295 121 15297;
  G2 XOR 15296 15295 15298; G2 AND 15296 15297 15299; G2 XOR 15295 15299 15300; G2 XOR 15006 122 15301;
  G2 XOR 15300 122 15302; G2 XOR 15301 15300 15303; G2 AND 15301 15302 15304; G2 XOR 15300 15304 15305;
  G2 XOR 15009 123 15306; G2 XOR 15305 123 15307; G2 XOR 15306 15305 15308; G2 AND 15306 15307 15309;
  G2 XOR 15305 15309 15310; G2 XOR 15012 124 15311; G2 XOR 15310 124 15312; G2 XOR 15311 15310 15313;
  G2 AND 15311 15312 15314; G2 XOR 15310 15314 15315; G2 AND 15315 133 15316; G2 XOR 15315 133 15317;
  G2 XOR 15317 15316 15318; G2 XOR 3 15014 15319; G2 AND 15318 15319 15320; G2 XOR 15320 15014 15321;
  G2 XOR 14835 15018 15322; G2 AND 15318 15322 15323; G2 XOR 15323 15018 15324; G2 XOR 14838 15023 15325;
  G2 AND 15318 15325 15326; G2 XOR 15326 15023 15327; G2 XOR 14841 15028 15328; G2 AND 15318 15328 15329;
  G2 XOR 15329 15028 15330; G2 XOR 14844 15033 15331; G2 AND 15318 15331 15332; G2 XOR 15332 15033 15333;
  G2 XOR 14847 15038 15334; G2 AND 15318 15334 15335; G2 XOR 15335 15038 15336; G2 XOR 14850 15043 15337;
  G2 AND 15318 15337 15338; G2 XOR 15338 15043 15339; G2 XOR 14853 15048 15340; G2 AND 15318 15340 15341;
  G2 XOR 15341 15048 15342; G2 XOR 14856 15053 15343; G2 AND 15318 15343 15344; G2 XOR 15344 15053 15345;
  G2 XOR 14859 15058 15346; G2 AND 15318 15346 15347; G2 XOR 15347 15058 15348; G2 XOR 14862 15063 15349;
  G2 AND 15318 15349 15350; G2 XOR 15350 15063 15351; G2 XOR 14865 15068 15352; G2 AND 15318 15352 15353;
  G2 XOR 15353 15068 15354; G2 XOR 14868 15073 15355; G2 AND 15318 15355 15356; G2 XOR 15356 15073 15357;
  G2 XOR 14871 15078 15358; G2 AND 15318 15358 15359; G2 XOR 15359 15078 15360; G2 XOR 14874 15083 15361;
  G2 AND 15318 15361 15362; G2 XOR 15362 15083 15363; G2 XOR 14877 15088 15364; G2 AND 15318 15364 15365;
  G2 XOR 15365 15088 15366; G2 XOR 14880 15093 15367; G2 AND 15318 15367 15368; G2 XOR 15368 15093 15369;
  G2 XOR 14883 15098 15370; G2 AND 15318 15370 15371; G2 XOR 15371 15098 15372; G2 XOR 14886 15103 15373;
  G2 AND 15318 15373 15374; G2 XOR 15374 15103 15375; G2 XOR 14889 15108 15376; G2 AND 15318 15376 15377;
  G2 XOR 15377 15108 15378; G2 XOR 14892 15113 15379; G2 AND 15318 15379 15380; G2 XOR 15380 15113 15381;
  G2 XOR 14895 15118 15382; G2 AND 15318 15382 15383; G2 XOR 15383 15118 15384; G2 XOR 14898 15123 15385;
  G2 AND 15318 15385 15386; G2 XOR 15386 15123 15387; G2 XOR 14901 15128 15388; G2 AND 15318 15388 15389;
  G2 XOR 15389 15128 15390; G2 XOR 14904 15133 15391; G2 AND 15318 15391 15392; G2 XOR 15392 15133 15393;
  G2 XOR 14907 15138 15394; G2 AND 15318 15394 15395; G2 XOR 15395 15138 15396; G2 XOR 14910 15143 15397;
  G2 AND 15318 15397 15398; G2 XOR 15398 15143 15399; G2 XOR 14913 15148 15400; G2 AND 15318 15400 15401;
  G2 XOR 15401 15148 15402; G2 XOR 14916 15153 15403; G2 AND 15318 15403 15404; G2 XOR 15404 15153 15405;
  G2 XOR 14919 15158 15406; G2 AND 15318 15406 15407; G2 XOR 15407 15158 15408; G2 XOR 14922 15163 15409;
  G2 AND 15318 15409 15410; G2 XOR 15410 15163 15411; G2 XOR 14925 15168 15412; G2 AND 15318 15412 15413;
  G2 XOR 15413 15168 15414; G2 XOR 14928 15173 15415; G2 AND 15318 15415 15416; G2 XOR 15416 15173 15417;
  G2 XOR 14931 15178 15418; G2 AND 15318 15418 15419; G2 XOR 15419 15178 15420; G2 XOR 14934 15183 15421;
  G2 AND 15318 15421 15422; G2 XOR 15422 15183 15423; G2 XOR 14937 15188 15424; G2 AND 15318 15424 15425;
  G2 XOR 15425 15188 15426; G2 XOR 14940 15193 15427; G2 AND 15318 15427 15428; G2 XOR 15428 15193 15429;
  G2 XOR 14943 15198 15430; G2 AND 15318 15430 15431; G2 XOR 15431 15198 15432; G2 XOR 14946 15203 15433;
  G2 AND 15318 15433 15434; G2 XOR 15434 15203 15435; G2 XOR 14949 15208 15436; G2 AND 15318 15436 15437;
  G2 XOR 15437 15208 15438; G2 XOR 14952 15213 15439; G2 AND 15318 15439 15440; G2 XOR 15440 15213 15441;
  G2 XOR 14955 15218 15442; G2 AND 15318 15442 15443; G2 XOR 15443 15218 15444; G2 XOR 14958 15223 15445;
  G2 AND 15318 15445 15446; G2 XOR 15446 15223 15447; G2 XOR 14961 15228 15448; G2 AND 15318 15448 15449;
  G2 XOR 15449 15228 15450; G2 XOR 14964 15233 15451; G2 AND 15318 15451 15452; G2 XOR 15452 15233 15453;
  G2 XOR 14967 15238 15454; G2 AND 15318 15454 15455; G2 XOR 15455 15238 15456; G2 XOR 14970 15243 15457;
  G2 AND 15318 15457 15458; G2 XOR 15458 15243 15459; G2 XOR 14973 15248 15460; G2 AND 15318 15460 15461;
  G2 XOR 15461 15248 15462; G2 XOR 14976 15253 15463; G2 AND 15318 15463 15464; G2 XOR 15464 15253 15465;
  G2 XOR 14979 15258 15466; G2 AND 15318 15466 15467; G2 XOR 15467 15258 15468; G2 XOR 14982 15263 15469;
  G2 AND 15318 15469 15470; G2 XOR 15470 15263 15471; G2 XOR 14985 15268 15472; G2 AND 15318 15472 15473;
  G2 XOR 15473 15268 15474; G2 XOR 14988 15273 15475; G2 AND 15318 15475 15476; G2 XOR 15476 15273 15477;
  G2 XOR 14991 15278 15478; G2 AND 15318 15478 15479; G2 XOR 15479 15278 15480; G2 XOR 14994 15283 15481;
  G2 AND 15318 15481 15482; G2 XOR 15482 15283 15483; G2 XOR 14997 15288 15484; G2 AND 15318 15484 15485;
  G2 XOR 15485 15288 15486; G2 XOR 15000 15293 15487; G2 AND 15318 15487 15488; G2 XOR 15488 15293 15489;
  G2 XOR 15003 15298 15490; G2 AND 15318 15490 15491; G2 XOR 15491 15298 15492; G2 XOR 15006 15303 15493;
  G2 AND 15318 15493 15494; G2 XOR 15494 15303 15495; G2 XOR 15009 15308 15496; G2 AND 15318 15496 15497;
  G2 XOR 15497 15308 15498; G2 XOR 15012 15313 15499; G2 AND 15318 15499 15500; G2 XOR 15500 15313 15501;
  G1 INV 15318 15502; G2 XOR 2 64 15503; G2 AND 15503 64 15504; G2 XOR 15321 65 15505; G2 XOR 15504 65 15506;
  G2 XOR 15505 15504 15507; G2 AND 15505 15506 15508; G2 XOR 15504 15508 15509; G2 XOR 15324 66 15510;
  G2 XOR 15509 66 15511; G2 XOR 15510 15509 15512; G2 AND 15510 15511 15513; G2 XOR 15509 15513 15514;
  G2 XOR 15327 67 15515; G2 XOR 15514 67 15516; G2 XOR 15515 15514 15517; G2 AND 15515 15516 15518;
  G2 XOR 15514 15518 15519; G2 XOR 15330 68 15520; G2 XOR 15519 68 15521; G2 XOR 15520 15519 15522;
  G2 AND 15520 15521 15523; G2 XOR 15519 15523 15524; G2 XOR 15333 69 15525; G2 XOR 15524 69 15526;
  G2 XOR 15525 15524 15527; G2 AND 15525 15526 15528; G2 XOR 15524 15528 15529; G2 XOR 15336 70 15530;
  G2 XOR 15529 70 15531; G2 XOR 15530 15529 15532; G2 AND 15530 15531 15533; G2 XOR 15529 15533 15534;
  G2 XOR 15339 71 15535; G2 XOR 15534 71 15536; G2 XOR 15535 15534 15537; G2 AND 15535 15536 15538;
  G2 XOR 15534 15538 15539; G2 XOR 15342 72 15540; G2 XOR 15539 72 15541; G2 XOR 15540 15539 15542;
  G2 AND 15540 15541 15543; G2 XOR 15539 15543 15544; G2 XOR 15345 73 15545; G2 XOR 15544 73 15546;
  G2 XOR 15545 15544 15547; G2 AND 15545 15546 15548; G2 XOR 15544 15548 15549; G2 XOR 15348 74 15550;
  G2 XOR 15549 74 15551; G2 XOR 15550 15549 15552; G2 AND 15550 15551 15553; G2 XOR 15549 15553 15554;
  G2 XOR 15351 75 15555; G2 XOR 15554 75 15556; G2 XOR 15555 15554 15557; G2 AND 15555 15556 15558;
  G2 XOR 15554 15558 15559; G2 XOR 15354 76 15560; G2 XOR 15559 76 15561; G2 XOR 15560 15559 15562;
  G2 AND 15560 15561 15563; G2 XOR 15559 15563 15564; G2 XOR 15357 77 15565; G2 XOR 15564 77 15566;
  G2 XOR 15565 15564 15567; G2 AND 15565 15566 15568; G2 XOR 15564 15568 15569; G2 XOR 15360 78 15570;
  G2 XOR 15569 78 15571; G2 XOR 15570 15569 15572; G2 AND 15570 15571 15573; G2 XOR 15569 15573 15574;
  G2 XOR 15363 79 15575; G2 XOR 15574 79 15576; G2 XOR 15575 15574 15577; G2 AND 15575 15576 15578;
  G2 XOR 15574 15578 15579; G2 XOR 15366 80 15580; G2 XOR 15579 80 15581; G2 XOR 15580 15579 15582;
  G2 AND 15580 15581 15583; G2 XOR 15579 15583 15584; G2 XOR 15369 81 15585; G2 XOR 15584 81 15586;
  G2 XOR 15585 15584 15587; G2 AND 15585 15586 15588; G2 XOR 15584 15588 15589; G2 XOR 15372 82 15590;
  G2 XOR 15589 82 15591; G2 XOR 15590 15589 15592; G2 AND 15590 15591 15593; G2 XOR 15589 15593 15594;
  G2 XOR 15375 83 15595; G2 XOR 15594 83 15596; G2 XOR 15595 15594 15597; G2 AND 15595 15596 15598;
  G2 XOR 15594 15598 15599; G2 XOR 15378 84 15600; G2 XOR 15599 84 15601; G2 XOR 15600 15599 15602;
  G2 AND 15600 15601 15603; G2 XOR 15599 15603 15604; G2 XOR 15381 85 15605; G2 XOR 15604 85 15606;
  G2 XOR 15605 15604 15607; G2 AND 15605 15606 15608; G2 XOR 15604 15608 15609; G2 XOR 15384 86 15610;
  G2 XOR 15609 86 15611; G2 XOR 15610 15609 15612; G2 AND 15610 15611 15613; G2 XOR 15609 15613 15614;
  G2 XOR 15387 87 15615; G2 XOR 15614 87 15616; G2 XOR 15615 15614 15617; G2 AND 15615 15616 15618;
  G2 XOR 15614 15618 15619; G2 XOR 15390 88 15620; G2 XOR 15619 88 15621; G2 XOR 15620 15619 15622;
  G2 AND 15620 15621 15623; G2 XOR 15619 15623 15624; G2 XOR 15393 89 15625; G2 XOR 15624 89 15626;
  G2 XOR 15625 15624 15627; G2 AND 15625 15626 15628; G2 XOR 15624 15628 15629; G2 XOR 15396 90 15630;
  G2 XOR 15629 90 15631; G2 XOR 15630 15629 15632; G2 AND 15630 15631 15633; G2 XOR 15629 15633 15634;
  G2 XOR 15399 91 15635; G2 XOR 15634 91 15636; G2 XOR 15635 15634 15637; G2 AND 15635 15636 15638;
  G2 XOR 15634 15638 15639; G2 XOR 15402 92 15640; G2 XOR 15639 92 15641; G2 XOR 15640 15639 15642;
  G2 AND 15640 15641 15643; G2 XOR 15639 15643 15644; G2 XOR 15405 93 15645; G2 XOR 15644 93 15646;
  G2 XOR 15645 15644 15647; G2 AND 15645 15646 15648; G2 XOR 15644 15648 15649; G2 XOR 15408 94 15650;
  G2 XOR 15649 94 15651; G2 XOR 15650 15649 15652; G2 AND 15650 15651 15653; G2 XOR 15649 15653 15654;
  G2 XOR 15411 95 15655; G2 XOR 15654 95 15656; G2 XOR 15655 15654 15657; G2 AND 15655 15656 15658;
  G2 XOR 15654 15658 15659; G2 XOR 15414 96 15660; G2 XOR 15659 96 15661; G2 XOR 15660 15659 15662;
  G2 AND 15660 15661 15663; G2 XOR 15659 15663 15664; G2 XOR 15417 97 15665; G2 XOR 15664 97 15666;
  G2 XOR 15665 15664 15667; G2 AND 15665 15666 15668; G2 XOR 15664 15668 15669; G2 XOR 15420 98 15670;
  G2 XOR 15669 98 15671; G2 XOR 15670 15669 15672; G2 AND 15670 15671 15673; G2 XOR 15669 15673 15674;
  G2 XOR 15423 99 15675; G2 XOR 15674 99 15676; G2 XOR 15675 15674 15677; G2 AND 15675 15676 15678;
  G2 XOR 15674 15678 15679; G2 XOR 15426 100 15680; G2 XOR 15679 100 15681; G2 XOR 15680 15679 15682;
  G2 AND 15680 15681 15683; G2 XOR 15679 15683 15684; G2 XOR 15429 101 15685; G2 XOR 15684 101 15686;
  G2 XOR 15685 15684 15687; G2 AND 15685 15686 15688; G2 XOR 15684 15688 15689; G2 XOR 15432 102 15690;
  G2 XOR 15689 102 15691; G2 XOR 15690 15689 15692; G2 AND 15690 15691 15693; G2 XOR 15689 15693 15694;
  G2 XOR 15435 103 15695; G2 XOR 15694 103 15696; G2 XOR 15695 15694 15697; G2 AND 15695 15696 15698;
  G2 XOR 15694 15698 15699; G2 XOR 15438 104 15700; G2 XOR 15699 104 15701; G2 XOR 15700 15699 15702;
  G2 AND 15700 15701 15703; G2 XOR 15699 15703 15704; G2 XOR 15441 105 15705; G2 XOR 15704 105 15706;
  G2 XOR 15705 15704 15707; G2 AND 15705 15706 15708; G2 XOR 15704 15708 15709; G2 XOR 15444 106 15710;
  G2 XOR 15709 106 15711; G2 XOR 15710 15709 15712; G2 AND 15710 15711 15713; G2 XOR 15709 15713 15714;
  G2 XOR 15447 107 15715; G2 XOR 15714 107 15716; G2 XOR 15715 15714 15717; G2 AND 15715 15716 15718;
  G2 XOR 15714 15718 15719; G2 XOR 15450 108 15720; G2 XOR 15719 108 15721; G2 XOR 15720 15719 15722;
  G2 AND 15720 15721 15723; G2 XOR 15719 15723 15724; G2 XOR 15453 109 15725; G2 XOR 15724 109 15726;
  G2 XOR 15725 15724 15727; G2 AND 15725 15726 15728; G2 XOR 15724 15728 15729; G2 XOR 15456 110 15730;
  G2 XOR 15729 110 15731; G2 XOR 15730 15729 15732; G2 AND 15730 15731 15733; G2 XOR 15729 15733 15734;
  G2 XOR 15459 111 15735; G2 XOR 15734 111 15736; G2 XOR 15735 15734 15737; G2 AND 15735 15736 15738;
  G2 XOR 15734 15738 15739; G2 XOR 15462 112 15740; G2 XOR 15739 112 15741; G2 XOR 15740 15739 15742;
  G2 AND 15740 15741 15743; G2 XOR 15739 15743 15744; G2 XOR 15465 113 15745; G2 XOR 15744 113 15746;
  G2 XOR 15745 15744 15747; G2 AND 15745 15746 15748; G2 XOR 15744 15748 15749; G2 XOR 15468 114 15750;
  G2 XOR 15749 114 15751; G2 XOR 15750 15749 15752; G2 AND 15750 15751 15753; G2 XOR 15749 15753 15754;
  G2 XOR 15471 115 15755; G2 XOR 15754 115 15756; G2 XOR 15755 15754 15757; G2 AND 15755 15756 15758;
  G2 XOR 15754 15758 15759; G2 XOR 15474 116 15760; G2 XOR 15759 116 15761; G2 XOR 15760 15759 15762;
  G2 AND 15760 15761 15763; G2 XOR 15759 15763 15764; G2 XOR 15477 117 15765; G2 XOR 15764 117 15766;
  G2 XOR 15765 15764 15767; G2 AND 15765 15766 15768; G2 XOR 15764 15768 15769; G2 XOR 15480 118 15770;
  G2 XOR 15769 118 15771; G2 XOR 15770 15769 15772; G2 AND 15770 15771 15773; G2 XOR 15769 15773 15774;
  G2 XOR 15483 119 15775; G2 XOR 15774 119 15776; G2 XOR 15775 15774 15777; G2 AND 15775 15776 15778;
  G2 XOR 15774 15778 15779; G2 XOR 15486 120 15780; G2 XOR 15779 120 15781; G2 XOR 15780 15779 15782;
  G2 AND 15780 15781 15783; G2 XOR 15779 15783 15784; G2 XOR 15489 121 15785; G2 XOR 15784 121 15786;
  G2 XOR 15785 15784 15787; G2 AND 15785 15786 15788; G2 XOR 15784 15788 15789; G2 XOR 15492 122 15790;
  G2 XOR 15789 122 15791; G2 XOR 15790 15789 15792; G2 AND 15790 15791 15793; G2 XOR 15789 15793 15794;
  G2 XOR 15495 123 15795; G2 XOR 15794 123 15796; G2 XOR 15795 15794 15797; G2 AND 15795 15796 15798;
  G2 XOR 15794 15798 15799; G2 XOR 15498 124 15800; G2 XOR 15799 124 15801; G2 XOR 15800 15799 15802;
  G2 AND 15800 15801 15803; G2 XOR 15799 15803 15804; G2 XOR 15501 125 15805; G2 XOR 15804 125 15806;
  G2 XOR 15805 15804 15807; G2 AND 15805 15806 15808; G2 XOR 15804 15808 15809; G2 AND 15809 130 15810;
  G2 XOR 15809 130 15811; G2 XOR 15811 15810 15812; G2 XOR 2 15503 15813; G2 AND 15812 15813 15814;
  G2 XOR 15814 15503 15815; G2 XOR 15321 15507 15816; G2 AND 15812 15816 15817; G2 XOR 15817 15507 15818;
  G2 XOR 15324 15512 15819; G2 AND 15812 15819 15820; G2 XOR 15820 15512 15821; G2 XOR 15327 15517 15822;
  G2 AND 15812 15822 15823; G2 XOR 15823 15517 15824; G2 XOR 15330 15522 15825; G2 AND 15812 15825 15826;
  G2 XOR 15826 15522 15827; G2 XOR 15333 15527 15828; G2 AND 15812 15828 15829; G2 XOR 15829 15527 15830;
  G2 XOR 15336 15532 15831; G2 AND 15812 15831 15832; G2 XOR 15832 15532 15833; G2 XOR 15339 15537 15834;
  G2 AND 15812 15834 15835; G2 XOR 15835 15537 15836; G2 XOR 15342 15542 15837; G2 AND 15812 15837 15838;
  G2 XOR 15838 15542 15839; G2 XOR 15345 15547 15840; G2 AND 15812 15840 15841; G2 XOR 15841 15547 15842;
  G2 XOR 15348 15552 15843; G2 AND 15812 15843 15844; G2 XOR 15844 15552 15845; G2 XOR 15351 15557 15846;
  G2 AND 15812 15846 15847; G2 XOR 15847 15557 15848; G2 XOR 15354 15562 15849; G2 AND 15812 15849 15850;
  G2 XOR 15850 15562 15851; G2 XOR 15357 15567 15852; G2 AND 15812 15852 15853; G2 XOR 15853 15567 15854;
  G2 XOR 15360 15572 15855; G2 AND 15812 15855 15856; G2 XOR 15856 15572 15857; G2 XOR 15363 15577 15858;
  G2 AND 15812 15858 15859; G2 XOR 15859 15577 15860; G2 XOR 15366 15582 15861; G2 AND 15812 15861 15862;
  G2 XOR 15862 15582 15863; G2 XOR 15369 15587 15864; G2 AND 15812 15864 15865; G2 XOR 15865 15587 15866;
  G2 XOR 15372 15592 15867; G2 AND 15812 15867 15868; G2 XOR 15868 15592 15869; G2 XOR 15375 15597 15870;
  G2 AND 15812 15870 15871; G2 XOR 15871 15597 15872; G2 XOR 15378 15602 15873; G2 AND 15812 15873 15874;
  G2 XOR 15874 15602 15875; G2 XOR 15381 15607 15876; G2 AND 15812 15876 15877; G2 XOR 15877 15607 15878;
  G2 XOR 15384 15612 15879; G2 AND 15812 15879 15880; G2 XOR 15880 15612 15881; G2 XOR 15387 15617 15882;
  G2 AND 15812 15882 15883; G2 XOR 15883 15617 15884; G2 XOR 15390 15622 15885; G2 AND 15812 15885 15886;
  G2 XOR 15886 15622 15887; G2 XOR 15393 15627 15888; G2 AND 15812 15888 15889; G2 XOR 15889 15627 15890;
  G2 XOR 15396 15632 15891; G2 AND 15812 15891 15892; G2 XOR 15892 15632 15893; G2 XOR 15399 15637 15894;
  G2 AND 15812 15894 15895; G2 XOR 15895 15637 15896; G2 XOR 15402 15642 15897; G2 AND 15812 15897 15898;
  G2 XOR 15898 15642 15899; G2 XOR 15405 15647 15900; G2 AND 15812 15900 15901; G2 XOR 15901 15647 15902;
  G2 XOR 15408 15652 15903; G2 AND 15812 15903 15904; G2 XOR 15904 15652 15905; G2 XOR 15411 15657 15906;
  G2 AND 15812 15906 15907; G2 XOR 15907 15657 15908; G2 XOR 15414 15662 15909; G2 AND 15812 15909 15910;
  G2 XOR 15910 15662 15911; G2 XOR 15417 15667 15912; G2 AND 15812 15912 15913; G2 XOR 15913 15667 15914;
  G2 XOR 15420 15672 15915; G2 AND 15812 15915 15916; G2 XOR 15916 15672 15917; G2 XOR 15423 15677 15918;
  G2 AND 15812 15918 15919; G2 XOR 15919 15677 15920; G2 XOR 15426 15682 15921; G2 AND 15812 15921 15922;
  G2 XOR 15922 15682 15923; G2 XOR 15429 15687 15924; G2 AND 15812 15924 15925; G2 XOR 15925 15687 15926;
  G2 XOR 15432 15692 15927; G2 AND 15812 15927 15928; G2 XOR 15928 15692 15929; G2 XOR 15435 15697 15930;
  G2 AND 15812 15930 15931; G2 XOR 15931 15697 15932; G2 XOR 15438 15702 15933; G2 AND 15812 15933 15934;
  G2 XOR 15934 15702 15935; G2 XOR 15441 15707 15936; G2 AND 15812 15936 15937; G2 XOR 15937 15707 15938;
  G2 XOR 15444 15712 15939; G2 AND 15812 15939 15940; G2 XOR 15940 15712 15941; G2 XOR 15447 15717 15942;
  G2 AND 15812 15942 15943; G2 XOR 15943 15717 15944; G2 XOR 15450 15722 15945; G2 AND 15812 15945 15946;
  G2 XOR 15946 15722 15947; G2 XOR 15453 15727 15948; G2 AND 15812 15948 15949; G2 XOR 15949 15727 15950;
  G2 XOR 15456 15732 15951; G2 AND 15812 15951 15952; G2 XOR 15952 15732 15953; G2 XOR 15459 15737 15954;
  G2 AND 15812 15954 15955; G2 XOR 15955 15737 15956; G2 XOR 15462 15742 15957; G2 AND 15812 15957 15958;
  G2 XOR 15958 15742 15959; G2 XOR 15465 15747 15960; G2 AND 15812 15960 15961; G2 XOR 15961 15747 15962;
  G2 XOR 15468 15752 15963; G2 AND 15812 15963 15964; G2 XOR 15964 15752 15965; G2 XOR 15471 15757 15966;
  G2 AND 15812 15966 15967; G2 XOR 15967 15757 15968; G2 XOR 15474 15762 15969; G2 AND 15812 15969 15970;
  G2 XOR 15970 15762 15971; G2 XOR 15477 15767 15972; G2 AND 15812 15972 15973; G2 XOR 15973 15767 15974;
  G2 XOR 15480 15772 15975; G2 AND 15812 15975 15976; G2 XOR 15976 15772 15977; G2 XOR 15483 15777 15978;
  G2 AND 15812 15978 15979; G2 XOR 15979 15777 15980; G2 XOR 15486 15782 15981; G2 AND 15812 15981 15982;
  G2 XOR 15982 15782 15983; G2 XOR 15489 15787 15984; G2 AND 15812 15984 15985; G2 XOR 15985 15787 15986;
  G2 XOR 15492 15792 15987; G2 AND 15812 15987 15988; G2 XOR 15988 15792 15989; G2 XOR 15495 15797 15990;
  G2 AND 15812 15990 15991; G2 XOR 15991 15797 15992; G2 XOR 15498 15802 15993; G2 AND 15812 15993 15994;
  G2 XOR 15994 15802 15995; G2 XOR 15501 15807 15996; G2 AND 15812 15996 15997; G2 XOR 15997 15807 15998;
  G1 INV 15812 15999; G2 XOR 1 64 16000; G2 AND 16000 64 16001; G2 XOR 15815 65 16002; G2 XOR 16001 65 16003;
  G2 XOR 16002 16001 16004; G2 AND 16002 16003 16005; G2 XOR 16001 16005 16006; G2 XOR 15818 66 16007;
  G2 XOR 16006 66 16008; G2 XOR 16007 16006 16009; G2 AND 16007 16008 16010; G2 XOR 16006 16010 16011;
  G2 XOR 15821 67 16012; G2 XOR 16011 67 16013; G2 XOR 16012 16011 16014; G2 AND 16012 16013 16015;
  G2 XOR 16011 16015 16016; G2 XOR 15824 68 16017; G2 XOR 16016 68 16018; G2 XOR 16017 16016 16019;
  G2 AND 16017 16018 16020; G2 XOR 16016 16020 16021; G2 XOR 15827 69 16022; G2 XOR 16021 69 16023;
  G2 XOR 16022 16021 16024; G2 AND 16022 16023 16025; G2 XOR 16021 16025 16026; G2 XOR 15830 70 16027;
  G2 XOR 16026 70 16028; G2 XOR 16027 16026 16029; G2 AND 16027 16028 16030; G2 XOR 16026 16030 16031;
  G2 XOR 15833 71 16032; G2 XOR 16031 71 16033; G2 XOR 16032 16031 16034; G2 AND 16032 16033 16035;
  G2 XOR 16031 16035 16036; G2 XOR 15836 72 16037; G2 XOR 16036 72 16038; G2 XOR 16037 16036 16039;
  G2 AND 16037 16038 16040; G2 XOR 16036 16040 16041; G2 XOR 15839 73 16042; G2 XOR 16041 73 16043;
  G2 XOR 16042 16041 16044; G2 AND 16042 16043 16045; G2 XOR 16041 16045 16046; G2 XOR 15842 74 16047;
  G2 XOR 16046 74 16048; G2 XOR 16047 16046 16049; G2 AND 16047 16048 16050; G2 XOR 16046 16050 16051;
  G2 XOR 15845 75 16052; G2 XOR 16051 75 16053; G2 XOR 16052 16051 16054; G2 AND 16052 16053 16055;
  G2 XOR 16051 16055 16056; G2 XOR 15848 76 16057; G2 XOR 16056 76 16058; G2 XOR 16057 16056 16059;
  G2 AND 16057 16058 16060; G2 XOR 16056 16060 16061; G2 XOR 15851 77 16062; G2 XOR 16061 77 16063;
  G2 XOR 16062 16061 16064; G2 AND 16062 16063 16065; G2 XOR 16061 16065 16066; G2 XOR 15854 78 16067;
  G2 XOR 16066 78 16068; G2 XOR 16067 16066 16069; G2 AND 16067 16068 16070; G2 XOR 16066 16070 16071;
  G2 XOR 15857 79 16072; G2 XOR 16071 79 16073; G2 XOR 16072 16071 16074; G2 AND 16072 16073 16075;
  G2 XOR 16071 16075 16076; G2 XOR 15860 80 16077; G2 XOR 16076 80 16078; G2 XOR 16077 16076 16079;
  G2 AND 16077 16078 16080; G2 XOR 16076 16080 16081; G2 XOR 15863 81 16082; G2 XOR 16081 81 16083;
  G2 XOR 16082 16081 16084; G2 AND 16082 16083 16085; G2 XOR 16081 16085 16086; G2 XOR 15866 82 16087;
  G2 XOR 16086 82 16088; G2 XOR 16087 16086 16089; G2 AND 16087 16088 16090; G2 XOR 16086 16090 16091;
  G2 XOR 15869 83 16092; G2 XOR 16091 83 16093; G2 XOR 16092 16091 16094; G2 AND 16092 16093 16095;
  G2 XOR 16091 16095 16096; G2 XOR 15872 84 16097; G2 XOR 16096 84 16098; G2 XOR 16097 16096 16099;
  G2 AND 16097 16098 16100; G2 XOR 16096 16100 16101; G2 XOR 15875 85 16102; G2 XOR 16101 85 16103;
  G2 XOR 16102 16101 16104; G2 AND 16102 16103 16105; G2 XOR 16101 16105 16106; G2 XOR 15878 86 16107;
  G2 XOR 16106 86 16108; G2 XOR 16107 16106 16109; G2 AND 16107 16108 16110; G2 XOR 16106 16110 16111;
  G2 XOR 15881 87 16112; G2 XOR 16111 87 16113; G2 XOR 16112 16111 16114; G2 AND 16112 16113 16115;
  G2 XOR 16111 16115 16116; G2 XOR 15884 88 16117; G2 XOR 16116 88 16118; G2 XOR 16117 16116 16119;
  G2 AND 16117 16118 16120; G2 XOR 16116 16120 16121; G2 XOR 15887 89 16122; G2 XOR 16121 89 16123;
  G2 XOR 16122 16121 16124; G2 AND 16122 16123 16125; G2 XOR 16121 16125 16126; G2 XOR 15890 90 16127;
  G2 XOR 16126 90 16128; G2 XOR 16127 16126 16129; G2 AND 16127 16128 16130; G2 XOR 16126 16130 16131;
  G2 XOR 15893 91 16132; G2 XOR 16131 91 16133; G2 XOR 16132 16131 16134; G2 AND 16132 16133 16135;
  G2 XOR 16131 16135 16136; G2 XOR 15896 92 16137; G2 XOR 16136 92 16138; G2 XOR 16137 16136 16139;
  G2 AND 16137 16138 16140; G2 XOR 16136 16140 16141; G2 XOR 15899 93 16142; G2 XOR 16141 93 16143;
  G2 XOR 16142 16141 16144; G2 AND 16142 16143 16145; G2 XOR 16141 16145 16146; G2 XOR 15902 94 16147;
  G2 XOR 16146 94 16148; G2 XOR 16147 16146 16149; G2 AND 16147 16148 16150; G2 XOR 16146 16150 16151;
  G2 XOR 15905 95 16152; G2 XOR 16151 95 16153; G2 XOR 16152 16151 16154; G2 AND 16152 16153 16155;
  G2 XOR 16151 16155 16156; G2 XOR 15908 96 16157; G2 XOR 16156 96 16158; G2 XOR 16157 16156 16159;
  G2 AND 16157 16158 16160; G2 XOR 16156 16160 16161; G2 XOR 15911 97 16162; G2 XOR 16161 97 16163;
  G2 XOR 16162 16161 16164; G2 AND 16162 16163 16165; G2 XOR 16161 16165 16166; G2 XOR 15914 98 16167;
  G2 XOR 16166 98 16168; G2 XOR 16167 16166 16169; G2 AND 16167 16168 16170; G2 XOR 16166 16170 16171;
  G2 XOR 15917 99 16172; G2 XOR 16171 99 16173; G2 XOR 16172 16171 16174; G2 AND 16172 16173 16175;
  G2 XOR 16171 16175 16176; G2 XOR 15920 100 16177; G2 XOR 16176 100 16178; G2 XOR 16177 16176 16179;
  G2 AND 16177 16178 16180; G2 XOR 16176 16180 16181; G2 XOR 15923 101 16182; G2 XOR 16181 101 16183;
  G2 XOR 16182 16181 16184; G2 AND 16182 16183 16185; G2 XOR 16181 16185 16186; G2 XOR 15926 102 16187;
  G2 XOR 16186 102 16188; G2 XOR 16187 16186 16189; G2 AND 16187 16188 16190; G2 XOR 16186 16190 16191;
  G2 XOR 15929 103 16192; G2 XOR 16191 103 16193; G2 XOR 16192 16191 16194; G2 AND 16192 16193 16195;
  G2 XOR 16191 16195 16196; G2 XOR 15932 104 16197; G2 XOR 16196 104 16198; G2 XOR 16197 16196 16199;
  G2 AND 16197 16198 16200; G2 XOR 16196 16200 16201; G2 XOR 15935 105 16202; G2 XOR 16201 105 16203;
  G2 XOR 16202 16201 16204; G2 AND 16202 16203 16205; G2 XOR 16201 16205 16206; G2 XOR 15938 106 16207;
  G2 XOR 16206 106 16208; G2 XOR 16207 16206 16209; G2 AND 16207 16208 16210; G2 XOR 16206 16210 16211;
  G2 XOR 15941 107 16212; G2 XOR 16211 107 16213; G2 XOR 16212 16211 16214; G2 AND 16212 16213 16215;
  G2 XOR 16211 16215 16216; G2 XOR 15944 108 16217; G2 XOR 16216 108 16218; G2 XOR 16217 16216 16219;
  G2 AND 16217 16218 16220; G2 XOR 16216 16220 16221; G2 XOR 15947 109 16222; G2 XOR 16221 109 16223;
  G2 XOR 16222 16221 16224; G2 AND 16222 16223 16225; G2 XOR 16221 16225 16226; G2 XOR 15950 110 16227;
  G2 XOR 16226 110 16228; G2 XOR 16227 16226 16229; G2 AND 16227 16228 16230; G2 XOR 16226 16230 16231;
  G2 XOR 15953 111 16232; G2 XOR 16231 111 16233; G2 XOR 16232 16231 16234; G2 AND 16232 16233 16235;
  G2 XOR 16231 16235 16236; G2 XOR 15956 112 16237; G2 XOR 16236 112 16238; G2 XOR 16237 16236 16239;
  G2 AND 16237 16238 16240; G2 XOR 16236 16240 16241; G2 XOR 15959 113 16242; G2 XOR 16241 113 16243;
  G2 XOR 16242 16241 16244; G2 AND 16242 16243 16245; G2 XOR 16241 16245 16246; G2 XOR 15962 114 16247;
  G2 XOR 16246 114 16248; G2 XOR 16247 16246 16249; G2 AND 16247 16248 16250; G2 XOR 16246 16250 16251;
  G2 XOR 15965 115 16252; G2 XOR 16251 115 16253; G2 XOR 16252 16251 16254; G2 AND 16252 16253 16255;
  G2 XOR 16251 16255 16256; G2 XOR 15968 116 16257; G2 XOR 16256 116 16258; G2 XOR 16257 16256 16259;
  G2 AND 16257 16258 16260; G2 XOR 16256 16260 16261; G2 XOR 15971 117 16262; G2 XOR 16261 117 16263;
  G2 XOR 16262 16261 16264; G2 AND 16262 16263 16265; G2 XOR 16261 16265 16266; G2 XOR 15974 118 16267;
  G2 XOR 16266 118 16268; G2 XOR 16267 16266 16269; G2 AND 16267 16268 16270; G2 XOR 16266 16270 16271;
  G2 XOR 15977 119 16272; G2 XOR 16271 119 16273; G2 XOR 16272 16271 16274; G2 AND 16272 16273 16275;
  G2 XOR 16271 16275 16276; G2 XOR 15980 120 16277; G2 XOR 16276 120 16278; G2 XOR 16277 16276 16279;
  G2 AND 16277 16278 16280; G2 XOR 16276 16280 16281; G2 XOR 15983 121 16282; G2 XOR 16281 121 16283;
  G2 XOR 16282 16281 16284; G2 AND 16282 16283 16285; G2 XOR 16281 16285 16286; G2 XOR 15986 122 16287;
  G2 XOR 16286 122 16288; G2 XOR 16287 16286 16289; G2 AND 16287 16288 16290; G2 XOR 16286 16290 16291;
  G2 XOR 15989 123 16292; G2 XOR 16291 123 16293; G2 XOR 16292 16291 16294; G2 AND 16292 16293 16295;
  G2 XOR 16291 16295 16296; G2 XOR 15992 124 16297; G2 XOR 16296 124 16298; G2 XOR 16297 16296 16299;
  G2 AND 16297 16298 16300; G2 XOR 16296 16300 16301; G2 XOR 15995 125 16302; G2 XOR 16301 125 16303;
  G2 XOR 16302 16301 16304; G2 AND 16302 16303 16305; G2 XOR 16301 16305 16306; G2 XOR 15998 126 16307;
  G2 XOR 16306 126 16308; G2 XOR 16307 16306 16309; G2 AND 16307 16308 16310; G2 XOR 16306 16310 16311;
  G2 AND 16311 127 16312; G2 XOR 16311 127 16313; G2 XOR 16313 16312 16314; G2 XOR 1 16000 16315;
  G2 AND 16314 16315 16316; G2 XOR 16316 16000 16317; G2 XOR 15815 16004 16318; G2 AND 16314 16318 16319;
  G2 XOR 16319 16004 16320; G2 XOR 15818 16009 16321; G2 AND 16314 16321 16322; G2 XOR 16322 16009 16323;
  G2 XOR 15821 16014 16324; G2 AND 16314 16324 16325; G2 XOR 16325 16014 16326; G2 XOR 15824 16019 16327;
  G2 AND 16314 16327 16328; G2 XOR 16328 16019 16329; G2 XOR 15827 16024 16330; G2 AND 16314 16330 16331;
  G2 XOR 16331 16024 16332; G2 XOR 15830 16029 16333; G2 AND 16314 16333 16334; G2 XOR 16334 16029 16335;
  G2 XOR 15833 16034 16336; G2 AND 16314 16336 16337; G2 XOR 16337 16034 16338; G2 XOR 15836 16039 16339;
  G2 AND 16314 16339 16340; G2 XOR 16340 16039 16341; G2 XOR 15839 16044 16342; G2 AND 16314 16342 16343;
  G2 XOR 16343 16044 16344; G2 XOR 15842 16049 16345; G2 AND 16314 16345 16346; G2 XOR 16346 16049 16347;
  G2 XOR 15845 16054 16348; G2 AND 16314 16348 16349; G2 XOR 16349 16054 16350; G2 XOR 15848 16059 16351;
  G2 AND 16314 16351 16352; G2 XOR 16352 16059 16353; G2 XOR 15851 16064 16354; G2 AND 16314 16354 16355;
  G2 XOR 16355 16064 16356; G2 XOR 15854 16069 16357; G2 AND 16314 16357 16358; G2 XOR 16358 16069 16359;
  G2 XOR 15857 16074 16360; G2 AND 16314 16360 16361; G2 XOR 16361 16074 16362; G2 XOR 15860 16079 16363;
  G2 AND 16314 16363 16364; G2 XOR 16364 16079 16365; G2 XOR 15863 16084 16366; G2 AND 16314 16366 16367;
  G2 XOR 16367 16084 16368; G2 XOR 15866 16089 16369; G2 AND 16314 16369 16370; G2 XOR 16370 16089 16371;
  G2 XOR 15869 16094 16372; G2 AND 16314 16372 16373; G2 XOR 16373 16094 16374; G2 XOR 15872 16099 16375;
  G2 AND 16314 16375 16376; G2 XOR 16376 16099 16377; G2 XOR 15875 16104 16378; G2 AND 16314 16378 16379;
  G2 XOR 16379 16104 16380; G2 XOR 15878 16109 16381; G2 AND 16314 16381 16382; G2 XOR 16382 16109 16383;
  G2 XOR 15881 16114 16384; G2 AND 16314 16384 16385; G2 XOR 16385 16114 16386; G2 XOR 15884 16119 16387;
  G2 AND 16314 16387 16388; G2 XOR 16388 16119 16389; G2 XOR 15887 16124 16390; G2 AND 16314 16390 16391;
  G2 XOR 16391 16124 16392; G2 XOR 15890 16129 16393; G2 AND 16314 16393 16394; G2 XOR 16394 16129 16395;
  G2 XOR 15893 16134 16396; G2 AND 16314 16396 16397; G2 XOR 16397 16134 16398; G2 XOR 15896 16139 16399;
  G2 AND 16314 16399 16400; G2 XOR 16400 16139 16401; G2 XOR 15899 16144 16402; G2 AND 16314 16402 16403;
  G2 XOR 16403 16144 16404; G2 XOR 15902 16149 16405; G2 AND 16314 16405 16406; G2 XOR 16406 16149 16407;
  G2 XOR 15905 16154 16408; G2 AND 16314 16408 16409; G2 XOR 16409 16154 16410; G2 XOR 15908 16159 16411;
  G2 AND 16314 16411 16412; G2 XOR 16412 16159 16413; G2 XOR 15911 16164 16414; G2 AND 16314 16414 16415;
  G2 XOR 16415 16164 16416; G2 XOR 15914 16169 16417; G2 AND 16314 16417 16418; G2 XOR 16418 16169 16419;
  G2 XOR 15917 16174 16420; G2 AND 16314 16420 16421; G2 XOR 16421 16174 16422; G2 XOR 15920 16179 16423;
  G2 AND 16314 16423 16424; G2 XOR 16424 16179 16425; G2 XOR 15923 16184 16426; G2 AND 16314 16426 16427;
  G2 XOR 16427 16184 16428; G2 XOR 15926 16189 16429; G2 AND 16314 16429 16430; G2 XOR 16430 16189 16431;
  G2 XOR 15929 16194 16432; G2 AND 16314 16432 16433; G2 XOR 16433 16194 16434; G2 XOR 15932 16199 16435;
  G2 AND 16314 16435 16436; G2 XOR 16436 16199 16437; G2 XOR 15935 16204 16438; G2 AND 16314 16438 16439;
  G2 XOR 16439 16204 16440; G2 XOR 15938 16209 16441; G2 AND 16314 16441 16442; G2 XOR 16442 16209 16443;
  G2 XOR 15941 16214 16444; G2 AND 16314 16444 16445; G2 XOR 16445 16214 16446; G2 XOR 15944 16219 16447;
  G2 AND 16314 16447 16448; G2 XOR 16448 16219 16449; G2 XOR 15947 16224 16450; G2 AND 16314 16450 16451;
  G2 XOR 16451 16224 16452; G2 XOR 15950 16229 16453; G2 AND 16314 16453 16454; G2 XOR 16454 16229 16455;
  G2 XOR 15953 16234 16456; G2 AND 16314 16456 16457; G2 XOR 16457 16234 16458; G2 XOR 15956 16239 16459;
  G2 AND 16314 16459 16460; G2 XOR 16460 16239 16461; G2 XOR 15959 16244 16462; G2 AND 16314 16462 16463;
  G2 XOR 16463 16244 16464; G2 XOR 15962 16249 16465; G2 AND 16314 16465 16466; G2 XOR 16466 16249 16467;
  G2 XOR 15965 16254 16468; G2 AND 16314 16468 16469; G2 XOR 16469 16254 16470; G2 XOR 15968 16259 16471;
  G2 AND 16314 16471 16472; G2 XOR 16472 16259 16473; G2 XOR 15971 16264 16474; G2 AND 16314 16474 16475;
  G2 XOR 16475 16264 16476; G2 XOR 15974 16269 16477; G2 AND 16314 16477 16478; G2 XOR 16478 16269 16479;
  G2 XOR 15977 16274 16480; G2 AND 16314 16480 16481; G2 XOR 16481 16274 16482; G2 XOR 15980 16279 16483;
  G2 AND 16314 16483 16484; G2 XOR 16484 16279 16485; G2 XOR 15983 16284 16486; G2 AND 16314 16486 16487;
  G2 XOR 16487 16284 16488; G2 XOR 15986 16289 16489; G2 AND 16314 16489 16490; G2 XOR 16490 16289 16491;
  G2 XOR 15989 16294 16492; G2 AND 16314 16492 16493; G2 XOR 16493 16294 16494; G2 XOR 15992 16299 16495;
  G2 AND 16314 16495 16496; G2 XOR 16496 16299 16497; G2 XOR 15995 16304 16498; G2 AND 16314 16498 16499;
  G2 XOR 16499 16304 16500; G2 XOR 15998 16309 16501; G2 AND 16314 16501 16502; G2 XOR 16502 16309 16503;
  G1 INV 16314 16504; G2 XOR 0 64 16505; G2 AND 16505 64 16506; G2 XOR 16317 65 16507; G2 XOR 16506 65 16508;
  G2 XOR 16507 16506 16509; G2 AND 16507 16508 16510; G2 XOR 16506 16510 16511; G2 XOR 16320 66 16512;
  G2 XOR 16511 66 16513; G2 XOR 16512 16511 16514; G2 AND 16512 16513 16515; G2 XOR 16511 16515 16516;
  G2 XOR 16323 67 16517; G2 XOR 16516 67 16518; G2 XOR 16517 16516 16519; G2 AND 16517 16518 16520;
  G2 XOR 16516 16520 16521; G2 XOR 16326 68 16522; G2 XOR 16521 68 16523; G2 XOR 16522 16521 16524;
  G2 AND 16522 16523 16525; G2 XOR 16521 16525 16526; G2 XOR 16329 69 16527; G2 XOR 16526 69 16528;
  G2 XOR 16527 16526 16529; G2 AND 16527 16528 16530; G2 XOR 16526 16530 16531; G2 XOR 16332 70 16532;
  G2 XOR 16531 70 16533; G2 XOR 16532 16531 16534; G2 AND 16532 16533 16535; G2 XOR 16531 16535 16536;
  G2 XOR 16335 71 16537; G2 XOR 16536 71 16538; G2 XOR 16537 16536 16539; G2 AND 16537 16538 16540;
  G2 XOR 16536 16540 16541; G2 XOR 16338 72 16542; G2 XOR 16541 72 16543; G2 XOR 16542 16541 16544;
  G2 AND 16542 16543 16545; G2 XOR 16541 16545 16546; G2 XOR 16341 73 16547; G2 XOR 16546 73 16548;
  G2 XOR 16547 16546 16549; G2 AND 16547 16548 16550; G2 XOR 16546 16550 16551; G2 XOR 16344 74 16552;
  G2 XOR 16551 74 16553; G2 XOR 16552 16551 16554; G2 AND 16552 16553 16555; G2 XOR 16551 16555 16556;
  G2 XOR 16347 75 16557; G2 XOR 16556 75 16558; G2 XOR 16557 16556 16559; G2 AND 16557 16558 16560;
  G2 XOR 16556 16560 16561; G2 XOR 16350 76 16562; G2 XOR 16561 76 16563; G2 XOR 16562 16561 16564;
  G2 AND 16562 16563 16565; G2 XOR 16561 16565 16566; G2 XOR 16353 77 16567; G2 XOR 16566 77 16568;
  G2 XOR 16567 16566 16569; G2 AND 16567 16568 16570; G2 XOR 16566 16570 16571; G2 XOR 16356 78 16572;
  G2 XOR 16571 78 16573; G2 XOR 16572 16571 16574; G2 AND 16572 16573 16575; G2 XOR 16571 16575 16576;
  G2 XOR 16359 79 16577; G2 XOR 16576 79 16578; G2 XOR 16577 16576 16579; G2 AND 16577 16578 16580;
  G2 XOR 16576 16580 16581; G2 XOR 16362 80 16582; G2 XOR 16581 80 16583; G2 XOR 16582 16581 16584;
  G2 AND 16582 16583 16585; G2 XOR 16581 16585 16586; G2 XOR 16365 81 16587; G2 XOR 16586 81 16588;
  G2 XOR 16587 16586 16589; G2 AND 16587 16588 16590; G2 XOR 16586 16590 16591; G2 XOR 16368 82 16592;
  G2 XOR 16591 82 16593; G2 XOR 16592 16591 16594; G2 AND 16592 16593 16595; G2 XOR 16591 16595 16596;
  G2 XOR 16371 83 16597; G2 XOR 16596 83 16598; G2 XOR 16597 16596 16599; G2 AND 16597 16598 16600;
  G2 XOR 16596 16600 16601; G2 XOR 16374 84 16602; G2 XOR 16601 84 16603; G2 XOR 16602 16601 16604;
  G2 AND 16602 16603 16605; G2 XOR 16601 16605 16606; G2 XOR 16377 85 16607; G2 XOR 16606 85 16608;
  G2 XOR 16607 16606 16609; G2 AND 16607 16608 16610; G2 XOR 16606 16610 16611; G2 XOR 16380 86 16612;
  G2 XOR 16611 86 16613; G2 XOR 16612 16611 16614; G2 AND 16612 16613 16615; G2 XOR 16611 16615 16616;
  G2 XOR 16383 87 16617; G2 XOR 16616 87 16618; G2 XOR 16617 16616 16619; G2 AND 16617 16618 16620;
  G2 XOR 16616 16620 16621; G2 XOR 16386 88 16622; G2 XOR 16621 88 16623; G2 XOR 16622 16621 16624;
  G2 AND 16622 16623 16625; G2 XOR 16621 16625 16626; G2 XOR 16389 89 16627; G2 XOR 16626 89 16628;
  G2 XOR 16627 16626 16629; G2 AND 16627 16628 16630; G2 XOR 16626 16630 16631; G2 XOR 16392 90 16632;
  G2 XOR 16631 90 16633; G2 XOR 16632 16631 16634; G2 AND 16632 16633 16635; G2 XOR 16631 16635 16636;
  G2 XOR 16395 91 16637; G2 XOR 16636 91 16638; G2 XOR 16637 16636 16639; G2 AND 16637 16638 16640;
  G2 XOR 16636 16640 16641; G2 XOR 16398 92 16642; G2 XOR 16641 92 16643; G2 XOR 16642 16641 16644;
  G2 AND 16642 16643 16645; G2 XOR 16641 16645 16646; G2 XOR 16401 93 16647; G2 XOR 16646 93 16648;
  G2 XOR 16647 16646 16649; G2 AND 16647 16648 16650; G2 XOR 16646 16650 16651; G2 XOR 16404 94 16652;
  G2 XOR 16651 94 16653; G2 XOR 16652 16651 16654; G2 AND 16652 16653 16655; G2 XOR 16651 16655 16656;
  G2 XOR 16407 95 16657; G2 XOR 16656 95 16658; G2 XOR 16657 16656 16659; G2 AND 16657 16658 16660;
  G2 XOR 16656 16660 16661; G2 XOR 16410 96 16662; G2 XOR 16661 96 16663; G2 XOR 16662 16661 16664;
  G2 AND 16662 16663 16665; G2 XOR 16661 16665 16666; G2 XOR 16413 97 16667; G2 XOR 16666 97 16668;
  G2 XOR 16667 16666 16669; G2 AND 16667 16668 16670; G2 XOR 16666 16670 16671; G2 XOR 16416 98 16672;
  G2 XOR 16671 98 16673; G2 XOR 16672 16671 16674; G2 AND 16672 16673 16675; G2 XOR 16671 16675 16676;
  G2 XOR 16419 99 16677; G2 XOR 16676 99 16678; G2 XOR 16677 16676 16679; G2 AND 16677 16678 16680;
  G2 XOR 16676 16680 16681; G2 XOR 16422 100 16682; G2 XOR 16681 100 16683; G2 XOR 16682 16681 16684;
  G2 AND 16682 16683 16685; G2 XOR 16681 16685 16686; G2 XOR 16425 101 16687; G2 XOR 16686 101 16688;
  G2 XOR 16687 16686 16689; G2 AND 16687 16688 16690; G2 XOR 16686 16690 16691; G2 XOR 16428 102 16692;
  G2 XOR 16691 102 16693; G2 XOR 16692 16691 16694; G2 AND 16692 16693 16695; G2 XOR 16691 16695 16696;
  G2 XOR 16431 103 16697; G2 XOR 16696 103 16698; G2 XOR 16697 16696 16699; G2 AND 16697 16698 16700;
  G2 XOR 16696 16700 16701; G2 XOR 16434 104 16702; G2 XOR 16701 104 16703; G2 XOR 16702 16701 16704;
  G2 AND 16702 16703 16705; G2 XOR 16701 16705 16706; G2 XOR 16437 105 16707; G2 XOR 16706 105 16708;
  G2 XOR 16707 16706 16709; G2 AND 16707 16708 16710; G2 XOR 16706 16710 16711; G2 XOR 16440 106 16712;
  G2 XOR 16711 106 16713; G2 XOR 16712 16711 16714; G2 AND 16712 16713 16715; G2 XOR 16711 16715 16716;
  G2 XOR 16443 107 16717; G2 XOR 16716 107 16718; G2 XOR 16717 16716 16719; G2 AND 16717 16718 16720;
  G2 XOR 16716 16720 16721; G2 XOR 16446 108 16722; G2 XOR 16721 108 16723; G2 XOR 16722 16721 16724;
  G2 AND 16722 16723 16725; G2 XOR 16721 16725 16726; G2 XOR 16449 109 16727; G2 XOR 16726 109 16728;
  G2 XOR 16727 16726 16729; G2 AND 16727 16728 16730; G2 XOR 16726 16730 16731; G2 XOR 16452 110 16732;
  G2 XOR 16731 110 16733; G2 XOR 16732 16731 16734; G2 AND 16732 16733 16735; G2 XOR 16731 16735 16736;
  G2 XOR 16455 111 16737; G2 XOR 16736 111 16738; G2 XOR 16737 16736 16739; G2 AND 16737 16738 16740;
  G2 XOR 16736 16740 16741; G2 XOR 16458 112 16742; G2 XOR 16741 112 16743; G2 XOR 16742 16741 16744;
  G2 AND 16742 16743 16745; G2 XOR 16741 16745 16746; G2 XOR 16461 113 16747; G2 XOR 16746 113 16748;
  G2 XOR 16747 16746 16749; G2 AND 16747 16748 16750; G2 XOR 16746 16750 16751; G2 XOR 16464 114 16752;
  G2 XOR 16751 114 16753; G2 XOR 16752 16751 16754; G2 AND 16752 16753 16755; G2 XOR 16751 16755 16756;
  G2 XOR 16467 115 16757; G2 XOR 16756 115 16758; G2 XOR 16757 16756 16759; G2 AND 16757 16758 16760;
  G2 XOR 16756 16760 16761; G2 XOR 16470 116 16762; G2 XOR 16761 116 16763; G2 XOR 16762 16761 16764;
  G2 AND 16762 16763 16765; G2 XOR 16761 16765 16766; G2 XOR 16473 117 16767; G2 XOR 16766 117 16768;
  G2 XOR 16767 16766 16769; G2 AND 16767 16768 16770; G2 XOR 16766 16770 16771; G2 XOR 16476 118 16772;
  G2 XOR 16771 118 16773; G2 XOR 16772 16771 16774; G2 AND 16772 16773 16775; G2 XOR 16771 16775 16776;
  G2 XOR 16479 119 16777; G2 XOR 16776 119 16778; G2 XOR 16777 16776 16779; G2 AND 16777 16778 16780;
  G2 XOR 16776 16780 16781; G2 XOR 16482 120 16782; G2 XOR 16781 120 16783; G2 XOR 16782 16781 16784;
  G2 AND 16782 16783 16785; G2 XOR 16781 16785 16786; G2 XOR 16485 121 16787; G2 XOR 16786 121 16788;
  G2 XOR 16787 16786 16789; G2 AND 16787 16788 16790; G2 XOR 16786 16790 16791; G2 XOR 16488 122 16792;
  G2 XOR 16791 122 16793; G2 XOR 16792 16791 16794; G2 AND 16792 16793 16795; G2 XOR 16791 16795 16796;
  G2 XOR 16491 123 16797; G2 XOR 16796 123 16798; G2 XOR 16797 16796 16799; G2 AND 16797 16798 16800;
  G2 XOR 16796 16800 16801; G2 XOR 16494 124 16802; G2 XOR 16801 124 16803; G2 XOR 16802 16801 16804;
  G2 AND 16802 16803 16805; G2 XOR 16801 16805 16806; G2 XOR 16497 125 16807; G2 XOR 16806 125 16808;
  G2 XOR 16807 16806 16809; G2 AND 16807 16808 16810; G2 XOR 16806 16810 16811; G2 XOR 16500 126 16812;
  G2 XOR 16811 126 16813; G2 XOR 16812 16811 16814; G2 AND 16812 16813 16815; G2 XOR 16811 16815 16816;
  G2 XOR 16503 127 16817; G2 XOR 16816 127 16818; G2 XOR 16817 16816 16819; G2 AND 16817 16818 16820;
  G2 XOR 16816 16820 16821; G2 XOR 0 16505 16822; G2 AND 16821 16822 16823; G2 XOR 16823 16505 16824;
  G2 XOR 16317 16509 16825; G2 AND 16821 16825 16826; G2 XOR 16826 16509 16827; G2 XOR 16320 16514 16828;
  G2 AND 16821 16828 16829; G2 XOR 16829 16514 16830; G2 XOR 16323 16519 16831; G2 AND 16821 16831 16832;
  G2 XOR 16832 16519 16833; G2 XOR 16326 16524 16834; G2 AND 16821 16834 16835; G2 XOR 16835 16524 16836;
  G2 XOR 16329 16529 16837; G2 AND 16821 16837 16838; G2 XOR 16838 16529 16839; G2 XOR 16332 16534 16840;
  G2 AND 16821 16840 16841; G2 XOR 16841 16534 16842; G2 XOR 16335 16539 16843; G2 AND 16821 16843 16844;
  G2 XOR 16844 16539 16845; G2 XOR 16338 16544 16846; G2 AND 16821 16846 16847; G2 XOR 16847 16544 16848;
  G2 XOR 16341 16549 16849; G2 AND 16821 16849 16850; G2 XOR 16850 16549 16851; G2 XOR 16344 16554 16852;
  G2 AND 16821 16852 16853; G2 XOR 16853 16554 16854; G2 XOR 16347 16559 16855; G2 AND 16821 16855 16856;
  G2 XOR 16856 16559 16857; G2 XOR 16350 16564 16858; G2 AND 16821 16858 16859; G2 XOR 16859 16564 16860;
  G2 XOR 16353 16569 16861; G2 AND 16821 16861 16862; G2 XOR 16862 16569 16863; G2 XOR 16356 16574 16864;
  G2 AND 16821 16864 16865; G2 XOR 16865 16574 16866; G2 XOR 16359 16579 16867; G2 AND 16821 16867 16868;
  G2 XOR 16868 16579 16869; G2 XOR 16362 16584 16870; G2 AND 16821 16870 16871; G2 XOR 16871 16584 16872;
  G2 XOR 16365 16589 16873; G2 AND 16821 16873 16874; G2 XOR 16874 16589 16875; G2 XOR 16368 16594 16876;
  G2 AND 16821 16876 16877; G2 XOR 16877 16594 16878; G2 XOR 16371 16599 16879; G2 AND 16821 16879 16880;
  G2 XOR 16880 16599 16881; G2 XOR 16374 16604 16882; G2 AND 16821 16882 16883; G2 XOR 16883 16604 16884;
  G2 XOR 16377 16609 16885; G2 AND 16821 16885 16886; G2 XOR 16886 16609 16887; G2 XOR 16380 16614 16888;
  G2 AND 16821 16888 16889; G2 XOR 16889 16614 16890; G2 XOR 16383 16619 16891; G2 AND 16821 16891 16892;
  G2 XOR 16892 16619 16893; G2 XOR 16386 16624 16894; G2 AND 16821 16894 16895; G2 XOR 16895 16624 16896;
  G2 XOR 16389 16629 16897; G2 AND 16821 16897 16898; G2 XOR 16898 16629 16899; G2 XOR 16392 16634 16900;
  G2 AND 16821 16900 16901; G2 XOR 16901 16634 16902; G2 XOR 16395 16639 16903; G2 AND 16821 16903 16904;
  G2 XOR 16904 16639 16905; G2 XOR 16398 16644 16906; G2 AND 16821 16906 16907; G2 XOR 16907 16644 16908;
  G2 XOR 16401 16649 16909; G2 AND 16821 16909 16910; G2 XOR 16910 16649 16911; G2 XOR 16404 16654 16912;
  G2 AND 16821 16912 16913; G2 XOR 16913 16654 16914; G2 XOR 16407 16659 16915; G2 AND 16821 16915 16916;
  G2 XOR 16916 16659 16917; G2 XOR 16410 16664 16918; G2 AND 16821 16918 16919; G2 XOR 16919 16664 16920;
  G2 XOR 16413 16669 16921; G2 AND 16821 16921 16922; G2 XOR 16922 16669 16923; G2 XOR 16416 16674 16924;
  G2 AND 16821 16924 16925; G2 XOR 16925 16674 16926; G2 XOR 16419 16679 16927; G2 AND 16821 16927 16928;
  G2 XOR 16928 16679 16929; G2 XOR 16422 16684 16930; G2 AND 16821 16930 16931; G2 XOR 16931 16684 16932;
  G2 XOR 16425 16689 16933; G2 AND 16821 16933 16934; G2 XOR 16934 16689 16935; G2 XOR 16428 16694 16936;
  G2 AND 16821 16936 16937; G2 XOR 16937 16694 16938; G2 XOR 16431 16699 16939; G2 AND 16821 16939 16940;
  G2 XOR 16940 16699 16941; G2 XOR 16434 16704 16942; G2 AND 16821 16942 16943; G2 XOR 16943 16704 16944;
  G2 XOR 16437 16709 16945; G2 AND 16821 16945 16946; G2 XOR 16946 16709 16947; G2 XOR 16440 16714 16948;
  G2 AND 16821 16948 16949; G2 XOR 16949 16714 16950; G2 XOR 16443 16719 16951; G2 AND 16821 16951 16952;
  G2 XOR 16952 16719 16953; G2 XOR 16446 16724 16954; G2 AND 16821 16954 16955; G2 XOR 16955 16724 16956;
  G2 XOR 16449 16729 16957; G2 AND 16821 16957 16958; G2 XOR 16958 16729 16959; G2 XOR 16452 16734 16960;
  G2 AND 16821 16960 16961; G2 XOR 16961 16734 16962; G2 XOR 16455 16739 16963; G2 AND 16821 16963 16964;
  G2 XOR 16964 16739 16965; G2 XOR 16458 16744 16966; G2 AND 16821 16966 16967; G2 XOR 16967 16744 16968;
  G2 XOR 16461 16749 16969; G2 AND 16821 16969 16970; G2 XOR 16970 16749 16971; G2 XOR 16464 16754 16972;
  G2 AND 16821 16972 16973; G2 XOR 16973 16754 16974; G2 XOR 16467 16759 16975; G2 AND 16821 16975 16976;
  G2 XOR 16976 16759 16977; G2 XOR 16470 16764 16978; G2 AND 16821 16978 16979; G2 XOR 16979 16764 16980;
  G2 XOR 16473 16769 16981; G2 AND 16821 16981 16982; G2 XOR 16982 16769 16983; G2 XOR 16476 16774 16984;
  G2 AND 16821 16984 16985; G2 XOR 16985 16774 16986; G2 XOR 16479 16779 16987; G2 AND 16821 16987 16988;
  G2 XOR 16988 16779 16989; G2 XOR 16482 16784 16990; G2 AND 16821 16990 16991; G2 XOR 16991 16784 16992;
  G2 XOR 16485 16789 16993; G2 AND 16821 16993 16994; G2 XOR 16994 16789 16995; G2 XOR 16488 16794 16996;
  G2 AND 16821 16996 16997; G2 XOR 16997 16794 16998; G2 XOR 16491 16799 16999; G2 AND 16821 16999 17000;
  G2 XOR 17000 16799 17001; G2 XOR 16494 16804 17002; G2 AND 16821 17002 17003; G2 XOR 17003 16804 17004;
  G2 XOR 16497 16809 17005; G2 AND 16821 17005 17006; G2 XOR 17006 16809 17007; G2 XOR 16500 16814 17008;
  G2 AND 16821 17008 17009; G2 XOR 17009 16814 17010; G2 XOR 16503 16819 17011; G2 AND 16821 17011 17012;
  G2 XOR 17012 16819 17013; G1 INV 16821 17014; G2 XOR 0 0 17015; G2 XOR 17015 17014 17016;
  G2 XOR 17015 16504 17017; G2 XOR 17015 15999 17018; G2 XOR 17015 15502 17019; G2 XOR 17015 15013 17020;
  G2 XOR 17015 14532 17021; G2 XOR 17015 14059 17022; G2 XOR 17015 13594 17023; G2 XOR 17015 13137 17024;
  G2 XOR 17015 12688 17025; G2 XOR 17015 12247 17026; G2 XOR 17015 11814 17027; G2 XOR 17015 11389 17028;
  G2 XOR 17015 10972 17029; G2 XOR 17015 10563 17030; G2 XOR 17015 10162 17031; G2 XOR 17015 9769 17032;
  G2 XOR 17015 9384 17033; G2 XOR 17015 9007 17034; G2 XOR 17015 8638 17035; G2 XOR 17015 8277 17036;
  G2 XOR 17015 7924 17037; G2 XOR 17015 7579 17038; G2 XOR 17015 7242 17039; G2 XOR 17015 6913 17040;
  G2 XOR 17015 6592 17041; G2 XOR 17015 6279 17042; G2 XOR 17015 5974 17043; G2 XOR 17015 5677 17044;
  G2 XOR 17015 5388 17045; G2 XOR 17015 5107 17046; G2 XOR 17015 4834 17047; G2 XOR 17015 4569 17048;
  G2 XOR 17015 4312 17049; G2 XOR 17015 4063 17050; G2 XOR 17015 3822 17051; G2 XOR 17015 3589 17052;
  G2 XOR 17015 3364 17053; G2 XOR 17015 3147 17054; G2 XOR 17015 2938 17055; G2 XOR 17015 2737 17056;
  G2 XOR 17015 2544 17057; G2 XOR 17015 2359 17058; G2 XOR 17015 2182 17059; G2 XOR 17015 2013 17060;
  G2 XOR 17015 1852 17061; G2 XOR 17015 1699 17062; G2 XOR 17015 1554 17063; G2 XOR 17015 1417 17064;
  G2 XOR 17015 1288 17065; G2 XOR 17015 1167 17066; G2 XOR 17015 1054 17067; G2 XOR 17015 949 17068;
  G2 XOR 17015 852 17069; G2 XOR 17015 763 17070; G2 XOR 17015 682 17071; G2 XOR 17015 609 17072;
  G2 XOR 17015 544 17073; G2 XOR 17015 487 17074; G2 XOR 17015 438 17075; G2 XOR 17015 397 17076;
  G2 XOR 17015 364 17077; G2 XOR 17015 339 17078; G2 XOR 17015 322 17079].
Definition udivide64 : circuit := mkCircuit 16952 17080 [64; 64] [64] udivide64_gates.

(** Wire k-1 says whether the divisor has a bit from k on. *)
Definition udivide64_high : list N := [
  313; 310; 307; 304; 301; 298; 295; 292; 289; 286; 283; 280; 277; 274; 271; 268; 265; 262; 259; 256; 253;
  250; 247; 244; 241; 238; 235; 232; 229; 226; 223; 220; 217; 214; 211; 208; 205; 202; 199; 196; 193; 190;
  187; 184; 181; 178; 175; 172; 169; 166; 163; 160; 157; 154; 151; 148; 145; 142; 139; 136; 133; 130; 127].
Definition udivide64_rows : list drow := [
  Drow [
    (314, 315)]
  [
    321] 318;
  Drow [
    (323, 324); (327, 329)]
  [
    335; 338] 332;
  Drow [
    (340, 341); (344, 346); (349, 351)]
  [
    357; 360; 363] 354;
  Drow [
    (365, 366); (369, 371); (374, 376); (379, 381)]
  [
    387; 390; 393; 396] 384;
  Drow [
    (398, 399); (402, 404); (407, 409); (412, 414); (417, 419)]
  [
    425; 428; 431; 434; 437] 422;
  Drow [
    (439, 440); (443, 445); (448, 450); (453, 455); (458, 460); (463, 465)]
  [
    471; 474; 477; 480; 483; 486] 468;
  Drow [
    (488, 489); (492, 494); (497, 499); (502, 504); (507, 509); (512, 514); (517, 519)]
  [
    525; 528; 531; 534; 537; 540; 543] 522;
  Drow [
    (545, 546); (549, 551); (554, 556); (559, 561); (564, 566); (569, 571); (574, 576); (579, 581)]
  [
    587; 590; 593; 596; 599; 602; 605; 608] 584;
  Drow [
    (610, 611); (614, 616); (619, 621); (624, 626); (629, 631); (634, 636); (639, 641); (644, 646); (649, 651)]
  [
    657; 660; 663; 666; 669; 672; 675; 678; 681] 654;
  Drow [
    (683, 684); (687, 689); (692, 694); (697, 699); (702, 704); (707, 709); (712, 714); (717, 719);
    (722, 724); (727, 729)]
  [
    735; 738; 741; 744; 747; 750; 753; 756; 759; 762] 732;
  Drow [
    (764, 765); (768, 770); (773, 775); (778, 780); (783, 785); (788, 790); (793, 795); (798, 800);
    (803, 805); (808, 810); (813, 815)]
  [
    821; 824; 827; 830; 833; 836; 839; 842; 845; 848; 851] 818;
  Drow [
    (853, 854); (857, 859); (862, 864); (867, 869); (872, 874); (877, 879); (882, 884); (887, 889);
    (892, 894); (897, 899); (902, 904); (907, 909)]
  [
    915; 918; 921; 924; 927; 930; 933; 936; 939; 942; 945; 948] 912;
  Drow [
    (950, 951); (954, 956); (959, 961); (964, 966); (969, 971); (974, 976); (979, 981); (984, 986);
    (989, 991); (994, 996); (999, 1001); (1004, 1006); (1009, 1011)]
  [
    1017; 1020; 1023; 1026; 1029; 1032; 1035; 1038; 1041; 1044; 1047; 1050; 1053] 1014;
  Drow [
    (1055, 1056); (1059, 1061); (1064, 1066); (1069, 1071); (1074, 1076); (1079, 1081); (1084, 1086);
    (1089, 1091); (1094, 1096); (1099, 1101); (1104, 1106); (1109, 1111); (1114, 1116); (1119, 1121)]
  [
    1127; 1130; 1133; 1136; 1139; 1142; 1145; 1148; 1151; 1154; 1157; 1160; 1163; 1166] 1124;
  Drow [
    (1168, 1169); (1172, 1174); (1177, 1179); (1182, 1184); (1187, 1189); (1192, 1194); (1197, 1199);
    (1202, 1204); (1207, 1209); (1212, 1214); (1217, 1219); (1222, 1224); (1227, 1229); (1232, 1234);
    (1237, 1239)]
  [
    1245; 1248; 1251; 1254; 1257; 1260; 1263; 1266; 1269; 1272; 1275; 1278; 1281; 1284; 1287] 1242;
  Drow [
    (1289, 1290); (1293, 1295); (1298, 1300); (1303, 1305); (1308, 1310); (1313, 1315); (1318, 1320);
    (1323, 1325); (1328, 1330); (1333, 1335); (1338, 1340); (1343, 1345); (1348, 1350); (1353, 1355);
    (1358, 1360); (1363, 1365)]
  [
    1371; 1374; 1377; 1380; 1383; 1386; 1389; 1392; 1395; 1398; 1401; 1404; 1407; 1410; 1413; 1416] 1368;
  Drow [
    (1418, 1419); (1422, 1424); (1427, 1429); (1432, 1434); (1437, 1439); (1442, 1444); (1447, 1449);
    (1452, 1454); (1457, 1459); (1462, 1464); (1467, 1469); (1472, 1474); (1477, 1479); (1482, 1484);
    (1487, 1489); (1492, 1494); (1497, 1499)]
  [
    1505; 1508; 1511; 1514; 1517; 1520; 1523; 1526; 1529; 1532; 1535; 1538; 1541; 1544; 1547; 1550; 1553] 1502;
  Drow [
    (1555, 1556); (1559, 1561); (1564, 1566); (1569, 1571); (1574, 1576); (1579, 1581); (1584, 1586);
    (1589, 1591); (1594, 1596); (1599, 1601); (1604, 1606); (1609, 1611); (1614, 1616); (1619, 1621);
    (1624, 1626); (1629, 1631); (1634, 1636); (1639, 1641)]
  [
    1647; 1650; 1653; 1656; 1659; 1662; 1665; 1668; 1671; 1674; 1677; 1680; 1683; 1686; 1689; 1692; 1695; 1698] 1644;
  Drow [
    (1700, 1701); (1704, 1706); (1709, 1711); (1714, 1716); (1719, 1721); (1724, 1726); (1729, 1731);
    (1734, 1736); (1739, 1741); (1744, 1746); (1749, 1751); (1754, 1756); (1759, 1761); (1764, 1766);
    (1769, 1771); (1774, 1776); (1779, 1781); (1784, 1786); (1789, 1791)]
  [
    1797; 1800; 1803; 1806; 1809; 1812; 1815; 1818; 1821; 1824; 1827; 1830; 1833; 1836; 1839; 1842; 1845;
    1848; 1851] 1794;
  Drow [
    (1853, 1854); (1857, 1859); (1862, 1864); (1867, 1869); (1872, 1874); (1877, 1879); (1882, 1884);
    (1887, 1889); (1892, 1894); (1897, 1899); (1902, 1904); (1907, 1909); (1912, 1914); (1917, 1919);
    (1922, 1924); (1927, 1929); (1932, 1934); (1937, 1939); (1942, 1944); (1947, 1949)]
  [
    1955; 1958; 1961; 1964; 1967; 1970; 1973; 1976; 1979; 1982; 1985; 1988; 1991; 1994; 1997; 2000; 2003;
    2006; 2009; 2012] 1952;
  Drow [
    (2014, 2015); (2018, 2020); (2023, 2025); (2028, 2030); (2033, 2035); (2038, 2040); (2043, 2045);
    (2048, 2050); (2053, 2055); (2058, 2060); (2063, 2065); (2068, 2070); (2073, 2075); (2078, 2080);
    (2083, 2085); (2088, 2090); (2093, 2095); (2098, 2100); (2103, 2105); (2108, 2110); (2113, 2115)]
  [
    2121; 2124; 2127; 2130; 2133; 2136; 2139; 2142; 2145; 2148; 2151; 2154; 2157; 2160; 2163; 2166; 2169;
    2172; 2175; 2178; 2181] 2118;
  Drow [
    (2183, 2184); (2187, 2189); (2192, 2194); (2197, 2199); (2202, 2204); (2207, 2209); (2212, 2214);
    (2217, 2219); (2222, 2224); (2227, 2229); (2232, 2234); (2237, 2239); (2242, 2244); (2247, 2249);
    (2252, 2254); (2257, 2259); (2262, 2264); (2267, 2269); (2272, 2274); (2277, 2279); (2282, 2284);
    (2287, 2289)]
  [
    2295; 2298; 2301; 2304; 2307; 2310; 2313; 2316; 2319; 2322; 2325; 2328; 2331; 2334; 2337; 2340; 2343;
    2346; 2349; 2352; 2355; 2358] 2292;
  Drow [
    (2360, 2361); (2364, 2366); (2369, 2371); (2374, 2376); (2379, 2381); (2384, 2386); (2389, 2391);
    (2394, 2396); (2399, 2401); (2404, 2406); (2409, 2411); (2414, 2416); (2419, 2421); (2424, 2426);
    (2429, 2431); (2434, 2436); (2439, 2441); (2444, 2446); (2449, 2451); (2454, 2456); (2459, 2461);
    (2464, 2466); (2469, 2471)]
  [
    2477; 2480; 2483; 2486; 2489; 2492; 2495; 2498; 2501; 2504; 2507; 2510; 2513; 2516; 2519; 2522; 2525;
    2528; 2531; 2534; 2537; 2540; 2543] 2474;
  Drow [
    (2545, 2546); (2549, 2551); (2554, 2556); (2559, 2561); (2564, 2566); (2569, 2571); (2574, 2576);
    (2579, 2581); (2584, 2586); (2589, 2591); (2594, 2596); (2599, 2601); (2604, 2606); (2609, 2611);
    (2614, 2616); (2619, 2621); (2624, 2626); (2629, 2631); (2634, 2636); (2639, 2641); (2644, 2646);
    (2649, 2651); (2654, 2656); (2659, 2661)]
  [
    2667; 2670; 2673; 2676; 2679; 2682; 2685; 2688; 2691; 2694; 2697; 2700; 2703; 2706; 2709; 2712; 2715;
    2718; 2721; 2724; 2727; 2730; 2733; 2736] 2664;
  Drow [
    (2738, 2739); (2742, 2744); (2747, 2749); (2752, 2754); (2757, 2759); (2762, 2764); (2767, 2769);
    (2772, 2774); (2777, 2779); (2782, 2784); (2787, 2789); (2792, 2794); (2797, 2799); (2802, 2804);
    (2807, 2809); (2812, 2814); (2817, 2819); (2822, 2824); (2827, 2829); (2832, 2834); (2837, 2839);
    (2842, 2844); (2847, 2849); (2852, 2854); (2857, 2859)]
  [
    2865; 2868; 2871; 2874; 2877; 2880; 2883; 2886; 2889; 2892; 2895; 2898; 2901; 2904; 2907; 2910; 2913;
    2916; 2919; 2922; 2925; 2928; 2931; 2934; 2937] 2862;
  Drow [
    (2939, 2940); (2943, 2945); (2948, 2950); (2953, 2955); (2958, 2960); (2963, 2965); (2968, 2970);
    (2973, 2975); (2978, 2980); (2983, 2985); (2988, 2990); (2993, 2995); (2998, 3000); (3003, 3005);
    (3008, 3010); (3013, 3015); (3018, 3020); (3023, 3025); (3028, 3030); (3033, 3035); (3038, 3040);
    (3043, 3045); (3048, 3050); (3053, 3055); (3058, 3060); (3063, 3065)]
  [
    3071; 3074; 3077; 3080; 3083; 3086; 3089; 3092; 3095; 3098; 3101; 3104; 3107; 3110; 3113; 3116; 3119;
    3122; 3125; 3128; 3131; 3134; 3137; 3140; 3143; 3146] 3068;
  Drow [
    (3148, 3149); (3152, 3154); (3157, 3159); (3162, 3164); (3167, 3169); (3172, 3174); (3177, 3179);
    (3182, 3184); (3187, 3189); (3192, 3194); (3197, 3199); (3202, 3204); (3207, 3209); (3212, 3214);
    (3217, 3219); (3222, 3224); (3227, 3229); (3232, 3234); (3237, 3239); (3242, 3244); (3247, 3249);
    (3252, 3254); (3257, 3259); (3262, 3264); (3267, 3269); (3272, 3274); (3277, 3279)]
  [
    3285; 3288; 3291; 3294; 3297; 3300; 3303; 3306; 3309; 3312; 3315; 3318; 3321; 3324; 3327; 3330; 3333;
    3336; 3339; 3342; 3345; 3348; 3351; 3354; 3357; 3360; 3363] 3282;
  Drow [
    (3365, 3366); (3369, 3371); (3374, 3376); (3379, 3381); (3384, 3386); (3389, 3391); (3394, 3396);
    (3399, 3401); (3404, 3406); (3409, 3411); (3414, 3416); (3419, 3421); (3424, 3426); (3429, 3431);
    (3434, 3436); (3439, 3441); (3444, 3446); (3449, 3451); (3454, 3456); (3459, 3461); (3464, 3466);
    (3469, 3471); (3474, 3476); (3479, 3481); (3484, 3486); (3489, 3491); (3494, 3496); (3499, 3501)]
  [
    3507; 3510; 3513; 3516; 3519; 3522; 3525; 3528; 3531; 3534; 3537; 3540; 3543; 3546; 3549; 3552; 3555;
    3558; 3561; 3564; 3567; 3570; 3573; 3576; 3579; 3582; 3585; 3588] 3504;
  Drow [
    (3590, 3591); (3594, 3596); (3599, 3601); (3604, 3606); (3609, 3611); (3614, 3616); (3619, 3621);
    (3624, 3626); (3629, 3631); (3634, 3636); (3639, 3641); (3644, 3646); (3649, 3651); (3654, 3656);
    (3659, 3661); (3664, 3666); (3669, 3671); (3674, 3676); (3679, 3681); (3684, 3686); (3689, 3691);
    (3694, 3696); (3699, 3701); (3704, 3706); (3709, 3711); (3714, 3716); (3719, 3721); (3724, 3726);
    (3729, 3731)]
  [
    3737; 3740; 3743; 3746; 3749; 3752; 3755; 3758; 3761; 3764; 3767; 3770; 3773; 3776; 3779; 3782; 3785;
    3788; 3791; 3794; 3797; 3800; 3803; 3806; 3809; 3812; 3815; 3818; 3821] 3734;
  Drow [
    (3823, 3824); (3827, 3829); (3832, 3834); (3837, 3839); (3842, 3844); (3847, 3849); (3852, 3854);
    (3857, 3859); (3862, 3864); (3867, 3869); (3872, 3874); (3877, 3879); (3882, 3884); (3887, 3889);
    (3892, 3894); (3897, 3899); (3902, 3904); (3907, 3909); (3912, 3914); (3917, 3919); (3922, 3924);
    (3927, 3929); (3932, 3934); (3937, 3939); (3942, 3944); (3947, 3949); (3952, 3954); (3957, 3959);
    (3962, 3964); (3967, 3969)]
  [
    3975; 3978; 3981; 3984; 3987; 3990; 3993; 3996; 3999; 4002; 4005; 4008; 4011; 4014; 4017; 4020; 4023;
    4026; 4029; 4032; 4035; 4038; 4041; 4044; 4047; 4050; 4053; 4056; 4059; 4062] 3972;
  Drow [
    (4064, 4065); (4068, 4070); (4073, 4075); (4078, 4080); (4083, 4085); (4088, 4090); (4093, 4095);
    (4098, 4100); (4103, 4105); (4108, 4110); (4113, 4115); (4118, 4120); (4123, 4125); (4128, 4130);
    (4133, 4135); (4138, 4140); (4143, 4145); (4148, 4150); (4153, 4155); (4158, 4160); (4163, 4165);
    (4168, 4170); (4173, 4175); (4178, 4180); (4183, 4185); (4188, 4190); (4193, 4195); (4198, 4200);
    (4203, 4205); (4208, 4210); (4213, 4215)]
  [
    4221; 4224; 4227; 4230; 4233; 4236; 4239; 4242; 4245; 4248; 4251; 4254; 4257; 4260; 4263; 4266; 4269;
    4272; 4275; 4278; 4281; 4284; 4287; 4290; 4293; 4296; 4299; 4302; 4305; 4308; 4311] 4218;
  Drow [
    (4313, 4314); (4317, 4319); (4322, 4324); (4327, 4329); (4332, 4334); (4337, 4339); (4342, 4344);
    (4347, 4349); (4352, 4354); (4357, 4359); (4362, 4364); (4367, 4369); (4372, 4374); (4377, 4379);
    (4382, 4384); (4387, 4389); (4392, 4394); (4397, 4399); (4402, 4404); (4407, 4409); (4412, 4414);
    (4417, 4419); (4422, 4424); (4427, 4429); (4432, 4434); (4437, 4439); (4442, 4444); (4447, 4449);
    (4452, 4454); (4457, 4459); (4462, 4464); (4467, 4469)]
  [
    4475; 4478; 4481; 4484; 4487; 4490; 4493; 4496; 4499; 4502; 4505; 4508; 4511; 4514; 4517; 4520; 4523;
    4526; 4529; 4532; 4535; 4538; 4541; 4544; 4547; 4550; 4553; 4556; 4559; 4562; 4565; 4568] 4472;
  Drow [
    (4570, 4571); (4574, 4576); (4579, 4581); (4584, 4586); (4589, 4591); (4594, 4596); (4599, 4601);
    (4604, 4606); (4609, 4611); (4614, 4616); (4619, 4621); (4624, 4626); (4629, 4631); (4634, 4636);
    (4639, 4641); (4644, 4646); (4649, 4651); (4654, 4656); (4659, 4661); (4664, 4666); (4669, 4671);
    (4674, 4676); (4679, 4681); (4684, 4686); (4689, 4691); (4694, 4696); (4699, 4701); (4704, 4706);
    (4709, 4711); (4714, 4716); (4719, 4721); (4724, 4726); (4729, 4731)]
  [
    4737; 4740; 4743; 4746; 4749; 4752; 4755; 4758; 4761; 4764; 4767; 4770; 4773; 4776; 4779; 4782; 4785;
    4788; 4791; 4794; 4797; 4800; 4803; 4806; 4809; 4812; 4815; 4818; 4821; 4824; 4827; 4830; 4833] 4734;
  Drow [
    (4835, 4836); (4839, 4841); (4844, 4846); (4849, 4851); (4854, 4856); (4859, 4861); (4864, 4866);
    (4869, 4871); (4874, 4876); (4879, 4881); (4884, 4886); (4889, 4891); (4894, 4896); (4899, 4901);
    (4904, 4906); (4909, 4911); (4914, 4916); (4919, 4921); (4924, 4926); (4929, 4931); (4934, 4936);
    (4939, 4941); (4944, 4946); (4949, 4951); (4954, 4956); (4959, 4961); (4964, 4966); (4969, 4971);
    (4974, 4976); (4979, 4981); (4984, 4986); (4989, 4991); (4994, 4996); (4999, 5001)]
  [
    5007; 5010; 5013; 5016; 5019; 5022; 5025; 5028; 5031; 5034; 5037; 5040; 5043; 5046; 5049; 5052; 5055;
    5058; 5061; 5064; 5067; 5070; 5073; 5076; 5079; 5082; 5085; 5088; 5091; 5094; 5097; 5100; 5103; 5106] 5004;
  Drow [
    (5108, 5109); (5112, 5114); (5117, 5119); (5122, 5124); (5127, 5129); (5132, 5134); (5137, 5139);
    (5142, 5144); (5147, 5149); (5152, 5154); (5157, 5159); (5162, 5164); (5167, 5169); (5172, 5174);
    (5177, 5179); (5182, 5184); (5187, 5189); (5192, 5194); (5197, 5199); (5202, 5204); (5207, 5209);
    (5212, 5214); (5217, 5219); (5222, 5224); (5227, 5229); (5232, 5234); (5237, 5239); (5242, 5244);
    (5247, 5249); (5252, 5254); (5257, 5259); (5262, 5264); (5267, 5269); (5272, 5274); (5277, 5279)]
  [
    5285; 5288; 5291; 5294; 5297; 5300; 5303; 5306; 5309; 5312; 5315; 5318; 5321; 5324; 5327; 5330; 5333;
    5336; 5339; 5342; 5345; 5348; 5351; 5354; 5357; 5360; 5363; 5366; 5369; 5372; 5375; 5378; 5381; 5384; 5387] 5282;
  Drow [
    (5389, 5390); (5393, 5395); (5398, 5400); (5403, 5405); (5408, 5410); (5413, 5415); (5418, 5420);
    (5423, 5425); (5428, 5430); (5433, 5435); (5438, 5440); (5443, 5445); (5448, 5450); (5453, 5455);
    (5458, 5460); (5463, 5465); (5468, 5470); (5473, 5475); (5478, 5480); (5483, 5485); (5488, 5490);
    (5493, 5495); (5498, 5500); (5503, 5505); (5508, 5510); (5513, 5515); (5518, 5520); (5523, 5525);
    (5528, 5530); (5533, 5535); (5538, 5540); (5543, 5545); (5548, 5550); (5553, 5555); (5558, 5560);
    (5563, 5565)]
  [
    5571; 5574; 5577; 5580; 5583; 5586; 5589; 5592; 5595; 5598; 5601; 5604; 5607; 5610; 5613; 5616; 5619;
    5622; 5625; 5628; 5631; 5634; 5637; 5640; 5643; 5646; 5649; 5652; 5655; 5658; 5661; 5664; 5667; 5670;
    5673; 5676] 5568;
  Drow [
    (5678, 5679); (5682, 5684); (5687, 5689); (5692, 5694); (5697, 5699); (5702, 5704); (5707, 5709);
    (5712, 5714); (5717, 5719); (5722, 5724); (5727, 5729); (5732, 5734); (5737, 5739); (5742, 5744);
    (5747, 5749); (5752, 5754); (5757, 5759); (5762, 5764); (5767, 5769); (5772, 5774); (5777, 5779);
    (5782, 5784); (5787, 5789); (5792, 5794); (5797, 5799); (5802, 5804); (5807, 5809); (5812, 5814);
    (5817, 5819); (5822, 5824); (5827, 5829); (5832, 5834); (5837, 5839); (5842, 5844); (5847, 5849);
    (5852, 5854); (5857, 5859)]
  [
    5865; 5868; 5871; 5874; 5877; 5880; 5883; 5886; 5889; 5892; 5895; 5898; 5901; 5904; 5907; 5910; 5913;
    5916; 5919; 5922; 5925; 5928; 5931; 5934; 5937; 5940; 5943; 5946; 5949; 5952; 5955; 5958; 5961; 5964;
    5967; 5970; 5973] 5862;
  Drow [
    (5975, 5976); (5979, 5981); (5984, 5986); (5989, 5991); (5994, 5996); (5999, 6001); (6004, 6006);
    (6009, 6011); (6014, 6016); (6019, 6021); (6024, 6026); (6029, 6031); (6034, 6036); (6039, 6041);
    (6044, 6046); (6049, 6051); (6054, 6056); (6059, 6061); (6064, 6066); (6069, 6071); (6074, 6076);
    (6079, 6081); (6084, 6086); (6089, 6091); (6094, 6096); (6099, 6101); (6104, 6106); (6109, 6111);
    (6114, 6116); (6119, 6121); (6124, 6126); (6129, 6131); (6134, 6136); (6139, 6141); (6144, 6146);
    (6149, 6151); (6154, 6156); (6159, 6161)]
  [
    6167; 6170; 6173; 6176; 6179; 6182; 6185; 6188; 6191; 6194; 6197; 6200; 6203; 6206; 6209; 6212; 6215;
    6218; 6221; 6224; 6227; 6230; 6233; 6236; 6239; 6242; 6245; 6248; 6251; 6254; 6257; 6260; 6263; 6266;
    6269; 6272; 6275; 6278] 6164;
  Drow [
    (6280, 6281); (6284, 6286); (6289, 6291); (6294, 6296); (6299, 6301); (6304, 6306); (6309, 6311);
    (6314, 6316); (6319, 6321); (6324, 6326); (6329, 6331); (6334, 6336); (6339, 6341); (6344, 6346);
    (6349, 6351); (6354, 6356); (6359, 6361); (6364, 6366); (6369, 6371); (6374, 6376); (6379, 6381);
    (6384, 6386); (6389, 6391); (6394, 6396); (6399, 6401); (6404, 6406); (6409, 6411); (6414, 6416);
    (6419, 6421); (6424, 6426); (6429, 6431); (6434, 6436); (6439, 6441); (6444, 6446); (6449, 6451);
    (6454, 6456); (6459, 6461); (6464, 6466); (6469, 6471)]
  [
    6477; 6480; 6483; 6486; 6489; 6492; 6495; 6498; 6501; 6504; 6507; 6510; 6513; 6516; 6519; 6522; 6525;
    6528; 6531; 6534; 6537; 6540; 6543; 6546; 6549; 6552; 6555; 6558; 6561; 6564; 6567; 6570; 6573; 6576;
    6579; 6582; 6585; 6588; 6591] 6474;
  Drow [
    (6593, 6594); (6597, 6599); (6602, 6604); (6607, 6609); (6612, 6614); (6617, 6619); (6622, 6624);
    (6627, 6629); (6632, 6634); (6637, 6639); (6642, 6644); (6647, 6649); (6652, 6654); (6657, 6659);
    (6662, 6664); (6667, 6669); (6672, 6674); (6677, 6679); (6682, 6684); (6687, 6689); (6692, 6694);
    (6697, 6699); (6702, 6704); (6707, 6709); (6712, 6714); (6717, 6719); (6722, 6724); (6727, 6729);
    (6732, 6734); (6737, 6739); (6742, 6744); (6747, 6749); (6752, 6754); (6757, 6759); (6762, 6764);
    (6767, 6769); (6772, 6774); (6777, 6779); (6782, 6784); (6787, 6789)]
  [
    6795; 6798; 6801; 6804; 6807; 6810; 6813; 6816; 6819; 6822; 6825; 6828; 6831; 6834; 6837; 6840; 6843;
    6846; 6849; 6852; 6855; 6858; 6861; 6864; 6867; 6870; 6873; 6876; 6879; 6882; 6885; 6888; 6891; 6894;
    6897; 6900; 6903; 6906; 6909; 6912] 6792;
  Drow [
    (6914, 6915); (6918, 6920); (6923, 6925); (6928, 6930); (6933, 6935); (6938, 6940); (6943, 6945);
    (6948, 6950); (6953, 6955); (6958, 6960); (6963, 6965); (6968, 6970); (6973, 6975); (6978, 6980);
    (6983, 6985); (6988, 6990); (6993, 6995); (6998, 7000); (7003, 7005); (7008, 7010); (7013, 7015);
    (7018, 7020); (7023, 7025); (7028, 7030); (7033, 7035); (7038, 7040); (7043, 7045); (7048, 7050);
    (7053, 7055); (7058, 7060); (7063, 7065); (7068, 7070); (7073, 7075); (7078, 7080); (7083, 7085);
    (7088, 7090); (7093, 7095); (7098, 7100); (7103, 7105); (7108, 7110); (7113, 7115)]
  [
    7121; 7124; 7127; 7130; 7133; 7136; 7139; 7142; 7145; 7148; 7151; 7154; 7157; 7160; 7163; 7166; 7169;
    7172; 7175; 7178; 7181; 7184; 7187; 7190; 7193; 7196; 7199; 7202; 7205; 7208; 7211; 7214; 7217; 7220;
    7223; 7226; 7229; 7232; 7235; 7238; 7241] 7118;
  Drow [
    (7243, 7244); (7247, 7249); (7252, 7254); (7257, 7259); (7262, 7264); (7267, 7269); (7272, 7274);
    (7277, 7279); (7282, 7284); (7287, 7289); (7292, 7294); (7297, 7299); (7302, 7304); (7307, 7309);
    (7312, 7314); (7317, 7319); (7322, 7324); (7327, 7329); (7332, 7334); (7337, 7339); (7342, 7344);
    (7347, 7349); (7352, 7354); (7357, 7359); (7362, 7364); (7367, 7369); (7372, 7374); (7377, 7379);
    (7382, 7384); (7387, 7389); (7392, 7394); (7397, 7399); (7402, 7404); (7407, 7409); (7412, 7414);
    (7417, 7419); (7422, 7424); (7427, 7429); (7432, 7434); (7437, 7439); (7442, 7444); (7447, 7449)]
  [
    7455; 7458; 7461; 7464; 7467; 7470; 7473; 7476; 7479; 7482; 7485; 7488; 7491; 7494; 7497; 7500; 7503;
    7506; 7509; 7512; 7515; 7518; 7521; 7524; 7527; 7530; 7533; 7536; 7539; 7542; 7545; 7548; 7551; 7554;
    7557; 7560; 7563; 7566; 7569; 7572; 7575; 7578] 7452;
  Drow [
    (7580, 7581); (7584, 7586); (7589, 7591); (7594, 7596); (7599, 7601); (7604, 7606); (7609, 7611);
    (7614, 7616); (7619, 7621); (7624, 7626); (7629, 7631); (7634, 7636); (7639, 7641); (7644, 7646);
    (7649, 7651); (7654, 7656); (7659, 7661); (7664, 7666); (7669, 7671); (7674, 7676); (7679, 7681);
    (7684, 7686); (7689, 7691); (7694, 7696); (7699, 7701); (7704, 7706); (7709, 7711); (7714, 7716);
    (7719, 7721); (7724, 7726); (7729, 7731); (7734, 7736); (7739, 7741); (7744, 7746); (7749, 7751);
    (7754, 7756); (7759, 7761); (7764, 7766); (7769, 7771); (7774, 7776); (7779, 7781); (7784, 7786);
    (7789, 7791)]
  [
    7797; 7800; 7803; 7806; 7809; 7812; 7815; 7818; 7821; 7824; 7827; 7830; 7833; 7836; 7839; 7842; 7845;
    7848; 7851; 7854; 7857; 7860; 7863; 7866; 7869; 7872; 7875; 7878; 7881; 7884; 7887; 7890; 7893; 7896;
    7899; 7902; 7905; 7908; 7911; 7914; 7917; 7920; 7923] 7794;
  Drow [
    (7925, 7926); (7929, 7931); (7934, 7936); (7939, 7941); (7944, 7946); (7949, 7951); (7954, 7956);
    (7959, 7961); (7964, 7966); (7969, 7971); (7974, 7976); (7979, 7981); (7984, 7986); (7989, 7991);
    (7994, 7996); (7999, 8001); (8004, 8006); (8009, 8011); (8014, 8016); (8019, 8021); (8024, 8026);
    (8029, 8031); (8034, 8036); (8039, 8041); (8044, 8046); (8049, 8051); (8054, 8056); (8059, 8061);
    (8064, 8066); (8069, 8071); (8074, 8076); (8079, 8081); (8084, 8086); (8089, 8091); (8094, 8096);
    (8099, 8101); (8104, 8106); (8109, 8111); (8114, 8116); (8119, 8121); (8124, 8126); (8129, 8131);
    (8134, 8136); (8139, 8141)]
  [
    8147; 8150; 8153; 8156; 8159; 8162; 8165; 8168; 8171; 8174; 8177; 8180; 8183; 8186; 8189; 8192; 8195;
    8198; 8201; 8204; 8207; 8210; 8213; 8216; 8219; 8222; 8225; 8228; 8231; 8234; 8237; 8240; 8243; 8246;
    8249; 8252; 8255; 8258; 8261; 8264; 8267; 8270; 8273; 8276] 8144;
  Drow [
    (8278, 8279); (8282, 8284); (8287, 8289); (8292, 8294); (8297, 8299); (8302, 8304); (8307, 8309);
    (8312, 8314); (8317, 8319); (8322, 8324); (8327, 8329); (8332, 8334); (8337, 8339); (8342, 8344);
    (8347, 8349); (8352, 8354); (8357, 8359); (8362, 8364); (8367, 8369); (8372, 8374); (8377, 8379);
    (8382, 8384); (8387, 8389); (8392, 8394); (8397, 8399); (8402, 8404); (8407, 8409); (8412, 8414);
    (8417, 8419); (8422, 8424); (8427, 8429); (8432, 8434); (8437, 8439); (8442, 8444); (8447, 8449);
    (8452, 8454); (8457, 8459); (8462, 8464); (8467, 8469); (8472, 8474); (8477, 8479); (8482, 8484);
    (8487, 8489); (8492, 8494); (8497, 8499)]
  [
    8505; 8508; 8511; 8514; 8517; 8520; 8523; 8526; 8529; 8532; 8535; 8538; 8541; 8544; 8547; 8550; 8553;
    8556; 8559; 8562; 8565; 8568; 8571; 8574; 8577; 8580; 8583; 8586; 8589; 8592; 8595; 8598; 8601; 8604;
    8607; 8610; 8613; 8616; 8619; 8622; 8625; 8628; 8631; 8634; 8637] 8502;
  Drow [
    (8639, 8640); (8643, 8645); (8648, 8650); (8653, 8655); (8658, 8660); (8663, 8665); (8668, 8670);
    (8673, 8675); (8678, 8680); (8683, 8685); (8688, 8690); (8693, 8695); (8698, 8700); (8703, 8705);
    (8708, 8710); (8713, 8715); (8718, 8720); (8723, 8725); (8728, 8730); (8733, 8735); (8738, 8740);
    (8743, 8745); (8748, 8750); (8753, 8755); (8758, 8760); (8763, 8765); (8768, 8770); (8773, 8775);
    (8778, 8780); (8783, 8785); (8788, 8790); (8793, 8795); (8798, 8800); (8803, 8805); (8808, 8810);
    (8813, 8815); (8818, 8820); (8823, 8825); (8828, 8830); (8833, 8835); (8838, 8840); (8843, 8845);
    (8848, 8850); (8853, 8855); (8858, 8860); (8863, 8865)]
  [
    8871; 8874; 8877; 8880; 8883; 8886; 8889; 8892; 8895; 8898; 8901; 8904; 8907; 8910; 8913; 8916; 8919;
    8922; 8925; 8928; 8931; 8934; 8937; 8940; 8943; 8946; 8949; 8952; 8955; 8958; 8961; 8964; 8967; 8970;
    8973; 8976; 8979; 8982; 8985; 8988; 8991; 8994; 8997; 9000; 9003; 9006] 8868;
  Drow [
    (9008, 9009); (9012, 9014); (9017, 9019); (9022, 9024); (9027, 9029); (9032, 9034); (9037, 9039);
    (9042, 9044); (9047, 9049); (9052, 9054); (9057, 9059); (9062, 9064); (9067, 9069); (9072, 9074);
    (9077, 9079); (9082, 9084); (9087, 9089); (9092, 9094); (9097, 9099); (9102, 9104); (9107, 9109);
    (9112, 9114); (9117, 9119); (9122, 9124); (9127, 9129); (9132, 9134); (9137, 9139); (9142, 9144);
    (9147, 9149); (9152, 9154); (9157, 9159); (9162, 9164); (9167, 9169); (9172, 9174); (9177, 9179);
    (9182, 9184); (9187, 9189); (9192, 9194); (9197, 9199); (9202, 9204); (9207, 9209); (9212, 9214);
    (9217, 9219); (9222, 9224); (9227, 9229); (9232, 9234); (9237, 9239)]
  [
    9245; 9248; 9251; 9254; 9257; 9260; 9263; 9266; 9269; 9272; 9275; 9278; 9281; 9284; 9287; 9290; 9293;
    9296; 9299; 9302; 9305; 9308; 9311; 9314; 9317; 9320; 9323; 9326; 9329; 9332; 9335; 9338; 9341; 9344;
    9347; 9350; 9353; 9356; 9359; 9362; 9365; 9368; 9371; 9374; 9377; 9380; 9383] 9242;
  Drow [
    (9385, 9386); (9389, 9391); (9394, 9396); (9399, 9401); (9404, 9406); (9409, 9411); (9414, 9416);
    (9419, 9421); (9424, 9426); (9429, 9431); (9434, 9436); (9439, 9441); (9444, 9446); (9449, 9451);
    (9454, 9456); (9459, 9461); (9464, 9466); (9469, 9471); (9474, 9476); (9479, 9481); (9484, 9486);
    (9489, 9491); (9494, 9496); (9499, 9501); (9504, 9506); (9509, 9511); (9514, 9516); (9519, 9521);
    (9524, 9526); (9529, 9531); (9534, 9536); (9539, 9541); (9544, 9546); (9549, 9551); (9554, 9556);
    (9559, 9561); (9564, 9566); (9569, 9571); (9574, 9576); (9579, 9581); (9584, 9586); (9589, 9591);
    (9594, 9596); (9599, 9601); (9604, 9606); (9609, 9611); (9614, 9616); (9619, 9621)]
  [
    9627; 9630; 9633; 9636; 9639; 9642; 9645; 9648; 9651; 9654; 9657; 9660; 9663; 9666; 9669; 9672; 9675;
    9678; 9681; 9684; 9687; 9690; 9693; 9696; 9699; 9702; 9705; 9708; 9711; 9714; 9717; 9720; 9723; 9726;
    9729; 9732; 9735; 9738; 9741; 9744; 9747; 9750; 9753; 9756; 9759; 9762; 9765; 9768] 9624;
  Drow [
    (9770, 9771); (9774, 9776); (9779, 9781); (9784, 9786); (9789, 9791); (9794, 9796); (9799, 9801);
    (9804, 9806); (9809, 9811); (9814, 9816); (9819, 9821); (9824, 9826); (9829, 9831); (9834, 9836);
    (9839, 9841); (9844, 9846); (9849, 9851); (9854, 9856); (9859, 9861); (9864, 9866); (9869, 9871);
    (9874, 9876); (9879, 9881); (9884, 9886); (9889, 9891); (9894, 9896); (9899, 9901); (9904, 9906);
    (9909, 9911); (9914, 9916); (9919, 9921); (9924, 9926); (9929, 9931); (9934, 9936); (9939, 9941);
    (9944, 9946); (9949, 9951); (9954, 9956); (9959, 9961); (9964, 9966); (9969, 9971); (9974, 9976);
    (9979, 9981); (9984, 9986); (9989, 9991); (9994, 9996); (9999, 10001); (10004, 10006); (10009, 10011)]
  [
    10017; 10020; 10023; 10026; 10029; 10032; 10035; 10038; 10041; 10044; 10047; 10050; 10053; 10056; 10059;
    10062; 10065; 10068; 10071; 10074; 10077; 10080; 10083; 10086; 10089; 10092; 10095; 10098; 10101; 10104;
    10107; 10110; 10113; 10116; 10119; 10122; 10125; 10128; 10131; 10134; 10137; 10140; 10143; 10146; 10149;
    10152; 10155; 10158; 10161] 10014;
  Drow [
    (10163, 10164); (10167, 10169); (10172, 10174); (10177, 10179); (10182, 10184); (10187, 10189);
    (10192, 10194); (10197, 10199); (10202, 10204); (10207, 10209); (10212, 10214); (10217, 10219);
    (10222, 10224); (10227, 10229); (10232, 10234); (10237, 10239); (10242, 10244); (10247, 10249);
    (10252, 10254); (10257, 10259); (10262, 10264); (10267, 10269); (10272, 10274); (10277, 10279);
    (10282, 10284); (10287, 10289); (10292, 10294); (10297, 10299); (10302, 10304); (10307, 10309);
    (10312, 10314); (10317, 10319); (10322, 10324); (10327, 10329); (10332, 10334); (10337, 10339);
    (10342, 10344); (10347, 10349); (10352, 10354); (10357, 10359); (10362, 10364); (10367, 10369);
    (10372, 10374); (10377, 10379); (10382, 10384); (10387, 10389); (10392, 10394); (10397, 10399);
    (10402, 10404); (10407, 10409)]
  [
    10415; 10418; 10421; 10424; 10427; 10430; 10433; 10436; 10439; 10442; 10445; 10448; 10451; 10454; 10457;
    10460; 10463; 10466; 10469; 10472; 10475; 10478; 10481; 10484; 10487; 10490; 10493; 10496; 10499; 10502;
    10505; 10508; 10511; 10514; 10517; 10520; 10523; 10526; 10529; 10532; 10535; 10538; 10541; 10544; 10547;
    10550; 10553; 10556; 10559; 10562] 10412;
  Drow [
    (10564, 10565); (10568, 10570); (10573, 10575); (10578, 10580); (10583, 10585); (10588, 10590);
    (10593, 10595); (10598, 10600); (10603, 10605); (10608, 10610); (10613, 10615); (10618, 10620);
    (10623, 10625); (10628, 10630); (10633, 10635); (10638, 10640); (10643, 10645); (10648, 10650);
    (10653, 10655); (10658, 10660); (10663, 10665); (10668, 10670); (10673, 10675); (10678, 10680);
    (10683, 10685); (10688, 10690); (10693, 10695); (10698, 10700); (10703, 10705); (10708, 10710);
    (10713, 10715); (10718, 10720); (10723, 10725); (10728, 10730); (10733, 10735); (10738, 10740);
    (10743, 10745); (10748, 10750); (10753, 10755); (10758, 10760); (10763, 10765); (10768, 10770);
    (10773, 10775); (10778, 10780); (10783, 10785); (10788, 10790); (10793, 10795); (10798, 10800);
    (10803, 10805); (10808, 10810); (10813, 10815)]
  [
    10821; 10824; 10827; 10830; 10833; 10836; 10839; 10842; 10845; 10848; 10851; 10854; 10857; 10860; 10863;
    10866; 10869; 10872; 10875; 10878; 10881; 10884; 10887; 10890; 10893; 10896; 10899; 10902; 10905; 10908;
    10911; 10914; 10917; 10920; 10923; 10926; 10929; 10932; 10935; 10938; 10941; 10944; 10947; 10950; 10953;
    10956; 10959; 10962; 10965; 10968; 10971] 10818;
  Drow [
    (10973, 10974); (10977, 10979); (10982, 10984); (10987, 10989); (10992, 10994); (10997, 10999);
    (11002, 11004); (11007, 11009); (11012, 11014); (11017, 11019); (11022, 11024); (11027, 11029);
    (11032, 11034); (11037, 11039); (11042, 11044); (11047, 11049); (11052, 11054); (11057, 11059);
    (11062, 11064); (11067, 11069); (11072, 11074); (11077, 11079); (11082, 11084); (11087, 11089);
    (11092, 11094); (11097, 11099); (11102, 11104); (11107, 11109); (11112, 11114); (11117, 11119);
    (11122, 11124); (11127, 11129); (11132, 11134); (11137, 11139); (11142, 11144); (11147, 11149);
    (11152, 11154); (11157, 11159); (11162, 11164); (11167, 11169); (11172, 11174); (11177, 11179);
    (11182, 11184); (11187, 11189); (11192, 11194); (11197, 11199); (11202, 11204); (11207, 11209);
    (11212, 11214); (11217, 11219); (11222, 11224); (11227, 11229)]
  [
    11235; 11238; 11241; 11244; 11247; 11250; 11253; 11256; 11259; 11262; 11265; 11268; 11271; 11274; 11277;
    11280; 11283; 11286; 11289; 11292; 11295; 11298; 11301; 11304; 11307; 11310; 11313; 11316; 11319; 11322;
    11325; 11328; 11331; 11334; 11337; 11340; 11343; 11346; 11349; 11352; 11355; 11358; 11361; 11364; 11367;
    11370; 11373; 11376; 11379; 11382; 11385; 11388] 11232;
  Drow [
    (11390, 11391); (11394, 11396); (11399, 11401); (11404, 11406); (11409, 11411); (11414, 11416);
    (11419, 11421); (11424, 11426); (11429, 11431); (11434, 11436); (11439, 11441); (11444, 11446);
    (11449, 11451); (11454, 11456); (11459, 11461); (11464, 11466); (11469, 11471); (11474, 11476);
    (11479, 11481); (11484, 11486); (11489, 11491); (11494, 11496); (11499, 11501); (11504, 11506);
    (11509, 11511); (11514, 11516); (11519, 11521); (11524, 11526); (11529, 11531); (11534, 11536);
    (11539, 11541); (11544, 11546); (11549, 11551); (11554, 11556); (11559, 11561); (11564, 11566);
    (11569, 11571); (11574, 11576); (11579, 11581); (11584, 11586); (11589, 11591); (11594, 11596);
    (11599, 11601); (11604, 11606); (11609, 11611); (11614, 11616); (11619, 11621); (11624, 11626);
    (11629, 11631); (11634, 11636); (11639, 11641); (11644, 11646); (11649, 11651)]
  [
    11657; 11660; 11663; 11666; 11669; 11672; 11675; 11678; 11681; 11684; 11687; 11690; 11693; 11696; 11699;
    11702; 11705; 11708; 11711; 11714; 11717; 11720; 11723; 11726; 11729; 11732; 11735; 11738; 11741; 11744;
    11747; 11750; 11753; 11756; 11759; 11762; 11765; 11768; 11771; 11774; 11777; 11780; 11783; 11786; 11789;
    11792; 11795; 11798; 11801; 11804; 11807; 11810; 11813] 11654;
  Drow [
    (11815, 11816); (11819, 11821); (11824, 11826); (11829, 11831); (11834, 11836); (11839, 11841);
    (11844, 11846); (11849, 11851); (11854, 11856); (11859, 11861); (11864, 11866); (11869, 11871);
    (11874, 11876); (11879, 11881); (11884, 11886); (11889, 11891); (11894, 11896); (11899, 11901);
    (11904, 11906); (11909, 11911); (11914, 11916); (11919, 11921); (11924, 11926); (11929, 11931);
    (11934, 11936); (11939, 11941); (11944, 11946); (11949, 11951); (11954, 11956); (11959, 11961);
    (11964, 11966); (11969, 11971); (11974, 11976); (11979, 11981); (11984, 11986); (11989, 11991);
    (11994, 11996); (11999, 12001); (12004, 12006); (12009, 12011); (12014, 12016); (12019, 12021);
    (12024, 12026); (12029, 12031); (12034, 12036); (12039, 12041); (12044, 12046); (12049, 12051);
    (12054, 12056); (12059, 12061); (12064, 12066); (12069, 12071); (12074, 12076); (12079, 12081)]
  [
    12087; 12090; 12093; 12096; 12099; 12102; 12105; 12108; 12111; 12114; 12117; 12120; 12123; 12126; 12129;
    12132; 12135; 12138; 12141; 12144; 12147; 12150; 12153; 12156; 12159; 12162; 12165; 12168; 12171; 12174;
    12177; 12180; 12183; 12186; 12189; 12192; 12195; 12198; 12201; 12204; 12207; 12210; 12213; 12216; 12219;
    12222; 12225; 12228; 12231; 12234; 12237; 12240; 12243; 12246] 12084;
  Drow [
    (12248, 12249); (12252, 12254); (12257, 12259); (12262, 12264); (12267, 12269); (12272, 12274);
    (12277, 12279); (12282, 12284); (12287, 12289); (12292, 12294); (12297, 12299); (12302, 12304);
    (12307, 12309); (12312, 12314); (12317, 12319); (12322, 12324); (12327, 12329); (12332, 12334);
    (12337, 12339); (12342, 12344); (12347, 12349); (12352, 12354); (12357, 12359); (12362, 12364);
    (12367, 12369); (12372, 12374); (12377, 12379); (12382, 12384); (12387, 12389); (12392, 12394);
    (12397, 12399); (12402, 12404); (12407, 12409); (12412, 12414); (12417, 12419); (12422, 12424);
    (12427, 12429); (12432, 12434); (12437, 12439); (12442, 12444); (12447, 12449); (12452, 12454);
    (12457, 12459); (12462, 12464); (12467, 12469); (12472, 12474); (12477, 12479); (12482, 12484);
    (12487, 12489); (12492, 12494); (12497, 12499); (12502, 12504); (12507, 12509); (12512, 12514);
    (12517, 12519)]
  [
    12525; 12528; 12531; 12534; 12537; 12540; 12543; 12546; 12549; 12552; 12555; 12558; 12561; 12564; 12567;
    12570; 12573; 12576; 12579; 12582; 12585; 12588; 12591; 12594; 12597; 12600; 12603; 12606; 12609; 12612;
    12615; 12618; 12621; 12624; 12627; 12630; 12633; 12636; 12639; 12642; 12645; 12648; 12651; 12654; 12657;
    12660; 12663; 12666; 12669; 12672; 12675; 12678; 12681; 12684; 12687] 12522;
  Drow [
    (12689, 12690); (12693, 12695); (12698, 12700); (12703, 12705); (12708, 12710); (12713, 12715);
    (12718, 12720); (12723, 12725); (12728, 12730); (12733, 12735); (12738, 12740); (12743, 12745);
    (12748, 12750); (12753, 12755); (12758, 12760); (12763, 12765); (12768, 12770); (12773, 12775);
    (12778, 12780); (12783, 12785); (12788, 12790); (12793, 12795); (12798, 12800); (12803, 12805);
    (12808, 12810); (12813, 12815); (12818, 12820); (12823, 12825); (12828, 12830); (12833, 12835);
    (12838, 12840); (12843, 12845); (12848, 12850); (12853, 12855); (12858, 12860); (12863, 12865);
    (12868, 12870); (12873, 12875); (12878, 12880); (12883, 12885); (12888, 12890); (12893, 12895);
    (12898, 12900); (12903, 12905); (12908, 12910); (12913, 12915); (12918, 12920); (12923, 12925);
    (12928, 12930); (12933, 12935); (12938, 12940); (12943, 12945); (12948, 12950); (12953, 12955);
    (12958, 12960); (12963, 12965)]
  [
    12971; 12974; 12977; 12980; 12983; 12986; 12989; 12992; 12995; 12998; 13001; 13004; 13007; 13010; 13013;
    13016; 13019; 13022; 13025; 13028; 13031; 13034; 13037; 13040; 13043; 13046; 13049; 13052; 13055; 13058;
    13061; 13064; 13067; 13070; 13073; 13076; 13079; 13082; 13085; 13088; 13091; 13094; 13097; 13100; 13103;
    13106; 13109; 13112; 13115; 13118; 13121; 13124; 13127; 13130; 13133; 13136] 12968;
  Drow [
    (13138, 13139); (13142, 13144); (13147, 13149); (13152, 13154); (13157, 13159); (13162, 13164);
    (13167, 13169); (13172, 13174); (13177, 13179); (13182, 13184); (13187, 13189); (13192, 13194);
    (13197, 13199); (13202, 13204); (13207, 13209); (13212, 13214); (13217, 13219); (13222, 13224);
    (13227, 13229); (13232, 13234); (13237, 13239); (13242, 13244); (13247, 13249); (13252, 13254);
    (13257, 13259); (13262, 13264); (13267, 13269); (13272, 13274); (13277, 13279); (13282, 13284);
    (13287, 13289); (13292, 13294); (13297, 13299); (13302, 13304); (13307, 13309); (13312, 13314);
    (13317, 13319); (13322, 13324); (13327, 13329); (13332, 13334); (13337, 13339); (13342, 13344);
    (13347, 13349); (13352, 13354); (13357, 13359); (13362, 13364); (13367, 13369); (13372, 13374);
    (13377, 13379); (13382, 13384); (13387, 13389); (13392, 13394); (13397, 13399); (13402, 13404);
    (13407, 13409); (13412, 13414); (13417, 13419)]
  [
    13425; 13428; 13431; 13434; 13437; 13440; 13443; 13446; 13449; 13452; 13455; 13458; 13461; 13464; 13467;
    13470; 13473; 13476; 13479; 13482; 13485; 13488; 13491; 13494; 13497; 13500; 13503; 13506; 13509; 13512;
    13515; 13518; 13521; 13524; 13527; 13530; 13533; 13536; 13539; 13542; 13545; 13548; 13551; 13554; 13557;
    13560; 13563; 13566; 13569; 13572; 13575; 13578; 13581; 13584; 13587; 13590; 13593] 13422;
  Drow [
    (13595, 13596); (13599, 13601); (13604, 13606); (13609, 13611); (13614, 13616); (13619, 13621);
    (13624, 13626); (13629, 13631); (13634, 13636); (13639, 13641); (13644, 13646); (13649, 13651);
    (13654, 13656); (13659, 13661); (13664, 13666); (13669, 13671); (13674, 13676); (13679, 13681);
    (13684, 13686); (13689, 13691); (13694, 13696); (13699, 13701); (13704, 13706); (13709, 13711);
    (13714, 13716); (13719, 13721); (13724, 13726); (13729, 13731); (13734, 13736); (13739, 13741);
    (13744, 13746); (13749, 13751); (13754, 13756); (13759, 13761); (13764, 13766); (13769, 13771);
    (13774, 13776); (13779, 13781); (13784, 13786); (13789, 13791); (13794, 13796); (13799, 13801);
    (13804, 13806); (13809, 13811); (13814, 13816); (13819, 13821); (13824, 13826); (13829, 13831);
    (13834, 13836); (13839, 13841); (13844, 13846); (13849, 13851); (13854, 13856); (13859, 13861);
    (13864, 13866); (13869, 13871); (13874, 13876); (13879, 13881)]
  [
    13887; 13890; 13893; 13896; 13899; 13902; 13905; 13908; 13911; 13914; 13917; 13920; 13923; 13926; 13929;
    13932; 13935; 13938; 13941; 13944; 13947; 13950; 13953; 13956; 13959; 13962; 13965; 13968; 13971; 13974;
    13977; 13980; 13983; 13986; 13989; 13992; 13995; 13998; 14001; 14004; 14007; 14010; 14013; 14016; 14019;
    14022; 14025; 14028; 14031; 14034; 14037; 14040; 14043; 14046; 14049; 14052; 14055; 14058] 13884;
  Drow [
    (14060, 14061); (14064, 14066); (14069, 14071); (14074, 14076); (14079, 14081); (14084, 14086);
    (14089, 14091); (14094, 14096); (14099, 14101); (14104, 14106); (14109, 14111); (14114, 14116);
    (14119, 14121); (14124, 14126); (14129, 14131); (14134, 14136); (14139, 14141); (14144, 14146);
    (14149, 14151); (14154, 14156); (14159, 14161); (14164, 14166); (14169, 14171); (14174, 14176);
    (14179, 14181); (14184, 14186); (14189, 14191); (14194, 14196); (14199, 14201); (14204, 14206);
    (14209, 14211); (14214, 14216); (14219, 14221); (14224, 14226); (14229, 14231); (14234, 14236);
    (14239, 14241); (14244, 14246); (14249, 14251); (14254, 14256); (14259, 14261); (14264, 14266);
    (14269, 14271); (14274, 14276); (14279, 14281); (14284, 14286); (14289, 14291); (14294, 14296);
    (14299, 14301); (14304, 14306); (14309, 14311); (14314, 14316); (14319, 14321); (14324, 14326);
    (14329, 14331); (14334, 14336); (14339, 14341); (14344, 14346); (14349, 14351)]
  [
    14357; 14360; 14363; 14366; 14369; 14372; 14375; 14378; 14381; 14384; 14387; 14390; 14393; 14396; 14399;
    14402; 14405; 14408; 14411; 14414; 14417; 14420; 14423; 14426; 14429; 14432; 14435; 14438; 14441; 14444;
    14447; 14450; 14453; 14456; 14459; 14462; 14465; 14468; 14471; 14474; 14477; 14480; 14483; 14486; 14489;
    14492; 14495; 14498; 14501; 14504; 14507; 14510; 14513; 14516; 14519; 14522; 14525; 14528; 14531] 14354;
  Drow [
    (14533, 14534); (14537, 14539); (14542, 14544); (14547, 14549); (14552, 14554); (14557, 14559);
    (14562, 14564); (14567, 14569); (14572, 14574); (14577, 14579); (14582, 14584); (14587, 14589);
    (14592, 14594); (14597, 14599); (14602, 14604); (14607, 14609); (14612, 14614); (14617, 14619);
    (14622, 14624); (14627, 14629); (14632, 14634); (14637, 14639); (14642, 14644); (14647, 14649);
    (14652, 14654); (14657, 14659); (14662, 14664); (14667, 14669); (14672, 14674); (14677, 14679);
    (14682, 14684); (14687, 14689); (14692, 14694); (14697, 14699); (14702, 14704); (14707, 14709);
    (14712, 14714); (14717, 14719); (14722, 14724); (14727, 14729); (14732, 14734); (14737, 14739);
    (14742, 14744); (14747, 14749); (14752, 14754); (14757, 14759); (14762, 14764); (14767, 14769);
    (14772, 14774); (14777, 14779); (14782, 14784); (14787, 14789); (14792, 14794); (14797, 14799);
    (14802, 14804); (14807, 14809); (14812, 14814); (14817, 14819); (14822, 14824); (14827, 14829)]
  [
    14835; 14838; 14841; 14844; 14847; 14850; 14853; 14856; 14859; 14862; 14865; 14868; 14871; 14874; 14877;
    14880; 14883; 14886; 14889; 14892; 14895; 14898; 14901; 14904; 14907; 14910; 14913; 14916; 14919; 14922;
    14925; 14928; 14931; 14934; 14937; 14940; 14943; 14946; 14949; 14952; 14955; 14958; 14961; 14964; 14967;
    14970; 14973; 14976; 14979; 14982; 14985; 14988; 14991; 14994; 14997; 15000; 15003; 15006; 15009; 15012] 14832;
  Drow [
    (15014, 15015); (15018, 15020); (15023, 15025); (15028, 15030); (15033, 15035); (15038, 15040);
    (15043, 15045); (15048, 15050); (15053, 15055); (15058, 15060); (15063, 15065); (15068, 15070);
    (15073, 15075); (15078, 15080); (15083, 15085); (15088, 15090); (15093, 15095); (15098, 15100);
    (15103, 15105); (15108, 15110); (15113, 15115); (15118, 15120); (15123, 15125); (15128, 15130);
    (15133, 15135); (15138, 15140); (15143, 15145); (15148, 15150); (15153, 15155); (15158, 15160);
    (15163, 15165); (15168, 15170); (15173, 15175); (15178, 15180); (15183, 15185); (15188, 15190);
    (15193, 15195); (15198, 15200); (15203, 15205); (15208, 15210); (15213, 15215); (15218, 15220);
    (15223, 15225); (15228, 15230); (15233, 15235); (15238, 15240); (15243, 15245); (15248, 15250);
    (15253, 15255); (15258, 15260); (15263, 15265); (15268, 15270); (15273, 15275); (15278, 15280);
    (15283, 15285); (15288, 15290); (15293, 15295); (15298, 15300); (15303, 15305); (15308, 15310);
    (15313, 15315)]
  [
    15321; 15324; 15327; 15330; 15333; 15336; 15339; 15342; 15345; 15348; 15351; 15354; 15357; 15360; 15363;
    15366; 15369; 15372; 15375; 15378; 15381; 15384; 15387; 15390; 15393; 15396; 15399; 15402; 15405; 15408;
    15411; 15414; 15417; 15420; 15423; 15426; 15429; 15432; 15435; 15438; 15441; 15444; 15447; 15450; 15453;
    15456; 15459; 15462; 15465; 15468; 15471; 15474; 15477; 15480; 15483; 15486; 15489; 15492; 15495; 15498;
    15501] 15318;
  Drow [
    (15503, 15504); (15507, 15509); (15512, 15514); (15517, 15519); (15522, 15524); (15527, 15529);
    (15532, 15534); (15537, 15539); (15542, 15544); (15547, 15549); (15552, 15554); (15557, 15559);
    (15562, 15564); (15567, 15569); (15572, 15574); (15577, 15579); (15582, 15584); (15587, 15589);
    (15592, 15594); (15597, 15599); (15602, 15604); (15607, 15609); (15612, 15614); (15617, 15619);
    (15622, 15624); (15627, 15629); (15632, 15634); (15637, 15639); (15642, 15644); (15647, 15649);
    (15652, 15654); (15657, 15659); (15662, 15664); (15667, 15669); (15672, 15674); (15677, 15679);
    (15682, 15684); (15687, 15689); (15692, 15694); (15697, 15699); (15702, 15704); (15707, 15709);
    (15712, 15714); (15717, 15719); (15722, 15724); (15727, 15729); (15732, 15734); (15737, 15739);
    (15742, 15744); (15747, 15749); (15752, 15754); (15757, 15759); (15762, 15764); (15767, 15769);
    (15772, 15774); (15777, 15779); (15782, 15784); (15787, 15789); (15792, 15794); (15797, 15799);
    (15802, 15804); (15807, 15809)]
  [
    15815; 15818; 15821; 15824; 15827; 15830; 15833; 15836; 15839; 15842; 15845; 15848; 15851; 15854; 15857;
    15860; 15863; 15866; 15869; 15872; 15875; 15878; 15881; 15884; 15887; 15890; 15893; 15896; 15899; 15902;
    15905; 15908; 15911; 15914; 15917; 15920; 15923; 15926; 15929; 15932; 15935; 15938; 15941; 15944; 15947;
    15950; 15953; 15956; 15959; 15962; 15965; 15968; 15971; 15974; 15977; 15980; 15983; 15986; 15989; 15992;
    15995; 15998] 15812;
  Drow [
    (16000, 16001); (16004, 16006); (16009, 16011); (16014, 16016); (16019, 16021); (16024, 16026);
    (16029, 16031); (16034, 16036); (16039, 16041); (16044, 16046); (16049, 16051); (16054, 16056);
    (16059, 16061); (16064, 16066); (16069, 16071); (16074, 16076); (16079, 16081); (16084, 16086);
    (16089, 16091); (16094, 16096); (16099, 16101); (16104, 16106); (16109, 16111); (16114, 16116);
    (16119, 16121); (16124, 16126); (16129, 16131); (16134, 16136); (16139, 16141); (16144, 16146);
    (16149, 16151); (16154, 16156); (16159, 16161); (16164, 16166); (16169, 16171); (16174, 16176);
    (16179, 16181); (16184, 16186); (16189, 16191); (16194, 16196); (16199, 16201); (16204, 16206);
    (16209, 16211); (16214, 16216); (16219, 16221); (16224, 16226); (16229, 16231); (16234, 16236);
    (16239, 16241); (16244, 16246); (16249, 16251); (16254, 16256); (16259, 16261); (16264, 16266);
    (16269, 16271); (16274, 16276); (16279, 16281); (16284, 16286); (16289, 16291); (16294, 16296);
    (16299, 16301); (16304, 16306); (16309, 16311)]
  [
    16317; 16320; 16323; 16326; 16329; 16332; 16335; 16338; 16341; 16344; 16347; 16350; 16353; 16356; 16359;
    16362; 16365; 16368; 16371; 16374; 16377; 16380; 16383; 16386; 16389; 16392; 16395; 16398; 16401; 16404;
    16407; 16410; 16413; 16416; 16419; 16422; 16425; 16428; 16431; 16434; 16437; 16440; 16443; 16446; 16449;
    16452; 16455; 16458; 16461; 16464; 16467; 16470; 16473; 16476; 16479; 16482; 16485; 16488; 16491; 16494;
    16497; 16500; 16503] 16314;
  Drow [
    (16505, 16506); (16509, 16511); (16514, 16516); (16519, 16521); (16524, 16526); (16529, 16531);
    (16534, 16536); (16539, 16541); (16544, 16546); (16549, 16551); (16554, 16556); (16559, 16561);
    (16564, 16566); (16569, 16571); (16574, 16576); (16579, 16581); (16584, 16586); (16589, 16591);
    (16594, 16596); (16599, 16601); (16604, 16606); (16609, 16611); (16614, 16616); (16619, 16621);
    (16624, 16626); (16629, 16631); (16634, 16636); (16639, 16641); (16644, 16646); (16649, 16651);
    (16654, 16656); (16659, 16661); (16664, 16666); (16669, 16671); (16674, 16676); (16679, 16681);
    (16684, 16686); (16689, 16691); (16694, 16696); (16699, 16701); (16704, 16706); (16709, 16711);
    (16714, 16716); (16719, 16721); (16724, 16726); (16729, 16731); (16734, 16736); (16739, 16741);
    (16744, 16746); (16749, 16751); (16754, 16756); (16759, 16761); (16764, 16766); (16769, 16771);
    (16774, 16776); (16779, 16781); (16784, 16786); (16789, 16791); (16794, 16796); (16799, 16801);
    (16804, 16806); (16809, 16811); (16814, 16816); (16819, 16821)]
  [
    ] 16821].
