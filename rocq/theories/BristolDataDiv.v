(** Generated: circuit files of yacl/io/circuit/data, line by line. *)
From Coq Require Import String List.
Import ListNotations.
Open Scope string_scope.

(** The last line of this file has no newline. *)
Definition udivide64_file : list string := [
"16952 17080";
"2 64 64";
"1 64";
"";
"2 1 127 126 128 AND";
"2 1 127 126 129 XOR";
"2 1 129 128 130 XOR";
"2 1 130 125 131 AND";
"2 1 130 125 132 XOR";
"2 1 132 131 133 XOR";
"2 1 133 124 134 AND";
"2 1 133 124 135 XOR";
"2 1 135 134 136 XOR";
"2 1 136 123 137 AND";
"2 1 136 123 138 XOR";
"2 1 138 137 139 XOR";
"2 1 139 122 140 AND";
"2 1 139 122 141 XOR";
"2 1 141 140 142 XOR";
"2 1 142 121 143 AND";
"2 1 142 121 144 XOR";
"2 1 144 143 145 XOR";
"2 1 145 120 146 AND";
"2 1 145 120 147 XOR";
"2 1 147 146 148 XOR";
"2 1 148 119 149 AND";
"2 1 148 119 150 XOR";
"2 1 150 149 151 XOR";
"2 1 151 118 152 AND";
"2 1 151 118 153 XOR";
"2 1 153 152 154 XOR";
"2 1 154 117 155 AND";
"2 1 154 117 156 XOR";
"2 1 156 155 157 XOR";
"2 1 157 116 158 AND";
"2 1 157 116 159 XOR";
"2 1 159 158 160 XOR";
"2 1 160 115 161 AND";
"2 1 160 115 162 XOR";
"2 1 162 161 163 XOR";
"2 1 163 114 164 AND";
"2 1 163 114 165 XOR";
"2 1 165 164 166 XOR";
"2 1 166 113 167 AND";
"2 1 166 113 168 XOR";
"2 1 168 167 169 XOR";
"2 1 169 112 170 AND";
"2 1 169 112 171 XOR";
"2 1 171 170 172 XOR";
"2 1 172 111 173 AND";
"2 1 172 111 174 XOR";
"2 1 174 173 175 XOR";
"2 1 175 110 176 AND";
"2 1 175 110 177 XOR";
"2 1 177 176 178 XOR";
"2 1 178 109 179 AND";
"2 1 178 109 180 XOR";
"2 1 180 179 181 XOR";
"2 1 181 108 182 AND";
"2 1 181 108 183 XOR";
"2 1 183 182 184 XOR";
"2 1 184 107 185 AND";
"2 1 184 107 186 XOR";
"2 1 186 185 187 XOR";
"2 1 187 106 188 AND";
"2 1 187 106 189 XOR";
"2 1 189 188 190 XOR";
"2 1 190 105 191 AND";
"2 1 190 105 192 XOR";
"2 1 192 191 193 XOR";
"2 1 193 104 194 AND";
"2 1 193 104 195 XOR";
"2 1 195 194 196 XOR";
"2 1 196 103 197 AND";
"2 1 196 103 198 XOR";
"2 1 198 197 199 XOR";
"2 1 199 102 200 AND";
"2 1 199 102 201 XOR";
"2 1 201 200 202 XOR";
"2 1 202 101 203 AND";
"2 1 202 101 204 XOR";
"2 1 204 203 205 XOR";
"2 1 205 100 206 AND";
"2 1 205 100 207 XOR";
"2 1 207 206 208 XOR";
"2 1 208 99 209 AND";
"2 1 208 99 210 XOR";
"2 1 210 209 211 XOR";
"2 1 211 98 212 AND";
"2 1 211 98 213 XOR";
"2 1 213 212 214 XOR";
"2 1 214 97 215 AND";
"2 1 214 97 216 XOR";
"2 1 216 215 217 XOR";
"2 1 217 96 218 AND";
"2 1 217 96 219 XOR";
"2 1 219 218 220 XOR";
"2 1 220 95 221 AND";
"2 1 220 95 222 XOR";
"2 1 222 221 223 XOR";
"2 1 223 94 224 AND";
"2 1 223 94 225 XOR";
"2 1 225 224 226 XOR";
"2 1 226 93 227 AND";
"2 1 226 93 228 XOR";
"2 1 228 227 229 XOR";
"2 1 229 92 230 AND";
"2 1 229 92 231 XOR";
"2 1 231 230 232 XOR";
"2 1 232 91 233 AND";
"2 1 232 91 234 XOR";
"2 1 234 233 235 XOR";
"2 1 235 90 236 AND";
"2 1 235 90 237 XOR";
"2 1 237 236 238 XOR";
"2 1 238 89 239 AND";
"2 1 238 89 240 XOR";
"2 1 240 239 241 XOR";
"2 1 241 88 242 AND";
"2 1 241 88 243 XOR";
"2 1 243 242 244 XOR";
"2 1 244 87 245 AND";
"2 1 244 87 246 XOR";
"2 1 246 245 247 XOR";
"2 1 247 86 248 AND";
"2 1 247 86 249 XOR";
"2 1 249 248 250 XOR";
"2 1 250 85 251 AND";
"2 1 250 85 252 XOR";
"2 1 252 251 253 XOR";
"2 1 253 84 254 AND";
"2 1 253 84 255 XOR";
"2 1 255 254 256 XOR";
"2 1 256 83 257 AND";
"2 1 256 83 258 XOR";
"2 1 258 257 259 XOR";
"2 1 259 82 260 AND";
"2 1 259 82 261 XOR";
"2 1 261 260 262 XOR";
"2 1 262 81 263 AND";
"2 1 262 81 264 XOR";
"2 1 264 263 265 XOR";
"2 1 265 80 266 AND";
"2 1 265 80 267 XOR";
"2 1 267 266 268 XOR";
"2 1 268 79 269 AND";
"2 1 268 79 270 XOR";
"2 1 270 269 271 XOR";
"2 1 271 78 272 AND";
"2 1 271 78 273 XOR";
"2 1 273 272 274 XOR";
"2 1 274 77 275 AND";
"2 1 274 77 276 XOR";
"2 1 276 275 277 XOR";
"2 1 277 76 278 AND";
"2 1 277 76 279 XOR";
"2 1 279 278 280 XOR";
"2 1 280 75 281 AND";
"2 1 280 75 282 XOR";
"2 1 282 281 283 XOR";
"2 1 283 74 284 AND";
"2 1 283 74 285 XOR";
"2 1 285 284 286 XOR";
"2 1 286 73 287 AND";
"2 1 286 73 288 XOR";
"2 1 288 287 289 XOR";
"2 1 289 72 290 AND";
"2 1 289 72 291 XOR";
"2 1 291 290 292 XOR";
"2 1 292 71 293 AND";
"2 1 292 71 294 XOR";
"2 1 294 293 295 XOR";
"2 1 295 70 296 AND";
"2 1 295 70 297 XOR";
"2 1 297 296 298 XOR";
"2 1 298 69 299 AND";
"2 1 298 69 300 XOR";
"2 1 300 299 301 XOR";
"2 1 301 68 302 AND";
"2 1 301 68 303 XOR";
"2 1 303 302 304 XOR";
"2 1 304 67 305 AND";
"2 1 304 67 306 XOR";
"2 1 306 305 307 XOR";
"2 1 307 66 308 AND";
"2 1 307 66 309 XOR";
"2 1 309 308 310 XOR";
"2 1 310 65 311 AND";
"2 1 310 65 312 XOR";
"2 1 312 311 313 XOR";
"2 1 63 64 314 XOR";
"2 1 314 64 315 AND";
"2 1 315 313 316 AND";
"2 1 315 313 317 XOR";
"2 1 317 316 318 XOR";
"2 1 63 314 319 XOR";
"2 1 318 319 320 AND";
"2 1 320 314 321 XOR";
"1 1 318 322 INV";
"2 1 62 64 323 XOR";
"2 1 323 64 324 AND";
"2 1 321 65 325 XOR";
"2 1 324 65 326 XOR";
"2 1 325 324 327 XOR";
"2 1 325 326 328 AND";
"2 1 324 328 329 XOR";
"2 1 329 310 330 AND";
"2 1 329 310 331 XOR";
"2 1 331 330 332 XOR";
"2 1 62 323 333 XOR";
"2 1 332 333 334 AND";
"2 1 334 323 335 XOR";
"2 1 321 327 336 XOR";
"2 1 332 336 337 AND";
"2 1 337 327 338 XOR";
"1 1 332 339 INV";
"2 1 61 64 340 XOR";
"2 1 340 64 341 AND";
"2 1 335 65 342 XOR";
"2 1 341 65 343 XOR";
"2 1 342 341 344 XOR";
"2 1 342 343 345 AND";
"2 1 341 345 346 XOR";
"2 1 338 66 347 XOR";
"2 1 346 66 348 XOR";
"2 1 347 346 349 XOR";
"2 1 347 348 350 AND";
"2 1 346 350 351 XOR";
"2 1 351 307 352 AND";
"2 1 351 307 353 XOR";
"2 1 353 352 354 XOR";
"2 1 61 340 355 XOR";
"2 1 354 355 356 AND";
"2 1 356 340 357 XOR";
"2 1 335 344 358 XOR";
"2 1 354 358 359 AND";
"2 1 359 344 360 XOR";
"2 1 338 349 361 XOR";
"2 1 354 361 362 AND";
"2 1 362 349 363 XOR";
"1 1 354 364 INV";
"2 1 60 64 365 XOR";
"2 1 365 64 366 AND";
"2 1 357 65 367 XOR";
"2 1 366 65 368 XOR";
"2 1 367 366 369 XOR";
"2 1 367 368 370 AND";
"2 1 366 370 371 XOR";
"2 1 360 66 372 XOR";
"2 1 371 66 373 XOR";
"2 1 372 371 374 XOR";
"2 1 372 373 375 AND";
"2 1 371 375 376 XOR";
"2 1 363 67 377 XOR";
"2 1 376 67 378 XOR";
"2 1 377 376 379 XOR";
"2 1 377 378 380 AND";
"2 1 376 380 381 XOR";
"2 1 381 304 382 AND";
"2 1 381 304 383 XOR";
"2 1 383 382 384 XOR";
"2 1 60 365 385 XOR";
"2 1 384 385 386 AND";
"2 1 386 365 387 XOR";
"2 1 357 369 388 XOR";
"2 1 384 388 389 AND";
"2 1 389 369 390 XOR";
"2 1 360 374 391 XOR";
"2 1 384 391 392 AND";
"2 1 392 374 393 XOR";
"2 1 363 379 394 XOR";
"2 1 384 394 395 AND";
"2 1 395 379 396 XOR";
"1 1 384 397 INV";
"2 1 59 64 398 XOR";
"2 1 398 64 399 AND";
"2 1 387 65 400 XOR";
"2 1 399 65 401 XOR";
"2 1 400 399 402 XOR";
"2 1 400 401 403 AND";
"2 1 399 403 404 XOR";
"2 1 390 66 405 XOR";
"2 1 404 66 406 XOR";
"2 1 405 404 407 XOR";
"2 1 405 406 408 AND";
"2 1 404 408 409 XOR";
"2 1 393 67 410 XOR";
"2 1 409 67 411 XOR";
"2 1 410 409 412 XOR";
"2 1 410 411 413 AND";
"2 1 409 413 414 XOR";
"2 1 396 68 415 XOR";
"2 1 414 68 416 XOR";
"2 1 415 414 417 XOR";
"2 1 415 416 418 AND";
"2 1 414 418 419 XOR";
"2 1 419 301 420 AND";
"2 1 419 301 421 XOR";
"2 1 421 420 422 XOR";
"2 1 59 398 423 XOR";
"2 1 422 423 424 AND";
"2 1 424 398 425 XOR";
"2 1 387 402 426 XOR";
"2 1 422 426 427 AND";
"2 1 427 402 428 XOR";
"2 1 390 407 429 XOR";
"2 1 422 429 430 AND";
"2 1 430 407 431 XOR";
"2 1 393 412 432 XOR";
"2 1 422 432 433 AND";
"2 1 433 412 434 XOR";
"2 1 396 417 435 XOR";
"2 1 422 435 436 AND";
"2 1 436 417 437 XOR";
"1 1 422 438 INV";
"2 1 58 64 439 XOR";
"2 1 439 64 440 AND";
"2 1 425 65 441 XOR";
"2 1 440 65 442 XOR";
"2 1 441 440 443 XOR";
"2 1 441 442 444 AND";
"2 1 440 444 445 XOR";
"2 1 428 66 446 XOR";
"2 1 445 66 447 XOR";
"2 1 446 445 448 XOR";
"2 1 446 447 449 AND";
"2 1 445 449 450 XOR";
"2 1 431 67 451 XOR";
"2 1 450 67 452 XOR";
"2 1 451 450 453 XOR";
"2 1 451 452 454 AND";
"2 1 450 454 455 XOR";
"2 1 434 68 456 XOR";
"2 1 455 68 457 XOR";
"2 1 456 455 458 XOR";
"2 1 456 457 459 AND";
"2 1 455 459 460 XOR";
"2 1 437 69 461 XOR";
"2 1 460 69 462 XOR";
"2 1 461 460 463 XOR";
"2 1 461 462 464 AND";
"2 1 460 464 465 XOR";
"2 1 465 298 466 AND";
"2 1 465 298 467 XOR";
"2 1 467 466 468 XOR";
"2 1 58 439 469 XOR";
"2 1 468 469 470 AND";
"2 1 470 439 471 XOR";
"2 1 425 443 472 XOR";
"2 1 468 472 473 AND";
"2 1 473 443 474 XOR";
"2 1 428 448 475 XOR";
"2 1 468 475 476 AND";
"2 1 476 448 477 XOR";
"2 1 431 453 478 XOR";
"2 1 468 478 479 AND";
"2 1 479 453 480 XOR";
"2 1 434 458 481 XOR";
"2 1 468 481 482 AND";
"2 1 482 458 483 XOR";
"2 1 437 463 484 XOR";
"2 1 468 484 485 AND";
"2 1 485 463 486 XOR";
"1 1 468 487 INV";
"2 1 57 64 488 XOR";
"2 1 488 64 489 AND";
"2 1 471 65 490 XOR";
"2 1 489 65 491 XOR";
"2 1 490 489 492 XOR";
"2 1 490 491 493 AND";
"2 1 489 493 494 XOR";
"2 1 474 66 495 XOR";
"2 1 494 66 496 XOR";
"2 1 495 494 497 XOR";
"2 1 495 496 498 AND";
"2 1 494 498 499 XOR";
"2 1 477 67 500 XOR";
"2 1 499 67 501 XOR";
"2 1 500 499 502 XOR";
"2 1 500 501 503 AND";
"2 1 499 503 504 XOR";
"2 1 480 68 505 XOR";
"2 1 504 68 506 XOR";
"2 1 505 504 507 XOR";
"2 1 505 506 508 AND";
"2 1 504 508 509 XOR";
"2 1 483 69 510 XOR";
"2 1 509 69 511 XOR";
"2 1 510 509 512 XOR";
"2 1 510 511 513 AND";
"2 1 509 513 514 XOR";
"2 1 486 70 515 XOR";
"2 1 514 70 516 XOR";
"2 1 515 514 517 XOR";
"2 1 515 516 518 AND";
"2 1 514 518 519 XOR";
"2 1 519 295 520 AND";
"2 1 519 295 521 XOR";
"2 1 521 520 522 XOR";
"2 1 57 488 523 XOR";
"2 1 522 523 524 AND";
"2 1 524 488 525 XOR";
"2 1 471 492 526 XOR";
"2 1 522 526 527 AND";
"2 1 527 492 528 XOR";
"2 1 474 497 529 XOR";
"2 1 522 529 530 AND";
"2 1 530 497 531 XOR";
"2 1 477 502 532 XOR";
"2 1 522 532 533 AND";
"2 1 533 502 534 XOR";
"2 1 480 507 535 XOR";
"2 1 522 535 536 AND";
"2 1 536 507 537 XOR";
"2 1 483 512 538 XOR";
"2 1 522 538 539 AND";
"2 1 539 512 540 XOR";
"2 1 486 517 541 XOR";
"2 1 522 541 542 AND";
"2 1 542 517 543 XOR";
"1 1 522 544 INV";
"2 1 56 64 545 XOR";
"2 1 545 64 546 AND";
"2 1 525 65 547 XOR";
"2 1 546 65 548 XOR";
"2 1 547 546 549 XOR";
"2 1 547 548 550 AND";
"2 1 546 550 551 XOR";
"2 1 528 66 552 XOR";
"2 1 551 66 553 XOR";
"2 1 552 551 554 XOR";
"2 1 552 553 555 AND";
"2 1 551 555 556 XOR";
"2 1 531 67 557 XOR";
"2 1 556 67 558 XOR";
"2 1 557 556 559 XOR";
"2 1 557 558 560 AND";
"2 1 556 560 561 XOR";
"2 1 534 68 562 XOR";
"2 1 561 68 563 XOR";
"2 1 562 561 564 XOR";
"2 1 562 563 565 AND";
"2 1 561 565 566 XOR";
"2 1 537 69 567 XOR";
"2 1 566 69 568 XOR";
"2 1 567 566 569 XOR";
"2 1 567 568 570 AND";
"2 1 566 570 571 XOR";
"2 1 540 70 572 XOR";
"2 1 571 70 573 XOR";
"2 1 572 571 574 XOR";
"2 1 572 573 575 AND";
"2 1 571 575 576 XOR";
"2 1 543 71 577 XOR";
"2 1 576 71 578 XOR";
"2 1 577 576 579 XOR";
"2 1 577 578 580 AND";
"2 1 576 580 581 XOR";
"2 1 581 292 582 AND";
"2 1 581 292 583 XOR";
"2 1 583 582 584 XOR";
"2 1 56 545 585 XOR";
"2 1 584 585 586 AND";
"2 1 586 545 587 XOR";
"2 1 525 549 588 XOR";
"2 1 584 588 589 AND";
"2 1 589 549 590 XOR";
"2 1 528 554 591 XOR";
"2 1 584 591 592 AND";
"2 1 592 554 593 XOR";
"2 1 531 559 594 XOR";
"2 1 584 594 595 AND";
"2 1 595 559 596 XOR";
"2 1 534 564 597 XOR";
"2 1 584 597 598 AND";
"2 1 598 564 599 XOR";
"2 1 537 569 600 XOR";
"2 1 584 600 601 AND";
"2 1 601 569 602 XOR";
"2 1 540 574 603 XOR";
"2 1 584 603 604 AND";
"2 1 604 574 605 XOR";
"2 1 543 579 606 XOR";
"2 1 584 606 607 AND";
"2 1 607 579 608 XOR";
"1 1 584 609 INV";
"2 1 55 64 610 XOR";
"2 1 610 64 611 AND";
"2 1 587 65 612 XOR";
"2 1 611 65 613 XOR";
"2 1 612 611 614 XOR";
"2 1 612 613 615 AND";
"2 1 611 615 616 XOR";
"2 1 590 66 617 XOR";
"2 1 616 66 618 XOR";
"2 1 617 616 619 XOR";
"2 1 617 618 620 AND";
"2 1 616 620 621 XOR";
"2 1 593 67 622 XOR";
"2 1 621 67 623 XOR";
"2 1 622 621 624 XOR";
"2 1 622 623 625 AND";
"2 1 621 625 626 XOR";
"2 1 596 68 627 XOR";
"2 1 626 68 628 XOR";
"2 1 627 626 629 XOR";
"2 1 627 628 630 AND";
"2 1 626 630 631 XOR";
"2 1 599 69 632 XOR";
"2 1 631 69 633 XOR";
"2 1 632 631 634 XOR";
"2 1 632 633 635 AND";
"2 1 631 635 636 XOR";
"2 1 602 70 637 XOR";
"2 1 636 70 638 XOR";
"2 1 637 636 639 XOR";
"2 1 637 638 640 AND";
"2 1 636 640 641 XOR";
"2 1 605 71 642 XOR";
"2 1 641 71 643 XOR";
"2 1 642 641 644 XOR";
"2 1 642 643 645 AND";
"2 1 641 645 646 XOR";
"2 1 608 72 647 XOR";
"2 1 646 72 648 XOR";
"2 1 647 646 649 XOR";
"2 1 647 648 650 AND";
"2 1 646 650 651 XOR";
"2 1 651 289 652 AND";
"2 1 651 289 653 XOR";
"2 1 653 652 654 XOR";
"2 1 55 610 655 XOR";
"2 1 654 655 656 AND";
"2 1 656 610 657 XOR";
"2 1 587 614 658 XOR";
"2 1 654 658 659 AND";
"2 1 659 614 660 XOR";
"2 1 590 619 661 XOR";
"2 1 654 661 662 AND";
"2 1 662 619 663 XOR";
"2 1 593 624 664 XOR";
"2 1 654 664 665 AND";
"2 1 665 624 666 XOR";
"2 1 596 629 667 XOR";
"2 1 654 667 668 AND";
"2 1 668 629 669 XOR";
"2 1 599 634 670 XOR";
"2 1 654 670 671 AND";
"2 1 671 634 672 XOR";
"2 1 602 639 673 XOR";
"2 1 654 673 674 AND";
"2 1 674 639 675 XOR";
"2 1 605 644 676 XOR";
"2 1 654 676 677 AND";
"2 1 677 644 678 XOR";
"2 1 608 649 679 XOR";
"2 1 654 679 680 AND";
"2 1 680 649 681 XOR";
"1 1 654 682 INV";
"2 1 54 64 683 XOR";
"2 1 683 64 684 AND";
"2 1 657 65 685 XOR";
"2 1 684 65 686 XOR";
"2 1 685 684 687 XOR";
"2 1 685 686 688 AND";
"2 1 684 688 689 XOR";
"2 1 660 66 690 XOR";
"2 1 689 66 691 XOR";
"2 1 690 689 692 XOR";
"2 1 690 691 693 AND";
"2 1 689 693 694 XOR";
"2 1 663 67 695 XOR";
"2 1 694 67 696 XOR";
"2 1 695 694 697 XOR";
"2 1 695 696 698 AND";
"2 1 694 698 699 XOR";
"2 1 666 68 700 XOR";
"2 1 699 68 701 XOR";
"2 1 700 699 702 XOR";
"2 1 700 701 703 AND";
"2 1 699 703 704 XOR";
"2 1 669 69 705 XOR";
"2 1 704 69 706 XOR";
"2 1 705 704 707 XOR";
"2 1 705 706 708 AND";
"2 1 704 708 709 XOR";
"2 1 672 70 710 XOR";
"2 1 709 70 711 XOR";
"2 1 710 709 712 XOR";
"2 1 710 711 713 AND";
"2 1 709 713 714 XOR";
"2 1 675 71 715 XOR";
"2 1 714 71 716 XOR";
"2 1 715 714 717 XOR";
"2 1 715 716 718 AND";
"2 1 714 718 719 XOR";
"2 1 678 72 720 XOR";
"2 1 719 72 721 XOR";
"2 1 720 719 722 XOR";
"2 1 720 721 723 AND";
"2 1 719 723 724 XOR";
"2 1 681 73 725 XOR";
"2 1 724 73 726 XOR";
"2 1 725 724 727 XOR";
"2 1 725 726 728 AND";
"2 1 724 728 729 XOR";
"2 1 729 286 730 AND";
"2 1 729 286 731 XOR";
"2 1 731 730 732 XOR";
"2 1 54 683 733 XOR";
"2 1 732 733 734 AND";
"2 1 734 683 735 XOR";
"2 1 657 687 736 XOR";
"2 1 732 736 737 AND";
"2 1 737 687 738 XOR";
"2 1 660 692 739 XOR";
"2 1 732 739 740 AND";
"2 1 740 692 741 XOR";
"2 1 663 697 742 XOR";
"2 1 732 742 743 AND";
"2 1 743 697 744 XOR";
"2 1 666 702 745 XOR";
"2 1 732 745 746 AND";
"2 1 746 702 747 XOR";
"2 1 669 707 748 XOR";
"2 1 732 748 749 AND";
"2 1 749 707 750 XOR";
"2 1 672 712 751 XOR";
"2 1 732 751 752 AND";
"2 1 752 712 753 XOR";
"2 1 675 717 754 XOR";
"2 1 732 754 755 AND";
"2 1 755 717 756 XOR";
"2 1 678 722 757 XOR";
"2 1 732 757 758 AND";
"2 1 758 722 759 XOR";
"2 1 681 727 760 XOR";
"2 1 732 760 761 AND";
"2 1 761 727 762 XOR";
"1 1 732 763 INV";
"2 1 53 64 764 XOR";
"2 1 764 64 765 AND";
"2 1 735 65 766 XOR";
"2 1 765 65 767 XOR";
"2 1 766 765 768 XOR";
"2 1 766 767 769 AND";
"2 1 765 769 770 XOR";
"2 1 738 66 771 XOR";
"2 1 770 66 772 XOR";
"2 1 771 770 773 XOR";
"2 1 771 772 774 AND";
"2 1 770 774 775 XOR";
"2 1 741 67 776 XOR";
"2 1 775 67 777 XOR";
"2 1 776 775 778 XOR";
"2 1 776 777 779 AND";
"2 1 775 779 780 XOR";
"2 1 744 68 781 XOR";
"2 1 780 68 782 XOR";
"2 1 781 780 783 XOR";
"2 1 781 782 784 AND";
"2 1 780 784 785 XOR";
"2 1 747 69 786 XOR";
"2 1 785 69 787 XOR";
"2 1 786 785 788 XOR";
"2 1 786 787 789 AND";
"2 1 785 789 790 XOR";
"2 1 750 70 791 XOR";
"2 1 790 70 792 XOR";
"2 1 791 790 793 XOR";
"2 1 791 792 794 AND";
"2 1 790 794 795 XOR";
"2 1 753 71 796 XOR";
"2 1 795 71 797 XOR";
"2 1 796 795 798 XOR";
"2 1 796 797 799 AND";
"2 1 795 799 800 XOR";
"2 1 756 72 801 XOR";
"2 1 800 72 802 XOR";
"2 1 801 800 803 XOR";
"2 1 801 802 804 AND";
"2 1 800 804 805 XOR";
"2 1 759 73 806 XOR";
"2 1 805 73 807 XOR";
"2 1 806 805 808 XOR";
"2 1 806 807 809 AND";
"2 1 805 809 810 XOR";
"2 1 762 74 811 XOR";
"2 1 810 74 812 XOR";
"2 1 811 810 813 XOR";
"2 1 811 812 814 AND";
"2 1 810 814 815 XOR";
"2 1 815 283 816 AND";
"2 1 815 283 817 XOR";
"2 1 817 816 818 XOR";
"2 1 53 764 819 XOR";
"2 1 818 819 820 AND";
"2 1 820 764 821 XOR";
"2 1 735 768 822 XOR";
"2 1 818 822 823 AND";
"2 1 823 768 824 XOR";
"2 1 738 773 825 XOR";
"2 1 818 825 826 AND";
"2 1 826 773 827 XOR";
"2 1 741 778 828 XOR";
"2 1 818 828 829 AND";
"2 1 829 778 830 XOR";
"2 1 744 783 831 XOR";
"2 1 818 831 832 AND";
"2 1 832 783 833 XOR";
"2 1 747 788 834 XOR";
"2 1 818 834 835 AND";
"2 1 835 788 836 XOR";
"2 1 750 793 837 XOR";
"2 1 818 837 838 AND";
"2 1 838 793 839 XOR";
"2 1 753 798 840 XOR";
"2 1 818 840 841 AND";
"2 1 841 798 842 XOR";
"2 1 756 803 843 XOR";
"2 1 818 843 844 AND";
"2 1 844 803 845 XOR";
"2 1 759 808 846 XOR";
"2 1 818 846 847 AND";
"2 1 847 808 848 XOR";
"2 1 762 813 849 XOR";
"2 1 818 849 850 AND";
"2 1 850 813 851 XOR";
"1 1 818 852 INV";
"2 1 52 64 853 XOR";
"2 1 853 64 854 AND";
"2 1 821 65 855 XOR";
"2 1 854 65 856 XOR";
"2 1 855 854 857 XOR";
"2 1 855 856 858 AND";
"2 1 854 858 859 XOR";
"2 1 824 66 860 XOR";
"2 1 859 66 861 XOR";
"2 1 860 859 862 XOR";
"2 1 860 861 863 AND";
"2 1 859 863 864 XOR";
"2 1 827 67 865 XOR";
"2 1 864 67 866 XOR";
"2 1 865 864 867 XOR";
"2 1 865 866 868 AND";
"2 1 864 868 869 XOR";
"2 1 830 68 870 XOR";
"2 1 869 68 871 XOR";
"2 1 870 869 872 XOR";
"2 1 870 871 873 AND";
"2 1 869 873 874 XOR";
"2 1 833 69 875 XOR";
"2 1 874 69 876 XOR";
"2 1 875 874 877 XOR";
"2 1 875 876 878 AND";
"2 1 874 878 879 XOR";
"2 1 836 70 880 XOR";
"2 1 879 70 881 XOR";
"2 1 880 879 882 XOR";
"2 1 880 881 883 AND";
"2 1 879 883 884 XOR";
"2 1 839 71 885 XOR";
"2 1 884 71 886 XOR";
"2 1 885 884 887 XOR";
"2 1 885 886 888 AND";
"2 1 884 888 889 XOR";
"2 1 842 72 890 XOR";
"2 1 889 72 891 XOR";
"2 1 890 889 892 XOR";
"2 1 890 891 893 AND";
"2 1 889 893 894 XOR";
"2 1 845 73 895 XOR";
"2 1 894 73 896 XOR";
"2 1 895 894 897 XOR";
"2 1 895 896 898 AND";
"2 1 894 898 899 XOR";
"2 1 848 74 900 XOR";
"2 1 899 74 901 XOR";
"2 1 900 899 902 XOR";
"2 1 900 901 903 AND";
"2 1 899 903 904 XOR";
"2 1 851 75 905 XOR";
"2 1 904 75 906 XOR";
"2 1 905 904 907 XOR";
"2 1 905 906 908 AND";
"2 1 904 908 909 XOR";
"2 1 909 280 910 AND";
"2 1 909 280 911 XOR";
"2 1 911 910 912 XOR";
"2 1 52 853 913 XOR";
"2 1 912 913 914 AND";
"2 1 914 853 915 XOR";
"2 1 821 857 916 XOR";
"2 1 912 916 917 AND";
"2 1 917 857 918 XOR";
"2 1 824 862 919 XOR";
"2 1 912 919 920 AND";
"2 1 920 862 921 XOR";
"2 1 827 867 922 XOR";
"2 1 912 922 923 AND";
"2 1 923 867 924 XOR";
"2 1 830 872 925 XOR";
"2 1 912 925 926 AND";
"2 1 926 872 927 XOR";
"2 1 833 877 928 XOR";
"2 1 912 928 929 AND";
"2 1 929 877 930 XOR";
"2 1 836 882 931 XOR";
"2 1 912 931 932 AND";
"2 1 932 882 933 XOR";
"2 1 839 887 934 XOR";
"2 1 912 934 935 AND";
"2 1 935 887 936 XOR";
"2 1 842 892 937 XOR";
"2 1 912 937 938 AND";
"2 1 938 892 939 XOR";
"2 1 845 897 940 XOR";
"2 1 912 940 941 AND";
"2 1 941 897 942 XOR";
"2 1 848 902 943 XOR";
"2 1 912 943 944 AND";
"2 1 944 902 945 XOR";
"2 1 851 907 946 XOR";
"2 1 912 946 947 AND";
"2 1 947 907 948 XOR";
"1 1 912 949 INV";
"2 1 51 64 950 XOR";
"2 1 950 64 951 AND";
"2 1 915 65 952 XOR";
"2 1 951 65 953 XOR";
"2 1 952 951 954 XOR";
"2 1 952 953 955 AND";
"2 1 951 955 956 XOR";
"2 1 918 66 957 XOR";
"2 1 956 66 958 XOR";
"2 1 957 956 959 XOR";
"2 1 957 958 960 AND";
"2 1 956 960 961 XOR";
"2 1 921 67 962 XOR";
"2 1 961 67 963 XOR";
"2 1 962 961 964 XOR";
"2 1 962 963 965 AND";
"2 1 961 965 966 XOR";
"2 1 924 68 967 XOR";
"2 1 966 68 968 XOR";
"2 1 967 966 969 XOR";
"2 1 967 968 970 AND";
"2 1 966 970 971 XOR";
"2 1 927 69 972 XOR";
"2 1 971 69 973 XOR";
"2 1 972 971 974 XOR";
"2 1 972 973 975 AND";
"2 1 971 975 976 XOR";
"2 1 930 70 977 XOR";
"2 1 976 70 978 XOR";
"2 1 977 976 979 XOR";
"2 1 977 978 980 AND";
"2 1 976 980 981 XOR";
"2 1 933 71 982 XOR";
"2 1 981 71 983 XOR";
"2 1 982 981 984 XOR";
"2 1 982 983 985 AND";
"2 1 981 985 986 XOR";
"2 1 936 72 987 XOR";
"2 1 986 72 988 XOR";
"2 1 987 986 989 XOR";
"2 1 987 988 990 AND";
"2 1 986 990 991 XOR";
"2 1 939 73 992 XOR";
"2 1 991 73 993 XOR";
"2 1 992 991 994 XOR";
"2 1 992 993 995 AND";
"2 1 991 995 996 XOR";
"2 1 942 74 997 XOR";
"2 1 996 74 998 XOR";
"2 1 997 996 999 XOR";
"2 1 997 998 1000 AND";
"2 1 996 1000 1001 XOR";
"2 1 945 75 1002 XOR";
"2 1 1001 75 1003 XOR";
"2 1 1002 1001 1004 XOR";
"2 1 1002 1003 1005 AND";
"2 1 1001 1005 1006 XOR";
"2 1 948 76 1007 XOR";
"2 1 1006 76 1008 XOR";
"2 1 1007 1006 1009 XOR";
"2 1 1007 1008 1010 AND";
"2 1 1006 1010 1011 XOR";
"2 1 1011 277 1012 AND";
"2 1 1011 277 1013 XOR";
"2 1 1013 1012 1014 XOR";
"2 1 51 950 1015 XOR";
"2 1 1014 1015 1016 AND";
"2 1 1016 950 1017 XOR";
"2 1 915 954 1018 XOR";
"2 1 1014 1018 1019 AND";
"2 1 1019 954 1020 XOR";
"2 1 918 959 1021 XOR";
"2 1 1014 1021 1022 AND";
"2 1 1022 959 1023 XOR";
"2 1 921 964 1024 XOR";
"2 1 1014 1024 1025 AND";
"2 1 1025 964 1026 XOR";
"2 1 924 969 1027 XOR";
"2 1 1014 1027 1028 AND";
"2 1 1028 969 1029 XOR";
"2 1 927 974 1030 XOR";
"2 1 1014 1030 1031 AND";
"2 1 1031 974 1032 XOR";
"2 1 930 979 1033 XOR";
"2 1 1014 1033 1034 AND";
"2 1 1034 979 1035 XOR";
"2 1 933 984 1036 XOR";
"2 1 1014 1036 1037 AND";
"2 1 1037 984 1038 XOR";
"2 1 936 989 1039 XOR";
"2 1 1014 1039 1040 AND";
"2 1 1040 989 1041 XOR";
"2 1 939 994 1042 XOR";
"2 1 1014 1042 1043 AND";
"2 1 1043 994 1044 XOR";
"2 1 942 999 1045 XOR";
"2 1 1014 1045 1046 AND";
"2 1 1046 999 1047 XOR";
"2 1 945 1004 1048 XOR";
"2 1 1014 1048 1049 AND";
"2 1 1049 1004 1050 XOR";
"2 1 948 1009 1051 XOR";
"2 1 1014 1051 1052 AND";
"2 1 1052 1009 1053 XOR";
"1 1 1014 1054 INV";
"2 1 50 64 1055 XOR";
"2 1 1055 64 1056 AND";
"2 1 1017 65 1057 XOR";
"2 1 1056 65 1058 XOR";
"2 1 1057 1056 1059 XOR";
"2 1 1057 1058 1060 AND";
"2 1 1056 1060 1061 XOR";
"2 1 1020 66 1062 XOR";
"2 1 1061 66 1063 XOR";
"2 1 1062 1061 1064 XOR";
"2 1 1062 1063 1065 AND";
"2 1 1061 1065 1066 XOR";
"2 1 1023 67 1067 XOR";
"2 1 1066 67 1068 XOR";
"2 1 1067 1066 1069 XOR";
"2 1 1067 1068 1070 AND";
"2 1 1066 1070 1071 XOR";
"2 1 1026 68 1072 XOR";
"2 1 1071 68 1073 XOR";
"2 1 1072 1071 1074 XOR";
"2 1 1072 1073 1075 AND";
"2 1 1071 1075 1076 XOR";
"2 1 1029 69 1077 XOR";
"2 1 1076 69 1078 XOR";
"2 1 1077 1076 1079 XOR";
"2 1 1077 1078 1080 AND";
"2 1 1076 1080 1081 XOR";
"2 1 1032 70 1082 XOR";
"2 1 1081 70 1083 XOR";
"2 1 1082 1081 1084 XOR";
"2 1 1082 1083 1085 AND";
"2 1 1081 1085 1086 XOR";
"2 1 1035 71 1087 XOR";
"2 1 1086 71 1088 XOR";
"2 1 1087 1086 1089 XOR";
"2 1 1087 1088 1090 AND";
"2 1 1086 1090 1091 XOR";
"2 1 1038 72 1092 XOR";
"2 1 1091 72 1093 XOR";
"2 1 1092 1091 1094 XOR";
"2 1 1092 1093 1095 AND";
"2 1 1091 1095 1096 XOR";
"2 1 1041 73 1097 XOR";
"2 1 1096 73 1098 XOR";
"2 1 1097 1096 1099 XOR";
"2 1 1097 1098 1100 AND";
"2 1 1096 1100 1101 XOR";
"2 1 1044 74 1102 XOR";
"2 1 1101 74 1103 XOR";
"2 1 1102 1101 1104 XOR";
"2 1 1102 1103 1105 AND";
"2 1 1101 1105 1106 XOR";
"2 1 1047 75 1107 XOR";
"2 1 1106 75 1108 XOR";
"2 1 1107 1106 1109 XOR";
"2 1 1107 1108 1110 AND";
"2 1 1106 1110 1111 XOR";
"2 1 1050 76 1112 XOR";
"2 1 1111 76 1113 XOR";
"2 1 1112 1111 1114 XOR";
"2 1 1112 1113 1115 AND";
"2 1 1111 1115 1116 XOR";
"2 1 1053 77 1117 XOR";
"2 1 1116 77 1118 XOR";
"2 1 1117 1116 1119 XOR";
"2 1 1117 1118 1120 AND";
"2 1 1116 1120 1121 XOR";
"2 1 1121 274 1122 AND";
"2 1 1121 274 1123 XOR";
"2 1 1123 1122 1124 XOR";
"2 1 50 1055 1125 XOR";
"2 1 1124 1125 1126 AND";
"2 1 1126 1055 1127 XOR";
"2 1 1017 1059 1128 XOR";
"2 1 1124 1128 1129 AND";
"2 1 1129 1059 1130 XOR";
"2 1 1020 1064 1131 XOR";
"2 1 1124 1131 1132 AND";
"2 1 1132 1064 1133 XOR";
"2 1 1023 1069 1134 XOR";
"2 1 1124 1134 1135 AND";
"2 1 1135 1069 1136 XOR";
"2 1 1026 1074 1137 XOR";
"2 1 1124 1137 1138 AND";
"2 1 1138 1074 1139 XOR";
"2 1 1029 1079 1140 XOR";
"2 1 1124 1140 1141 AND";
"2 1 1141 1079 1142 XOR";
"2 1 1032 1084 1143 XOR";
"2 1 1124 1143 1144 AND";
"2 1 1144 1084 1145 XOR";
"2 1 1035 1089 1146 XOR";
"2 1 1124 1146 1147 AND";
"2 1 1147 1089 1148 XOR";
"2 1 1038 1094 1149 XOR";
"2 1 1124 1149 1150 AND";
"2 1 1150 1094 1151 XOR";
"2 1 1041 1099 1152 XOR";
"2 1 1124 1152 1153 AND";
"2 1 1153 1099 1154 XOR";
"2 1 1044 1104 1155 XOR";
"2 1 1124 1155 1156 AND";
"2 1 1156 1104 1157 XOR";
"2 1 1047 1109 1158 XOR";
"2 1 1124 1158 1159 AND";
"2 1 1159 1109 1160 XOR";
"2 1 1050 1114 1161 XOR";
"2 1 1124 1161 1162 AND";
"2 1 1162 1114 1163 XOR";
"2 1 1053 1119 1164 XOR";
"2 1 1124 1164 1165 AND";
"2 1 1165 1119 1166 XOR";
"1 1 1124 1167 INV";
"2 1 49 64 1168 XOR";
"2 1 1168 64 1169 AND";
"2 1 1127 65 1170 XOR";
"2 1 1169 65 1171 XOR";
"2 1 1170 1169 1172 XOR";
"2 1 1170 1171 1173 AND";
"2 1 1169 1173 1174 XOR";
"2 1 1130 66 1175 XOR";
"2 1 1174 66 1176 XOR";
"2 1 1175 1174 1177 XOR";
"2 1 1175 1176 1178 AND";
"2 1 1174 1178 1179 XOR";
"2 1 1133 67 1180 XOR";
"2 1 1179 67 1181 XOR";
"2 1 1180 1179 1182 XOR";
"2 1 1180 1181 1183 AND";
"2 1 1179 1183 1184 XOR";
"2 1 1136 68 1185 XOR";
"2 1 1184 68 1186 XOR";
"2 1 1185 1184 1187 XOR";
"2 1 1185 1186 1188 AND";
"2 1 1184 1188 1189 XOR";
"2 1 1139 69 1190 XOR";
"2 1 1189 69 1191 XOR";
"2 1 1190 1189 1192 XOR";
"2 1 1190 1191 1193 AND";
"2 1 1189 1193 1194 XOR";
"2 1 1142 70 1195 XOR";
"2 1 1194 70 1196 XOR";
"2 1 1195 1194 1197 XOR";
"2 1 1195 1196 1198 AND";
"2 1 1194 1198 1199 XOR";
"2 1 1145 71 1200 XOR";
"2 1 1199 71 1201 XOR";
"2 1 1200 1199 1202 XOR";
"2 1 1200 1201 1203 AND";
"2 1 1199 1203 1204 XOR";
"2 1 1148 72 1205 XOR";
"2 1 1204 72 1206 XOR";
"2 1 1205 1204 1207 XOR";
"2 1 1205 1206 1208 AND";
"2 1 1204 1208 1209 XOR";
"2 1 1151 73 1210 XOR";
"2 1 1209 73 1211 XOR";
"2 1 1210 1209 1212 XOR";
"2 1 1210 1211 1213 AND";
"2 1 1209 1213 1214 XOR";
"2 1 1154 74 1215 XOR";
"2 1 1214 74 1216 XOR";
"2 1 1215 1214 1217 XOR";
"2 1 1215 1216 1218 AND";
"2 1 1214 1218 1219 XOR";
"2 1 1157 75 1220 XOR";
"2 1 1219 75 1221 XOR";
"2 1 1220 1219 1222 XOR";
"2 1 1220 1221 1223 AND";
"2 1 1219 1223 1224 XOR";
"2 1 1160 76 1225 XOR";
"2 1 1224 76 1226 XOR";
"2 1 1225 1224 1227 XOR";
"2 1 1225 1226 1228 AND";
"2 1 1224 1228 1229 XOR";
"2 1 1163 77 1230 XOR";
"2 1 1229 77 1231 XOR";
"2 1 1230 1229 1232 XOR";
"2 1 1230 1231 1233 AND";
"2 1 1229 1233 1234 XOR";
"2 1 1166 78 1235 XOR";
"2 1 1234 78 1236 XOR";
"2 1 1235 1234 1237 XOR";
"2 1 1235 1236 1238 AND";
"2 1 1234 1238 1239 XOR";
"2 1 1239 271 1240 AND";
"2 1 1239 271 1241 XOR";
"2 1 1241 1240 1242 XOR";
"2 1 49 1168 1243 XOR";
"2 1 1242 1243 1244 AND";
"2 1 1244 1168 1245 XOR";
"2 1 1127 1172 1246 XOR";
"2 1 1242 1246 1247 AND";
"2 1 1247 1172 1248 XOR";
"2 1 1130 1177 1249 XOR";
"2 1 1242 1249 1250 AND";
"2 1 1250 1177 1251 XOR";
"2 1 1133 1182 1252 XOR";
"2 1 1242 1252 1253 AND";
"2 1 1253 1182 1254 XOR";
"2 1 1136 1187 1255 XOR";
"2 1 1242 1255 1256 AND";
"2 1 1256 1187 1257 XOR";
"2 1 1139 1192 1258 XOR";
"2 1 1242 1258 1259 AND";
"2 1 1259 1192 1260 XOR";
"2 1 1142 1197 1261 XOR";
"2 1 1242 1261 1262 AND";
"2 1 1262 1197 1263 XOR";
"2 1 1145 1202 1264 XOR";
"2 1 1242 1264 1265 AND";
"2 1 1265 1202 1266 XOR";
"2 1 1148 1207 1267 XOR";
"2 1 1242 1267 1268 AND";
"2 1 1268 1207 1269 XOR";
"2 1 1151 1212 1270 XOR";
"2 1 1242 1270 1271 AND";
"2 1 1271 1212 1272 XOR";
"2 1 1154 1217 1273 XOR";
"2 1 1242 1273 1274 AND";
"2 1 1274 1217 1275 XOR";
"2 1 1157 1222 1276 XOR";
"2 1 1242 1276 1277 AND";
"2 1 1277 1222 1278 XOR";
"2 1 1160 1227 1279 XOR";
"2 1 1242 1279 1280 AND";
"2 1 1280 1227 1281 XOR";
"2 1 1163 1232 1282 XOR";
"2 1 1242 1282 1283 AND";
"2 1 1283 1232 1284 XOR";
"2 1 1166 1237 1285 XOR";
"2 1 1242 1285 1286 AND";
"2 1 1286 1237 1287 XOR";
"1 1 1242 1288 INV";
"2 1 48 64 1289 XOR";
"2 1 1289 64 1290 AND";
"2 1 1245 65 1291 XOR";
"2 1 1290 65 1292 XOR";
"2 1 1291 1290 1293 XOR";
"2 1 1291 1292 1294 AND";
"2 1 1290 1294 1295 XOR";
"2 1 1248 66 1296 XOR";
"2 1 1295 66 1297 XOR";
"2 1 1296 1295 1298 XOR";
"2 1 1296 1297 1299 AND";
"2 1 1295 1299 1300 XOR";
"2 1 1251 67 1301 XOR";
"2 1 1300 67 1302 XOR";
"2 1 1301 1300 1303 XOR";
"2 1 1301 1302 1304 AND";
"2 1 1300 1304 1305 XOR";
"2 1 1254 68 1306 XOR";
"2 1 1305 68 1307 XOR";
"2 1 1306 1305 1308 XOR";
"2 1 1306 1307 1309 AND";
"2 1 1305 1309 1310 XOR";
"2 1 1257 69 1311 XOR";
"2 1 1310 69 1312 XOR";
"2 1 1311 1310 1313 XOR";
"2 1 1311 1312 1314 AND";
"2 1 1310 1314 1315 XOR";
"2 1 1260 70 1316 XOR";
"2 1 1315 70 1317 XOR";
"2 1 1316 1315 1318 XOR";
"2 1 1316 1317 1319 AND";
"2 1 1315 1319 1320 XOR";
"2 1 1263 71 1321 XOR";
"2 1 1320 71 1322 XOR";
"2 1 1321 1320 1323 XOR";
"2 1 1321 1322 1324 AND";
"2 1 1320 1324 1325 XOR";
"2 1 1266 72 1326 XOR";
"2 1 1325 72 1327 XOR";
"2 1 1326 1325 1328 XOR";
"2 1 1326 1327 1329 AND";
"2 1 1325 1329 1330 XOR";
"2 1 1269 73 1331 XOR";
"2 1 1330 73 1332 XOR";
"2 1 1331 1330 1333 XOR";
"2 1 1331 1332 1334 AND";
"2 1 1330 1334 1335 XOR";
"2 1 1272 74 1336 XOR";
"2 1 1335 74 1337 XOR";
"2 1 1336 1335 1338 XOR";
"2 1 1336 1337 1339 AND";
"2 1 1335 1339 1340 XOR";
"2 1 1275 75 1341 XOR";
"2 1 1340 75 1342 XOR";
"2 1 1341 1340 1343 XOR";
"2 1 1341 1342 1344 AND";
"2 1 1340 1344 1345 XOR";
"2 1 1278 76 1346 XOR";
"2 1 1345 76 1347 XOR";
"2 1 1346 1345 1348 XOR";
"2 1 1346 1347 1349 AND";
"2 1 1345 1349 1350 XOR";
"2 1 1281 77 1351 XOR";
"2 1 1350 77 1352 XOR";
"2 1 1351 1350 1353 XOR";
"2 1 1351 1352 1354 AND";
"2 1 1350 1354 1355 XOR";
"2 1 1284 78 1356 XOR";
"2 1 1355 78 1357 XOR";
"2 1 1356 1355 1358 XOR";
"2 1 1356 1357 1359 AND";
"2 1 1355 1359 1360 XOR";
"2 1 1287 79 1361 XOR";
"2 1 1360 79 1362 XOR";
"2 1 1361 1360 1363 XOR";
"2 1 1361 1362 1364 AND";
"2 1 1360 1364 1365 XOR";
"2 1 1365 268 1366 AND";
"2 1 1365 268 1367 XOR";
"2 1 1367 1366 1368 XOR";
"2 1 48 1289 1369 XOR";
"2 1 1368 1369 1370 AND";
"2 1 1370 1289 1371 XOR";
"2 1 1245 1293 1372 XOR";
"2 1 1368 1372 1373 AND";
"2 1 1373 1293 1374 XOR";
"2 1 1248 1298 1375 XOR";
"2 1 1368 1375 1376 AND";
"2 1 1376 1298 1377 XOR";
"2 1 1251 1303 1378 XOR";
"2 1 1368 1378 1379 AND";
"2 1 1379 1303 1380 XOR";
"2 1 1254 1308 1381 XOR";
"2 1 1368 1381 1382 AND";
"2 1 1382 1308 1383 XOR";
"2 1 1257 1313 1384 XOR";
"2 1 1368 1384 1385 AND";
"2 1 1385 1313 1386 XOR";
"2 1 1260 1318 1387 XOR";
"2 1 1368 1387 1388 AND";
"2 1 1388 1318 1389 XOR";
"2 1 1263 1323 1390 XOR";
"2 1 1368 1390 1391 AND";
"2 1 1391 1323 1392 XOR";
"2 1 1266 1328 1393 XOR";
"2 1 1368 1393 1394 AND";
"2 1 1394 1328 1395 XOR";
"2 1 1269 1333 1396 XOR";
"2 1 1368 1396 1397 AND";
"2 1 1397 1333 1398 XOR";
"2 1 1272 1338 1399 XOR";
"2 1 1368 1399 1400 AND";
"2 1 1400 1338 1401 XOR";
"2 1 1275 1343 1402 XOR";
"2 1 1368 1402 1403 AND";
"2 1 1403 1343 1404 XOR";
"2 1 1278 1348 1405 XOR";
"2 1 1368 1405 1406 AND";
"2 1 1406 1348 1407 XOR";
"2 1 1281 1353 1408 XOR";
"2 1 1368 1408 1409 AND";
"2 1 1409 1353 1410 XOR";
"2 1 1284 1358 1411 XOR";
"2 1 1368 1411 1412 AND";
"2 1 1412 1358 1413 XOR";
"2 1 1287 1363 1414 XOR";
"2 1 1368 1414 1415 AND";
"2 1 1415 1363 1416 XOR";
"1 1 1368 1417 INV";
"2 1 47 64 1418 XOR";
"2 1 1418 64 1419 AND";
"2 1 1371 65 1420 XOR";
"2 1 1419 65 1421 XOR";
"2 1 1420 1419 1422 XOR";
"2 1 1420 1421 1423 AND";
"2 1 1419 1423 1424 XOR";
"2 1 1374 66 1425 XOR";
"2 1 1424 66 1426 XOR";
"2 1 1425 1424 1427 XOR";
"2 1 1425 1426 1428 AND";
"2 1 1424 1428 1429 XOR";
"2 1 1377 67 1430 XOR";
"2 1 1429 67 1431 XOR";
"2 1 1430 1429 1432 XOR";
"2 1 1430 1431 1433 AND";
"2 1 1429 1433 1434 XOR";
"2 1 1380 68 1435 XOR";
"2 1 1434 68 1436 XOR";
"2 1 1435 1434 1437 XOR";
"2 1 1435 1436 1438 AND";
"2 1 1434 1438 1439 XOR";
"2 1 1383 69 1440 XOR";
"2 1 1439 69 1441 XOR";
"2 1 1440 1439 1442 XOR";
"2 1 1440 1441 1443 AND";
"2 1 1439 1443 1444 XOR";
"2 1 1386 70 1445 XOR";
"2 1 1444 70 1446 XOR";
"2 1 1445 1444 1447 XOR";
"2 1 1445 1446 1448 AND";
"2 1 1444 1448 1449 XOR";
"2 1 1389 71 1450 XOR";
"2 1 1449 71 1451 XOR";
"2 1 1450 1449 1452 XOR";
"2 1 1450 1451 1453 AND";
"2 1 1449 1453 1454 XOR";
"2 1 1392 72 1455 XOR";
"2 1 1454 72 1456 XOR";
"2 1 1455 1454 1457 XOR";
"2 1 1455 1456 1458 AND";
"2 1 1454 1458 1459 XOR";
"2 1 1395 73 1460 XOR";
"2 1 1459 73 1461 XOR";
"2 1 1460 1459 1462 XOR";
"2 1 1460 1461 1463 AND";
"2 1 1459 1463 1464 XOR";
"2 1 1398 74 1465 XOR";
"2 1 1464 74 1466 XOR";
"2 1 1465 1464 1467 XOR";
"2 1 1465 1466 1468 AND";
"2 1 1464 1468 1469 XOR";
"2 1 1401 75 1470 XOR";
"2 1 1469 75 1471 XOR";
"2 1 1470 1469 1472 XOR";
"2 1 1470 1471 1473 AND";
"2 1 1469 1473 1474 XOR";
"2 1 1404 76 1475 XOR";
"2 1 1474 76 1476 XOR";
"2 1 1475 1474 1477 XOR";
"2 1 1475 1476 1478 AND";
"2 1 1474 1478 1479 XOR";
"2 1 1407 77 1480 XOR";
"2 1 1479 77 1481 XOR";
"2 1 1480 1479 1482 XOR";
"2 1 1480 1481 1483 AND";
"2 1 1479 1483 1484 XOR";
"2 1 1410 78 1485 XOR";
"2 1 1484 78 1486 XOR";
"2 1 1485 1484 1487 XOR";
"2 1 1485 1486 1488 AND";
"2 1 1484 1488 1489 XOR";
"2 1 1413 79 1490 XOR";
"2 1 1489 79 1491 XOR";
"2 1 1490 1489 1492 XOR";
"2 1 1490 1491 1493 AND";
"2 1 1489 1493 1494 XOR";
"2 1 1416 80 1495 XOR";
"2 1 1494 80 1496 XOR";
"2 1 1495 1494 1497 XOR";
"2 1 1495 1496 1498 AND";
"2 1 1494 1498 1499 XOR";
"2 1 1499 265 1500 AND";
"2 1 1499 265 1501 XOR";
"2 1 1501 1500 1502 XOR";
"2 1 47 1418 1503 XOR";
"2 1 1502 1503 1504 AND";
"2 1 1504 1418 1505 XOR";
"2 1 1371 1422 1506 XOR";
"2 1 1502 1506 1507 AND";
"2 1 1507 1422 1508 XOR";
"2 1 1374 1427 1509 XOR";
"2 1 1502 1509 1510 AND";
"2 1 1510 1427 1511 XOR";
"2 1 1377 1432 1512 XOR";
"2 1 1502 1512 1513 AND";
"2 1 1513 1432 1514 XOR";
"2 1 1380 1437 1515 XOR";
"2 1 1502 1515 1516 AND";
"2 1 1516 1437 1517 XOR";
"2 1 1383 1442 1518 XOR";
"2 1 1502 1518 1519 AND";
"2 1 1519 1442 1520 XOR";
"2 1 1386 1447 1521 XOR";
"2 1 1502 1521 1522 AND";
"2 1 1522 1447 1523 XOR";
"2 1 1389 1452 1524 XOR";
"2 1 1502 1524 1525 AND";
"2 1 1525 1452 1526 XOR";
"2 1 1392 1457 1527 XOR";
"2 1 1502 1527 1528 AND";
"2 1 1528 1457 1529 XOR";
"2 1 1395 1462 1530 XOR";
"2 1 1502 1530 1531 AND";
"2 1 1531 1462 1532 XOR";
"2 1 1398 1467 1533 XOR";
"2 1 1502 1533 1534 AND";
"2 1 1534 1467 1535 XOR";
"2 1 1401 1472 1536 XOR";
"2 1 1502 1536 1537 AND";
"2 1 1537 1472 1538 XOR";
"2 1 1404 1477 1539 XOR";
"2 1 1502 1539 1540 AND";
"2 1 1540 1477 1541 XOR";
"2 1 1407 1482 1542 XOR";
"2 1 1502 1542 1543 AND";
"2 1 1543 1482 1544 XOR";
"2 1 1410 1487 1545 XOR";
"2 1 1502 1545 1546 AND";
"2 1 1546 1487 1547 XOR";
"2 1 1413 1492 1548 XOR";
"2 1 1502 1548 1549 AND";
"2 1 1549 1492 1550 XOR";
"2 1 1416 1497 1551 XOR";
"2 1 1502 1551 1552 AND";
"2 1 1552 1497 1553 XOR";
"1 1 1502 1554 INV";
"2 1 46 64 1555 XOR";
"2 1 1555 64 1556 AND";
"2 1 1505 65 1557 XOR";
"2 1 1556 65 1558 XOR";
"2 1 1557 1556 1559 XOR";
"2 1 1557 1558 1560 AND";
"2 1 1556 1560 1561 XOR";
"2 1 1508 66 1562 XOR";
"2 1 1561 66 1563 XOR";
"2 1 1562 1561 1564 XOR";
"2 1 1562 1563 1565 AND";
"2 1 1561 1565 1566 XOR";
"2 1 1511 67 1567 XOR";
"2 1 1566 67 1568 XOR";
"2 1 1567 1566 1569 XOR";
"2 1 1567 1568 1570 AND";
"2 1 1566 1570 1571 XOR";
"2 1 1514 68 1572 XOR";
"2 1 1571 68 1573 XOR";
"2 1 1572 1571 1574 XOR";
"2 1 1572 1573 1575 AND";
"2 1 1571 1575 1576 XOR";
"2 1 1517 69 1577 XOR";
"2 1 1576 69 1578 XOR";
"2 1 1577 1576 1579 XOR";
"2 1 1577 1578 1580 AND";
"2 1 1576 1580 1581 XOR";
"2 1 1520 70 1582 XOR";
"2 1 1581 70 1583 XOR";
"2 1 1582 1581 1584 XOR";
"2 1 1582 1583 1585 AND";
"2 1 1581 1585 1586 XOR";
"2 1 1523 71 1587 XOR";
"2 1 1586 71 1588 XOR";
"2 1 1587 1586 1589 XOR";
"2 1 1587 1588 1590 AND";
"2 1 1586 1590 1591 XOR";
"2 1 1526 72 1592 XOR";
"2 1 1591 72 1593 XOR";
"2 1 1592 1591 1594 XOR";
"2 1 1592 1593 1595 AND";
"2 1 1591 1595 1596 XOR";
"2 1 1529 73 1597 XOR";
"2 1 1596 73 1598 XOR";
"2 1 1597 1596 1599 XOR";
"2 1 1597 1598 1600 AND";
"2 1 1596 1600 1601 XOR";
"2 1 1532 74 1602 XOR";
"2 1 1601 74 1603 XOR";
"2 1 1602 1601 1604 XOR";
"2 1 1602 1603 1605 AND";
"2 1 1601 1605 1606 XOR";
"2 1 1535 75 1607 XOR";
"2 1 1606 75 1608 XOR";
"2 1 1607 1606 1609 XOR";
"2 1 1607 1608 1610 AND";
"2 1 1606 1610 1611 XOR";
"2 1 1538 76 1612 XOR";
"2 1 1611 76 1613 XOR";
"2 1 1612 1611 1614 XOR";
"2 1 1612 1613 1615 AND";
"2 1 1611 1615 1616 XOR";
"2 1 1541 77 1617 XOR";
"2 1 1616 77 1618 XOR";
"2 1 1617 1616 1619 XOR";
"2 1 1617 1618 1620 AND";
"2 1 1616 1620 1621 XOR";
"2 1 1544 78 1622 XOR";
"2 1 1621 78 1623 XOR";
"2 1 1622 1621 1624 XOR";
"2 1 1622 1623 1625 AND";
"2 1 1621 1625 1626 XOR";
"2 1 1547 79 1627 XOR";
"2 1 1626 79 1628 XOR";
"2 1 1627 1626 1629 XOR";
"2 1 1627 1628 1630 AND";
"2 1 1626 1630 1631 XOR";
"2 1 1550 80 1632 XOR";
"2 1 1631 80 1633 XOR";
"2 1 1632 1631 1634 XOR";
"2 1 1632 1633 1635 AND";
"2 1 1631 1635 1636 XOR";
"2 1 1553 81 1637 XOR";
"2 1 1636 81 1638 XOR";
"2 1 1637 1636 1639 XOR";
"2 1 1637 1638 1640 AND";
"2 1 1636 1640 1641 XOR";
"2 1 1641 262 1642 AND";
"2 1 1641 262 1643 XOR";
"2 1 1643 1642 1644 XOR";
"2 1 46 1555 1645 XOR";
"2 1 1644 1645 1646 AND";
"2 1 1646 1555 1647 XOR";
"2 1 1505 1559 1648 XOR";
"2 1 1644 1648 1649 AND";
"2 1 1649 1559 1650 XOR";
"2 1 1508 1564 1651 XOR";
"2 1 1644 1651 1652 AND";
"2 1 1652 1564 1653 XOR";
"2 1 1511 1569 1654 XOR";
"2 1 1644 1654 1655 AND";
"2 1 1655 1569 1656 XOR";
"2 1 1514 1574 1657 XOR";
"2 1 1644 1657 1658 AND";
"2 1 1658 1574 1659 XOR";
"2 1 1517 1579 1660 XOR";
"2 1 1644 1660 1661 AND";
"2 1 1661 1579 1662 XOR";
"2 1 1520 1584 1663 XOR";
"2 1 1644 1663 1664 AND";
"2 1 1664 1584 1665 XOR";
"2 1 1523 1589 1666 XOR";
"2 1 1644 1666 1667 AND";
"2 1 1667 1589 1668 XOR";
"2 1 1526 1594 1669 XOR";
"2 1 1644 1669 1670 AND";
"2 1 1670 1594 1671 XOR";
"2 1 1529 1599 1672 XOR";
"2 1 1644 1672 1673 AND";
"2 1 1673 1599 1674 XOR";
"2 1 1532 1604 1675 XOR";
"2 1 1644 1675 1676 AND";
"2 1 1676 1604 1677 XOR";
"2 1 1535 1609 1678 XOR";
"2 1 1644 1678 1679 AND";
"2 1 1679 1609 1680 XOR";
"2 1 1538 1614 1681 XOR";
"2 1 1644 1681 1682 AND";
"2 1 1682 1614 1683 XOR";
"2 1 1541 1619 1684 XOR";
"2 1 1644 1684 1685 AND";
"2 1 1685 1619 1686 XOR";
"2 1 1544 1624 1687 XOR";
"2 1 1644 1687 1688 AND";
"2 1 1688 1624 1689 XOR";
"2 1 1547 1629 1690 XOR";
"2 1 1644 1690 1691 AND";
"2 1 1691 1629 1692 XOR";
"2 1 1550 1634 1693 XOR";
"2 1 1644 1693 1694 AND";
"2 1 1694 1634 1695 XOR";
"2 1 1553 1639 1696 XOR";
"2 1 1644 1696 1697 AND";
"2 1 1697 1639 1698 XOR";
"1 1 1644 1699 INV";
"2 1 45 64 1700 XOR";
"2 1 1700 64 1701 AND";
"2 1 1647 65 1702 XOR";
"2 1 1701 65 1703 XOR";
"2 1 1702 1701 1704 XOR";
"2 1 1702 1703 1705 AND";
"2 1 1701 1705 1706 XOR";
"2 1 1650 66 1707 XOR";
"2 1 1706 66 1708 XOR";
"2 1 1707 1706 1709 XOR";
"2 1 1707 1708 1710 AND";
"2 1 1706 1710 1711 XOR";
"2 1 1653 67 1712 XOR";
"2 1 1711 67 1713 XOR";
"2 1 1712 1711 1714 XOR";
"2 1 1712 1713 1715 AND";
"2 1 1711 1715 1716 XOR";
"2 1 1656 68 1717 XOR";
"2 1 1716 68 1718 XOR";
"2 1 1717 1716 1719 XOR";
"2 1 1717 1718 1720 AND";
"2 1 1716 1720 1721 XOR";
"2 1 1659 69 1722 XOR";
"2 1 1721 69 1723 XOR";
"2 1 1722 1721 1724 XOR";
"2 1 1722 1723 1725 AND";
"2 1 1721 1725 1726 XOR";
"2 1 1662 70 1727 XOR";
"2 1 1726 70 1728 XOR";
"2 1 1727 1726 1729 XOR";
"2 1 1727 1728 1730 AND";
"2 1 1726 1730 1731 XOR";
"2 1 1665 71 1732 XOR";
"2 1 1731 71 1733 XOR";
"2 1 1732 1731 1734 XOR";
"2 1 1732 1733 1735 AND";
"2 1 1731 1735 1736 XOR";
"2 1 1668 72 1737 XOR";
"2 1 1736 72 1738 XOR";
"2 1 1737 1736 1739 XOR";
"2 1 1737 1738 1740 AND";
"2 1 1736 1740 1741 XOR";
"2 1 1671 73 1742 XOR";
"2 1 1741 73 1743 XOR";
"2 1 1742 1741 1744 XOR";
"2 1 1742 1743 1745 AND";
"2 1 1741 1745 1746 XOR";
"2 1 1674 74 1747 XOR";
"2 1 1746 74 1748 XOR";
"2 1 1747 1746 1749 XOR";
"2 1 1747 1748 1750 AND";
"2 1 1746 1750 1751 XOR";
"2 1 1677 75 1752 XOR";
"2 1 1751 75 1753 XOR";
"2 1 1752 1751 1754 XOR";
"2 1 1752 1753 1755 AND";
"2 1 1751 1755 1756 XOR";
"2 1 1680 76 1757 XOR";
"2 1 1756 76 1758 XOR";
"2 1 1757 1756 1759 XOR";
"2 1 1757 1758 1760 AND";
"2 1 1756 1760 1761 XOR";
"2 1 1683 77 1762 XOR";
"2 1 1761 77 1763 XOR";
"2 1 1762 1761 1764 XOR";
"2 1 1762 1763 1765 AND";
"2 1 1761 1765 1766 XOR";
"2 1 1686 78 1767 XOR";
"2 1 1766 78 1768 XOR";
"2 1 1767 1766 1769 XOR";
"2 1 1767 1768 1770 AND";
"2 1 1766 1770 1771 XOR";
"2 1 1689 79 1772 XOR";
"2 1 1771 79 1773 XOR";
"2 1 1772 1771 1774 XOR";
"2 1 1772 1773 1775 AND";
"2 1 1771 1775 1776 XOR";
"2 1 1692 80 1777 XOR";
"2 1 1776 80 1778 XOR";
"2 1 1777 1776 1779 XOR";
"2 1 1777 1778 1780 AND";
"2 1 1776 1780 1781 XOR";
"2 1 1695 81 1782 XOR";
"2 1 1781 81 1783 XOR";
"2 1 1782 1781 1784 XOR";
"2 1 1782 1783 1785 AND";
"2 1 1781 1785 1786 XOR";
"2 1 1698 82 1787 XOR";
"2 1 1786 82 1788 XOR";
"2 1 1787 1786 1789 XOR";
"2 1 1787 1788 1790 AND";
"2 1 1786 1790 1791 XOR";
"2 1 1791 259 1792 AND";
"2 1 1791 259 1793 XOR";
"2 1 1793 1792 1794 XOR";
"2 1 45 1700 1795 XOR";
"2 1 1794 1795 1796 AND";
"2 1 1796 1700 1797 XOR";
"2 1 1647 1704 1798 XOR";
"2 1 1794 1798 1799 AND";
"2 1 1799 1704 1800 XOR";
"2 1 1650 1709 1801 XOR";
"2 1 1794 1801 1802 AND";
"2 1 1802 1709 1803 XOR";
"2 1 1653 1714 1804 XOR";
"2 1 1794 1804 1805 AND";
"2 1 1805 1714 1806 XOR";
"2 1 1656 1719 1807 XOR";
"2 1 1794 1807 1808 AND";
"2 1 1808 1719 1809 XOR";
"2 1 1659 1724 1810 XOR";
"2 1 1794 1810 1811 AND";
"2 1 1811 1724 1812 XOR";
"2 1 1662 1729 1813 XOR";
"2 1 1794 1813 1814 AND";
"2 1 1814 1729 1815 XOR";
"2 1 1665 1734 1816 XOR";
"2 1 1794 1816 1817 AND";
"2 1 1817 1734 1818 XOR";
"2 1 1668 1739 1819 XOR";
"2 1 1794 1819 1820 AND";
"2 1 1820 1739 1821 XOR";
"2 1 1671 1744 1822 XOR";
"2 1 1794 1822 1823 AND";
"2 1 1823 1744 1824 XOR";
"2 1 1674 1749 1825 XOR";
"2 1 1794 1825 1826 AND";
"2 1 1826 1749 1827 XOR";
"2 1 1677 1754 1828 XOR";
"2 1 1794 1828 1829 AND";
"2 1 1829 1754 1830 XOR";
"2 1 1680 1759 1831 XOR";
"2 1 1794 1831 1832 AND";
"2 1 1832 1759 1833 XOR";
"2 1 1683 1764 1834 XOR";
"2 1 1794 1834 1835 AND";
"2 1 1835 1764 1836 XOR";
"2 1 1686 1769 1837 XOR";
"2 1 1794 1837 1838 AND";
"2 1 1838 1769 1839 XOR";
"2 1 1689 1774 1840 XOR";
"2 1 1794 1840 1841 AND";
"2 1 1841 1774 1842 XOR";
"2 1 1692 1779 1843 XOR";
"2 1 1794 1843 1844 AND";
"2 1 1844 1779 1845 XOR";
"2 1 1695 1784 1846 XOR";
"2 1 1794 1846 1847 AND";
"2 1 1847 1784 1848 XOR";
"2 1 1698 1789 1849 XOR";
"2 1 1794 1849 1850 AND";
"2 1 1850 1789 1851 XOR";
"1 1 1794 1852 INV";
"2 1 44 64 1853 XOR";
"2 1 1853 64 1854 AND";
"2 1 1797 65 1855 XOR";
"2 1 1854 65 1856 XOR";
"2 1 1855 1854 1857 XOR";
"2 1 1855 1856 1858 AND";
"2 1 1854 1858 1859 XOR";
"2 1 1800 66 1860 XOR";
"2 1 1859 66 1861 XOR";
"2 1 1860 1859 1862 XOR";
"2 1 1860 1861 1863 AND";
"2 1 1859 1863 1864 XOR";
"2 1 1803 67 1865 XOR";
"2 1 1864 67 1866 XOR";
"2 1 1865 1864 1867 XOR";
"2 1 1865 1866 1868 AND";
"2 1 1864 1868 1869 XOR";
"2 1 1806 68 1870 XOR";
"2 1 1869 68 1871 XOR";
"2 1 1870 1869 1872 XOR";
"2 1 1870 1871 1873 AND";
"2 1 1869 1873 1874 XOR";
"2 1 1809 69 1875 XOR";
"2 1 1874 69 1876 XOR";
"2 1 1875 1874 1877 XOR";
"2 1 1875 1876 1878 AND";
"2 1 1874 1878 1879 XOR";
"2 1 1812 70 1880 XOR";
"2 1 1879 70 1881 XOR";
"2 1 1880 1879 1882 XOR";
"2 1 1880 1881 1883 AND";
"2 1 1879 1883 1884 XOR";
"2 1 1815 71 1885 XOR";
"2 1 1884 71 1886 XOR";
"2 1 1885 1884 1887 XOR";
"2 1 1885 1886 1888 AND";
"2 1 1884 1888 1889 XOR";
"2 1 1818 72 1890 XOR";
"2 1 1889 72 1891 XOR";
"2 1 1890 1889 1892 XOR";
"2 1 1890 1891 1893 AND";
"2 1 1889 1893 1894 XOR";
"2 1 1821 73 1895 XOR";
"2 1 1894 73 1896 XOR";
"2 1 1895 1894 1897 XOR";
"2 1 1895 1896 1898 AND";
"2 1 1894 1898 1899 XOR";
"2 1 1824 74 1900 XOR";
"2 1 1899 74 1901 XOR";
"2 1 1900 1899 1902 XOR";
"2 1 1900 1901 1903 AND";
"2 1 1899 1903 1904 XOR";
"2 1 1827 75 1905 XOR";
"2 1 1904 75 1906 XOR";
"2 1 1905 1904 1907 XOR";
"2 1 1905 1906 1908 AND";
"2 1 1904 1908 1909 XOR";
"2 1 1830 76 1910 XOR";
"2 1 1909 76 1911 XOR";
"2 1 1910 1909 1912 XOR";
"2 1 1910 1911 1913 AND";
"2 1 1909 1913 1914 XOR";
"2 1 1833 77 1915 XOR";
"2 1 1914 77 1916 XOR";
"2 1 1915 1914 1917 XOR";
"2 1 1915 1916 1918 AND";
"2 1 1914 1918 1919 XOR";
"2 1 1836 78 1920 XOR";
"2 1 1919 78 1921 XOR";
"2 1 1920 1919 1922 XOR";
"2 1 1920 1921 1923 AND";
"2 1 1919 1923 1924 XOR";
"2 1 1839 79 1925 XOR";
"2 1 1924 79 1926 XOR";
"2 1 1925 1924 1927 XOR";
"2 1 1925 1926 1928 AND";
"2 1 1924 1928 1929 XOR";
"2 1 1842 80 1930 XOR";
"2 1 1929 80 1931 XOR";
"2 1 1930 1929 1932 XOR";
"2 1 1930 1931 1933 AND";
"2 1 1929 1933 1934 XOR";
"2 1 1845 81 1935 XOR";
"2 1 1934 81 1936 XOR";
"2 1 1935 1934 1937 XOR";
"2 1 1935 1936 1938 AND";
"2 1 1934 1938 1939 XOR";
"2 1 1848 82 1940 XOR";
"2 1 1939 82 1941 XOR";
"2 1 1940 1939 1942 XOR";
"2 1 1940 1941 1943 AND";
"2 1 1939 1943 1944 XOR";
"2 1 1851 83 1945 XOR";
"2 1 1944 83 1946 XOR";
"2 1 1945 1944 1947 XOR";
"2 1 1945 1946 1948 AND";
"2 1 1944 1948 1949 XOR";
"2 1 1949 256 1950 AND";
"2 1 1949 256 1951 XOR";
"2 1 1951 1950 1952 XOR";
"2 1 44 1853 1953 XOR";
"2 1 1952 1953 1954 AND";
"2 1 1954 1853 1955 XOR";
"2 1 1797 1857 1956 XOR";
"2 1 1952 1956 1957 AND";
"2 1 1957 1857 1958 XOR";
"2 1 1800 1862 1959 XOR";
"2 1 1952 1959 1960 AND";
"2 1 1960 1862 1961 XOR";
"2 1 1803 1867 1962 XOR";
"2 1 1952 1962 1963 AND";
"2 1 1963 1867 1964 XOR";
"2 1 1806 1872 1965 XOR";
"2 1 1952 1965 1966 AND";
"2 1 1966 1872 1967 XOR";
"2 1 1809 1877 1968 XOR";
"2 1 1952 1968 1969 AND";
"2 1 1969 1877 1970 XOR";
"2 1 1812 1882 1971 XOR";
"2 1 1952 1971 1972 AND";
"2 1 1972 1882 1973 XOR";
"2 1 1815 1887 1974 XOR";
"2 1 1952 1974 1975 AND";
"2 1 1975 1887 1976 XOR";
"2 1 1818 1892 1977 XOR";
"2 1 1952 1977 1978 AND";
"2 1 1978 1892 1979 XOR";
"2 1 1821 1897 1980 XOR";
"2 1 1952 1980 1981 AND";
"2 1 1981 1897 1982 XOR";
"2 1 1824 1902 1983 XOR";
"2 1 1952 1983 1984 AND";
"2 1 1984 1902 1985 XOR";
"2 1 1827 1907 1986 XOR";
"2 1 1952 1986 1987 AND";
"2 1 1987 1907 1988 XOR";
"2 1 1830 1912 1989 XOR";
"2 1 1952 1989 1990 AND";
"2 1 1990 1912 1991 XOR";
"2 1 1833 1917 1992 XOR";
"2 1 1952 1992 1993 AND";
"2 1 1993 1917 1994 XOR";
"2 1 1836 1922 1995 XOR";
"2 1 1952 1995 1996 AND";
"2 1 1996 1922 1997 XOR";
"2 1 1839 1927 1998 XOR";
"2 1 1952 1998 1999 AND";
"2 1 1999 1927 2000 XOR";
"2 1 1842 1932 2001 XOR";
"2 1 1952 2001 2002 AND";
"2 1 2002 1932 2003 XOR";
"2 1 1845 1937 2004 XOR";
"2 1 1952 2004 2005 AND";
"2 1 2005 1937 2006 XOR";
"2 1 1848 1942 2007 XOR";
"2 1 1952 2007 2008 AND";
"2 1 2008 1942 2009 XOR";
"2 1 1851 1947 2010 XOR";
"2 1 1952 2010 2011 AND";
"2 1 2011 1947 2012 XOR";
"1 1 1952 2013 INV";
"2 1 43 64 2014 XOR";
"2 1 2014 64 2015 AND";
"2 1 1955 65 2016 XOR";
"2 1 2015 65 2017 XOR";
"2 1 2016 2015 2018 XOR";
"2 1 2016 2017 2019 AND";
"2 1 2015 2019 2020 XOR";
"2 1 1958 66 2021 XOR";
"2 1 2020 66 2022 XOR";
"2 1 2021 2020 2023 XOR";
"2 1 2021 2022 2024 AND";
"2 1 2020 2024 2025 XOR";
"2 1 1961 67 2026 XOR";
"2 1 2025 67 2027 XOR";
"2 1 2026 2025 2028 XOR";
"2 1 2026 2027 2029 AND";
"2 1 2025 2029 2030 XOR";
"2 1 1964 68 2031 XOR";
"2 1 2030 68 2032 XOR";
"2 1 2031 2030 2033 XOR";
"2 1 2031 2032 2034 AND";
"2 1 2030 2034 2035 XOR";
"2 1 1967 69 2036 XOR";
"2 1 2035 69 2037 XOR";
"2 1 2036 2035 2038 XOR";
"2 1 2036 2037 2039 AND";
"2 1 2035 2039 2040 XOR";
"2 1 1970 70 2041 XOR";
"2 1 2040 70 2042 XOR";
"2 1 2041 2040 2043 XOR";
"2 1 2041 2042 2044 AND";
"2 1 2040 2044 2045 XOR";
"2 1 1973 71 2046 XOR";
"2 1 2045 71 2047 XOR";
"2 1 2046 2045 2048 XOR";
"2 1 2046 2047 2049 AND";
"2 1 2045 2049 2050 XOR";
"2 1 1976 72 2051 XOR";
"2 1 2050 72 2052 XOR";
"2 1 2051 2050 2053 XOR";
"2 1 2051 2052 2054 AND";
"2 1 2050 2054 2055 XOR";
"2 1 1979 73 2056 XOR";
"2 1 2055 73 2057 XOR";
"2 1 2056 2055 2058 XOR";
"2 1 2056 2057 2059 AND";
"2 1 2055 2059 2060 XOR";
"2 1 1982 74 2061 XOR";
"2 1 2060 74 2062 XOR";
"2 1 2061 2060 2063 XOR";
"2 1 2061 2062 2064 AND";
"2 1 2060 2064 2065 XOR";
"2 1 1985 75 2066 XOR";
"2 1 2065 75 2067 XOR";
"2 1 2066 2065 2068 XOR";
"2 1 2066 2067 2069 AND";
"2 1 2065 2069 2070 XOR";
"2 1 1988 76 2071 XOR";
"2 1 2070 76 2072 XOR";
"2 1 2071 2070 2073 XOR";
"2 1 2071 2072 2074 AND";
"2 1 2070 2074 2075 XOR";
"2 1 1991 77 2076 XOR";
"2 1 2075 77 2077 XOR";
"2 1 2076 2075 2078 XOR";
"2 1 2076 2077 2079 AND";
"2 1 2075 2079 2080 XOR";
"2 1 1994 78 2081 XOR";
"2 1 2080 78 2082 XOR";
"2 1 2081 2080 2083 XOR";
"2 1 2081 2082 2084 AND";
"2 1 2080 2084 2085 XOR";
"2 1 1997 79 2086 XOR";
"2 1 2085 79 2087 XOR";
"2 1 2086 2085 2088 XOR";
"2 1 2086 2087 2089 AND";
"2 1 2085 2089 2090 XOR";
"2 1 2000 80 2091 XOR";
"2 1 2090 80 2092 XOR";
"2 1 2091 2090 2093 XOR";
"2 1 2091 2092 2094 AND";
"2 1 2090 2094 2095 XOR";
"2 1 2003 81 2096 XOR";
"2 1 2095 81 2097 XOR";
"2 1 2096 2095 2098 XOR";
"2 1 2096 2097 2099 AND";
"2 1 2095 2099 2100 XOR";
"2 1 2006 82 2101 XOR";
"2 1 2100 82 2102 XOR";
"2 1 2101 2100 2103 XOR";
"2 1 2101 2102 2104 AND";
"2 1 2100 2104 2105 XOR";
"2 1 2009 83 2106 XOR";
"2 1 2105 83 2107 XOR";
"2 1 2106 2105 2108 XOR";
"2 1 2106 2107 2109 AND";
"2 1 2105 2109 2110 XOR";
"2 1 2012 84 2111 XOR";
"2 1 2110 84 2112 XOR";
"2 1 2111 2110 2113 XOR";
"2 1 2111 2112 2114 AND";
"2 1 2110 2114 2115 XOR";
"2 1 2115 253 2116 AND";
"2 1 2115 253 2117 XOR";
"2 1 2117 2116 2118 XOR";
"2 1 43 2014 2119 XOR";
"2 1 2118 2119 2120 AND";
"2 1 2120 2014 2121 XOR";
"2 1 1955 2018 2122 XOR";
"2 1 2118 2122 2123 AND";
"2 1 2123 2018 2124 XOR";
"2 1 1958 2023 2125 XOR";
"2 1 2118 2125 2126 AND";
"2 1 2126 2023 2127 XOR";
"2 1 1961 2028 2128 XOR";
"2 1 2118 2128 2129 AND";
"2 1 2129 2028 2130 XOR";
"2 1 1964 2033 2131 XOR";
"2 1 2118 2131 2132 AND";
"2 1 2132 2033 2133 XOR";
"2 1 1967 2038 2134 XOR";
"2 1 2118 2134 2135 AND";
"2 1 2135 2038 2136 XOR";
"2 1 1970 2043 2137 XOR";
"2 1 2118 2137 2138 AND";
"2 1 2138 2043 2139 XOR";
"2 1 1973 2048 2140 XOR";
"2 1 2118 2140 2141 AND";
"2 1 2141 2048 2142 XOR";
"2 1 1976 2053 2143 XOR";
"2 1 2118 2143 2144 AND";
"2 1 2144 2053 2145 XOR";
"2 1 1979 2058 2146 XOR";
"2 1 2118 2146 2147 AND";
"2 1 2147 2058 2148 XOR";
"2 1 1982 2063 2149 XOR";
"2 1 2118 2149 2150 AND";
"2 1 2150 2063 2151 XOR";
"2 1 1985 2068 2152 XOR";
"2 1 2118 2152 2153 AND";
"2 1 2153 2068 2154 XOR";
"2 1 1988 2073 2155 XOR";
"2 1 2118 2155 2156 AND";
"2 1 2156 2073 2157 XOR";
"2 1 1991 2078 2158 XOR";
"2 1 2118 2158 2159 AND";
"2 1 2159 2078 2160 XOR";
"2 1 1994 2083 2161 XOR";
"2 1 2118 2161 2162 AND";
"2 1 2162 2083 2163 XOR";
"2 1 1997 2088 2164 XOR";
"2 1 2118 2164 2165 AND";
"2 1 2165 2088 2166 XOR";
"2 1 2000 2093 2167 XOR";
"2 1 2118 2167 2168 AND";
"2 1 2168 2093 2169 XOR";
"2 1 2003 2098 2170 XOR";
"2 1 2118 2170 2171 AND";
"2 1 2171 2098 2172 XOR";
"2 1 2006 2103 2173 XOR";
"2 1 2118 2173 2174 AND";
"2 1 2174 2103 2175 XOR";
"2 1 2009 2108 2176 XOR";
"2 1 2118 2176 2177 AND";
"2 1 2177 2108 2178 XOR";
"2 1 2012 2113 2179 XOR";
"2 1 2118 2179 2180 AND";
"2 1 2180 2113 2181 XOR";
"1 1 2118 2182 INV";
"2 1 42 64 2183 XOR";
"2 1 2183 64 2184 AND";
"2 1 2121 65 2185 XOR";
"2 1 2184 65 2186 XOR";
"2 1 2185 2184 2187 XOR";
"2 1 2185 2186 2188 AND";
"2 1 2184 2188 2189 XOR";
"2 1 2124 66 2190 XOR";
"2 1 2189 66 2191 XOR";
"2 1 2190 2189 2192 XOR";
"2 1 2190 2191 2193 AND";
"2 1 2189 2193 2194 XOR";
"2 1 2127 67 2195 XOR";
"2 1 2194 67 2196 XOR";
"2 1 2195 2194 2197 XOR";
"2 1 2195 2196 2198 AND";
"2 1 2194 2198 2199 XOR";
"2 1 2130 68 2200 XOR";
"2 1 2199 68 2201 XOR";
"2 1 2200 2199 2202 XOR";
"2 1 2200 2201 2203 AND";
"2 1 2199 2203 2204 XOR";
"2 1 2133 69 2205 XOR";
"2 1 2204 69 2206 XOR";
"2 1 2205 2204 2207 XOR";
"2 1 2205 2206 2208 AND";
"2 1 2204 2208 2209 XOR";
"2 1 2136 70 2210 XOR";
"2 1 2209 70 2211 XOR";
"2 1 2210 2209 2212 XOR";
"2 1 2210 2211 2213 AND";
"2 1 2209 2213 2214 XOR";
"2 1 2139 71 2215 XOR";
"2 1 2214 71 2216 XOR";
"2 1 2215 2214 2217 XOR";
"2 1 2215 2216 2218 AND";
"2 1 2214 2218 2219 XOR";
"2 1 2142 72 2220 XOR";
"2 1 2219 72 2221 XOR";
"2 1 2220 2219 2222 XOR";
"2 1 2220 2221 2223 AND";
"2 1 2219 2223 2224 XOR";
"2 1 2145 73 2225 XOR";
"2 1 2224 73 2226 XOR";
"2 1 2225 2224 2227 XOR";
"2 1 2225 2226 2228 AND";
"2 1 2224 2228 2229 XOR";
"2 1 2148 74 2230 XOR";
"2 1 2229 74 2231 XOR";
"2 1 2230 2229 2232 XOR";
"2 1 2230 2231 2233 AND";
"2 1 2229 2233 2234 XOR";
"2 1 2151 75 2235 XOR";
"2 1 2234 75 2236 XOR";
"2 1 2235 2234 2237 XOR";
"2 1 2235 2236 2238 AND";
"2 1 2234 2238 2239 XOR";
"2 1 2154 76 2240 XOR";
"2 1 2239 76 2241 XOR";
"2 1 2240 2239 2242 XOR";
"2 1 2240 2241 2243 AND";
"2 1 2239 2243 2244 XOR";
"2 1 2157 77 2245 XOR";
"2 1 2244 77 2246 XOR";
"2 1 2245 2244 2247 XOR";
"2 1 2245 2246 2248 AND";
"2 1 2244 2248 2249 XOR";
"2 1 2160 78 2250 XOR";
"2 1 2249 78 2251 XOR";
"2 1 2250 2249 2252 XOR";
"2 1 2250 2251 2253 AND";
"2 1 2249 2253 2254 XOR";
"2 1 2163 79 2255 XOR";
"2 1 2254 79 2256 XOR";
"2 1 2255 2254 2257 XOR";
"2 1 2255 2256 2258 AND";
"2 1 2254 2258 2259 XOR";
"2 1 2166 80 2260 XOR";
"2 1 2259 80 2261 XOR";
"2 1 2260 2259 2262 XOR";
"2 1 2260 2261 2263 AND";
"2 1 2259 2263 2264 XOR";
"2 1 2169 81 2265 XOR";
"2 1 2264 81 2266 XOR";
"2 1 2265 2264 2267 XOR";
"2 1 2265 2266 2268 AND";
"2 1 2264 2268 2269 XOR";
"2 1 2172 82 2270 XOR";
"2 1 2269 82 2271 XOR";
"2 1 2270 2269 2272 XOR";
"2 1 2270 2271 2273 AND";
"2 1 2269 2273 2274 XOR";
"2 1 2175 83 2275 XOR";
"2 1 2274 83 2276 XOR";
"2 1 2275 2274 2277 XOR";
"2 1 2275 2276 2278 AND";
"2 1 2274 2278 2279 XOR";
"2 1 2178 84 2280 XOR";
"2 1 2279 84 2281 XOR";
"2 1 2280 2279 2282 XOR";
"2 1 2280 2281 2283 AND";
"2 1 2279 2283 2284 XOR";
"2 1 2181 85 2285 XOR";
"2 1 2284 85 2286 XOR";
"2 1 2285 2284 2287 XOR";
"2 1 2285 2286 2288 AND";
"2 1 2284 2288 2289 XOR";
"2 1 2289 250 2290 AND";
"2 1 2289 250 2291 XOR";
"2 1 2291 2290 2292 XOR";
"2 1 42 2183 2293 XOR";
"2 1 2292 2293 2294 AND";
"2 1 2294 2183 2295 XOR";
"2 1 2121 2187 2296 XOR";
"2 1 2292 2296 2297 AND";
"2 1 2297 2187 2298 XOR";
"2 1 2124 2192 2299 XOR";
"2 1 2292 2299 2300 AND";
"2 1 2300 2192 2301 XOR";
"2 1 2127 2197 2302 XOR";
"2 1 2292 2302 2303 AND";
"2 1 2303 2197 2304 XOR";
"2 1 2130 2202 2305 XOR";
"2 1 2292 2305 2306 AND";
"2 1 2306 2202 2307 XOR";
"2 1 2133 2207 2308 XOR";
"2 1 2292 2308 2309 AND";
"2 1 2309 2207 2310 XOR";
"2 1 2136 2212 2311 XOR";
"2 1 2292 2311 2312 AND";
"2 1 2312 2212 2313 XOR";
"2 1 2139 2217 2314 XOR";
"2 1 2292 2314 2315 AND";
"2 1 2315 2217 2316 XOR";
"2 1 2142 2222 2317 XOR";
"2 1 2292 2317 2318 AND";
"2 1 2318 2222 2319 XOR";
"2 1 2145 2227 2320 XOR";
"2 1 2292 2320 2321 AND";
"2 1 2321 2227 2322 XOR";
"2 1 2148 2232 2323 XOR";
"2 1 2292 2323 2324 AND";
"2 1 2324 2232 2325 XOR";
"2 1 2151 2237 2326 XOR";
"2 1 2292 2326 2327 AND";
"2 1 2327 2237 2328 XOR";
"2 1 2154 2242 2329 XOR";
"2 1 2292 2329 2330 AND";
"2 1 2330 2242 2331 XOR";
"2 1 2157 2247 2332 XOR";
"2 1 2292 2332 2333 AND";
"2 1 2333 2247 2334 XOR";
"2 1 2160 2252 2335 XOR";
"2 1 2292 2335 2336 AND";
"2 1 2336 2252 2337 XOR";
"2 1 2163 2257 2338 XOR";
"2 1 2292 2338 2339 AND";
"2 1 2339 2257 2340 XOR";
"2 1 2166 2262 2341 XOR";
"2 1 2292 2341 2342 AND";
"2 1 2342 2262 2343 XOR";
"2 1 2169 2267 2344 XOR";
"2 1 2292 2344 2345 AND";
"2 1 2345 2267 2346 XOR";
"2 1 2172 2272 2347 XOR";
"2 1 2292 2347 2348 AND";
"2 1 2348 2272 2349 XOR";
"2 1 2175 2277 2350 XOR";
"2 1 2292 2350 2351 AND";
"2 1 2351 2277 2352 XOR";
"2 1 2178 2282 2353 XOR";
"2 1 2292 2353 2354 AND";
"2 1 2354 2282 2355 XOR";
"2 1 2181 2287 2356 XOR";
"2 1 2292 2356 2357 AND";
"2 1 2357 2287 2358 XOR";
"1 1 2292 2359 INV";
"2 1 41 64 2360 XOR";
"2 1 2360 64 2361 AND";
"2 1 2295 65 2362 XOR";
"2 1 2361 65 2363 XOR";
"2 1 2362 2361 2364 XOR";
"2 1 2362 2363 2365 AND";
"2 1 2361 2365 2366 XOR";
"2 1 2298 66 2367 XOR";
"2 1 2366 66 2368 XOR";
"2 1 2367 2366 2369 XOR";
"2 1 2367 2368 2370 AND";
"2 1 2366 2370 2371 XOR";
"2 1 2301 67 2372 XOR";
"2 1 2371 67 2373 XOR";
"2 1 2372 2371 2374 XOR";
"2 1 2372 2373 2375 AND";
"2 1 2371 2375 2376 XOR";
"2 1 2304 68 2377 XOR";
"2 1 2376 68 2378 XOR";
"2 1 2377 2376 2379 XOR";
"2 1 2377 2378 2380 AND";
"2 1 2376 2380 2381 XOR";
"2 1 2307 69 2382 XOR";
"2 1 2381 69 2383 XOR";
"2 1 2382 2381 2384 XOR";
"2 1 2382 2383 2385 AND";
"2 1 2381 2385 2386 XOR";
"2 1 2310 70 2387 XOR";
"2 1 2386 70 2388 XOR";
"2 1 2387 2386 2389 XOR";
"2 1 2387 2388 2390 AND";
"2 1 2386 2390 2391 XOR";
"2 1 2313 71 2392 XOR";
"2 1 2391 71 2393 XOR";
"2 1 2392 2391 2394 XOR";
"2 1 2392 2393 2395 AND";
"2 1 2391 2395 2396 XOR";
"2 1 2316 72 2397 XOR";
"2 1 2396 72 2398 XOR";
"2 1 2397 2396 2399 XOR";
"2 1 2397 2398 2400 AND";
"2 1 2396 2400 2401 XOR";
"2 1 2319 73 2402 XOR";
"2 1 2401 73 2403 XOR";
"2 1 2402 2401 2404 XOR";
"2 1 2402 2403 2405 AND";
"2 1 2401 2405 2406 XOR";
"2 1 2322 74 2407 XOR";
"2 1 2406 74 2408 XOR";
"2 1 2407 2406 2409 XOR";
"2 1 2407 2408 2410 AND";
"2 1 2406 2410 2411 XOR";
"2 1 2325 75 2412 XOR";
"2 1 2411 75 2413 XOR";
"2 1 2412 2411 2414 XOR";
"2 1 2412 2413 2415 AND";
"2 1 2411 2415 2416 XOR";
"2 1 2328 76 2417 XOR";
"2 1 2416 76 2418 XOR";
"2 1 2417 2416 2419 XOR";
"2 1 2417 2418 2420 AND";
"2 1 2416 2420 2421 XOR";
"2 1 2331 77 2422 XOR";
"2 1 2421 77 2423 XOR";
"2 1 2422 2421 2424 XOR";
"2 1 2422 2423 2425 AND";
"2 1 2421 2425 2426 XOR";
"2 1 2334 78 2427 XOR";
"2 1 2426 78 2428 XOR";
"2 1 2427 2426 2429 XOR";
"2 1 2427 2428 2430 AND";
"2 1 2426 2430 2431 XOR";
"2 1 2337 79 2432 XOR";
"2 1 2431 79 2433 XOR";
"2 1 2432 2431 2434 XOR";
"2 1 2432 2433 2435 AND";
"2 1 2431 2435 2436 XOR";
"2 1 2340 80 2437 XOR";
"2 1 2436 80 2438 XOR";
"2 1 2437 2436 2439 XOR";
"2 1 2437 2438 2440 AND";
"2 1 2436 2440 2441 XOR";
"2 1 2343 81 2442 XOR";
"2 1 2441 81 2443 XOR";
"2 1 2442 2441 2444 XOR";
"2 1 2442 2443 2445 AND";
"2 1 2441 2445 2446 XOR";
"2 1 2346 82 2447 XOR";
"2 1 2446 82 2448 XOR";
"2 1 2447 2446 2449 XOR";
"2 1 2447 2448 2450 AND";
"2 1 2446 2450 2451 XOR";
"2 1 2349 83 2452 XOR";
"2 1 2451 83 2453 XOR";
"2 1 2452 2451 2454 XOR";
"2 1 2452 2453 2455 AND";
"2 1 2451 2455 2456 XOR";
"2 1 2352 84 2457 XOR";
"2 1 2456 84 2458 XOR";
"2 1 2457 2456 2459 XOR";
"2 1 2457 2458 2460 AND";
"2 1 2456 2460 2461 XOR";
"2 1 2355 85 2462 XOR";
"2 1 2461 85 2463 XOR";
"2 1 2462 2461 2464 XOR";
"2 1 2462 2463 2465 AND";
"2 1 2461 2465 2466 XOR";
"2 1 2358 86 2467 XOR";
"2 1 2466 86 2468 XOR";
"2 1 2467 2466 2469 XOR";
"2 1 2467 2468 2470 AND";
"2 1 2466 2470 2471 XOR";
"2 1 2471 247 2472 AND";
"2 1 2471 247 2473 XOR";
"2 1 2473 2472 2474 XOR";
"2 1 41 2360 2475 XOR";
"2 1 2474 2475 2476 AND";
"2 1 2476 2360 2477 XOR";
"2 1 2295 2364 2478 XOR";
"2 1 2474 2478 2479 AND";
"2 1 2479 2364 2480 XOR";
"2 1 2298 2369 2481 XOR";
"2 1 2474 2481 2482 AND";
"2 1 2482 2369 2483 XOR";
"2 1 2301 2374 2484 XOR";
"2 1 2474 2484 2485 AND";
"2 1 2485 2374 2486 XOR";
"2 1 2304 2379 2487 XOR";
"2 1 2474 2487 2488 AND";
"2 1 2488 2379 2489 XOR";
"2 1 2307 2384 2490 XOR";
"2 1 2474 2490 2491 AND";
"2 1 2491 2384 2492 XOR";
"2 1 2310 2389 2493 XOR";
"2 1 2474 2493 2494 AND";
"2 1 2494 2389 2495 XOR";
"2 1 2313 2394 2496 XOR";
"2 1 2474 2496 2497 AND";
"2 1 2497 2394 2498 XOR";
"2 1 2316 2399 2499 XOR";
"2 1 2474 2499 2500 AND";
"2 1 2500 2399 2501 XOR";
"2 1 2319 2404 2502 XOR";
"2 1 2474 2502 2503 AND";
"2 1 2503 2404 2504 XOR";
"2 1 2322 2409 2505 XOR";
"2 1 2474 2505 2506 AND";
"2 1 2506 2409 2507 XOR";
"2 1 2325 2414 2508 XOR";
"2 1 2474 2508 2509 AND";
"2 1 2509 2414 2510 XOR";
"2 1 2328 2419 2511 XOR";
"2 1 2474 2511 2512 AND";
"2 1 2512 2419 2513 XOR";
"2 1 2331 2424 2514 XOR";
"2 1 2474 2514 2515 AND";
"2 1 2515 2424 2516 XOR";
"2 1 2334 2429 2517 XOR";
"2 1 2474 2517 2518 AND";
"2 1 2518 2429 2519 XOR";
"2 1 2337 2434 2520 XOR";
"2 1 2474 2520 2521 AND";
"2 1 2521 2434 2522 XOR";
"2 1 2340 2439 2523 XOR";
"2 1 2474 2523 2524 AND";
"2 1 2524 2439 2525 XOR";
"2 1 2343 2444 2526 XOR";
"2 1 2474 2526 2527 AND";
"2 1 2527 2444 2528 XOR";
"2 1 2346 2449 2529 XOR";
"2 1 2474 2529 2530 AND";
"2 1 2530 2449 2531 XOR";
"2 1 2349 2454 2532 XOR";
"2 1 2474 2532 2533 AND";
"2 1 2533 2454 2534 XOR";
"2 1 2352 2459 2535 XOR";
"2 1 2474 2535 2536 AND";
"2 1 2536 2459 2537 XOR";
"2 1 2355 2464 2538 XOR";
"2 1 2474 2538 2539 AND";
"2 1 2539 2464 2540 XOR";
"2 1 2358 2469 2541 XOR";
"2 1 2474 2541 2542 AND";
"2 1 2542 2469 2543 XOR";
"1 1 2474 2544 INV";
"2 1 40 64 2545 XOR";
"2 1 2545 64 2546 AND";
"2 1 2477 65 2547 XOR";
"2 1 2546 65 2548 XOR";
"2 1 2547 2546 2549 XOR";
"2 1 2547 2548 2550 AND";
"2 1 2546 2550 2551 XOR";
"2 1 2480 66 2552 XOR";
"2 1 2551 66 2553 XOR";
"2 1 2552 2551 2554 XOR";
"2 1 2552 2553 2555 AND";
"2 1 2551 2555 2556 XOR";
"2 1 2483 67 2557 XOR";
"2 1 2556 67 2558 XOR";
"2 1 2557 2556 2559 XOR";
"2 1 2557 2558 2560 AND";
"2 1 2556 2560 2561 XOR";
"2 1 2486 68 2562 XOR";
"2 1 2561 68 2563 XOR";
"2 1 2562 2561 2564 XOR";
"2 1 2562 2563 2565 AND";
"2 1 2561 2565 2566 XOR";
"2 1 2489 69 2567 XOR";
"2 1 2566 69 2568 XOR";
"2 1 2567 2566 2569 XOR";
"2 1 2567 2568 2570 AND";
"2 1 2566 2570 2571 XOR";
"2 1 2492 70 2572 XOR";
"2 1 2571 70 2573 XOR";
"2 1 2572 2571 2574 XOR";
"2 1 2572 2573 2575 AND";
"2 1 2571 2575 2576 XOR";
"2 1 2495 71 2577 XOR";
"2 1 2576 71 2578 XOR";
"2 1 2577 2576 2579 XOR";
"2 1 2577 2578 2580 AND";
"2 1 2576 2580 2581 XOR";
"2 1 2498 72 2582 XOR";
"2 1 2581 72 2583 XOR";
"2 1 2582 2581 2584 XOR";
"2 1 2582 2583 2585 AND";
"2 1 2581 2585 2586 XOR";
"2 1 2501 73 2587 XOR";
"2 1 2586 73 2588 XOR";
"2 1 2587 2586 2589 XOR";
"2 1 2587 2588 2590 AND";
"2 1 2586 2590 2591 XOR";
"2 1 2504 74 2592 XOR";
"2 1 2591 74 2593 XOR";
"2 1 2592 2591 2594 XOR";
"2 1 2592 2593 2595 AND";
"2 1 2591 2595 2596 XOR";
"2 1 2507 75 2597 XOR";
"2 1 2596 75 2598 XOR";
"2 1 2597 2596 2599 XOR";
"2 1 2597 2598 2600 AND";
"2 1 2596 2600 2601 XOR";
"2 1 2510 76 2602 XOR";
"2 1 2601 76 2603 XOR";
"2 1 2602 2601 2604 XOR";
"2 1 2602 2603 2605 AND";
"2 1 2601 2605 2606 XOR";
"2 1 2513 77 2607 XOR";
"2 1 2606 77 2608 XOR";
"2 1 2607 2606 2609 XOR";
"2 1 2607 2608 2610 AND";
"2 1 2606 2610 2611 XOR";
"2 1 2516 78 2612 XOR";
"2 1 2611 78 2613 XOR";
"2 1 2612 2611 2614 XOR";
"2 1 2612 2613 2615 AND";
"2 1 2611 2615 2616 XOR";
"2 1 2519 79 2617 XOR";
"2 1 2616 79 2618 XOR";
"2 1 2617 2616 2619 XOR";
"2 1 2617 2618 2620 AND";
"2 1 2616 2620 2621 XOR";
"2 1 2522 80 2622 XOR";
"2 1 2621 80 2623 XOR";
"2 1 2622 2621 2624 XOR";
"2 1 2622 2623 2625 AND";
"2 1 2621 2625 2626 XOR";
"2 1 2525 81 2627 XOR";
"2 1 2626 81 2628 XOR";
"2 1 2627 2626 2629 XOR";
"2 1 2627 2628 2630 AND";
"2 1 2626 2630 2631 XOR";
"2 1 2528 82 2632 XOR";
"2 1 2631 82 2633 XOR";
"2 1 2632 2631 2634 XOR";
"2 1 2632 2633 2635 AND";
"2 1 2631 2635 2636 XOR";
"2 1 2531 83 2637 XOR";
"2 1 2636 83 2638 XOR";
"2 1 2637 2636 2639 XOR";
"2 1 2637 2638 2640 AND";
"2 1 2636 2640 2641 XOR";
"2 1 2534 84 2642 XOR";
"2 1 2641 84 2643 XOR";
"2 1 2642 2641 2644 XOR";
"2 1 2642 2643 2645 AND";
"2 1 2641 2645 2646 XOR";
"2 1 2537 85 2647 XOR";
"2 1 2646 85 2648 XOR";
"2 1 2647 2646 2649 XOR";
"2 1 2647 2648 2650 AND";
"2 1 2646 2650 2651 XOR";
"2 1 2540 86 2652 XOR";
"2 1 2651 86 2653 XOR";
"2 1 2652 2651 2654 XOR";
"2 1 2652 2653 2655 AND";
"2 1 2651 2655 2656 XOR";
"2 1 2543 87 2657 XOR";
"2 1 2656 87 2658 XOR";
"2 1 2657 2656 2659 XOR";
"2 1 2657 2658 2660 AND";
"2 1 2656 2660 2661 XOR";
"2 1 2661 244 2662 AND";
"2 1 2661 244 2663 XOR";
"2 1 2663 2662 2664 XOR";
"2 1 40 2545 2665 XOR";
"2 1 2664 2665 2666 AND";
"2 1 2666 2545 2667 XOR";
"2 1 2477 2549 2668 XOR";
"2 1 2664 2668 2669 AND";
"2 1 2669 2549 2670 XOR";
"2 1 2480 2554 2671 XOR";
"2 1 2664 2671 2672 AND";
"2 1 2672 2554 2673 XOR";
"2 1 2483 2559 2674 XOR";
"2 1 2664 2674 2675 AND";
"2 1 2675 2559 2676 XOR";
"2 1 2486 2564 2677 XOR";
"2 1 2664 2677 2678 AND";
"2 1 2678 2564 2679 XOR";
"2 1 2489 2569 2680 XOR";
"2 1 2664 2680 2681 AND";
"2 1 2681 2569 2682 XOR";
"2 1 2492 2574 2683 XOR";
"2 1 2664 2683 2684 AND";
"2 1 2684 2574 2685 XOR";
"2 1 2495 2579 2686 XOR";
"2 1 2664 2686 2687 AND";
"2 1 2687 2579 2688 XOR";
"2 1 2498 2584 2689 XOR";
"2 1 2664 2689 2690 AND";
"2 1 2690 2584 2691 XOR";
"2 1 2501 2589 2692 XOR";
"2 1 2664 2692 2693 AND";
"2 1 2693 2589 2694 XOR";
"2 1 2504 2594 2695 XOR";
"2 1 2664 2695 2696 AND";
"2 1 2696 2594 2697 XOR";
"2 1 2507 2599 2698 XOR";
"2 1 2664 2698 2699 AND";
"2 1 2699 2599 2700 XOR";
"2 1 2510 2604 2701 XOR";
"2 1 2664 2701 2702 AND";
"2 1 2702 2604 2703 XOR";
"2 1 2513 2609 2704 XOR";
"2 1 2664 2704 2705 AND";
"2 1 2705 2609 2706 XOR";
"2 1 2516 2614 2707 XOR";
"2 1 2664 2707 2708 AND";
"2 1 2708 2614 2709 XOR";
"2 1 2519 2619 2710 XOR";
"2 1 2664 2710 2711 AND";
"2 1 2711 2619 2712 XOR";
"2 1 2522 2624 2713 XOR";
"2 1 2664 2713 2714 AND";
"2 1 2714 2624 2715 XOR";
"2 1 2525 2629 2716 XOR";
"2 1 2664 2716 2717 AND";
"2 1 2717 2629 2718 XOR";
"2 1 2528 2634 2719 XOR";
"2 1 2664 2719 2720 AND";
"2 1 2720 2634 2721 XOR";
"2 1 2531 2639 2722 XOR";
"2 1 2664 2722 2723 AND";
"2 1 2723 2639 2724 XOR";
"2 1 2534 2644 2725 XOR";
"2 1 2664 2725 2726 AND";
"2 1 2726 2644 2727 XOR";
"2 1 2537 2649 2728 XOR";
"2 1 2664 2728 2729 AND";
"2 1 2729 2649 2730 XOR";
"2 1 2540 2654 2731 XOR";
"2 1 2664 2731 2732 AND";
"2 1 2732 2654 2733 XOR";
"2 1 2543 2659 2734 XOR";
"2 1 2664 2734 2735 AND";
"2 1 2735 2659 2736 XOR";
"1 1 2664 2737 INV";
"2 1 39 64 2738 XOR";
"2 1 2738 64 2739 AND";
"2 1 2667 65 2740 XOR";
"2 1 2739 65 2741 XOR";
"2 1 2740 2739 2742 XOR";
"2 1 2740 2741 2743 AND";
"2 1 2739 2743 2744 XOR";
"2 1 2670 66 2745 XOR";
"2 1 2744 66 2746 XOR";
"2 1 2745 2744 2747 XOR";
"2 1 2745 2746 2748 AND";
"2 1 2744 2748 2749 XOR";
"2 1 2673 67 2750 XOR";
"2 1 2749 67 2751 XOR";
"2 1 2750 2749 2752 XOR";
"2 1 2750 2751 2753 AND";
"2 1 2749 2753 2754 XOR";
"2 1 2676 68 2755 XOR";
"2 1 2754 68 2756 XOR";
"2 1 2755 2754 2757 XOR";
"2 1 2755 2756 2758 AND";
"2 1 2754 2758 2759 XOR";
"2 1 2679 69 2760 XOR";
"2 1 2759 69 2761 XOR";
"2 1 2760 2759 2762 XOR";
"2 1 2760 2761 2763 AND";
"2 1 2759 2763 2764 XOR";
"2 1 2682 70 2765 XOR";
"2 1 2764 70 2766 XOR";
"2 1 2765 2764 2767 XOR";
"2 1 2765 2766 2768 AND";
"2 1 2764 2768 2769 XOR";
"2 1 2685 71 2770 XOR";
"2 1 2769 71 2771 XOR";
"2 1 2770 2769 2772 XOR";
"2 1 2770 2771 2773 AND";
"2 1 2769 2773 2774 XOR";
"2 1 2688 72 2775 XOR";
"2 1 2774 72 2776 XOR";
"2 1 2775 2774 2777 XOR";
"2 1 2775 2776 2778 AND";
"2 1 2774 2778 2779 XOR";
"2 1 2691 73 2780 XOR";
"2 1 2779 73 2781 XOR";
"2 1 2780 2779 2782 XOR";
"2 1 2780 2781 2783 AND";
"2 1 2779 2783 2784 XOR";
"2 1 2694 74 2785 XOR";
"2 1 2784 74 2786 XOR";
"2 1 2785 2784 2787 XOR";
"2 1 2785 2786 2788 AND";
"2 1 2784 2788 2789 XOR";
"2 1 2697 75 2790 XOR";
"2 1 2789 75 2791 XOR";
"2 1 2790 2789 2792 XOR";
"2 1 2790 2791 2793 AND";
"2 1 2789 2793 2794 XOR";
"2 1 2700 76 2795 XOR";
"2 1 2794 76 2796 XOR";
"2 1 2795 2794 2797 XOR";
"2 1 2795 2796 2798 AND";
"2 1 2794 2798 2799 XOR";
"2 1 2703 77 2800 XOR";
"2 1 2799 77 2801 XOR";
"2 1 2800 2799 2802 XOR";
"2 1 2800 2801 2803 AND";
"2 1 2799 2803 2804 XOR";
"2 1 2706 78 2805 XOR";
"2 1 2804 78 2806 XOR";
"2 1 2805 2804 2807 XOR";
"2 1 2805 2806 2808 AND";
"2 1 2804 2808 2809 XOR";
"2 1 2709 79 2810 XOR";
"2 1 2809 79 2811 XOR";
"2 1 2810 2809 2812 XOR";
"2 1 2810 2811 2813 AND";
"2 1 2809 2813 2814 XOR";
"2 1 2712 80 2815 XOR";
"2 1 2814 80 2816 XOR";
"2 1 2815 2814 2817 XOR";
"2 1 2815 2816 2818 AND";
"2 1 2814 2818 2819 XOR";
"2 1 2715 81 2820 XOR";
"2 1 2819 81 2821 XOR";
"2 1 2820 2819 2822 XOR";
"2 1 2820 2821 2823 AND";
"2 1 2819 2823 2824 XOR";
"2 1 2718 82 2825 XOR";
"2 1 2824 82 2826 XOR";
"2 1 2825 2824 2827 XOR";
"2 1 2825 2826 2828 AND";
"2 1 2824 2828 2829 XOR";
"2 1 2721 83 2830 XOR";
"2 1 2829 83 2831 XOR";
"2 1 2830 2829 2832 XOR";
"2 1 2830 2831 2833 AND";
"2 1 2829 2833 2834 XOR";
"2 1 2724 84 2835 XOR";
"2 1 2834 84 2836 XOR";
"2 1 2835 2834 2837 XOR";
"2 1 2835 2836 2838 AND";
"2 1 2834 2838 2839 XOR";
"2 1 2727 85 2840 XOR";
"2 1 2839 85 2841 XOR";
"2 1 2840 2839 2842 XOR";
"2 1 2840 2841 2843 AND";
"2 1 2839 2843 2844 XOR";
"2 1 2730 86 2845 XOR";
"2 1 2844 86 2846 XOR";
"2 1 2845 2844 2847 XOR";
"2 1 2845 2846 2848 AND";
"2 1 2844 2848 2849 XOR";
"2 1 2733 87 2850 XOR";
"2 1 2849 87 2851 XOR";
"2 1 2850 2849 2852 XOR";
"2 1 2850 2851 2853 AND";
"2 1 2849 2853 2854 XOR";
"2 1 2736 88 2855 XOR";
"2 1 2854 88 2856 XOR";
"2 1 2855 2854 2857 XOR";
"2 1 2855 2856 2858 AND";
"2 1 2854 2858 2859 XOR";
"2 1 2859 241 2860 AND";
"2 1 2859 241 2861 XOR";
"2 1 2861 2860 2862 XOR";
"2 1 39 2738 2863 XOR";
"2 1 2862 2863 2864 AND";
"2 1 2864 2738 2865 XOR";
"2 1 2667 2742 2866 XOR";
"2 1 2862 2866 2867 AND";
"2 1 2867 2742 2868 XOR";
"2 1 2670 2747 2869 XOR";
"2 1 2862 2869 2870 AND";
"2 1 2870 2747 2871 XOR";
"2 1 2673 2752 2872 XOR";
"2 1 2862 2872 2873 AND";
"2 1 2873 2752 2874 XOR";
"2 1 2676 2757 2875 XOR";
"2 1 2862 2875 2876 AND";
"2 1 2876 2757 2877 XOR";
"2 1 2679 2762 2878 XOR";
"2 1 2862 2878 2879 AND";
"2 1 2879 2762 2880 XOR";
"2 1 2682 2767 2881 XOR";
"2 1 2862 2881 2882 AND";
"2 1 2882 2767 2883 XOR";
"2 1 2685 2772 2884 XOR";
"2 1 2862 2884 2885 AND";
"2 1 2885 2772 2886 XOR";
"2 1 2688 2777 2887 XOR";
"2 1 2862 2887 2888 AND";
"2 1 2888 2777 2889 XOR";
"2 1 2691 2782 2890 XOR";
"2 1 2862 2890 2891 AND";
"2 1 2891 2782 2892 XOR";
"2 1 2694 2787 2893 XOR";
"2 1 2862 2893 2894 AND";
"2 1 2894 2787 2895 XOR";
"2 1 2697 2792 2896 XOR";
"2 1 2862 2896 2897 AND";
"2 1 2897 2792 2898 XOR";
"2 1 2700 2797 2899 XOR";
"2 1 2862 2899 2900 AND";
"2 1 2900 2797 2901 XOR";
"2 1 2703 2802 2902 XOR";
"2 1 2862 2902 2903 AND";
"2 1 2903 2802 2904 XOR";
"2 1 2706 2807 2905 XOR";
"2 1 2862 2905 2906 AND";
"2 1 2906 2807 2907 XOR";
"2 1 2709 2812 2908 XOR";
"2 1 2862 2908 2909 AND";
"2 1 2909 2812 2910 XOR";
"2 1 2712 2817 2911 XOR";
"2 1 2862 2911 2912 AND";
"2 1 2912 2817 2913 XOR";
"2 1 2715 2822 2914 XOR";
"2 1 2862 2914 2915 AND";
"2 1 2915 2822 2916 XOR";
"2 1 2718 2827 2917 XOR";
"2 1 2862 2917 2918 AND";
"2 1 2918 2827 2919 XOR";
"2 1 2721 2832 2920 XOR";
"2 1 2862 2920 2921 AND";
"2 1 2921 2832 2922 XOR";
"2 1 2724 2837 2923 XOR";
"2 1 2862 2923 2924 AND";
"2 1 2924 2837 2925 XOR";
"2 1 2727 2842 2926 XOR";
"2 1 2862 2926 2927 AND";
"2 1 2927 2842 2928 XOR";
"2 1 2730 2847 2929 XOR";
"2 1 2862 2929 2930 AND";
"2 1 2930 2847 2931 XOR";
"2 1 2733 2852 2932 XOR";
"2 1 2862 2932 2933 AND";
"2 1 2933 2852 2934 XOR";
"2 1 2736 2857 2935 XOR";
"2 1 2862 2935 2936 AND";
"2 1 2936 2857 2937 XOR";
"1 1 2862 2938 INV";
"2 1 38 64 2939 XOR";
"2 1 2939 64 2940 AND";
"2 1 2865 65 2941 XOR";
"2 1 2940 65 2942 XOR";
"2 1 2941 2940 2943 XOR";
"2 1 2941 2942 2944 AND";
"2 1 2940 2944 2945 XOR";
"2 1 2868 66 2946 XOR";
"2 1 2945 66 2947 XOR";
"2 1 2946 2945 2948 XOR";
"2 1 2946 2947 2949 AND";
"2 1 2945 2949 2950 XOR";
"2 1 2871 67 2951 XOR";
"2 1 2950 67 2952 XOR";
"2 1 2951 2950 2953 XOR";
"2 1 2951 2952 2954 AND";
"2 1 2950 2954 2955 XOR";
"2 1 2874 68 2956 XOR";
"2 1 2955 68 2957 XOR";
"2 1 2956 2955 2958 XOR";
"2 1 2956 2957 2959 AND";
"2 1 2955 2959 2960 XOR";
"2 1 2877 69 2961 XOR";
"2 1 2960 69 2962 XOR";
"2 1 2961 2960 2963 XOR";
"2 1 2961 2962 2964 AND";
"2 1 2960 2964 2965 XOR";
"2 1 2880 70 2966 XOR";
"2 1 2965 70 2967 XOR";
"2 1 2966 2965 2968 XOR";
"2 1 2966 2967 2969 AND";
"2 1 2965 2969 2970 XOR";
"2 1 2883 71 2971 XOR";
"2 1 2970 71 2972 XOR";
"2 1 2971 2970 2973 XOR";
"2 1 2971 2972 2974 AND";
"2 1 2970 2974 2975 XOR";
"2 1 2886 72 2976 XOR";
"2 1 2975 72 2977 XOR";
"2 1 2976 2975 2978 XOR";
"2 1 2976 2977 2979 AND";
"2 1 2975 2979 2980 XOR";
"2 1 2889 73 2981 XOR";
"2 1 2980 73 2982 XOR";
"2 1 2981 2980 2983 XOR";
"2 1 2981 2982 2984 AND";
"2 1 2980 2984 2985 XOR";
"2 1 2892 74 2986 XOR";
"2 1 2985 74 2987 XOR";
"2 1 2986 2985 2988 XOR";
"2 1 2986 2987 2989 AND";
"2 1 2985 2989 2990 XOR";
"2 1 2895 75 2991 XOR";
"2 1 2990 75 2992 XOR";
"2 1 2991 2990 2993 XOR";
"2 1 2991 2992 2994 AND";
"2 1 2990 2994 2995 XOR";
"2 1 2898 76 2996 XOR";
"2 1 2995 76 2997 XOR";
"2 1 2996 2995 2998 XOR";
"2 1 2996 2997 2999 AND";
"2 1 2995 2999 3000 XOR";
"2 1 2901 77 3001 XOR";
"2 1 3000 77 3002 XOR";
"2 1 3001 3000 3003 XOR";
"2 1 3001 3002 3004 AND";
"2 1 3000 3004 3005 XOR";
"2 1 2904 78 3006 XOR";
"2 1 3005 78 3007 XOR";
"2 1 3006 3005 3008 XOR";
"2 1 3006 3007 3009 AND";
"2 1 3005 3009 3010 XOR";
"2 1 2907 79 3011 XOR";
"2 1 3010 79 3012 XOR";
"2 1 3011 3010 3013 XOR";
"2 1 3011 3012 3014 AND";
"2 1 3010 3014 3015 XOR";
"2 1 2910 80 3016 XOR";
"2 1 3015 80 3017 XOR";
"2 1 3016 3015 3018 XOR";
"2 1 3016 3017 3019 AND";
"2 1 3015 3019 3020 XOR";
"2 1 2913 81 3021 XOR";
"2 1 3020 81 3022 XOR";
"2 1 3021 3020 3023 XOR";
"2 1 3021 3022 3024 AND";
"2 1 3020 3024 3025 XOR";
"2 1 2916 82 3026 XOR";
"2 1 3025 82 3027 XOR";
"2 1 3026 3025 3028 XOR";
"2 1 3026 3027 3029 AND";
"2 1 3025 3029 3030 XOR";
"2 1 2919 83 3031 XOR";
"2 1 3030 83 3032 XOR";
"2 1 3031 3030 3033 XOR";
"2 1 3031 3032 3034 AND";
"2 1 3030 3034 3035 XOR";
"2 1 2922 84 3036 XOR";
"2 1 3035 84 3037 XOR";
"2 1 3036 3035 3038 XOR";
"2 1 3036 3037 3039 AND";
"2 1 3035 3039 3040 XOR";
"2 1 2925 85 3041 XOR";
"2 1 3040 85 3042 XOR";
"2 1 3041 3040 3043 XOR";
"2 1 3041 3042 3044 AND";
"2 1 3040 3044 3045 XOR";
"2 1 2928 86 3046 XOR";
"2 1 3045 86 3047 XOR";
"2 1 3046 3045 3048 XOR";
"2 1 3046 3047 3049 AND";
"2 1 3045 3049 3050 XOR";
"2 1 2931 87 3051 XOR";
"2 1 3050 87 3052 XOR";
"2 1 3051 3050 3053 XOR";
"2 1 3051 3052 3054 AND";
"2 1 3050 3054 3055 XOR";
"2 1 2934 88 3056 XOR";
"2 1 3055 88 3057 XOR";
"2 1 3056 3055 3058 XOR";
"2 1 3056 3057 3059 AND";
"2 1 3055 3059 3060 XOR";
"2 1 2937 89 3061 XOR";
"2 1 3060 89 3062 XOR";
"2 1 3061 3060 3063 XOR";
"2 1 3061 3062 3064 AND";
"2 1 3060 3064 3065 XOR";
"2 1 3065 238 3066 AND";
"2 1 3065 238 3067 XOR";
"2 1 3067 3066 3068 XOR";
"2 1 38 2939 3069 XOR";
"2 1 3068 3069 3070 AND";
"2 1 3070 2939 3071 XOR";
"2 1 2865 2943 3072 XOR";
"2 1 3068 3072 3073 AND";
"2 1 3073 2943 3074 XOR";
"2 1 2868 2948 3075 XOR";
"2 1 3068 3075 3076 AND";
"2 1 3076 2948 3077 XOR";
"2 1 2871 2953 3078 XOR";
"2 1 3068 3078 3079 AND";
"2 1 3079 2953 3080 XOR";
"2 1 2874 2958 3081 XOR";
"2 1 3068 3081 3082 AND";
"2 1 3082 2958 3083 XOR";
"2 1 2877 2963 3084 XOR";
"2 1 3068 3084 3085 AND";
"2 1 3085 2963 3086 XOR";
"2 1 2880 2968 3087 XOR";
"2 1 3068 3087 3088 AND";
"2 1 3088 2968 3089 XOR";
"2 1 2883 2973 3090 XOR";
"2 1 3068 3090 3091 AND";
"2 1 3091 2973 3092 XOR";
"2 1 2886 2978 3093 XOR";
"2 1 3068 3093 3094 AND";
"2 1 3094 2978 3095 XOR";
"2 1 2889 2983 3096 XOR";
"2 1 3068 3096 3097 AND";
"2 1 3097 2983 3098 XOR";
"2 1 2892 2988 3099 XOR";
"2 1 3068 3099 3100 AND";
"2 1 3100 2988 3101 XOR";
"2 1 2895 2993 3102 XOR";
"2 1 3068 3102 3103 AND";
"2 1 3103 2993 3104 XOR";
"2 1 2898 2998 3105 XOR";
"2 1 3068 3105 3106 AND";
"2 1 3106 2998 3107 XOR";
"2 1 2901 3003 3108 XOR";
"2 1 3068 3108 3109 AND";
"2 1 3109 3003 3110 XOR";
"2 1 2904 3008 3111 XOR";
"2 1 3068 3111 3112 AND";
"2 1 3112 3008 3113 XOR";
"2 1 2907 3013 3114 XOR";
"2 1 3068 3114 3115 AND";
"2 1 3115 3013 3116 XOR";
"2 1 2910 3018 3117 XOR";
"2 1 3068 3117 3118 AND";
"2 1 3118 3018 3119 XOR";
"2 1 2913 3023 3120 XOR";
"2 1 3068 3120 3121 AND";
"2 1 3121 3023 3122 XOR";
"2 1 2916 3028 3123 XOR";
"2 1 3068 3123 3124 AND";
"2 1 3124 3028 3125 XOR";
"2 1 2919 3033 3126 XOR";
"2 1 3068 3126 3127 AND";
"2 1 3127 3033 3128 XOR";
"2 1 2922 3038 3129 XOR";
"2 1 3068 3129 3130 AND";
"2 1 3130 3038 3131 XOR";
"2 1 2925 3043 3132 XOR";
"2 1 3068 3132 3133 AND";
"2 1 3133 3043 3134 XOR";
"2 1 2928 3048 3135 XOR";
"2 1 3068 3135 3136 AND";
"2 1 3136 3048 3137 XOR";
"2 1 2931 3053 3138 XOR";
"2 1 3068 3138 3139 AND";
"2 1 3139 3053 3140 XOR";
"2 1 2934 3058 3141 XOR";
"2 1 3068 3141 3142 AND";
"2 1 3142 3058 3143 XOR";
"2 1 2937 3063 3144 XOR";
"2 1 3068 3144 3145 AND";
"2 1 3145 3063 3146 XOR";
"1 1 3068 3147 INV";
"2 1 37 64 3148 XOR";
"2 1 3148 64 3149 AND";
"2 1 3071 65 3150 XOR";
"2 1 3149 65 3151 XOR";
"2 1 3150 3149 3152 XOR";
"2 1 3150 3151 3153 AND";
"2 1 3149 3153 3154 XOR";
"2 1 3074 66 3155 XOR";
"2 1 3154 66 3156 XOR";
"2 1 3155 3154 3157 XOR";
"2 1 3155 3156 3158 AND";
"2 1 3154 3158 3159 XOR";
"2 1 3077 67 3160 XOR";
"2 1 3159 67 3161 XOR";
"2 1 3160 3159 3162 XOR";
"2 1 3160 3161 3163 AND";
"2 1 3159 3163 3164 XOR";
"2 1 3080 68 3165 XOR";
"2 1 3164 68 3166 XOR";
"2 1 3165 3164 3167 XOR";
"2 1 3165 3166 3168 AND";
"2 1 3164 3168 3169 XOR";
"2 1 3083 69 3170 XOR";
"2 1 3169 69 3171 XOR";
"2 1 3170 3169 3172 XOR";
"2 1 3170 3171 3173 AND";
"2 1 3169 3173 3174 XOR";
"2 1 3086 70 3175 XOR";
"2 1 3174 70 3176 XOR";
"2 1 3175 3174 3177 XOR";
"2 1 3175 3176 3178 AND";
"2 1 3174 3178 3179 XOR";
"2 1 3089 71 3180 XOR";
"2 1 3179 71 3181 XOR";
"2 1 3180 3179 3182 XOR";
"2 1 3180 3181 3183 AND";
"2 1 3179 3183 3184 XOR";
"2 1 3092 72 3185 XOR";
"2 1 3184 72 3186 XOR";
"2 1 3185 3184 3187 XOR";
"2 1 3185 3186 3188 AND";
"2 1 3184 3188 3189 XOR";
"2 1 3095 73 3190 XOR";
"2 1 3189 73 3191 XOR";
"2 1 3190 3189 3192 XOR";
"2 1 3190 3191 3193 AND";
"2 1 3189 3193 3194 XOR";
"2 1 3098 74 3195 XOR";
"2 1 3194 74 3196 XOR";
"2 1 3195 3194 3197 XOR";
"2 1 3195 3196 3198 AND";
"2 1 3194 3198 3199 XOR";
"2 1 3101 75 3200 XOR";
"2 1 3199 75 3201 XOR";
"2 1 3200 3199 3202 XOR";
"2 1 3200 3201 3203 AND";
"2 1 3199 3203 3204 XOR";
"2 1 3104 76 3205 XOR";
"2 1 3204 76 3206 XOR";
"2 1 3205 3204 3207 XOR";
"2 1 3205 3206 3208 AND";
"2 1 3204 3208 3209 XOR";
"2 1 3107 77 3210 XOR";
"2 1 3209 77 3211 XOR";
"2 1 3210 3209 3212 XOR";
"2 1 3210 3211 3213 AND";
"2 1 3209 3213 3214 XOR";
"2 1 3110 78 3215 XOR";
"2 1 3214 78 3216 XOR";
"2 1 3215 3214 3217 XOR";
"2 1 3215 3216 3218 AND";
"2 1 3214 3218 3219 XOR";
"2 1 3113 79 3220 XOR";
"2 1 3219 79 3221 XOR";
"2 1 3220 3219 3222 XOR";
"2 1 3220 3221 3223 AND";
"2 1 3219 3223 3224 XOR";
"2 1 3116 80 3225 XOR";
"2 1 3224 80 3226 XOR";
"2 1 3225 3224 3227 XOR";
"2 1 3225 3226 3228 AND";
"2 1 3224 3228 3229 XOR";
"2 1 3119 81 3230 XOR";
"2 1 3229 81 3231 XOR";
"2 1 3230 3229 3232 XOR";
"2 1 3230 3231 3233 AND";
"2 1 3229 3233 3234 XOR";
"2 1 3122 82 3235 XOR";
"2 1 3234 82 3236 XOR";
"2 1 3235 3234 3237 XOR";
"2 1 3235 3236 3238 AND";
"2 1 3234 3238 3239 XOR";
"2 1 3125 83 3240 XOR";
"2 1 3239 83 3241 XOR";
"2 1 3240 3239 3242 XOR";
"2 1 3240 3241 3243 AND";
"2 1 3239 3243 3244 XOR";
"2 1 3128 84 3245 XOR";
"2 1 3244 84 3246 XOR";
"2 1 3245 3244 3247 XOR";
"2 1 3245 3246 3248 AND";
"2 1 3244 3248 3249 XOR";
"2 1 3131 85 3250 XOR";
"2 1 3249 85 3251 XOR";
"2 1 3250 3249 3252 XOR";
"2 1 3250 3251 3253 AND";
"2 1 3249 3253 3254 XOR";
"2 1 3134 86 3255 XOR";
"2 1 3254 86 3256 XOR";
"2 1 3255 3254 3257 XOR";
"2 1 3255 3256 3258 AND";
"2 1 3254 3258 3259 XOR";
"2 1 3137 87 3260 XOR";
"2 1 3259 87 3261 XOR";
"2 1 3260 3259 3262 XOR";
"2 1 3260 3261 3263 AND";
"2 1 3259 3263 3264 XOR";
"2 1 3140 88 3265 XOR";
"2 1 3264 88 3266 XOR";
"2 1 3265 3264 3267 XOR";
"2 1 3265 3266 3268 AND";
"2 1 3264 3268 3269 XOR";
"2 1 3143 89 3270 XOR";
"2 1 3269 89 3271 XOR";
"2 1 3270 3269 3272 XOR";
"2 1 3270 3271 3273 AND";
"2 1 3269 3273 3274 XOR";
"2 1 3146 90 3275 XOR";
"2 1 3274 90 3276 XOR";
"2 1 3275 3274 3277 XOR";
"2 1 3275 3276 3278 AND";
"2 1 3274 3278 3279 XOR";
"2 1 3279 235 3280 AND";
"2 1 3279 235 3281 XOR";
"2 1 3281 3280 3282 XOR";
"2 1 37 3148 3283 XOR";
"2 1 3282 3283 3284 AND";
"2 1 3284 3148 3285 XOR";
"2 1 3071 3152 3286 XOR";
"2 1 3282 3286 3287 AND";
"2 1 3287 3152 3288 XOR";
"2 1 3074 3157 3289 XOR";
"2 1 3282 3289 3290 AND";
"2 1 3290 3157 3291 XOR";
"2 1 3077 3162 3292 XOR";
"2 1 3282 3292 3293 AND";
"2 1 3293 3162 3294 XOR";
"2 1 3080 3167 3295 XOR";
"2 1 3282 3295 3296 AND";
"2 1 3296 3167 3297 XOR";
"2 1 3083 3172 3298 XOR";
"2 1 3282 3298 3299 AND";
"2 1 3299 3172 3300 XOR";
"2 1 3086 3177 3301 XOR";
"2 1 3282 3301 3302 AND";
"2 1 3302 3177 3303 XOR";
"2 1 3089 3182 3304 XOR";
"2 1 3282 3304 3305 AND";
"2 1 3305 3182 3306 XOR";
"2 1 3092 3187 3307 XOR";
"2 1 3282 3307 3308 AND";
"2 1 3308 3187 3309 XOR";
"2 1 3095 3192 3310 XOR";
"2 1 3282 3310 3311 AND";
"2 1 3311 3192 3312 XOR";
"2 1 3098 3197 3313 XOR";
"2 1 3282 3313 3314 AND";
"2 1 3314 3197 3315 XOR";
"2 1 3101 3202 3316 XOR";
"2 1 3282 3316 3317 AND";
"2 1 3317 3202 3318 XOR";
"2 1 3104 3207 3319 XOR";
"2 1 3282 3319 3320 AND";
"2 1 3320 3207 3321 XOR";
"2 1 3107 3212 3322 XOR";
"2 1 3282 3322 3323 AND";
"2 1 3323 3212 3324 XOR";
"2 1 3110 3217 3325 XOR";
"2 1 3282 3325 3326 AND";
"2 1 3326 3217 3327 XOR";
"2 1 3113 3222 3328 XOR";
"2 1 3282 3328 3329 AND";
"2 1 3329 3222 3330 XOR";
"2 1 3116 3227 3331 XOR";
"2 1 3282 3331 3332 AND";
"2 1 3332 3227 3333 XOR";
"2 1 3119 3232 3334 XOR";
"2 1 3282 3334 3335 AND";
"2 1 3335 3232 3336 XOR";
"2 1 3122 3237 3337 XOR";
"2 1 3282 3337 3338 AND";
"2 1 3338 3237 3339 XOR";
"2 1 3125 3242 3340 XOR";
"2 1 3282 3340 3341 AND";
"2 1 3341 3242 3342 XOR";
"2 1 3128 3247 3343 XOR";
"2 1 3282 3343 3344 AND";
"2 1 3344 3247 3345 XOR";
"2 1 3131 3252 3346 XOR";
"2 1 3282 3346 3347 AND";
"2 1 3347 3252 3348 XOR";
"2 1 3134 3257 3349 XOR";
"2 1 3282 3349 3350 AND";
"2 1 3350 3257 3351 XOR";
"2 1 3137 3262 3352 XOR";
"2 1 3282 3352 3353 AND";
"2 1 3353 3262 3354 XOR";
"2 1 3140 3267 3355 XOR";
"2 1 3282 3355 3356 AND";
"2 1 3356 3267 3357 XOR";
"2 1 3143 3272 3358 XOR";
"2 1 3282 3358 3359 AND";
"2 1 3359 3272 3360 XOR";
"2 1 3146 3277 3361 XOR";
"2 1 3282 3361 3362 AND";
"2 1 3362 3277 3363 XOR";
"1 1 3282 3364 INV";
"2 1 36 64 3365 XOR";
"2 1 3365 64 3366 AND";
"2 1 3285 65 3367 XOR";
"2 1 3366 65 3368 XOR";
"2 1 3367 3366 3369 XOR";
"2 1 3367 3368 3370 AND";
"2 1 3366 3370 3371 XOR";
"2 1 3288 66 3372 XOR";
"2 1 3371 66 3373 XOR";
"2 1 3372 3371 3374 XOR";
"2 1 3372 3373 3375 AND";
"2 1 3371 3375 3376 XOR";
"2 1 3291 67 3377 XOR";
"2 1 3376 67 3378 XOR";
"2 1 3377 3376 3379 XOR";
"2 1 3377 3378 3380 AND";
"2 1 3376 3380 3381 XOR";
"2 1 3294 68 3382 XOR";
"2 1 3381 68 3383 XOR";
"2 1 3382 3381 3384 XOR";
"2 1 3382 3383 3385 AND";
"2 1 3381 3385 3386 XOR";
"2 1 3297 69 3387 XOR";
"2 1 3386 69 3388 XOR";
"2 1 3387 3386 3389 XOR";
"2 1 3387 3388 3390 AND";
"2 1 3386 3390 3391 XOR";
"2 1 3300 70 3392 XOR";
"2 1 3391 70 3393 XOR";
"2 1 3392 3391 3394 XOR";
"2 1 3392 3393 3395 AND";
"2 1 3391 3395 3396 XOR";
"2 1 3303 71 3397 XOR";
"2 1 3396 71 3398 XOR";
"2 1 3397 3396 3399 XOR";
"2 1 3397 3398 3400 AND";
"2 1 3396 3400 3401 XOR";
"2 1 3306 72 3402 XOR";
"2 1 3401 72 3403 XOR";
"2 1 3402 3401 3404 XOR";
"2 1 3402 3403 3405 AND";
"2 1 3401 3405 3406 XOR";
"2 1 3309 73 3407 XOR";
"2 1 3406 73 3408 XOR";
"2 1 3407 3406 3409 XOR";
"2 1 3407 3408 3410 AND";
"2 1 3406 3410 3411 XOR";
"2 1 3312 74 3412 XOR";
"2 1 3411 74 3413 XOR";
"2 1 3412 3411 3414 XOR";
"2 1 3412 3413 3415 AND";
"2 1 3411 3415 3416 XOR";
"2 1 3315 75 3417 XOR";
"2 1 3416 75 3418 XOR";
"2 1 3417 3416 3419 XOR";
"2 1 3417 3418 3420 AND";
"2 1 3416 3420 3421 XOR";
"2 1 3318 76 3422 XOR";
"2 1 3421 76 3423 XOR";
"2 1 3422 3421 3424 XOR";
"2 1 3422 3423 3425 AND";
"2 1 3421 3425 3426 XOR";
"2 1 3321 77 3427 XOR";
"2 1 3426 77 3428 XOR";
"2 1 3427 3426 3429 XOR";
"2 1 3427 3428 3430 AND";
"2 1 3426 3430 3431 XOR";
"2 1 3324 78 3432 XOR";
"2 1 3431 78 3433 XOR";
"2 1 3432 3431 3434 XOR";
"2 1 3432 3433 3435 AND";
"2 1 3431 3435 3436 XOR";
"2 1 3327 79 3437 XOR";
"2 1 3436 79 3438 XOR";
"2 1 3437 3436 3439 XOR";
"2 1 3437 3438 3440 AND";
"2 1 3436 3440 3441 XOR";
"2 1 3330 80 3442 XOR";
"2 1 3441 80 3443 XOR";
"2 1 3442 3441 3444 XOR";
"2 1 3442 3443 3445 AND";
"2 1 3441 3445 3446 XOR";
"2 1 3333 81 3447 XOR";
"2 1 3446 81 3448 XOR";
"2 1 3447 3446 3449 XOR";
"2 1 3447 3448 3450 AND";
"2 1 3446 3450 3451 XOR";
"2 1 3336 82 3452 XOR";
"2 1 3451 82 3453 XOR";
"2 1 3452 3451 3454 XOR";
"2 1 3452 3453 3455 AND";
"2 1 3451 3455 3456 XOR";
"2 1 3339 83 3457 XOR";
"2 1 3456 83 3458 XOR";
"2 1 3457 3456 3459 XOR";
"2 1 3457 3458 3460 AND";
"2 1 3456 3460 3461 XOR";
"2 1 3342 84 3462 XOR";
"2 1 3461 84 3463 XOR";
"2 1 3462 3461 3464 XOR";
"2 1 3462 3463 3465 AND";
"2 1 3461 3465 3466 XOR";
"2 1 3345 85 3467 XOR";
"2 1 3466 85 3468 XOR";
"2 1 3467 3466 3469 XOR";
"2 1 3467 3468 3470 AND";
"2 1 3466 3470 3471 XOR";
"2 1 3348 86 3472 XOR";
"2 1 3471 86 3473 XOR";
"2 1 3472 3471 3474 XOR";
"2 1 3472 3473 3475 AND";
"2 1 3471 3475 3476 XOR";
"2 1 3351 87 3477 XOR";
"2 1 3476 87 3478 XOR";
"2 1 3477 3476 3479 XOR";
"2 1 3477 3478 3480 AND";
"2 1 3476 3480 3481 XOR";
"2 1 3354 88 3482 XOR";
"2 1 3481 88 3483 XOR";
"2 1 3482 3481 3484 XOR";
"2 1 3482 3483 3485 AND";
"2 1 3481 3485 3486 XOR";
"2 1 3357 89 3487 XOR";
"2 1 3486 89 3488 XOR";
"2 1 3487 3486 3489 XOR";
"2 1 3487 3488 3490 AND";
"2 1 3486 3490 3491 XOR";
"2 1 3360 90 3492 XOR";
"2 1 3491 90 3493 XOR";
"2 1 3492 3491 3494 XOR";
"2 1 3492 3493 3495 AND";
"2 1 3491 3495 3496 XOR";
"2 1 3363 91 3497 XOR";
"2 1 3496 91 3498 XOR";
"2 1 3497 3496 3499 XOR";
"2 1 3497 3498 3500 AND";
"2 1 3496 3500 3501 XOR";
"2 1 3501 232 3502 AND";
"2 1 3501 232 3503 XOR";
"2 1 3503 3502 3504 XOR";
"2 1 36 3365 3505 XOR";
"2 1 3504 3505 3506 AND";
"2 1 3506 3365 3507 XOR";
"2 1 3285 3369 3508 XOR";
"2 1 3504 3508 3509 AND";
"2 1 3509 3369 3510 XOR";
"2 1 3288 3374 3511 XOR";
"2 1 3504 3511 3512 AND";
"2 1 3512 3374 3513 XOR";
"2 1 3291 3379 3514 XOR";
"2 1 3504 3514 3515 AND";
"2 1 3515 3379 3516 XOR";
"2 1 3294 3384 3517 XOR";
"2 1 3504 3517 3518 AND";
"2 1 3518 3384 3519 XOR";
"2 1 3297 3389 3520 XOR";
"2 1 3504 3520 3521 AND";
"2 1 3521 3389 3522 XOR";
"2 1 3300 3394 3523 XOR";
"2 1 3504 3523 3524 AND";
"2 1 3524 3394 3525 XOR";
"2 1 3303 3399 3526 XOR";
"2 1 3504 3526 3527 AND";
"2 1 3527 3399 3528 XOR";
"2 1 3306 3404 3529 XOR";
"2 1 3504 3529 3530 AND";
"2 1 3530 3404 3531 XOR";
"2 1 3309 3409 3532 XOR";
"2 1 3504 3532 3533 AND";
"2 1 3533 3409 3534 XOR";
"2 1 3312 3414 3535 XOR";
"2 1 3504 3535 3536 AND";
"2 1 3536 3414 3537 XOR";
"2 1 3315 3419 3538 XOR";
"2 1 3504 3538 3539 AND";
"2 1 3539 3419 3540 XOR";
"2 1 3318 3424 3541 XOR";
"2 1 3504 3541 3542 AND";
"2 1 3542 3424 3543 XOR";
"2 1 3321 3429 3544 XOR";
"2 1 3504 3544 3545 AND";
"2 1 3545 3429 3546 XOR";
"2 1 3324 3434 3547 XOR";
"2 1 3504 3547 3548 AND";
"2 1 3548 3434 3549 XOR";
"2 1 3327 3439 3550 XOR";
"2 1 3504 3550 3551 AND";
"2 1 3551 3439 3552 XOR";
"2 1 3330 3444 3553 XOR";
"2 1 3504 3553 3554 AND";
"2 1 3554 3444 3555 XOR";
"2 1 3333 3449 3556 XOR";
"2 1 3504 3556 3557 AND";
"2 1 3557 3449 3558 XOR";
"2 1 3336 3454 3559 XOR";
"2 1 3504 3559 3560 AND";
"2 1 3560 3454 3561 XOR";
"2 1 3339 3459 3562 XOR";
"2 1 3504 3562 3563 AND";
"2 1 3563 3459 3564 XOR";
"2 1 3342 3464 3565 XOR";
"2 1 3504 3565 3566 AND";
"2 1 3566 3464 3567 XOR";
"2 1 3345 3469 3568 XOR";
"2 1 3504 3568 3569 AND";
"2 1 3569 3469 3570 XOR";
"2 1 3348 3474 3571 XOR";
"2 1 3504 3571 3572 AND";
"2 1 3572 3474 3573 XOR";
"2 1 3351 3479 3574 XOR";
"2 1 3504 3574 3575 AND";
"2 1 3575 3479 3576 XOR";
"2 1 3354 3484 3577 XOR";
"2 1 3504 3577 3578 AND";
"2 1 3578 3484 3579 XOR";
"2 1 3357 3489 3580 XOR";
"2 1 3504 3580 3581 AND";
"2 1 3581 3489 3582 XOR";
"2 1 3360 3494 3583 XOR";
"2 1 3504 3583 3584 AND";
"2 1 3584 3494 3585 XOR";
"2 1 3363 3499 3586 XOR";
"2 1 3504 3586 3587 AND";
"2 1 3587 3499 3588 XOR";
"1 1 3504 3589 INV";
"2 1 35 64 3590 XOR";
"2 1 3590 64 3591 AND";
"2 1 3507 65 3592 XOR";
"2 1 3591 65 3593 XOR";
"2 1 3592 3591 3594 XOR";
"2 1 3592 3593 3595 AND";
"2 1 3591 3595 3596 XOR";
"2 1 3510 66 3597 XOR";
"2 1 3596 66 3598 XOR";
"2 1 3597 3596 3599 XOR";
"2 1 3597 3598 3600 AND";
"2 1 3596 3600 3601 XOR";
"2 1 3513 67 3602 XOR";
"2 1 3601 67 3603 XOR";
"2 1 3602 3601 3604 XOR";
"2 1 3602 3603 3605 AND";
"2 1 3601 3605 3606 XOR";
"2 1 3516 68 3607 XOR";
"2 1 3606 68 3608 XOR";
"2 1 3607 3606 3609 XOR";
"2 1 3607 3608 3610 AND";
"2 1 3606 3610 3611 XOR";
"2 1 3519 69 3612 XOR";
"2 1 3611 69 3613 XOR";
"2 1 3612 3611 3614 XOR";
"2 1 3612 3613 3615 AND";
"2 1 3611 3615 3616 XOR";
"2 1 3522 70 3617 XOR";
"2 1 3616 70 3618 XOR";
"2 1 3617 3616 3619 XOR";
"2 1 3617 3618 3620 AND";
"2 1 3616 3620 3621 XOR";
"2 1 3525 71 3622 XOR";
"2 1 3621 71 3623 XOR";
"2 1 3622 3621 3624 XOR";
"2 1 3622 3623 3625 AND";
"2 1 3621 3625 3626 XOR";
"2 1 3528 72 3627 XOR";
"2 1 3626 72 3628 XOR";
"2 1 3627 3626 3629 XOR";
"2 1 3627 3628 3630 AND";
"2 1 3626 3630 3631 XOR";
"2 1 3531 73 3632 XOR";
"2 1 3631 73 3633 XOR";
"2 1 3632 3631 3634 XOR";
"2 1 3632 3633 3635 AND";
"2 1 3631 3635 3636 XOR";
"2 1 3534 74 3637 XOR";
"2 1 3636 74 3638 XOR";
"2 1 3637 3636 3639 XOR";
"2 1 3637 3638 3640 AND";
"2 1 3636 3640 3641 XOR";
"2 1 3537 75 3642 XOR";
"2 1 3641 75 3643 XOR";
"2 1 3642 3641 3644 XOR";
"2 1 3642 3643 3645 AND";
"2 1 3641 3645 3646 XOR";
"2 1 3540 76 3647 XOR";
"2 1 3646 76 3648 XOR";
"2 1 3647 3646 3649 XOR";
"2 1 3647 3648 3650 AND";
"2 1 3646 3650 3651 XOR";
"2 1 3543 77 3652 XOR";
"2 1 3651 77 3653 XOR";
"2 1 3652 3651 3654 XOR";
"2 1 3652 3653 3655 AND";
"2 1 3651 3655 3656 XOR";
"2 1 3546 78 3657 XOR";
"2 1 3656 78 3658 XOR";
"2 1 3657 3656 3659 XOR";
"2 1 3657 3658 3660 AND";
"2 1 3656 3660 3661 XOR";
"2 1 3549 79 3662 XOR";
"2 1 3661 79 3663 XOR";
"2 1 3662 3661 3664 XOR";
"2 1 3662 3663 3665 AND";
"2 1 3661 3665 3666 XOR";
"2 1 3552 80 3667 XOR";
"2 1 3666 80 3668 XOR";
"2 1 3667 3666 3669 XOR";
"2 1 3667 3668 3670 AND";
"2 1 3666 3670 3671 XOR";
"2 1 3555 81 3672 XOR";
"2 1 3671 81 3673 XOR";
"2 1 3672 3671 3674 XOR";
"2 1 3672 3673 3675 AND";
"2 1 3671 3675 3676 XOR";
"2 1 3558 82 3677 XOR";
"2 1 3676 82 3678 XOR";
"2 1 3677 3676 3679 XOR";
"2 1 3677 3678 3680 AND";
"2 1 3676 3680 3681 XOR";
"2 1 3561 83 3682 XOR";
"2 1 3681 83 3683 XOR";
"2 1 3682 3681 3684 XOR";
"2 1 3682 3683 3685 AND";
"2 1 3681 3685 3686 XOR";
"2 1 3564 84 3687 XOR";
"2 1 3686 84 3688 XOR";
"2 1 3687 3686 3689 XOR";
"2 1 3687 3688 3690 AND";
"2 1 3686 3690 3691 XOR";
"2 1 3567 85 3692 XOR";
"2 1 3691 85 3693 XOR";
"2 1 3692 3691 3694 XOR";
"2 1 3692 3693 3695 AND";
"2 1 3691 3695 3696 XOR";
"2 1 3570 86 3697 XOR";
"2 1 3696 86 3698 XOR";
"2 1 3697 3696 3699 XOR";
"2 1 3697 3698 3700 AND";
"2 1 3696 3700 3701 XOR";
"2 1 3573 87 3702 XOR";
"2 1 3701 87 3703 XOR";
"2 1 3702 3701 3704 XOR";
"2 1 3702 3703 3705 AND";
"2 1 3701 3705 3706 XOR";
"2 1 3576 88 3707 XOR";
"2 1 3706 88 3708 XOR";
"2 1 3707 3706 3709 XOR";
"2 1 3707 3708 3710 AND";
"2 1 3706 3710 3711 XOR";
"2 1 3579 89 3712 XOR";
"2 1 3711 89 3713 XOR";
"2 1 3712 3711 3714 XOR";
"2 1 3712 3713 3715 AND";
"2 1 3711 3715 3716 XOR";
"2 1 3582 90 3717 XOR";
"2 1 3716 90 3718 XOR";
"2 1 3717 3716 3719 XOR";
"2 1 3717 3718 3720 AND";
"2 1 3716 3720 3721 XOR";
"2 1 3585 91 3722 XOR";
"2 1 3721 91 3723 XOR";
"2 1 3722 3721 3724 XOR";
"2 1 3722 3723 3725 AND";
"2 1 3721 3725 3726 XOR";
"2 1 3588 92 3727 XOR";
"2 1 3726 92 3728 XOR";
"2 1 3727 3726 3729 XOR";
"2 1 3727 3728 3730 AND";
"2 1 3726 3730 3731 XOR";
"2 1 3731 229 3732 AND";
"2 1 3731 229 3733 XOR";
"2 1 3733 3732 3734 XOR";
"2 1 35 3590 3735 XOR";
"2 1 3734 3735 3736 AND";
"2 1 3736 3590 3737 XOR";
"2 1 3507 3594 3738 XOR";
"2 1 3734 3738 3739 AND";
"2 1 3739 3594 3740 XOR";
"2 1 3510 3599 3741 XOR";
"2 1 3734 3741 3742 AND";
"2 1 3742 3599 3743 XOR";
"2 1 3513 3604 3744 XOR";
"2 1 3734 3744 3745 AND";
"2 1 3745 3604 3746 XOR";
"2 1 3516 3609 3747 XOR";
"2 1 3734 3747 3748 AND";
"2 1 3748 3609 3749 XOR";
"2 1 3519 3614 3750 XOR";
"2 1 3734 3750 3751 AND";
"2 1 3751 3614 3752 XOR";
"2 1 3522 3619 3753 XOR";
"2 1 3734 3753 3754 AND";
"2 1 3754 3619 3755 XOR";
"2 1 3525 3624 3756 XOR";
"2 1 3734 3756 3757 AND";
"2 1 3757 3624 3758 XOR";
"2 1 3528 3629 3759 XOR";
"2 1 3734 3759 3760 AND";
"2 1 3760 3629 3761 XOR";
"2 1 3531 3634 3762 XOR";
"2 1 3734 3762 3763 AND";
"2 1 3763 3634 3764 XOR";
"2 1 3534 3639 3765 XOR";
"2 1 3734 3765 3766 AND";
"2 1 3766 3639 3767 XOR";
"2 1 3537 3644 3768 XOR";
"2 1 3734 3768 3769 AND";
"2 1 3769 3644 3770 XOR";
"2 1 3540 3649 3771 XOR";
"2 1 3734 3771 3772 AND";
"2 1 3772 3649 3773 XOR";
"2 1 3543 3654 3774 XOR";
"2 1 3734 3774 3775 AND";
"2 1 3775 3654 3776 XOR";
"2 1 3546 3659 3777 XOR";
"2 1 3734 3777 3778 AND";
"2 1 3778 3659 3779 XOR";
"2 1 3549 3664 3780 XOR";
"2 1 3734 3780 3781 AND";
"2 1 3781 3664 3782 XOR";
"2 1 3552 3669 3783 XOR";
"2 1 3734 3783 3784 AND";
"2 1 3784 3669 3785 XOR";
"2 1 3555 3674 3786 XOR";
"2 1 3734 3786 3787 AND";
"2 1 3787 3674 3788 XOR";
"2 1 3558 3679 3789 XOR";
"2 1 3734 3789 3790 AND";
"2 1 3790 3679 3791 XOR";
"2 1 3561 3684 3792 XOR";
"2 1 3734 3792 3793 AND";
"2 1 3793 3684 3794 XOR";
"2 1 3564 3689 3795 XOR";
"2 1 3734 3795 3796 AND";
"2 1 3796 3689 3797 XOR";
"2 1 3567 3694 3798 XOR";
"2 1 3734 3798 3799 AND";
"2 1 3799 3694 3800 XOR";
"2 1 3570 3699 3801 XOR";
"2 1 3734 3801 3802 AND";
"2 1 3802 3699 3803 XOR";
"2 1 3573 3704 3804 XOR";
"2 1 3734 3804 3805 AND";
"2 1 3805 3704 3806 XOR";
"2 1 3576 3709 3807 XOR";
"2 1 3734 3807 3808 AND";
"2 1 3808 3709 3809 XOR";
"2 1 3579 3714 3810 XOR";
"2 1 3734 3810 3811 AND";
"2 1 3811 3714 3812 XOR";
"2 1 3582 3719 3813 XOR";
"2 1 3734 3813 3814 AND";
"2 1 3814 3719 3815 XOR";
"2 1 3585 3724 3816 XOR";
"2 1 3734 3816 3817 AND";
"2 1 3817 3724 3818 XOR";
"2 1 3588 3729 3819 XOR";
"2 1 3734 3819 3820 AND";
"2 1 3820 3729 3821 XOR";
"1 1 3734 3822 INV";
"2 1 34 64 3823 XOR";
"2 1 3823 64 3824 AND";
"2 1 3737 65 3825 XOR";
"2 1 3824 65 3826 XOR";
"2 1 3825 3824 3827 XOR";
"2 1 3825 3826 3828 AND";
"2 1 3824 3828 3829 XOR";
"2 1 3740 66 3830 XOR";
"2 1 3829 66 3831 XOR";
"2 1 3830 3829 3832 XOR";
"2 1 3830 3831 3833 AND";
"2 1 3829 3833 3834 XOR";
"2 1 3743 67 3835 XOR";
"2 1 3834 67 3836 XOR";
"2 1 3835 3834 3837 XOR";
"2 1 3835 3836 3838 AND";
"2 1 3834 3838 3839 XOR";
"2 1 3746 68 3840 XOR";
"2 1 3839 68 3841 XOR";
"2 1 3840 3839 3842 XOR";
"2 1 3840 3841 3843 AND";
"2 1 3839 3843 3844 XOR";
"2 1 3749 69 3845 XOR";
"2 1 3844 69 3846 XOR";
"2 1 3845 3844 3847 XOR";
"2 1 3845 3846 3848 AND";
"2 1 3844 3848 3849 XOR";
"2 1 3752 70 3850 XOR";
"2 1 3849 70 3851 XOR";
"2 1 3850 3849 3852 XOR";
"2 1 3850 3851 3853 AND";
"2 1 3849 3853 3854 XOR";
"2 1 3755 71 3855 XOR";
"2 1 3854 71 3856 XOR";
"2 1 3855 3854 3857 XOR";
"2 1 3855 3856 3858 AND";
"2 1 3854 3858 3859 XOR";
"2 1 3758 72 3860 XOR";
"2 1 3859 72 3861 XOR";
"2 1 3860 3859 3862 XOR";
"2 1 3860 3861 3863 AND";
"2 1 3859 3863 3864 XOR";
"2 1 3761 73 3865 XOR";
"2 1 3864 73 3866 XOR";
"2 1 3865 3864 3867 XOR";
"2 1 3865 3866 3868 AND";
"2 1 3864 3868 3869 XOR";
"2 1 3764 74 3870 XOR";
"2 1 3869 74 3871 XOR";
"2 1 3870 3869 3872 XOR";
"2 1 3870 3871 3873 AND";
"2 1 3869 3873 3874 XOR";
"2 1 3767 75 3875 XOR";
"2 1 3874 75 3876 XOR";
"2 1 3875 3874 3877 XOR";
"2 1 3875 3876 3878 AND";
"2 1 3874 3878 3879 XOR";
"2 1 3770 76 3880 XOR";
"2 1 3879 76 3881 XOR";
"2 1 3880 3879 3882 XOR";
"2 1 3880 3881 3883 AND";
"2 1 3879 3883 3884 XOR";
"2 1 3773 77 3885 XOR";
"2 1 3884 77 3886 XOR";
"2 1 3885 3884 3887 XOR";
"2 1 3885 3886 3888 AND";
"2 1 3884 3888 3889 XOR";
"2 1 3776 78 3890 XOR";
"2 1 3889 78 3891 XOR";
"2 1 3890 3889 3892 XOR";
"2 1 3890 3891 3893 AND";
"2 1 3889 3893 3894 XOR";
"2 1 3779 79 3895 XOR";
"2 1 3894 79 3896 XOR";
"2 1 3895 3894 3897 XOR";
"2 1 3895 3896 3898 AND";
"2 1 3894 3898 3899 XOR";
"2 1 3782 80 3900 XOR";
"2 1 3899 80 3901 XOR";
"2 1 3900 3899 3902 XOR";
"2 1 3900 3901 3903 AND";
"2 1 3899 3903 3904 XOR";
"2 1 3785 81 3905 XOR";
"2 1 3904 81 3906 XOR";
"2 1 3905 3904 3907 XOR";
"2 1 3905 3906 3908 AND";
"2 1 3904 3908 3909 XOR";
"2 1 3788 82 3910 XOR";
"2 1 3909 82 3911 XOR";
"2 1 3910 3909 3912 XOR";
"2 1 3910 3911 3913 AND";
"2 1 3909 3913 3914 XOR";
"2 1 3791 83 3915 XOR";
"2 1 3914 83 3916 XOR";
"2 1 3915 3914 3917 XOR";
"2 1 3915 3916 3918 AND";
"2 1 3914 3918 3919 XOR";
"2 1 3794 84 3920 XOR";
"2 1 3919 84 3921 XOR";
"2 1 3920 3919 3922 XOR";
"2 1 3920 3921 3923 AND";
"2 1 3919 3923 3924 XOR";
"2 1 3797 85 3925 XOR";
"2 1 3924 85 3926 XOR";
"2 1 3925 3924 3927 XOR";
"2 1 3925 3926 3928 AND";
"2 1 3924 3928 3929 XOR";
"2 1 3800 86 3930 XOR";
"2 1 3929 86 3931 XOR";
"2 1 3930 3929 3932 XOR";
"2 1 3930 3931 3933 AND";
"2 1 3929 3933 3934 XOR";
"2 1 3803 87 3935 XOR";
"2 1 3934 87 3936 XOR";
"2 1 3935 3934 3937 XOR";
"2 1 3935 3936 3938 AND";
"2 1 3934 3938 3939 XOR";
"2 1 3806 88 3940 XOR";
"2 1 3939 88 3941 XOR";
"2 1 3940 3939 3942 XOR";
"2 1 3940 3941 3943 AND";
"2 1 3939 3943 3944 XOR";
"2 1 3809 89 3945 XOR";
"2 1 3944 89 3946 XOR";
"2 1 3945 3944 3947 XOR";
"2 1 3945 3946 3948 AND";
"2 1 3944 3948 3949 XOR";
"2 1 3812 90 3950 XOR";
"2 1 3949 90 3951 XOR";
"2 1 3950 3949 3952 XOR";
"2 1 3950 3951 3953 AND";
"2 1 3949 3953 3954 XOR";
"2 1 3815 91 3955 XOR";
"2 1 3954 91 3956 XOR";
"2 1 3955 3954 3957 XOR";
"2 1 3955 3956 3958 AND";
"2 1 3954 3958 3959 XOR";
"2 1 3818 92 3960 XOR";
"2 1 3959 92 3961 XOR";
"2 1 3960 3959 3962 XOR";
"2 1 3960 3961 3963 AND";
"2 1 3959 3963 3964 XOR";
"2 1 3821 93 3965 XOR";
"2 1 3964 93 3966 XOR";
"2 1 3965 3964 3967 XOR";
"2 1 3965 3966 3968 AND";
"2 1 3964 3968 3969 XOR";
"2 1 3969 226 3970 AND";
"2 1 3969 226 3971 XOR";
"2 1 3971 3970 3972 XOR";
"2 1 34 3823 3973 XOR";
"2 1 3972 3973 3974 AND";
"2 1 3974 3823 3975 XOR";
"2 1 3737 3827 3976 XOR";
"2 1 3972 3976 3977 AND";
"2 1 3977 3827 3978 XOR";
"2 1 3740 3832 3979 XOR";
"2 1 3972 3979 3980 AND";
"2 1 3980 3832 3981 XOR";
"2 1 3743 3837 3982 XOR";
"2 1 3972 3982 3983 AND";
"2 1 3983 3837 3984 XOR";
"2 1 3746 3842 3985 XOR";
"2 1 3972 3985 3986 AND";
"2 1 3986 3842 3987 XOR";
"2 1 3749 3847 3988 XOR";
"2 1 3972 3988 3989 AND";
"2 1 3989 3847 3990 XOR";
"2 1 3752 3852 3991 XOR";
"2 1 3972 3991 3992 AND";
"2 1 3992 3852 3993 XOR";
"2 1 3755 3857 3994 XOR";
"2 1 3972 3994 3995 AND";
"2 1 3995 3857 3996 XOR";
"2 1 3758 3862 3997 XOR";
"2 1 3972 3997 3998 AND";
"2 1 3998 3862 3999 XOR";
"2 1 3761 3867 4000 XOR";
"2 1 3972 4000 4001 AND";
"2 1 4001 3867 4002 XOR";
"2 1 3764 3872 4003 XOR";
"2 1 3972 4003 4004 AND";
"2 1 4004 3872 4005 XOR";
"2 1 3767 3877 4006 XOR";
"2 1 3972 4006 4007 AND";
"2 1 4007 3877 4008 XOR";
"2 1 3770 3882 4009 XOR";
"2 1 3972 4009 4010 AND";
"2 1 4010 3882 4011 XOR";
"2 1 3773 3887 4012 XOR";
"2 1 3972 4012 4013 AND";
"2 1 4013 3887 4014 XOR";
"2 1 3776 3892 4015 XOR";
"2 1 3972 4015 4016 AND";
"2 1 4016 3892 4017 XOR";
"2 1 3779 3897 4018 XOR";
"2 1 3972 4018 4019 AND";
"2 1 4019 3897 4020 XOR";
"2 1 3782 3902 4021 XOR";
"2 1 3972 4021 4022 AND";
"2 1 4022 3902 4023 XOR";
"2 1 3785 3907 4024 XOR";
"2 1 3972 4024 4025 AND";
"2 1 4025 3907 4026 XOR";
"2 1 3788 3912 4027 XOR";
"2 1 3972 4027 4028 AND";
"2 1 4028 3912 4029 XOR";
"2 1 3791 3917 4030 XOR";
"2 1 3972 4030 4031 AND";
"2 1 4031 3917 4032 XOR";
"2 1 3794 3922 4033 XOR";
"2 1 3972 4033 4034 AND";
"2 1 4034 3922 4035 XOR";
"2 1 3797 3927 4036 XOR";
"2 1 3972 4036 4037 AND";
"2 1 4037 3927 4038 XOR";
"2 1 3800 3932 4039 XOR";
"2 1 3972 4039 4040 AND";
"2 1 4040 3932 4041 XOR";
"2 1 3803 3937 4042 XOR";
"2 1 3972 4042 4043 AND";
"2 1 4043 3937 4044 XOR";
"2 1 3806 3942 4045 XOR";
"2 1 3972 4045 4046 AND";
"2 1 4046 3942 4047 XOR";
"2 1 3809 3947 4048 XOR";
"2 1 3972 4048 4049 AND";
"2 1 4049 3947 4050 XOR";
"2 1 3812 3952 4051 XOR";
"2 1 3972 4051 4052 AND";
"2 1 4052 3952 4053 XOR";
"2 1 3815 3957 4054 XOR";
"2 1 3972 4054 4055 AND";
"2 1 4055 3957 4056 XOR";
"2 1 3818 3962 4057 XOR";
"2 1 3972 4057 4058 AND";
"2 1 4058 3962 4059 XOR";
"2 1 3821 3967 4060 XOR";
"2 1 3972 4060 4061 AND";
"2 1 4061 3967 4062 XOR";
"1 1 3972 4063 INV";
"2 1 33 64 4064 XOR";
"2 1 4064 64 4065 AND";
"2 1 3975 65 4066 XOR";
"2 1 4065 65 4067 XOR";
"2 1 4066 4065 4068 XOR";
"2 1 4066 4067 4069 AND";
"2 1 4065 4069 4070 XOR";
"2 1 3978 66 4071 XOR";
"2 1 4070 66 4072 XOR";
"2 1 4071 4070 4073 XOR";
"2 1 4071 4072 4074 AND";
"2 1 4070 4074 4075 XOR";
"2 1 3981 67 4076 XOR";
"2 1 4075 67 4077 XOR";
"2 1 4076 4075 4078 XOR";
"2 1 4076 4077 4079 AND";
"2 1 4075 4079 4080 XOR";
"2 1 3984 68 4081 XOR";
"2 1 4080 68 4082 XOR";
"2 1 4081 4080 4083 XOR";
"2 1 4081 4082 4084 AND";
"2 1 4080 4084 4085 XOR";
"2 1 3987 69 4086 XOR";
"2 1 4085 69 4087 XOR";
"2 1 4086 4085 4088 XOR";
"2 1 4086 4087 4089 AND";
"2 1 4085 4089 4090 XOR";
"2 1 3990 70 4091 XOR";
"2 1 4090 70 4092 XOR";
"2 1 4091 4090 4093 XOR";
"2 1 4091 4092 4094 AND";
"2 1 4090 4094 4095 XOR";
"2 1 3993 71 4096 XOR";
"2 1 4095 71 4097 XOR";
"2 1 4096 4095 4098 XOR";
"2 1 4096 4097 4099 AND";
"2 1 4095 4099 4100 XOR";
"2 1 3996 72 4101 XOR";
"2 1 4100 72 4102 XOR";
"2 1 4101 4100 4103 XOR";
"2 1 4101 4102 4104 AND";
"2 1 4100 4104 4105 XOR";
"2 1 3999 73 4106 XOR";
"2 1 4105 73 4107 XOR";
"2 1 4106 4105 4108 XOR";
"2 1 4106 4107 4109 AND";
"2 1 4105 4109 4110 XOR";
"2 1 4002 74 4111 XOR";
"2 1 4110 74 4112 XOR";
"2 1 4111 4110 4113 XOR";
"2 1 4111 4112 4114 AND";
"2 1 4110 4114 4115 XOR";
"2 1 4005 75 4116 XOR";
"2 1 4115 75 4117 XOR";
"2 1 4116 4115 4118 XOR";
"2 1 4116 4117 4119 AND";
"2 1 4115 4119 4120 XOR";
"2 1 4008 76 4121 XOR";
"2 1 4120 76 4122 XOR";
"2 1 4121 4120 4123 XOR";
"2 1 4121 4122 4124 AND";
"2 1 4120 4124 4125 XOR";
"2 1 4011 77 4126 XOR";
"2 1 4125 77 4127 XOR";
"2 1 4126 4125 4128 XOR";
"2 1 4126 4127 4129 AND";
"2 1 4125 4129 4130 XOR";
"2 1 4014 78 4131 XOR";
"2 1 4130 78 4132 XOR";
"2 1 4131 4130 4133 XOR";
"2 1 4131 4132 4134 AND";
"2 1 4130 4134 4135 XOR";
"2 1 4017 79 4136 XOR";
"2 1 4135 79 4137 XOR";
"2 1 4136 4135 4138 XOR";
"2 1 4136 4137 4139 AND";
"2 1 4135 4139 4140 XOR";
"2 1 4020 80 4141 XOR";
"2 1 4140 80 4142 XOR";
"2 1 4141 4140 4143 XOR";
"2 1 4141 4142 4144 AND";
"2 1 4140 4144 4145 XOR";
"2 1 4023 81 4146 XOR";
"2 1 4145 81 4147 XOR";
"2 1 4146 4145 4148 XOR";
"2 1 4146 4147 4149 AND";
"2 1 4145 4149 4150 XOR";
"2 1 4026 82 4151 XOR";
"2 1 4150 82 4152 XOR";
"2 1 4151 4150 4153 XOR";
"2 1 4151 4152 4154 AND";
"2 1 4150 4154 4155 XOR";
"2 1 4029 83 4156 XOR";
"2 1 4155 83 4157 XOR";
"2 1 4156 4155 4158 XOR";
"2 1 4156 4157 4159 AND";
"2 1 4155 4159 4160 XOR";
"2 1 4032 84 4161 XOR";
"2 1 4160 84 4162 XOR";
"2 1 4161 4160 4163 XOR";
"2 1 4161 4162 4164 AND";
"2 1 4160 4164 4165 XOR";
"2 1 4035 85 4166 XOR";
"2 1 4165 85 4167 XOR";
"2 1 4166 4165 4168 XOR";
"2 1 4166 4167 4169 AND";
"2 1 4165 4169 4170 XOR";
"2 1 4038 86 4171 XOR";
"2 1 4170 86 4172 XOR";
"2 1 4171 4170 4173 XOR";
"2 1 4171 4172 4174 AND";
"2 1 4170 4174 4175 XOR";
"2 1 4041 87 4176 XOR";
"2 1 4175 87 4177 XOR";
"2 1 4176 4175 4178 XOR";
"2 1 4176 4177 4179 AND";
"2 1 4175 4179 4180 XOR";
"2 1 4044 88 4181 XOR";
"2 1 4180 88 4182 XOR";
"2 1 4181 4180 4183 XOR";
"2 1 4181 4182 4184 AND";
"2 1 4180 4184 4185 XOR";
"2 1 4047 89 4186 XOR";
"2 1 4185 89 4187 XOR";
"2 1 4186 4185 4188 XOR";
"2 1 4186 4187 4189 AND";
"2 1 4185 4189 4190 XOR";
"2 1 4050 90 4191 XOR";
"2 1 4190 90 4192 XOR";
"2 1 4191 4190 4193 XOR";
"2 1 4191 4192 4194 AND";
"2 1 4190 4194 4195 XOR";
"2 1 4053 91 4196 XOR";
"2 1 4195 91 4197 XOR";
"2 1 4196 4195 4198 XOR";
"2 1 4196 4197 4199 AND";
"2 1 4195 4199 4200 XOR";
"2 1 4056 92 4201 XOR";
"2 1 4200 92 4202 XOR";
"2 1 4201 4200 4203 XOR";
"2 1 4201 4202 4204 AND";
"2 1 4200 4204 4205 XOR";
"2 1 4059 93 4206 XOR";
"2 1 4205 93 4207 XOR";
"2 1 4206 4205 4208 XOR";
"2 1 4206 4207 4209 AND";
"2 1 4205 4209 4210 XOR";
"2 1 4062 94 4211 XOR";
"2 1 4210 94 4212 XOR";
"2 1 4211 4210 4213 XOR";
"2 1 4211 4212 4214 AND";
"2 1 4210 4214 4215 XOR";
"2 1 4215 223 4216 AND";
"2 1 4215 223 4217 XOR";
"2 1 4217 4216 4218 XOR";
"2 1 33 4064 4219 XOR";
"2 1 4218 4219 4220 AND";
"2 1 4220 4064 4221 XOR";
"2 1 3975 4068 4222 XOR";
"2 1 4218 4222 4223 AND";
"2 1 4223 4068 4224 XOR";
"2 1 3978 4073 4225 XOR";
"2 1 4218 4225 4226 AND";
"2 1 4226 4073 4227 XOR";
"2 1 3981 4078 4228 XOR";
"2 1 4218 4228 4229 AND";
"2 1 4229 4078 4230 XOR";
"2 1 3984 4083 4231 XOR";
"2 1 4218 4231 4232 AND";
"2 1 4232 4083 4233 XOR";
"2 1 3987 4088 4234 XOR";
"2 1 4218 4234 4235 AND";
"2 1 4235 4088 4236 XOR";
"2 1 3990 4093 4237 XOR";
"2 1 4218 4237 4238 AND";
"2 1 4238 4093 4239 XOR";
"2 1 3993 4098 4240 XOR";
"2 1 4218 4240 4241 AND";
"2 1 4241 4098 4242 XOR";
"2 1 3996 4103 4243 XOR";
"2 1 4218 4243 4244 AND";
"2 1 4244 4103 4245 XOR";
"2 1 3999 4108 4246 XOR";
"2 1 4218 4246 4247 AND";
"2 1 4247 4108 4248 XOR";
"2 1 4002 4113 4249 XOR";
"2 1 4218 4249 4250 AND";
"2 1 4250 4113 4251 XOR";
"2 1 4005 4118 4252 XOR";
"2 1 4218 4252 4253 AND";
"2 1 4253 4118 4254 XOR";
"2 1 4008 4123 4255 XOR";
"2 1 4218 4255 4256 AND";
"2 1 4256 4123 4257 XOR";
"2 1 4011 4128 4258 XOR";
"2 1 4218 4258 4259 AND";
"2 1 4259 4128 4260 XOR";
"2 1 4014 4133 4261 XOR";
"2 1 4218 4261 4262 AND";
"2 1 4262 4133 4263 XOR";
"2 1 4017 4138 4264 XOR";
"2 1 4218 4264 4265 AND";
"2 1 4265 4138 4266 XOR";
"2 1 4020 4143 4267 XOR";
"2 1 4218 4267 4268 AND";
"2 1 4268 4143 4269 XOR";
"2 1 4023 4148 4270 XOR";
"2 1 4218 4270 4271 AND";
"2 1 4271 4148 4272 XOR";
"2 1 4026 4153 4273 XOR";
"2 1 4218 4273 4274 AND";
"2 1 4274 4153 4275 XOR";
"2 1 4029 4158 4276 XOR";
"2 1 4218 4276 4277 AND";
"2 1 4277 4158 4278 XOR";
"2 1 4032 4163 4279 XOR";
"2 1 4218 4279 4280 AND";
"2 1 4280 4163 4281 XOR";
"2 1 4035 4168 4282 XOR";
"2 1 4218 4282 4283 AND";
"2 1 4283 4168 4284 XOR";
"2 1 4038 4173 4285 XOR";
"2 1 4218 4285 4286 AND";
"2 1 4286 4173 4287 XOR";
"2 1 4041 4178 4288 XOR";
"2 1 4218 4288 4289 AND";
"2 1 4289 4178 4290 XOR";
"2 1 4044 4183 4291 XOR";
"2 1 4218 4291 4292 AND";
"2 1 4292 4183 4293 XOR";
"2 1 4047 4188 4294 XOR";
"2 1 4218 4294 4295 AND";
"2 1 4295 4188 4296 XOR";
"2 1 4050 4193 4297 XOR";
"2 1 4218 4297 4298 AND";
"2 1 4298 4193 4299 XOR";
"2 1 4053 4198 4300 XOR";
"2 1 4218 4300 4301 AND";
"2 1 4301 4198 4302 XOR";
"2 1 4056 4203 4303 XOR";
"2 1 4218 4303 4304 AND";
"2 1 4304 4203 4305 XOR";
"2 1 4059 4208 4306 XOR";
"2 1 4218 4306 4307 AND";
"2 1 4307 4208 4308 XOR";
"2 1 4062 4213 4309 XOR";
"2 1 4218 4309 4310 AND";
"2 1 4310 4213 4311 XOR";
"1 1 4218 4312 INV";
"2 1 32 64 4313 XOR";
"2 1 4313 64 4314 AND";
"2 1 4221 65 4315 XOR";
"2 1 4314 65 4316 XOR";
"2 1 4315 4314 4317 XOR";
"2 1 4315 4316 4318 AND";
"2 1 4314 4318 4319 XOR";
"2 1 4224 66 4320 XOR";
"2 1 4319 66 4321 XOR";
"2 1 4320 4319 4322 XOR";
"2 1 4320 4321 4323 AND";
"2 1 4319 4323 4324 XOR";
"2 1 4227 67 4325 XOR";
"2 1 4324 67 4326 XOR";
"2 1 4325 4324 4327 XOR";
"2 1 4325 4326 4328 AND";
"2 1 4324 4328 4329 XOR";
"2 1 4230 68 4330 XOR";
"2 1 4329 68 4331 XOR";
"2 1 4330 4329 4332 XOR";
"2 1 4330 4331 4333 AND";
"2 1 4329 4333 4334 XOR";
"2 1 4233 69 4335 XOR";
"2 1 4334 69 4336 XOR";
"2 1 4335 4334 4337 XOR";
"2 1 4335 4336 4338 AND";
"2 1 4334 4338 4339 XOR";
"2 1 4236 70 4340 XOR";
"2 1 4339 70 4341 XOR";
"2 1 4340 4339 4342 XOR";
"2 1 4340 4341 4343 AND";
"2 1 4339 4343 4344 XOR";
"2 1 4239 71 4345 XOR";
"2 1 4344 71 4346 XOR";
"2 1 4345 4344 4347 XOR";
"2 1 4345 4346 4348 AND";
"2 1 4344 4348 4349 XOR";
"2 1 4242 72 4350 XOR";
"2 1 4349 72 4351 XOR";
"2 1 4350 4349 4352 XOR";
"2 1 4350 4351 4353 AND";
"2 1 4349 4353 4354 XOR";
"2 1 4245 73 4355 XOR";
"2 1 4354 73 4356 XOR";
"2 1 4355 4354 4357 XOR";
"2 1 4355 4356 4358 AND";
"2 1 4354 4358 4359 XOR";
"2 1 4248 74 4360 XOR";
"2 1 4359 74 4361 XOR";
"2 1 4360 4359 4362 XOR";
"2 1 4360 4361 4363 AND";
"2 1 4359 4363 4364 XOR";
"2 1 4251 75 4365 XOR";
"2 1 4364 75 4366 XOR";
"2 1 4365 4364 4367 XOR";
"2 1 4365 4366 4368 AND";
"2 1 4364 4368 4369 XOR";
"2 1 4254 76 4370 XOR";
"2 1 4369 76 4371 XOR";
"2 1 4370 4369 4372 XOR";
"2 1 4370 4371 4373 AND";
"2 1 4369 4373 4374 XOR";
"2 1 4257 77 4375 XOR";
"2 1 4374 77 4376 XOR";
"2 1 4375 4374 4377 XOR";
"2 1 4375 4376 4378 AND";
"2 1 4374 4378 4379 XOR";
"2 1 4260 78 4380 XOR";
"2 1 4379 78 4381 XOR";
"2 1 4380 4379 4382 XOR";
"2 1 4380 4381 4383 AND";
"2 1 4379 4383 4384 XOR";
"2 1 4263 79 4385 XOR";
"2 1 4384 79 4386 XOR";
"2 1 4385 4384 4387 XOR";
"2 1 4385 4386 4388 AND";
"2 1 4384 4388 4389 XOR";
"2 1 4266 80 4390 XOR";
"2 1 4389 80 4391 XOR";
"2 1 4390 4389 4392 XOR";
"2 1 4390 4391 4393 AND";
"2 1 4389 4393 4394 XOR";
"2 1 4269 81 4395 XOR";
"2 1 4394 81 4396 XOR";
"2 1 4395 4394 4397 XOR";
"2 1 4395 4396 4398 AND";
"2 1 4394 4398 4399 XOR";
"2 1 4272 82 4400 XOR";
"2 1 4399 82 4401 XOR";
"2 1 4400 4399 4402 XOR";
"2 1 4400 4401 4403 AND";
"2 1 4399 4403 4404 XOR";
"2 1 4275 83 4405 XOR";
"2 1 4404 83 4406 XOR";
"2 1 4405 4404 4407 XOR";
"2 1 4405 4406 4408 AND";
"2 1 4404 4408 4409 XOR";
"2 1 4278 84 4410 XOR";
"2 1 4409 84 4411 XOR";
"2 1 4410 4409 4412 XOR";
"2 1 4410 4411 4413 AND";
"2 1 4409 4413 4414 XOR";
"2 1 4281 85 4415 XOR";
"2 1 4414 85 4416 XOR";
"2 1 4415 4414 4417 XOR";
"2 1 4415 4416 4418 AND";
"2 1 4414 4418 4419 XOR";
"2 1 4284 86 4420 XOR";
"2 1 4419 86 4421 XOR";
"2 1 4420 4419 4422 XOR";
"2 1 4420 4421 4423 AND";
"2 1 4419 4423 4424 XOR";
"2 1 4287 87 4425 XOR";
"2 1 4424 87 4426 XOR";
"2 1 4425 4424 4427 XOR";
"2 1 4425 4426 4428 AND";
"2 1 4424 4428 4429 XOR";
"2 1 4290 88 4430 XOR";
"2 1 4429 88 4431 XOR";
"2 1 4430 4429 4432 XOR";
"2 1 4430 4431 4433 AND";
"2 1 4429 4433 4434 XOR";
"2 1 4293 89 4435 XOR";
"2 1 4434 89 4436 XOR";
"2 1 4435 4434 4437 XOR";
"2 1 4435 4436 4438 AND";
"2 1 4434 4438 4439 XOR";
"2 1 4296 90 4440 XOR";
"2 1 4439 90 4441 XOR";
"2 1 4440 4439 4442 XOR";
"2 1 4440 4441 4443 AND";
"2 1 4439 4443 4444 XOR";
"2 1 4299 91 4445 XOR";
"2 1 4444 91 4446 XOR";
"2 1 4445 4444 4447 XOR";
"2 1 4445 4446 4448 AND";
"2 1 4444 4448 4449 XOR";
"2 1 4302 92 4450 XOR";
"2 1 4449 92 4451 XOR";
"2 1 4450 4449 4452 XOR";
"2 1 4450 4451 4453 AND";
"2 1 4449 4453 4454 XOR";
"2 1 4305 93 4455 XOR";
"2 1 4454 93 4456 XOR";
"2 1 4455 4454 4457 XOR";
"2 1 4455 4456 4458 AND";
"2 1 4454 4458 4459 XOR";
"2 1 4308 94 4460 XOR";
"2 1 4459 94 4461 XOR";
"2 1 4460 4459 4462 XOR";
"2 1 4460 4461 4463 AND";
"2 1 4459 4463 4464 XOR";
"2 1 4311 95 4465 XOR";
"2 1 4464 95 4466 XOR";
"2 1 4465 4464 4467 XOR";
"2 1 4465 4466 4468 AND";
"2 1 4464 4468 4469 XOR";
"2 1 4469 220 4470 AND";
"2 1 4469 220 4471 XOR";
"2 1 4471 4470 4472 XOR";
"2 1 32 4313 4473 XOR";
"2 1 4472 4473 4474 AND";
"2 1 4474 4313 4475 XOR";
"2 1 4221 4317 4476 XOR";
"2 1 4472 4476 4477 AND";
"2 1 4477 4317 4478 XOR";
"2 1 4224 4322 4479 XOR";
"2 1 4472 4479 4480 AND";
"2 1 4480 4322 4481 XOR";
"2 1 4227 4327 4482 XOR";
"2 1 4472 4482 4483 AND";
"2 1 4483 4327 4484 XOR";
"2 1 4230 4332 4485 XOR";
"2 1 4472 4485 4486 AND";
"2 1 4486 4332 4487 XOR";
"2 1 4233 4337 4488 XOR";
"2 1 4472 4488 4489 AND";
"2 1 4489 4337 4490 XOR";
"2 1 4236 4342 4491 XOR";
"2 1 4472 4491 4492 AND";
"2 1 4492 4342 4493 XOR";
"2 1 4239 4347 4494 XOR";
"2 1 4472 4494 4495 AND";
"2 1 4495 4347 4496 XOR";
"2 1 4242 4352 4497 XOR";
"2 1 4472 4497 4498 AND";
"2 1 4498 4352 4499 XOR";
"2 1 4245 4357 4500 XOR";
"2 1 4472 4500 4501 AND";
"2 1 4501 4357 4502 XOR";
"2 1 4248 4362 4503 XOR";
"2 1 4472 4503 4504 AND";
"2 1 4504 4362 4505 XOR";
"2 1 4251 4367 4506 XOR";
"2 1 4472 4506 4507 AND";
"2 1 4507 4367 4508 XOR";
"2 1 4254 4372 4509 XOR";
"2 1 4472 4509 4510 AND";
"2 1 4510 4372 4511 XOR";
"2 1 4257 4377 4512 XOR";
"2 1 4472 4512 4513 AND";
"2 1 4513 4377 4514 XOR";
"2 1 4260 4382 4515 XOR";
"2 1 4472 4515 4516 AND";
"2 1 4516 4382 4517 XOR";
"2 1 4263 4387 4518 XOR";
"2 1 4472 4518 4519 AND";
"2 1 4519 4387 4520 XOR";
"2 1 4266 4392 4521 XOR";
"2 1 4472 4521 4522 AND";
"2 1 4522 4392 4523 XOR";
"2 1 4269 4397 4524 XOR";
"2 1 4472 4524 4525 AND";
"2 1 4525 4397 4526 XOR";
"2 1 4272 4402 4527 XOR";
"2 1 4472 4527 4528 AND";
"2 1 4528 4402 4529 XOR";
"2 1 4275 4407 4530 XOR";
"2 1 4472 4530 4531 AND";
"2 1 4531 4407 4532 XOR";
"2 1 4278 4412 4533 XOR";
"2 1 4472 4533 4534 AND";
"2 1 4534 4412 4535 XOR";
"2 1 4281 4417 4536 XOR";
"2 1 4472 4536 4537 AND";
"2 1 4537 4417 4538 XOR";
"2 1 4284 4422 4539 XOR";
"2 1 4472 4539 4540 AND";
"2 1 4540 4422 4541 XOR";
"2 1 4287 4427 4542 XOR";
"2 1 4472 4542 4543 AND";
"2 1 4543 4427 4544 XOR";
"2 1 4290 4432 4545 XOR";
"2 1 4472 4545 4546 AND";
"2 1 4546 4432 4547 XOR";
"2 1 4293 4437 4548 XOR";
"2 1 4472 4548 4549 AND";
"2 1 4549 4437 4550 XOR";
"2 1 4296 4442 4551 XOR";
"2 1 4472 4551 4552 AND";
"2 1 4552 4442 4553 XOR";
"2 1 4299 4447 4554 XOR";
"2 1 4472 4554 4555 AND";
"2 1 4555 4447 4556 XOR";
"2 1 4302 4452 4557 XOR";
"2 1 4472 4557 4558 AND";
"2 1 4558 4452 4559 XOR";
"2 1 4305 4457 4560 XOR";
"2 1 4472 4560 4561 AND";
"2 1 4561 4457 4562 XOR";
"2 1 4308 4462 4563 XOR";
"2 1 4472 4563 4564 AND";
"2 1 4564 4462 4565 XOR";
"2 1 4311 4467 4566 XOR";
"2 1 4472 4566 4567 AND";
"2 1 4567 4467 4568 XOR";
"1 1 4472 4569 INV";
"2 1 31 64 4570 XOR";
"2 1 4570 64 4571 AND";
"2 1 4475 65 4572 XOR";
"2 1 4571 65 4573 XOR";
"2 1 4572 4571 4574 XOR";
"2 1 4572 4573 4575 AND";
"2 1 4571 4575 4576 XOR";
"2 1 4478 66 4577 XOR";
"2 1 4576 66 4578 XOR";
"2 1 4577 4576 4579 XOR";
"2 1 4577 4578 4580 AND";
"2 1 4576 4580 4581 XOR";
"2 1 4481 67 4582 XOR";
"2 1 4581 67 4583 XOR";
"2 1 4582 4581 4584 XOR";
"2 1 4582 4583 4585 AND";
"2 1 4581 4585 4586 XOR";
"2 1 4484 68 4587 XOR";
"2 1 4586 68 4588 XOR";
"2 1 4587 4586 4589 XOR";
"2 1 4587 4588 4590 AND";
"2 1 4586 4590 4591 XOR";
"2 1 4487 69 4592 XOR";
"2 1 4591 69 4593 XOR";
"2 1 4592 4591 4594 XOR";
"2 1 4592 4593 4595 AND";
"2 1 4591 4595 4596 XOR";
"2 1 4490 70 4597 XOR";
"2 1 4596 70 4598 XOR";
"2 1 4597 4596 4599 XOR";
"2 1 4597 4598 4600 AND";
"2 1 4596 4600 4601 XOR";
"2 1 4493 71 4602 XOR";
"2 1 4601 71 4603 XOR";
"2 1 4602 4601 4604 XOR";
"2 1 4602 4603 4605 AND";
"2 1 4601 4605 4606 XOR";
"2 1 4496 72 4607 XOR";
"2 1 4606 72 4608 XOR";
"2 1 4607 4606 4609 XOR";
"2 1 4607 4608 4610 AND";
"2 1 4606 4610 4611 XOR";
"2 1 4499 73 4612 XOR";
"2 1 4611 73 4613 XOR";
"2 1 4612 4611 4614 XOR";
"2 1 4612 4613 4615 AND";
"2 1 4611 4615 4616 XOR";
"2 1 4502 74 4617 XOR";
"2 1 4616 74 4618 XOR";
"2 1 4617 4616 4619 XOR";
"2 1 4617 4618 4620 AND";
"2 1 4616 4620 4621 XOR";
"2 1 4505 75 4622 XOR";
"2 1 4621 75 4623 XOR";
"2 1 4622 4621 4624 XOR";
"2 1 4622 4623 4625 AND";
"2 1 4621 4625 4626 XOR";
"2 1 4508 76 4627 XOR";
"2 1 4626 76 4628 XOR";
"2 1 4627 4626 4629 XOR";
"2 1 4627 4628 4630 AND";
"2 1 4626 4630 4631 XOR";
"2 1 4511 77 4632 XOR";
"2 1 4631 77 4633 XOR";
"2 1 4632 4631 4634 XOR";
"2 1 4632 4633 4635 AND";
"2 1 4631 4635 4636 XOR";
"2 1 4514 78 4637 XOR";
"2 1 4636 78 4638 XOR";
"2 1 4637 4636 4639 XOR";
"2 1 4637 4638 4640 AND";
"2 1 4636 4640 4641 XOR";
"2 1 4517 79 4642 XOR";
"2 1 4641 79 4643 XOR";
"2 1 4642 4641 4644 XOR";
"2 1 4642 4643 4645 AND";
"2 1 4641 4645 4646 XOR";
"2 1 4520 80 4647 XOR";
"2 1 4646 80 4648 XOR";
"2 1 4647 4646 4649 XOR";
"2 1 4647 4648 4650 AND";
"2 1 4646 4650 4651 XOR";
"2 1 4523 81 4652 XOR";
"2 1 4651 81 4653 XOR";
"2 1 4652 4651 4654 XOR";
"2 1 4652 4653 4655 AND";
"2 1 4651 4655 4656 XOR";
"2 1 4526 82 4657 XOR";
"2 1 4656 82 4658 XOR";
"2 1 4657 4656 4659 XOR";
"2 1 4657 4658 4660 AND";
"2 1 4656 4660 4661 XOR";
"2 1 4529 83 4662 XOR";
"2 1 4661 83 4663 XOR";
"2 1 4662 4661 4664 XOR";
"2 1 4662 4663 4665 AND";
"2 1 4661 4665 4666 XOR";
"2 1 4532 84 4667 XOR";
"2 1 4666 84 4668 XOR";
"2 1 4667 4666 4669 XOR";
"2 1 4667 4668 4670 AND";
"2 1 4666 4670 4671 XOR";
"2 1 4535 85 4672 XOR";
"2 1 4671 85 4673 XOR";
"2 1 4672 4671 4674 XOR";
"2 1 4672 4673 4675 AND";
"2 1 4671 4675 4676 XOR";
"2 1 4538 86 4677 XOR";
"2 1 4676 86 4678 XOR";
"2 1 4677 4676 4679 XOR";
"2 1 4677 4678 4680 AND";
"2 1 4676 4680 4681 XOR";
"2 1 4541 87 4682 XOR";
"2 1 4681 87 4683 XOR";
"2 1 4682 4681 4684 XOR";
"2 1 4682 4683 4685 AND";
"2 1 4681 4685 4686 XOR";
"2 1 4544 88 4687 XOR";
"2 1 4686 88 4688 XOR";
"2 1 4687 4686 4689 XOR";
"2 1 4687 4688 4690 AND";
"2 1 4686 4690 4691 XOR";
"2 1 4547 89 4692 XOR";
"2 1 4691 89 4693 XOR";
"2 1 4692 4691 4694 XOR";
"2 1 4692 4693 4695 AND";
"2 1 4691 4695 4696 XOR";
"2 1 4550 90 4697 XOR";
"2 1 4696 90 4698 XOR";
"2 1 4697 4696 4699 XOR";
"2 1 4697 4698 4700 AND";
"2 1 4696 4700 4701 XOR";
"2 1 4553 91 4702 XOR";
"2 1 4701 91 4703 XOR";
"2 1 4702 4701 4704 XOR";
"2 1 4702 4703 4705 AND";
"2 1 4701 4705 4706 XOR";
"2 1 4556 92 4707 XOR";
"2 1 4706 92 4708 XOR";
"2 1 4707 4706 4709 XOR";
"2 1 4707 4708 4710 AND";
"2 1 4706 4710 4711 XOR";
"2 1 4559 93 4712 XOR";
"2 1 4711 93 4713 XOR";
"2 1 4712 4711 4714 XOR";
"2 1 4712 4713 4715 AND";
"2 1 4711 4715 4716 XOR";
"2 1 4562 94 4717 XOR";
"2 1 4716 94 4718 XOR";
"2 1 4717 4716 4719 XOR";
"2 1 4717 4718 4720 AND";
"2 1 4716 4720 4721 XOR";
"2 1 4565 95 4722 XOR";
"2 1 4721 95 4723 XOR";
"2 1 4722 4721 4724 XOR";
"2 1 4722 4723 4725 AND";
"2 1 4721 4725 4726 XOR";
"2 1 4568 96 4727 XOR";
"2 1 4726 96 4728 XOR";
"2 1 4727 4726 4729 XOR";
"2 1 4727 4728 4730 AND";
"2 1 4726 4730 4731 XOR";
"2 1 4731 217 4732 AND";
"2 1 4731 217 4733 XOR";
"2 1 4733 4732 4734 XOR";
"2 1 31 4570 4735 XOR";
"2 1 4734 4735 4736 AND";
"2 1 4736 4570 4737 XOR";
"2 1 4475 4574 4738 XOR";
"2 1 4734 4738 4739 AND";
"2 1 4739 4574 4740 XOR";
"2 1 4478 4579 4741 XOR";
"2 1 4734 4741 4742 AND";
"2 1 4742 4579 4743 XOR";
"2 1 4481 4584 4744 XOR";
"2 1 4734 4744 4745 AND";
"2 1 4745 4584 4746 XOR";
"2 1 4484 4589 4747 XOR";
"2 1 4734 4747 4748 AND";
"2 1 4748 4589 4749 XOR";
"2 1 4487 4594 4750 XOR";
"2 1 4734 4750 4751 AND";
"2 1 4751 4594 4752 XOR";
"2 1 4490 4599 4753 XOR";
"2 1 4734 4753 4754 AND";
"2 1 4754 4599 4755 XOR";
"2 1 4493 4604 4756 XOR";
"2 1 4734 4756 4757 AND";
"2 1 4757 4604 4758 XOR";
"2 1 4496 4609 4759 XOR";
"2 1 4734 4759 4760 AND";
"2 1 4760 4609 4761 XOR";
"2 1 4499 4614 4762 XOR";
"2 1 4734 4762 4763 AND";
"2 1 4763 4614 4764 XOR";
"2 1 4502 4619 4765 XOR";
"2 1 4734 4765 4766 AND";
"2 1 4766 4619 4767 XOR";
"2 1 4505 4624 4768 XOR";
"2 1 4734 4768 4769 AND";
"2 1 4769 4624 4770 XOR";
"2 1 4508 4629 4771 XOR";
"2 1 4734 4771 4772 AND";
"2 1 4772 4629 4773 XOR";
"2 1 4511 4634 4774 XOR";
"2 1 4734 4774 4775 AND";
"2 1 4775 4634 4776 XOR";
"2 1 4514 4639 4777 XOR";
"2 1 4734 4777 4778 AND";
"2 1 4778 4639 4779 XOR";
"2 1 4517 4644 4780 XOR";
"2 1 4734 4780 4781 AND";
"2 1 4781 4644 4782 XOR";
"2 1 4520 4649 4783 XOR";
"2 1 4734 4783 4784 AND";
"2 1 4784 4649 4785 XOR";
"2 1 4523 4654 4786 XOR";
"2 1 4734 4786 4787 AND";
"2 1 4787 4654 4788 XOR";
"2 1 4526 4659 4789 XOR";
"2 1 4734 4789 4790 AND";
"2 1 4790 4659 4791 XOR";
"2 1 4529 4664 4792 XOR";
"2 1 4734 4792 4793 AND";
"2 1 4793 4664 4794 XOR";
"2 1 4532 4669 4795 XOR";
"2 1 4734 4795 4796 AND";
"2 1 4796 4669 4797 XOR";
"2 1 4535 4674 4798 XOR";
"2 1 4734 4798 4799 AND";
"2 1 4799 4674 4800 XOR";
"2 1 4538 4679 4801 XOR";
"2 1 4734 4801 4802 AND";
"2 1 4802 4679 4803 XOR";
"2 1 4541 4684 4804 XOR";
"2 1 4734 4804 4805 AND";
"2 1 4805 4684 4806 XOR";
"2 1 4544 4689 4807 XOR";
"2 1 4734 4807 4808 AND";
"2 1 4808 4689 4809 XOR";
"2 1 4547 4694 4810 XOR";
"2 1 4734 4810 4811 AND";
"2 1 4811 4694 4812 XOR";
"2 1 4550 4699 4813 XOR";
"2 1 4734 4813 4814 AND";
"2 1 4814 4699 4815 XOR";
"2 1 4553 4704 4816 XOR";
"2 1 4734 4816 4817 AND";
"2 1 4817 4704 4818 XOR";
"2 1 4556 4709 4819 XOR";
"2 1 4734 4819 4820 AND";
"2 1 4820 4709 4821 XOR";
"2 1 4559 4714 4822 XOR";
"2 1 4734 4822 4823 AND";
"2 1 4823 4714 4824 XOR";
"2 1 4562 4719 4825 XOR";
"2 1 4734 4825 4826 AND";
"2 1 4826 4719 4827 XOR";
"2 1 4565 4724 4828 XOR";
"2 1 4734 4828 4829 AND";
"2 1 4829 4724 4830 XOR";
"2 1 4568 4729 4831 XOR";
"2 1 4734 4831 4832 AND";
"2 1 4832 4729 4833 XOR";
"1 1 4734 4834 INV";
"2 1 30 64 4835 XOR";
"2 1 4835 64 4836 AND";
"2 1 4737 65 4837 XOR";
"2 1 4836 65 4838 XOR";
"2 1 4837 4836 4839 XOR";
"2 1 4837 4838 4840 AND";
"2 1 4836 4840 4841 XOR";
"2 1 4740 66 4842 XOR";
"2 1 4841 66 4843 XOR";
"2 1 4842 4841 4844 XOR";
"2 1 4842 4843 4845 AND";
"2 1 4841 4845 4846 XOR";
"2 1 4743 67 4847 XOR";
"2 1 4846 67 4848 XOR";
"2 1 4847 4846 4849 XOR";
"2 1 4847 4848 4850 AND";
"2 1 4846 4850 4851 XOR";
"2 1 4746 68 4852 XOR";
"2 1 4851 68 4853 XOR";
"2 1 4852 4851 4854 XOR";
"2 1 4852 4853 4855 AND";
"2 1 4851 4855 4856 XOR";
"2 1 4749 69 4857 XOR";
"2 1 4856 69 4858 XOR";
"2 1 4857 4856 4859 XOR";
"2 1 4857 4858 4860 AND";
"2 1 4856 4860 4861 XOR";
"2 1 4752 70 4862 XOR";
"2 1 4861 70 4863 XOR";
"2 1 4862 4861 4864 XOR";
"2 1 4862 4863 4865 AND";
"2 1 4861 4865 4866 XOR";
"2 1 4755 71 4867 XOR";
"2 1 4866 71 4868 XOR";
"2 1 4867 4866 4869 XOR";
"2 1 4867 4868 4870 AND";
"2 1 4866 4870 4871 XOR";
"2 1 4758 72 4872 XOR";
"2 1 4871 72 4873 XOR";
"2 1 4872 4871 4874 XOR";
"2 1 4872 4873 4875 AND";
"2 1 4871 4875 4876 XOR";
"2 1 4761 73 4877 XOR";
"2 1 4876 73 4878 XOR";
"2 1 4877 4876 4879 XOR";
"2 1 4877 4878 4880 AND";
"2 1 4876 4880 4881 XOR";
"2 1 4764 74 4882 XOR";
"2 1 4881 74 4883 XOR";
"2 1 4882 4881 4884 XOR";
"2 1 4882 4883 4885 AND";
"2 1 4881 4885 4886 XOR";
"2 1 4767 75 4887 XOR";
"2 1 4886 75 4888 XOR";
"2 1 4887 4886 4889 XOR";
"2 1 4887 4888 4890 AND";
"2 1 4886 4890 4891 XOR";
"2 1 4770 76 4892 XOR";
"2 1 4891 76 4893 XOR";
"2 1 4892 4891 4894 XOR";
"2 1 4892 4893 4895 AND";
"2 1 4891 4895 4896 XOR";
"2 1 4773 77 4897 XOR";
"2 1 4896 77 4898 XOR";
"2 1 4897 4896 4899 XOR";
"2 1 4897 4898 4900 AND";
"2 1 4896 4900 4901 XOR";
"2 1 4776 78 4902 XOR";
"2 1 4901 78 4903 XOR";
"2 1 4902 4901 4904 XOR";
"2 1 4902 4903 4905 AND";
"2 1 4901 4905 4906 XOR";
"2 1 4779 79 4907 XOR";
"2 1 4906 79 4908 XOR";
"2 1 4907 4906 4909 XOR";
"2 1 4907 4908 4910 AND";
"2 1 4906 4910 4911 XOR";
"2 1 4782 80 4912 XOR";
"2 1 4911 80 4913 XOR";
"2 1 4912 4911 4914 XOR";
"2 1 4912 4913 4915 AND";
"2 1 4911 4915 4916 XOR";
"2 1 4785 81 4917 XOR";
"2 1 4916 81 4918 XOR";
"2 1 4917 4916 4919 XOR";
"2 1 4917 4918 4920 AND";
"2 1 4916 4920 4921 XOR";
"2 1 4788 82 4922 XOR";
"2 1 4921 82 4923 XOR";
"2 1 4922 4921 4924 XOR";
"2 1 4922 4923 4925 AND";
"2 1 4921 4925 4926 XOR";
"2 1 4791 83 4927 XOR";
"2 1 4926 83 4928 XOR";
"2 1 4927 4926 4929 XOR";
"2 1 4927 4928 4930 AND";
"2 1 4926 4930 4931 XOR";
"2 1 4794 84 4932 XOR";
"2 1 4931 84 4933 XOR";
"2 1 4932 4931 4934 XOR";
"2 1 4932 4933 4935 AND";
"2 1 4931 4935 4936 XOR";
"2 1 4797 85 4937 XOR";
"2 1 4936 85 4938 XOR";
"2 1 4937 4936 4939 XOR";
"2 1 4937 4938 4940 AND";
"2 1 4936 4940 4941 XOR";
"2 1 4800 86 4942 XOR";
"2 1 4941 86 4943 XOR";
"2 1 4942 4941 4944 XOR";
"2 1 4942 4943 4945 AND";
"2 1 4941 4945 4946 XOR";
"2 1 4803 87 4947 XOR";
"2 1 4946 87 4948 XOR";
"2 1 4947 4946 4949 XOR";
"2 1 4947 4948 4950 AND";
"2 1 4946 4950 4951 XOR";
"2 1 4806 88 4952 XOR";
"2 1 4951 88 4953 XOR";
"2 1 4952 4951 4954 XOR";
"2 1 4952 4953 4955 AND";
"2 1 4951 4955 4956 XOR";
"2 1 4809 89 4957 XOR";
"2 1 4956 89 4958 XOR";
"2 1 4957 4956 4959 XOR";
"2 1 4957 4958 4960 AND";
"2 1 4956 4960 4961 XOR";
"2 1 4812 90 4962 XOR";
"2 1 4961 90 4963 XOR";
"2 1 4962 4961 4964 XOR";
"2 1 4962 4963 4965 AND";
"2 1 4961 4965 4966 XOR";
"2 1 4815 91 4967 XOR";
"2 1 4966 91 4968 XOR";
"2 1 4967 4966 4969 XOR";
"2 1 4967 4968 4970 AND";
"2 1 4966 4970 4971 XOR";
"2 1 4818 92 4972 XOR";
"2 1 4971 92 4973 XOR";
"2 1 4972 4971 4974 XOR";
"2 1 4972 4973 4975 AND";
"2 1 4971 4975 4976 XOR";
"2 1 4821 93 4977 XOR";
"2 1 4976 93 4978 XOR";
"2 1 4977 4976 4979 XOR";
"2 1 4977 4978 4980 AND";
"2 1 4976 4980 4981 XOR";
"2 1 4824 94 4982 XOR";
"2 1 4981 94 4983 XOR";
"2 1 4982 4981 4984 XOR";
"2 1 4982 4983 4985 AND";
"2 1 4981 4985 4986 XOR";
"2 1 4827 95 4987 XOR";
"2 1 4986 95 4988 XOR";
"2 1 4987 4986 4989 XOR";
"2 1 4987 4988 4990 AND";
"2 1 4986 4990 4991 XOR";
"2 1 4830 96 4992 XOR";
"2 1 4991 96 4993 XOR";
"2 1 4992 4991 4994 XOR";
"2 1 4992 4993 4995 AND";
"2 1 4991 4995 4996 XOR";
"2 1 4833 97 4997 XOR";
"2 1 4996 97 4998 XOR";
"2 1 4997 4996 4999 XOR";
"2 1 4997 4998 5000 AND";
"2 1 4996 5000 5001 XOR";
"2 1 5001 214 5002 AND";
"2 1 5001 214 5003 XOR";
"2 1 5003 5002 5004 XOR";
"2 1 30 4835 5005 XOR";
"2 1 5004 5005 5006 AND";
"2 1 5006 4835 5007 XOR";
"2 1 4737 4839 5008 XOR";
"2 1 5004 5008 5009 AND";
"2 1 5009 4839 5010 XOR";
"2 1 4740 4844 5011 XOR";
"2 1 5004 5011 5012 AND";
"2 1 5012 4844 5013 XOR";
"2 1 4743 4849 5014 XOR";
"2 1 5004 5014 5015 AND";
"2 1 5015 4849 5016 XOR";
"2 1 4746 4854 5017 XOR";
"2 1 5004 5017 5018 AND";
"2 1 5018 4854 5019 XOR";
"2 1 4749 4859 5020 XOR";
"2 1 5004 5020 5021 AND";
"2 1 5021 4859 5022 XOR";
"2 1 4752 4864 5023 XOR";
"2 1 5004 5023 5024 AND";
"2 1 5024 4864 5025 XOR";
"2 1 4755 4869 5026 XOR";
"2 1 5004 5026 5027 AND";
"2 1 5027 4869 5028 XOR";
"2 1 4758 4874 5029 XOR";
"2 1 5004 5029 5030 AND";
"2 1 5030 4874 5031 XOR";
"2 1 4761 4879 5032 XOR";
"2 1 5004 5032 5033 AND";
"2 1 5033 4879 5034 XOR";
"2 1 4764 4884 5035 XOR";
"2 1 5004 5035 5036 AND";
"2 1 5036 4884 5037 XOR";
"2 1 4767 4889 5038 XOR";
"2 1 5004 5038 5039 AND";
"2 1 5039 4889 5040 XOR";
"2 1 4770 4894 5041 XOR";
"2 1 5004 5041 5042 AND";
"2 1 5042 4894 5043 XOR";
"2 1 4773 4899 5044 XOR";
"2 1 5004 5044 5045 AND";
"2 1 5045 4899 5046 XOR";
"2 1 4776 4904 5047 XOR";
"2 1 5004 5047 5048 AND";
"2 1 5048 4904 5049 XOR";
"2 1 4779 4909 5050 XOR";
"2 1 5004 5050 5051 AND";
"2 1 5051 4909 5052 XOR";
"2 1 4782 4914 5053 XOR";
"2 1 5004 5053 5054 AND";
"2 1 5054 4914 5055 XOR";
"2 1 4785 4919 5056 XOR";
"2 1 5004 5056 5057 AND";
"2 1 5057 4919 5058 XOR";
"2 1 4788 4924 5059 XOR";
"2 1 5004 5059 5060 AND";
"2 1 5060 4924 5061 XOR";
"2 1 4791 4929 5062 XOR";
"2 1 5004 5062 5063 AND";
"2 1 5063 4929 5064 XOR";
"2 1 4794 4934 5065 XOR";
"2 1 5004 5065 5066 AND";
"2 1 5066 4934 5067 XOR";
"2 1 4797 4939 5068 XOR";
"2 1 5004 5068 5069 AND";
"2 1 5069 4939 5070 XOR";
"2 1 4800 4944 5071 XOR";
"2 1 5004 5071 5072 AND";
"2 1 5072 4944 5073 XOR";
"2 1 4803 4949 5074 XOR";
"2 1 5004 5074 5075 AND";
"2 1 5075 4949 5076 XOR";
"2 1 4806 4954 5077 XOR";
"2 1 5004 5077 5078 AND";
"2 1 5078 4954 5079 XOR";
"2 1 4809 4959 5080 XOR";
"2 1 5004 5080 5081 AND";
"2 1 5081 4959 5082 XOR";
"2 1 4812 4964 5083 XOR";
"2 1 5004 5083 5084 AND";
"2 1 5084 4964 5085 XOR";
"2 1 4815 4969 5086 XOR";
"2 1 5004 5086 5087 AND";
"2 1 5087 4969 5088 XOR";
"2 1 4818 4974 5089 XOR";
"2 1 5004 5089 5090 AND";
"2 1 5090 4974 5091 XOR";
"2 1 4821 4979 5092 XOR";
"2 1 5004 5092 5093 AND";
"2 1 5093 4979 5094 XOR";
"2 1 4824 4984 5095 XOR";
"2 1 5004 5095 5096 AND";
"2 1 5096 4984 5097 XOR";
"2 1 4827 4989 5098 XOR";
"2 1 5004 5098 5099 AND";
"2 1 5099 4989 5100 XOR";
"2 1 4830 4994 5101 XOR";
"2 1 5004 5101 5102 AND";
"2 1 5102 4994 5103 XOR";
"2 1 4833 4999 5104 XOR";
"2 1 5004 5104 5105 AND";
"2 1 5105 4999 5106 XOR";
"1 1 5004 5107 INV";
"2 1 29 64 5108 XOR";
"2 1 5108 64 5109 AND";
"2 1 5007 65 5110 XOR";
"2 1 5109 65 5111 XOR";
"2 1 5110 5109 5112 XOR";
"2 1 5110 5111 5113 AND";
"2 1 5109 5113 5114 XOR";
"2 1 5010 66 5115 XOR";
"2 1 5114 66 5116 XOR";
"2 1 5115 5114 5117 XOR";
"2 1 5115 5116 5118 AND";
"2 1 5114 5118 5119 XOR";
"2 1 5013 67 5120 XOR";
"2 1 5119 67 5121 XOR";
"2 1 5120 5119 5122 XOR";
"2 1 5120 5121 5123 AND";
"2 1 5119 5123 5124 XOR";
"2 1 5016 68 5125 XOR";
"2 1 5124 68 5126 XOR";
"2 1 5125 5124 5127 XOR";
"2 1 5125 5126 5128 AND";
"2 1 5124 5128 5129 XOR";
"2 1 5019 69 5130 XOR";
"2 1 5129 69 5131 XOR";
"2 1 5130 5129 5132 XOR";
"2 1 5130 5131 5133 AND";
"2 1 5129 5133 5134 XOR";
"2 1 5022 70 5135 XOR";
"2 1 5134 70 5136 XOR";
"2 1 5135 5134 5137 XOR";
"2 1 5135 5136 5138 AND";
"2 1 5134 5138 5139 XOR";
"2 1 5025 71 5140 XOR";
"2 1 5139 71 5141 XOR";
"2 1 5140 5139 5142 XOR";
"2 1 5140 5141 5143 AND";
"2 1 5139 5143 5144 XOR";
"2 1 5028 72 5145 XOR";
"2 1 5144 72 5146 XOR";
"2 1 5145 5144 5147 XOR";
"2 1 5145 5146 5148 AND";
"2 1 5144 5148 5149 XOR";
"2 1 5031 73 5150 XOR";
"2 1 5149 73 5151 XOR";
"2 1 5150 5149 5152 XOR";
"2 1 5150 5151 5153 AND";
"2 1 5149 5153 5154 XOR";
"2 1 5034 74 5155 XOR";
"2 1 5154 74 5156 XOR";
"2 1 5155 5154 5157 XOR";
"2 1 5155 5156 5158 AND";
"2 1 5154 5158 5159 XOR";
"2 1 5037 75 5160 XOR";
"2 1 5159 75 5161 XOR";
"2 1 5160 5159 5162 XOR";
"2 1 5160 5161 5163 AND";
"2 1 5159 5163 5164 XOR";
"2 1 5040 76 5165 XOR";
"2 1 5164 76 5166 XOR";
"2 1 5165 5164 5167 XOR";
"2 1 5165 5166 5168 AND";
"2 1 5164 5168 5169 XOR";
"2 1 5043 77 5170 XOR";
"2 1 5169 77 5171 XOR";
"2 1 5170 5169 5172 XOR";
"2 1 5170 5171 5173 AND";
"2 1 5169 5173 5174 XOR";
"2 1 5046 78 5175 XOR";
"2 1 5174 78 5176 XOR";
"2 1 5175 5174 5177 XOR";
"2 1 5175 5176 5178 AND";
"2 1 5174 5178 5179 XOR";
"2 1 5049 79 5180 XOR";
"2 1 5179 79 5181 XOR";
"2 1 5180 5179 5182 XOR";
"2 1 5180 5181 5183 AND";
"2 1 5179 5183 5184 XOR";
"2 1 5052 80 5185 XOR";
"2 1 5184 80 5186 XOR";
"2 1 5185 5184 5187 XOR";
"2 1 5185 5186 5188 AND";
"2 1 5184 5188 5189 XOR";
"2 1 5055 81 5190 XOR";
"2 1 5189 81 5191 XOR";
"2 1 5190 5189 5192 XOR";
"2 1 5190 5191 5193 AND";
"2 1 5189 5193 5194 XOR";
"2 1 5058 82 5195 XOR";
"2 1 5194 82 5196 XOR";
"2 1 5195 5194 5197 XOR";
"2 1 5195 5196 5198 AND";
"2 1 5194 5198 5199 XOR";
"2 1 5061 83 5200 XOR";
"2 1 5199 83 5201 XOR";
"2 1 5200 5199 5202 XOR";
"2 1 5200 5201 5203 AND";
"2 1 5199 5203 5204 XOR";
"2 1 5064 84 5205 XOR";
"2 1 5204 84 5206 XOR";
"2 1 5205 5204 5207 XOR";
"2 1 5205 5206 5208 AND";
"2 1 5204 5208 5209 XOR";
"2 1 5067 85 5210 XOR";
"2 1 5209 85 5211 XOR";
"2 1 5210 5209 5212 XOR";
"2 1 5210 5211 5213 AND";
"2 1 5209 5213 5214 XOR";
"2 1 5070 86 5215 XOR";
"2 1 5214 86 5216 XOR";
"2 1 5215 5214 5217 XOR";
"2 1 5215 5216 5218 AND";
"2 1 5214 5218 5219 XOR";
"2 1 5073 87 5220 XOR";
"2 1 5219 87 5221 XOR";
"2 1 5220 5219 5222 XOR";
"2 1 5220 5221 5223 AND";
"2 1 5219 5223 5224 XOR";
"2 1 5076 88 5225 XOR";
"2 1 5224 88 5226 XOR";
"2 1 5225 5224 5227 XOR";
"2 1 5225 5226 5228 AND";
"2 1 5224 5228 5229 XOR";
"2 1 5079 89 5230 XOR";
"2 1 5229 89 5231 XOR";
"2 1 5230 5229 5232 XOR";
"2 1 5230 5231 5233 AND";
"2 1 5229 5233 5234 XOR";
"2 1 5082 90 5235 XOR";
"2 1 5234 90 5236 XOR";
"2 1 5235 5234 5237 XOR";
"2 1 5235 5236 5238 AND";
"2 1 5234 5238 5239 XOR";
"2 1 5085 91 5240 XOR";
"2 1 5239 91 5241 XOR";
"2 1 5240 5239 5242 XOR";
"2 1 5240 5241 5243 AND";
"2 1 5239 5243 5244 XOR";
"2 1 5088 92 5245 XOR";
"2 1 5244 92 5246 XOR";
"2 1 5245 5244 5247 XOR";
"2 1 5245 5246 5248 AND";
"2 1 5244 5248 5249 XOR";
"2 1 5091 93 5250 XOR";
"2 1 5249 93 5251 XOR";
"2 1 5250 5249 5252 XOR";
"2 1 5250 5251 5253 AND";
"2 1 5249 5253 5254 XOR";
"2 1 5094 94 5255 XOR";
"2 1 5254 94 5256 XOR";
"2 1 5255 5254 5257 XOR";
"2 1 5255 5256 5258 AND";
"2 1 5254 5258 5259 XOR";
"2 1 5097 95 5260 XOR";
"2 1 5259 95 5261 XOR";
"2 1 5260 5259 5262 XOR";
"2 1 5260 5261 5263 AND";
"2 1 5259 5263 5264 XOR";
"2 1 5100 96 5265 XOR";
"2 1 5264 96 5266 XOR";
"2 1 5265 5264 5267 XOR";
"2 1 5265 5266 5268 AND";
"2 1 5264 5268 5269 XOR";
"2 1 5103 97 5270 XOR";
"2 1 5269 97 5271 XOR";
"2 1 5270 5269 5272 XOR";
"2 1 5270 5271 5273 AND";
"2 1 5269 5273 5274 XOR";
"2 1 5106 98 5275 XOR";
"2 1 5274 98 5276 XOR";
"2 1 5275 5274 5277 XOR";
"2 1 5275 5276 5278 AND";
"2 1 5274 5278 5279 XOR";
"2 1 5279 211 5280 AND";
"2 1 5279 211 5281 XOR";
"2 1 5281 5280 5282 XOR";
"2 1 29 5108 5283 XOR";
"2 1 5282 5283 5284 AND";
"2 1 5284 5108 5285 XOR";
"2 1 5007 5112 5286 XOR";
"2 1 5282 5286 5287 AND";
"2 1 5287 5112 5288 XOR";
"2 1 5010 5117 5289 XOR";
"2 1 5282 5289 5290 AND";
"2 1 5290 5117 5291 XOR";
"2 1 5013 5122 5292 XOR";
"2 1 5282 5292 5293 AND";
"2 1 5293 5122 5294 XOR";
"2 1 5016 5127 5295 XOR";
"2 1 5282 5295 5296 AND";
"2 1 5296 5127 5297 XOR";
"2 1 5019 5132 5298 XOR";
"2 1 5282 5298 5299 AND";
"2 1 5299 5132 5300 XOR";
"2 1 5022 5137 5301 XOR";
"2 1 5282 5301 5302 AND";
"2 1 5302 5137 5303 XOR";
"2 1 5025 5142 5304 XOR";
"2 1 5282 5304 5305 AND";
"2 1 5305 5142 5306 XOR";
"2 1 5028 5147 5307 XOR";
"2 1 5282 5307 5308 AND";
"2 1 5308 5147 5309 XOR";
"2 1 5031 5152 5310 XOR";
"2 1 5282 5310 5311 AND";
"2 1 5311 5152 5312 XOR";
"2 1 5034 5157 5313 XOR";
"2 1 5282 5313 5314 AND";
"2 1 5314 5157 5315 XOR";
"2 1 5037 5162 5316 XOR";
"2 1 5282 5316 5317 AND";
"2 1 5317 5162 5318 XOR";
"2 1 5040 5167 5319 XOR";
"2 1 5282 5319 5320 AND";
"2 1 5320 5167 5321 XOR";
"2 1 5043 5172 5322 XOR";
"2 1 5282 5322 5323 AND";
"2 1 5323 5172 5324 XOR";
"2 1 5046 5177 5325 XOR";
"2 1 5282 5325 5326 AND";
"2 1 5326 5177 5327 XOR";
"2 1 5049 5182 5328 XOR";
"2 1 5282 5328 5329 AND";
"2 1 5329 5182 5330 XOR";
"2 1 5052 5187 5331 XOR";
"2 1 5282 5331 5332 AND";
"2 1 5332 5187 5333 XOR";
"2 1 5055 5192 5334 XOR";
"2 1 5282 5334 5335 AND";
"2 1 5335 5192 5336 XOR";
"2 1 5058 5197 5337 XOR";
"2 1 5282 5337 5338 AND";
"2 1 5338 5197 5339 XOR";
"2 1 5061 5202 5340 XOR";
"2 1 5282 5340 5341 AND";
"2 1 5341 5202 5342 XOR";
"2 1 5064 5207 5343 XOR";
"2 1 5282 5343 5344 AND";
"2 1 5344 5207 5345 XOR";
"2 1 5067 5212 5346 XOR";
"2 1 5282 5346 5347 AND";
"2 1 5347 5212 5348 XOR";
"2 1 5070 5217 5349 XOR";
"2 1 5282 5349 5350 AND";
"2 1 5350 5217 5351 XOR";
"2 1 5073 5222 5352 XOR";
"2 1 5282 5352 5353 AND";
"2 1 5353 5222 5354 XOR";
"2 1 5076 5227 5355 XOR";
"2 1 5282 5355 5356 AND";
"2 1 5356 5227 5357 XOR";
"2 1 5079 5232 5358 XOR";
"2 1 5282 5358 5359 AND";
"2 1 5359 5232 5360 XOR";
"2 1 5082 5237 5361 XOR";
"2 1 5282 5361 5362 AND";
"2 1 5362 5237 5363 XOR";
"2 1 5085 5242 5364 XOR";
"2 1 5282 5364 5365 AND";
"2 1 5365 5242 5366 XOR";
"2 1 5088 5247 5367 XOR";
"2 1 5282 5367 5368 AND";
"2 1 5368 5247 5369 XOR";
"2 1 5091 5252 5370 XOR";
"2 1 5282 5370 5371 AND";
"2 1 5371 5252 5372 XOR";
"2 1 5094 5257 5373 XOR";
"2 1 5282 5373 5374 AND";
"2 1 5374 5257 5375 XOR";
"2 1 5097 5262 5376 XOR";
"2 1 5282 5376 5377 AND";
"2 1 5377 5262 5378 XOR";
"2 1 5100 5267 5379 XOR";
"2 1 5282 5379 5380 AND";
"2 1 5380 5267 5381 XOR";
"2 1 5103 5272 5382 XOR";
"2 1 5282 5382 5383 AND";
"2 1 5383 5272 5384 XOR";
"2 1 5106 5277 5385 XOR";
"2 1 5282 5385 5386 AND";
"2 1 5386 5277 5387 XOR";
"1 1 5282 5388 INV";
"2 1 28 64 5389 XOR";
"2 1 5389 64 5390 AND";
"2 1 5285 65 5391 XOR";
"2 1 5390 65 5392 XOR";
"2 1 5391 5390 5393 XOR";
"2 1 5391 5392 5394 AND";
"2 1 5390 5394 5395 XOR";
"2 1 5288 66 5396 XOR";
"2 1 5395 66 5397 XOR";
"2 1 5396 5395 5398 XOR";
"2 1 5396 5397 5399 AND";
"2 1 5395 5399 5400 XOR";
"2 1 5291 67 5401 XOR";
"2 1 5400 67 5402 XOR";
"2 1 5401 5400 5403 XOR";
"2 1 5401 5402 5404 AND";
"2 1 5400 5404 5405 XOR";
"2 1 5294 68 5406 XOR";
"2 1 5405 68 5407 XOR";
"2 1 5406 5405 5408 XOR";
"2 1 5406 5407 5409 AND";
"2 1 5405 5409 5410 XOR";
"2 1 5297 69 5411 XOR";
"2 1 5410 69 5412 XOR";
"2 1 5411 5410 5413 XOR";
"2 1 5411 5412 5414 AND";
"2 1 5410 5414 5415 XOR";
"2 1 5300 70 5416 XOR";
"2 1 5415 70 5417 XOR";
"2 1 5416 5415 5418 XOR";
"2 1 5416 5417 5419 AND";
"2 1 5415 5419 5420 XOR";
"2 1 5303 71 5421 XOR";
"2 1 5420 71 5422 XOR";
"2 1 5421 5420 5423 XOR";
"2 1 5421 5422 5424 AND";
"2 1 5420 5424 5425 XOR";
"2 1 5306 72 5426 XOR";
"2 1 5425 72 5427 XOR";
"2 1 5426 5425 5428 XOR";
"2 1 5426 5427 5429 AND";
"2 1 5425 5429 5430 XOR";
"2 1 5309 73 5431 XOR";
"2 1 5430 73 5432 XOR";
"2 1 5431 5430 5433 XOR";
"2 1 5431 5432 5434 AND";
"2 1 5430 5434 5435 XOR";
"2 1 5312 74 5436 XOR";
"2 1 5435 74 5437 XOR";
"2 1 5436 5435 5438 XOR";
"2 1 5436 5437 5439 AND";
"2 1 5435 5439 5440 XOR";
"2 1 5315 75 5441 XOR";
"2 1 5440 75 5442 XOR";
"2 1 5441 5440 5443 XOR";
"2 1 5441 5442 5444 AND";
"2 1 5440 5444 5445 XOR";
"2 1 5318 76 5446 XOR";
"2 1 5445 76 5447 XOR";
"2 1 5446 5445 5448 XOR";
"2 1 5446 5447 5449 AND";
"2 1 5445 5449 5450 XOR";
"2 1 5321 77 5451 XOR";
"2 1 5450 77 5452 XOR";
"2 1 5451 5450 5453 XOR";
"2 1 5451 5452 5454 AND";
"2 1 5450 5454 5455 XOR";
"2 1 5324 78 5456 XOR";
"2 1 5455 78 5457 XOR";
"2 1 5456 5455 5458 XOR";
"2 1 5456 5457 5459 AND";
"2 1 5455 5459 5460 XOR";
"2 1 5327 79 5461 XOR";
"2 1 5460 79 5462 XOR";
"2 1 5461 5460 5463 XOR";
"2 1 5461 5462 5464 AND";
"2 1 5460 5464 5465 XOR";
"2 1 5330 80 5466 XOR";
"2 1 5465 80 5467 XOR";
"2 1 5466 5465 5468 XOR";
"2 1 5466 5467 5469 AND";
"2 1 5465 5469 5470 XOR";
"2 1 5333 81 5471 XOR";
"2 1 5470 81 5472 XOR";
"2 1 5471 5470 5473 XOR";
"2 1 5471 5472 5474 AND";
"2 1 5470 5474 5475 XOR";
"2 1 5336 82 5476 XOR";
"2 1 5475 82 5477 XOR";
"2 1 5476 5475 5478 XOR";
"2 1 5476 5477 5479 AND";
"2 1 5475 5479 5480 XOR";
"2 1 5339 83 5481 XOR";
"2 1 5480 83 5482 XOR";
"2 1 5481 5480 5483 XOR";
"2 1 5481 5482 5484 AND";
"2 1 5480 5484 5485 XOR";
"2 1 5342 84 5486 XOR";
"2 1 5485 84 5487 XOR";
"2 1 5486 5485 5488 XOR";
"2 1 5486 5487 5489 AND";
"2 1 5485 5489 5490 XOR";
"2 1 5345 85 5491 XOR";
"2 1 5490 85 5492 XOR";
"2 1 5491 5490 5493 XOR";
"2 1 5491 5492 5494 AND";
"2 1 5490 5494 5495 XOR";
"2 1 5348 86 5496 XOR";
"2 1 5495 86 5497 XOR";
"2 1 5496 5495 5498 XOR";
"2 1 5496 5497 5499 AND";
"2 1 5495 5499 5500 XOR";
"2 1 5351 87 5501 XOR";
"2 1 5500 87 5502 XOR";
"2 1 5501 5500 5503 XOR";
"2 1 5501 5502 5504 AND";
"2 1 5500 5504 5505 XOR";
"2 1 5354 88 5506 XOR";
"2 1 5505 88 5507 XOR";
"2 1 5506 5505 5508 XOR";
"2 1 5506 5507 5509 AND";
"2 1 5505 5509 5510 XOR";
"2 1 5357 89 5511 XOR";
"2 1 5510 89 5512 XOR";
"2 1 5511 5510 5513 XOR";
"2 1 5511 5512 5514 AND";
"2 1 5510 5514 5515 XOR";
"2 1 5360 90 5516 XOR";
"2 1 5515 90 5517 XOR";
"2 1 5516 5515 5518 XOR";
"2 1 5516 5517 5519 AND";
"2 1 5515 5519 5520 XOR";
"2 1 5363 91 5521 XOR";
"2 1 5520 91 5522 XOR";
"2 1 5521 5520 5523 XOR";
"2 1 5521 5522 5524 AND";
"2 1 5520 5524 5525 XOR";
"2 1 5366 92 5526 XOR";
"2 1 5525 92 5527 XOR";
"2 1 5526 5525 5528 XOR";
"2 1 5526 5527 5529 AND";
"2 1 5525 5529 5530 XOR";
"2 1 5369 93 5531 XOR";
"2 1 5530 93 5532 XOR";
"2 1 5531 5530 5533 XOR";
"2 1 5531 5532 5534 AND";
"2 1 5530 5534 5535 XOR";
"2 1 5372 94 5536 XOR";
"2 1 5535 94 5537 XOR";
"2 1 5536 5535 5538 XOR";
"2 1 5536 5537 5539 AND";
"2 1 5535 5539 5540 XOR";
"2 1 5375 95 5541 XOR";
"2 1 5540 95 5542 XOR";
"2 1 5541 5540 5543 XOR";
"2 1 5541 5542 5544 AND";
"2 1 5540 5544 5545 XOR";
"2 1 5378 96 5546 XOR";
"2 1 5545 96 5547 XOR";
"2 1 5546 5545 5548 XOR";
"2 1 5546 5547 5549 AND";
"2 1 5545 5549 5550 XOR";
"2 1 5381 97 5551 XOR";
"2 1 5550 97 5552 XOR";
"2 1 5551 5550 5553 XOR";
"2 1 5551 5552 5554 AND";
"2 1 5550 5554 5555 XOR";
"2 1 5384 98 5556 XOR";
"2 1 5555 98 5557 XOR";
"2 1 5556 5555 5558 XOR";
"2 1 5556 5557 5559 AND";
"2 1 5555 5559 5560 XOR";
"2 1 5387 99 5561 XOR";
"2 1 5560 99 5562 XOR";
"2 1 5561 5560 5563 XOR";
"2 1 5561 5562 5564 AND";
"2 1 5560 5564 5565 XOR";
"2 1 5565 208 5566 AND";
"2 1 5565 208 5567 XOR";
"2 1 5567 5566 5568 XOR";
"2 1 28 5389 5569 XOR";
"2 1 5568 5569 5570 AND";
"2 1 5570 5389 5571 XOR";
"2 1 5285 5393 5572 XOR";
"2 1 5568 5572 5573 AND";
"2 1 5573 5393 5574 XOR";
"2 1 5288 5398 5575 XOR";
"2 1 5568 5575 5576 AND";
"2 1 5576 5398 5577 XOR";
"2 1 5291 5403 5578 XOR";
"2 1 5568 5578 5579 AND";
"2 1 5579 5403 5580 XOR";
"2 1 5294 5408 5581 XOR";
"2 1 5568 5581 5582 AND";
"2 1 5582 5408 5583 XOR";
"2 1 5297 5413 5584 XOR";
"2 1 5568 5584 5585 AND";
"2 1 5585 5413 5586 XOR";
"2 1 5300 5418 5587 XOR";
"2 1 5568 5587 5588 AND";
"2 1 5588 5418 5589 XOR";
"2 1 5303 5423 5590 XOR";
"2 1 5568 5590 5591 AND";
"2 1 5591 5423 5592 XOR";
"2 1 5306 5428 5593 XOR";
"2 1 5568 5593 5594 AND";
"2 1 5594 5428 5595 XOR";
"2 1 5309 5433 5596 XOR";
"2 1 5568 5596 5597 AND";
"2 1 5597 5433 5598 XOR";
"2 1 5312 5438 5599 XOR";
"2 1 5568 5599 5600 AND";
"2 1 5600 5438 5601 XOR";
"2 1 5315 5443 5602 XOR";
"2 1 5568 5602 5603 AND";
"2 1 5603 5443 5604 XOR";
"2 1 5318 5448 5605 XOR";
"2 1 5568 5605 5606 AND";
"2 1 5606 5448 5607 XOR";
"2 1 5321 5453 5608 XOR";
"2 1 5568 5608 5609 AND";
"2 1 5609 5453 5610 XOR";
"2 1 5324 5458 5611 XOR";
"2 1 5568 5611 5612 AND";
"2 1 5612 5458 5613 XOR";
"2 1 5327 5463 5614 XOR";
"2 1 5568 5614 5615 AND";
"2 1 5615 5463 5616 XOR";
"2 1 5330 5468 5617 XOR";
"2 1 5568 5617 5618 AND";
"2 1 5618 5468 5619 XOR";
"2 1 5333 5473 5620 XOR";
"2 1 5568 5620 5621 AND";
"2 1 5621 5473 5622 XOR";
"2 1 5336 5478 5623 XOR";
"2 1 5568 5623 5624 AND";
"2 1 5624 5478 5625 XOR";
"2 1 5339 5483 5626 XOR";
"2 1 5568 5626 5627 AND";
"2 1 5627 5483 5628 XOR";
"2 1 5342 5488 5629 XOR";
"2 1 5568 5629 5630 AND";
"2 1 5630 5488 5631 XOR";
"2 1 5345 5493 5632 XOR";
"2 1 5568 5632 5633 AND";
"2 1 5633 5493 5634 XOR";
"2 1 5348 5498 5635 XOR";
"2 1 5568 5635 5636 AND";
"2 1 5636 5498 5637 XOR";
"2 1 5351 5503 5638 XOR";
"2 1 5568 5638 5639 AND";
"2 1 5639 5503 5640 XOR";
"2 1 5354 5508 5641 XOR";
"2 1 5568 5641 5642 AND";
"2 1 5642 5508 5643 XOR";
"2 1 5357 5513 5644 XOR";
"2 1 5568 5644 5645 AND";
"2 1 5645 5513 5646 XOR";
"2 1 5360 5518 5647 XOR";
"2 1 5568 5647 5648 AND";
"2 1 5648 5518 5649 XOR";
"2 1 5363 5523 5650 XOR";
"2 1 5568 5650 5651 AND";
"2 1 5651 5523 5652 XOR";
"2 1 5366 5528 5653 XOR";
"2 1 5568 5653 5654 AND";
"2 1 5654 5528 5655 XOR";
"2 1 5369 5533 5656 XOR";
"2 1 5568 5656 5657 AND";
"2 1 5657 5533 5658 XOR";
"2 1 5372 5538 5659 XOR";
"2 1 5568 5659 5660 AND";
"2 1 5660 5538 5661 XOR";
"2 1 5375 5543 5662 XOR";
"2 1 5568 5662 5663 AND";
"2 1 5663 5543 5664 XOR";
"2 1 5378 5548 5665 XOR";
"2 1 5568 5665 5666 AND";
"2 1 5666 5548 5667 XOR";
"2 1 5381 5553 5668 XOR";
"2 1 5568 5668 5669 AND";
"2 1 5669 5553 5670 XOR";
"2 1 5384 5558 5671 XOR";
"2 1 5568 5671 5672 AND";
"2 1 5672 5558 5673 XOR";
"2 1 5387 5563 5674 XOR";
"2 1 5568 5674 5675 AND";
"2 1 5675 5563 5676 XOR";
"1 1 5568 5677 INV";
"2 1 27 64 5678 XOR";
"2 1 5678 64 5679 AND";
"2 1 5571 65 5680 XOR";
"2 1 5679 65 5681 XOR";
"2 1 5680 5679 5682 XOR";
"2 1 5680 5681 5683 AND";
"2 1 5679 5683 5684 XOR";
"2 1 5574 66 5685 XOR";
"2 1 5684 66 5686 XOR";
"2 1 5685 5684 5687 XOR";
"2 1 5685 5686 5688 AND";
"2 1 5684 5688 5689 XOR";
"2 1 5577 67 5690 XOR";
"2 1 5689 67 5691 XOR";
"2 1 5690 5689 5692 XOR";
"2 1 5690 5691 5693 AND";
"2 1 5689 5693 5694 XOR";
"2 1 5580 68 5695 XOR";
"2 1 5694 68 5696 XOR";
"2 1 5695 5694 5697 XOR";
"2 1 5695 5696 5698 AND";
"2 1 5694 5698 5699 XOR";
"2 1 5583 69 5700 XOR";
"2 1 5699 69 5701 XOR";
"2 1 5700 5699 5702 XOR";
"2 1 5700 5701 5703 AND";
"2 1 5699 5703 5704 XOR";
"2 1 5586 70 5705 XOR";
"2 1 5704 70 5706 XOR";
"2 1 5705 5704 5707 XOR";
"2 1 5705 5706 5708 AND";
"2 1 5704 5708 5709 XOR";
"2 1 5589 71 5710 XOR";
"2 1 5709 71 5711 XOR";
"2 1 5710 5709 5712 XOR";
"2 1 5710 5711 5713 AND";
"2 1 5709 5713 5714 XOR";
"2 1 5592 72 5715 XOR";
"2 1 5714 72 5716 XOR";
"2 1 5715 5714 5717 XOR";
"2 1 5715 5716 5718 AND";
"2 1 5714 5718 5719 XOR";
"2 1 5595 73 5720 XOR";
"2 1 5719 73 5721 XOR";
"2 1 5720 5719 5722 XOR";
"2 1 5720 5721 5723 AND";
"2 1 5719 5723 5724 XOR";
"2 1 5598 74 5725 XOR";
"2 1 5724 74 5726 XOR";
"2 1 5725 5724 5727 XOR";
"2 1 5725 5726 5728 AND";
"2 1 5724 5728 5729 XOR";
"2 1 5601 75 5730 XOR";
"2 1 5729 75 5731 XOR";
"2 1 5730 5729 5732 XOR";
"2 1 5730 5731 5733 AND";
"2 1 5729 5733 5734 XOR";
"2 1 5604 76 5735 XOR";
"2 1 5734 76 5736 XOR";
"2 1 5735 5734 5737 XOR";
"2 1 5735 5736 5738 AND";
"2 1 5734 5738 5739 XOR";
"2 1 5607 77 5740 XOR";
"2 1 5739 77 5741 XOR";
"2 1 5740 5739 5742 XOR";
"2 1 5740 5741 5743 AND";
"2 1 5739 5743 5744 XOR";
"2 1 5610 78 5745 XOR";
"2 1 5744 78 5746 XOR";
"2 1 5745 5744 5747 XOR";
"2 1 5745 5746 5748 AND";
"2 1 5744 5748 5749 XOR";
"2 1 5613 79 5750 XOR";
"2 1 5749 79 5751 XOR";
"2 1 5750 5749 5752 XOR";
"2 1 5750 5751 5753 AND";
"2 1 5749 5753 5754 XOR";
"2 1 5616 80 5755 XOR";
"2 1 5754 80 5756 XOR";
"2 1 5755 5754 5757 XOR";
"2 1 5755 5756 5758 AND";
"2 1 5754 5758 5759 XOR";
"2 1 5619 81 5760 XOR";
"2 1 5759 81 5761 XOR";
"2 1 5760 5759 5762 XOR";
"2 1 5760 5761 5763 AND";
"2 1 5759 5763 5764 XOR";
"2 1 5622 82 5765 XOR";
"2 1 5764 82 5766 XOR";
"2 1 5765 5764 5767 XOR";
"2 1 5765 5766 5768 AND";
"2 1 5764 5768 5769 XOR";
"2 1 5625 83 5770 XOR";
"2 1 5769 83 5771 XOR";
"2 1 5770 5769 5772 XOR";
"2 1 5770 5771 5773 AND";
"2 1 5769 5773 5774 XOR";
"2 1 5628 84 5775 XOR";
"2 1 5774 84 5776 XOR";
"2 1 5775 5774 5777 XOR";
"2 1 5775 5776 5778 AND";
"2 1 5774 5778 5779 XOR";
"2 1 5631 85 5780 XOR";
"2 1 5779 85 5781 XOR";
"2 1 5780 5779 5782 XOR";
"2 1 5780 5781 5783 AND";
"2 1 5779 5783 5784 XOR";
"2 1 5634 86 5785 XOR";
"2 1 5784 86 5786 XOR";
"2 1 5785 5784 5787 XOR";
"2 1 5785 5786 5788 AND";
"2 1 5784 5788 5789 XOR";
"2 1 5637 87 5790 XOR";
"2 1 5789 87 5791 XOR";
"2 1 5790 5789 5792 XOR";
"2 1 5790 5791 5793 AND";
"2 1 5789 5793 5794 XOR";
"2 1 5640 88 5795 XOR";
"2 1 5794 88 5796 XOR";
"2 1 5795 5794 5797 XOR";
"2 1 5795 5796 5798 AND";
"2 1 5794 5798 5799 XOR";
"2 1 5643 89 5800 XOR";
"2 1 5799 89 5801 XOR";
"2 1 5800 5799 5802 XOR";
"2 1 5800 5801 5803 AND";
"2 1 5799 5803 5804 XOR";
"2 1 5646 90 5805 XOR";
"2 1 5804 90 5806 XOR";
"2 1 5805 5804 5807 XOR";
"2 1 5805 5806 5808 AND";
"2 1 5804 5808 5809 XOR";
"2 1 5649 91 5810 XOR";
"2 1 5809 91 5811 XOR";
"2 1 5810 5809 5812 XOR";
"2 1 5810 5811 5813 AND";
"2 1 5809 5813 5814 XOR";
"2 1 5652 92 5815 XOR";
"2 1 5814 92 5816 XOR";
"2 1 5815 5814 5817 XOR";
"2 1 5815 5816 5818 AND";
"2 1 5814 5818 5819 XOR";
"2 1 5655 93 5820 XOR";
"2 1 5819 93 5821 XOR";
"2 1 5820 5819 5822 XOR";
"2 1 5820 5821 5823 AND";
"2 1 5819 5823 5824 XOR";
"2 1 5658 94 5825 XOR";
"2 1 5824 94 5826 XOR";
"2 1 5825 5824 5827 XOR";
"2 1 5825 5826 5828 AND";
"2 1 5824 5828 5829 XOR";
"2 1 5661 95 5830 XOR";
"2 1 5829 95 5831 XOR";
"2 1 5830 5829 5832 XOR";
"2 1 5830 5831 5833 AND";
"2 1 5829 5833 5834 XOR";
"2 1 5664 96 5835 XOR";
"2 1 5834 96 5836 XOR";
"2 1 5835 5834 5837 XOR";
"2 1 5835 5836 5838 AND";
"2 1 5834 5838 5839 XOR";
"2 1 5667 97 5840 XOR";
"2 1 5839 97 5841 XOR";
"2 1 5840 5839 5842 XOR";
"2 1 5840 5841 5843 AND";
"2 1 5839 5843 5844 XOR";
"2 1 5670 98 5845 XOR";
"2 1 5844 98 5846 XOR";
"2 1 5845 5844 5847 XOR";
"2 1 5845 5846 5848 AND";
"2 1 5844 5848 5849 XOR";
"2 1 5673 99 5850 XOR";
"2 1 5849 99 5851 XOR";
"2 1 5850 5849 5852 XOR";
"2 1 5850 5851 5853 AND";
"2 1 5849 5853 5854 XOR";
"2 1 5676 100 5855 XOR";
"2 1 5854 100 5856 XOR";
"2 1 5855 5854 5857 XOR";
"2 1 5855 5856 5858 AND";
"2 1 5854 5858 5859 XOR";
"2 1 5859 205 5860 AND";
"2 1 5859 205 5861 XOR";
"2 1 5861 5860 5862 XOR";
"2 1 27 5678 5863 XOR";
"2 1 5862 5863 5864 AND";
"2 1 5864 5678 5865 XOR";
"2 1 5571 5682 5866 XOR";
"2 1 5862 5866 5867 AND";
"2 1 5867 5682 5868 XOR";
"2 1 5574 5687 5869 XOR";
"2 1 5862 5869 5870 AND";
"2 1 5870 5687 5871 XOR";
"2 1 5577 5692 5872 XOR";
"2 1 5862 5872 5873 AND";
"2 1 5873 5692 5874 XOR";
"2 1 5580 5697 5875 XOR";
"2 1 5862 5875 5876 AND";
"2 1 5876 5697 5877 XOR";
"2 1 5583 5702 5878 XOR";
"2 1 5862 5878 5879 AND";
"2 1 5879 5702 5880 XOR";
"2 1 5586 5707 5881 XOR";
"2 1 5862 5881 5882 AND";
"2 1 5882 5707 5883 XOR";
"2 1 5589 5712 5884 XOR";
"2 1 5862 5884 5885 AND";
"2 1 5885 5712 5886 XOR";
"2 1 5592 5717 5887 XOR";
"2 1 5862 5887 5888 AND";
"2 1 5888 5717 5889 XOR";
"2 1 5595 5722 5890 XOR";
"2 1 5862 5890 5891 AND";
"2 1 5891 5722 5892 XOR";
"2 1 5598 5727 5893 XOR";
"2 1 5862 5893 5894 AND";
"2 1 5894 5727 5895 XOR";
"2 1 5601 5732 5896 XOR";
"2 1 5862 5896 5897 AND";
"2 1 5897 5732 5898 XOR";
"2 1 5604 5737 5899 XOR";
"2 1 5862 5899 5900 AND";
"2 1 5900 5737 5901 XOR";
"2 1 5607 5742 5902 XOR";
"2 1 5862 5902 5903 AND";
"2 1 5903 5742 5904 XOR";
"2 1 5610 5747 5905 XOR";
"2 1 5862 5905 5906 AND";
"2 1 5906 5747 5907 XOR";
"2 1 5613 5752 5908 XOR";
"2 1 5862 5908 5909 AND";
"2 1 5909 5752 5910 XOR";
"2 1 5616 5757 5911 XOR";
"2 1 5862 5911 5912 AND";
"2 1 5912 5757 5913 XOR";
"2 1 5619 5762 5914 XOR";
"2 1 5862 5914 5915 AND";
"2 1 5915 5762 5916 XOR";
"2 1 5622 5767 5917 XOR";
"2 1 5862 5917 5918 AND";
"2 1 5918 5767 5919 XOR";
"2 1 5625 5772 5920 XOR";
"2 1 5862 5920 5921 AND";
"2 1 5921 5772 5922 XOR";
"2 1 5628 5777 5923 XOR";
"2 1 5862 5923 5924 AND";
"2 1 5924 5777 5925 XOR";
"2 1 5631 5782 5926 XOR";
"2 1 5862 5926 5927 AND";
"2 1 5927 5782 5928 XOR";
"2 1 5634 5787 5929 XOR";
"2 1 5862 5929 5930 AND";
"2 1 5930 5787 5931 XOR";
"2 1 5637 5792 5932 XOR";
"2 1 5862 5932 5933 AND";
"2 1 5933 5792 5934 XOR";
"2 1 5640 5797 5935 XOR";
"2 1 5862 5935 5936 AND";
"2 1 5936 5797 5937 XOR";
"2 1 5643 5802 5938 XOR";
"2 1 5862 5938 5939 AND";
"2 1 5939 5802 5940 XOR";
"2 1 5646 5807 5941 XOR";
"2 1 5862 5941 5942 AND";
"2 1 5942 5807 5943 XOR";
"2 1 5649 5812 5944 XOR";
"2 1 5862 5944 5945 AND";
"2 1 5945 5812 5946 XOR";
"2 1 5652 5817 5947 XOR";
"2 1 5862 5947 5948 AND";
"2 1 5948 5817 5949 XOR";
"2 1 5655 5822 5950 XOR";
"2 1 5862 5950 5951 AND";
"2 1 5951 5822 5952 XOR";
"2 1 5658 5827 5953 XOR";
"2 1 5862 5953 5954 AND";
"2 1 5954 5827 5955 XOR";
"2 1 5661 5832 5956 XOR";
"2 1 5862 5956 5957 AND";
"2 1 5957 5832 5958 XOR";
"2 1 5664 5837 5959 XOR";
"2 1 5862 5959 5960 AND";
"2 1 5960 5837 5961 XOR";
"2 1 5667 5842 5962 XOR";
"2 1 5862 5962 5963 AND";
"2 1 5963 5842 5964 XOR";
"2 1 5670 5847 5965 XOR";
"2 1 5862 5965 5966 AND";
"2 1 5966 5847 5967 XOR";
"2 1 5673 5852 5968 XOR";
"2 1 5862 5968 5969 AND";
"2 1 5969 5852 5970 XOR";
"2 1 5676 5857 5971 XOR";
"2 1 5862 5971 5972 AND";
"2 1 5972 5857 5973 XOR";
"1 1 5862 5974 INV";
"2 1 26 64 5975 XOR";
"2 1 5975 64 5976 AND";
"2 1 5865 65 5977 XOR";
"2 1 5976 65 5978 XOR";
"2 1 5977 5976 5979 XOR";
"2 1 5977 5978 5980 AND";
"2 1 5976 5980 5981 XOR";
"2 1 5868 66 5982 XOR";
"2 1 5981 66 5983 XOR";
"2 1 5982 5981 5984 XOR";
"2 1 5982 5983 5985 AND";
"2 1 5981 5985 5986 XOR";
"2 1 5871 67 5987 XOR";
"2 1 5986 67 5988 XOR";
"2 1 5987 5986 5989 XOR";
"2 1 5987 5988 5990 AND";
"2 1 5986 5990 5991 XOR";
"2 1 5874 68 5992 XOR";
"2 1 5991 68 5993 XOR";
"2 1 5992 5991 5994 XOR";
"2 1 5992 5993 5995 AND";
"2 1 5991 5995 5996 XOR";
"2 1 5877 69 5997 XOR";
"2 1 5996 69 5998 XOR";
"2 1 5997 5996 5999 XOR";
"2 1 5997 5998 6000 AND";
"2 1 5996 6000 6001 XOR";
"2 1 5880 70 6002 XOR";
"2 1 6001 70 6003 XOR";
"2 1 6002 6001 6004 XOR";
"2 1 6002 6003 6005 AND";
"2 1 6001 6005 6006 XOR";
"2 1 5883 71 6007 XOR";
"2 1 6006 71 6008 XOR";
"2 1 6007 6006 6009 XOR";
"2 1 6007 6008 6010 AND";
"2 1 6006 6010 6011 XOR";
"2 1 5886 72 6012 XOR";
"2 1 6011 72 6013 XOR";
"2 1 6012 6011 6014 XOR";
"2 1 6012 6013 6015 AND";
"2 1 6011 6015 6016 XOR";
"2 1 5889 73 6017 XOR";
"2 1 6016 73 6018 XOR";
"2 1 6017 6016 6019 XOR";
"2 1 6017 6018 6020 AND";
"2 1 6016 6020 6021 XOR";
"2 1 5892 74 6022 XOR";
"2 1 6021 74 6023 XOR";
"2 1 6022 6021 6024 XOR";
"2 1 6022 6023 6025 AND";
"2 1 6021 6025 6026 XOR";
"2 1 5895 75 6027 XOR";
"2 1 6026 75 6028 XOR";
"2 1 6027 6026 6029 XOR";
"2 1 6027 6028 6030 AND";
"2 1 6026 6030 6031 XOR";
"2 1 5898 76 6032 XOR";
"2 1 6031 76 6033 XOR";
"2 1 6032 6031 6034 XOR";
"2 1 6032 6033 6035 AND";
"2 1 6031 6035 6036 XOR";
"2 1 5901 77 6037 XOR";
"2 1 6036 77 6038 XOR";
"2 1 6037 6036 6039 XOR";
"2 1 6037 6038 6040 AND";
"2 1 6036 6040 6041 XOR";
"2 1 5904 78 6042 XOR";
"2 1 6041 78 6043 XOR";
"2 1 6042 6041 6044 XOR";
"2 1 6042 6043 6045 AND";
"2 1 6041 6045 6046 XOR";
"2 1 5907 79 6047 XOR";
"2 1 6046 79 6048 XOR";
"2 1 6047 6046 6049 XOR";
"2 1 6047 6048 6050 AND";
"2 1 6046 6050 6051 XOR";
"2 1 5910 80 6052 XOR";
"2 1 6051 80 6053 XOR";
"2 1 6052 6051 6054 XOR";
"2 1 6052 6053 6055 AND";
"2 1 6051 6055 6056 XOR";
"2 1 5913 81 6057 XOR";
"2 1 6056 81 6058 XOR";
"2 1 6057 6056 6059 XOR";
"2 1 6057 6058 6060 AND";
"2 1 6056 6060 6061 XOR";
"2 1 5916 82 6062 XOR";
"2 1 6061 82 6063 XOR";
"2 1 6062 6061 6064 XOR";
"2 1 6062 6063 6065 AND";
"2 1 6061 6065 6066 XOR";
"2 1 5919 83 6067 XOR";
"2 1 6066 83 6068 XOR";
"2 1 6067 6066 6069 XOR";
"2 1 6067 6068 6070 AND";
"2 1 6066 6070 6071 XOR";
"2 1 5922 84 6072 XOR";
"2 1 6071 84 6073 XOR";
"2 1 6072 6071 6074 XOR";
"2 1 6072 6073 6075 AND";
"2 1 6071 6075 6076 XOR";
"2 1 5925 85 6077 XOR";
"2 1 6076 85 6078 XOR";
"2 1 6077 6076 6079 XOR";
"2 1 6077 6078 6080 AND";
"2 1 6076 6080 6081 XOR";
"2 1 5928 86 6082 XOR";
"2 1 6081 86 6083 XOR";
"2 1 6082 6081 6084 XOR";
"2 1 6082 6083 6085 AND";
"2 1 6081 6085 6086 XOR";
"2 1 5931 87 6087 XOR";
"2 1 6086 87 6088 XOR";
"2 1 6087 6086 6089 XOR";
"2 1 6087 6088 6090 AND";
"2 1 6086 6090 6091 XOR";
"2 1 5934 88 6092 XOR";
"2 1 6091 88 6093 XOR";
"2 1 6092 6091 6094 XOR";
"2 1 6092 6093 6095 AND";
"2 1 6091 6095 6096 XOR";
"2 1 5937 89 6097 XOR";
"2 1 6096 89 6098 XOR";
"2 1 6097 6096 6099 XOR";
"2 1 6097 6098 6100 AND";
"2 1 6096 6100 6101 XOR";
"2 1 5940 90 6102 XOR";
"2 1 6101 90 6103 XOR";
"2 1 6102 6101 6104 XOR";
"2 1 6102 6103 6105 AND";
"2 1 6101 6105 6106 XOR";
"2 1 5943 91 6107 XOR";
"2 1 6106 91 6108 XOR";
"2 1 6107 6106 6109 XOR";
"2 1 6107 6108 6110 AND";
"2 1 6106 6110 6111 XOR";
"2 1 5946 92 6112 XOR";
"2 1 6111 92 6113 XOR";
"2 1 6112 6111 6114 XOR";
"2 1 6112 6113 6115 AND";
"2 1 6111 6115 6116 XOR";
"2 1 5949 93 6117 XOR";
"2 1 6116 93 6118 XOR";
"2 1 6117 6116 6119 XOR";
"2 1 6117 6118 6120 AND";
"2 1 6116 6120 6121 XOR";
"2 1 5952 94 6122 XOR";
"2 1 6121 94 6123 XOR";
"2 1 6122 6121 6124 XOR";
"2 1 6122 6123 6125 AND";
"2 1 6121 6125 6126 XOR";
"2 1 5955 95 6127 XOR";
"2 1 6126 95 6128 XOR";
"2 1 6127 6126 6129 XOR";
"2 1 6127 6128 6130 AND";
"2 1 6126 6130 6131 XOR";
"2 1 5958 96 6132 XOR";
"2 1 6131 96 6133 XOR";
"2 1 6132 6131 6134 XOR";
"2 1 6132 6133 6135 AND";
"2 1 6131 6135 6136 XOR";
"2 1 5961 97 6137 XOR";
"2 1 6136 97 6138 XOR";
"2 1 6137 6136 6139 XOR";
"2 1 6137 6138 6140 AND";
"2 1 6136 6140 6141 XOR";
"2 1 5964 98 6142 XOR";
"2 1 6141 98 6143 XOR";
"2 1 6142 6141 6144 XOR";
"2 1 6142 6143 6145 AND";
"2 1 6141 6145 6146 XOR";
"2 1 5967 99 6147 XOR";
"2 1 6146 99 6148 XOR";
"2 1 6147 6146 6149 XOR";
"2 1 6147 6148 6150 AND";
"2 1 6146 6150 6151 XOR";
"2 1 5970 100 6152 XOR";
"2 1 6151 100 6153 XOR";
"2 1 6152 6151 6154 XOR";
"2 1 6152 6153 6155 AND";
"2 1 6151 6155 6156 XOR";
"2 1 5973 101 6157 XOR";
"2 1 6156 101 6158 XOR";
"2 1 6157 6156 6159 XOR";
"2 1 6157 6158 6160 AND";
"2 1 6156 6160 6161 XOR";
"2 1 6161 202 6162 AND";
"2 1 6161 202 6163 XOR";
"2 1 6163 6162 6164 XOR";
"2 1 26 5975 6165 XOR";
"2 1 6164 6165 6166 AND";
"2 1 6166 5975 6167 XOR";
"2 1 5865 5979 6168 XOR";
"2 1 6164 6168 6169 AND";
"2 1 6169 5979 6170 XOR";
"2 1 5868 5984 6171 XOR";
"2 1 6164 6171 6172 AND";
"2 1 6172 5984 6173 XOR";
"2 1 5871 5989 6174 XOR";
"2 1 6164 6174 6175 AND";
"2 1 6175 5989 6176 XOR";
"2 1 5874 5994 6177 XOR";
"2 1 6164 6177 6178 AND";
"2 1 6178 5994 6179 XOR";
"2 1 5877 5999 6180 XOR";
"2 1 6164 6180 6181 AND";
"2 1 6181 5999 6182 XOR";
"2 1 5880 6004 6183 XOR";
"2 1 6164 6183 6184 AND";
"2 1 6184 6004 6185 XOR";
"2 1 5883 6009 6186 XOR";
"2 1 6164 6186 6187 AND";
"2 1 6187 6009 6188 XOR";
"2 1 5886 6014 6189 XOR";
"2 1 6164 6189 6190 AND";
"2 1 6190 6014 6191 XOR";
"2 1 5889 6019 6192 XOR";
"2 1 6164 6192 6193 AND";
"2 1 6193 6019 6194 XOR";
"2 1 5892 6024 6195 XOR";
"2 1 6164 6195 6196 AND";
"2 1 6196 6024 6197 XOR";
"2 1 5895 6029 6198 XOR";
"2 1 6164 6198 6199 AND";
"2 1 6199 6029 6200 XOR";
"2 1 5898 6034 6201 XOR";
"2 1 6164 6201 6202 AND";
"2 1 6202 6034 6203 XOR";
"2 1 5901 6039 6204 XOR";
"2 1 6164 6204 6205 AND";
"2 1 6205 6039 6206 XOR";
"2 1 5904 6044 6207 XOR";
"2 1 6164 6207 6208 AND";
"2 1 6208 6044 6209 XOR";
"2 1 5907 6049 6210 XOR";
"2 1 6164 6210 6211 AND";
"2 1 6211 6049 6212 XOR";
"2 1 5910 6054 6213 XOR";
"2 1 6164 6213 6214 AND";
"2 1 6214 6054 6215 XOR";
"2 1 5913 6059 6216 XOR";
"2 1 6164 6216 6217 AND";
"2 1 6217 6059 6218 XOR";
"2 1 5916 6064 6219 XOR";
"2 1 6164 6219 6220 AND";
"2 1 6220 6064 6221 XOR";
"2 1 5919 6069 6222 XOR";
"2 1 6164 6222 6223 AND";
"2 1 6223 6069 6224 XOR";
"2 1 5922 6074 6225 XOR";
"2 1 6164 6225 6226 AND";
"2 1 6226 6074 6227 XOR";
"2 1 5925 6079 6228 XOR";
"2 1 6164 6228 6229 AND";
"2 1 6229 6079 6230 XOR";
"2 1 5928 6084 6231 XOR";
"2 1 6164 6231 6232 AND";
"2 1 6232 6084 6233 XOR";
"2 1 5931 6089 6234 XOR";
"2 1 6164 6234 6235 AND";
"2 1 6235 6089 6236 XOR";
"2 1 5934 6094 6237 XOR";
"2 1 6164 6237 6238 AND";
"2 1 6238 6094 6239 XOR";
"2 1 5937 6099 6240 XOR";
"2 1 6164 6240 6241 AND";
"2 1 6241 6099 6242 XOR";
"2 1 5940 6104 6243 XOR";
"2 1 6164 6243 6244 AND";
"2 1 6244 6104 6245 XOR";
"2 1 5943 6109 6246 XOR";
"2 1 6164 6246 6247 AND";
"2 1 6247 6109 6248 XOR";
"2 1 5946 6114 6249 XOR";
"2 1 6164 6249 6250 AND";
"2 1 6250 6114 6251 XOR";
"2 1 5949 6119 6252 XOR";
"2 1 6164 6252 6253 AND";
"2 1 6253 6119 6254 XOR";
"2 1 5952 6124 6255 XOR";
"2 1 6164 6255 6256 AND";
"2 1 6256 6124 6257 XOR";
"2 1 5955 6129 6258 XOR";
"2 1 6164 6258 6259 AND";
"2 1 6259 6129 6260 XOR";
"2 1 5958 6134 6261 XOR";
"2 1 6164 6261 6262 AND";
"2 1 6262 6134 6263 XOR";
"2 1 5961 6139 6264 XOR";
"2 1 6164 6264 6265 AND";
"2 1 6265 6139 6266 XOR";
"2 1 5964 6144 6267 XOR";
"2 1 6164 6267 6268 AND";
"2 1 6268 6144 6269 XOR";
"2 1 5967 6149 6270 XOR";
"2 1 6164 6270 6271 AND";
"2 1 6271 6149 6272 XOR";
"2 1 5970 6154 6273 XOR";
"2 1 6164 6273 6274 AND";
"2 1 6274 6154 6275 XOR";
"2 1 5973 6159 6276 XOR";
"2 1 6164 6276 6277 AND";
"2 1 6277 6159 6278 XOR";
"1 1 6164 6279 INV";
"2 1 25 64 6280 XOR";
"2 1 6280 64 6281 AND";
"2 1 6167 65 6282 XOR";
"2 1 6281 65 6283 XOR";
"2 1 6282 6281 6284 XOR";
"2 1 6282 6283 6285 AND";
"2 1 6281 6285 6286 XOR";
"2 1 6170 66 6287 XOR";
"2 1 6286 66 6288 XOR";
"2 1 6287 6286 6289 XOR";
"2 1 6287 6288 6290 AND";
"2 1 6286 6290 6291 XOR";
"2 1 6173 67 6292 XOR";
"2 1 6291 67 6293 XOR";
"2 1 6292 6291 6294 XOR";
"2 1 6292 6293 6295 AND";
"2 1 6291 6295 6296 XOR";
"2 1 6176 68 6297 XOR";
"2 1 6296 68 6298 XOR";
"2 1 6297 6296 6299 XOR";
"2 1 6297 6298 6300 AND";
"2 1 6296 6300 6301 XOR";
"2 1 6179 69 6302 XOR";
"2 1 6301 69 6303 XOR";
"2 1 6302 6301 6304 XOR";
"2 1 6302 6303 6305 AND";
"2 1 6301 6305 6306 XOR";
"2 1 6182 70 6307 XOR";
"2 1 6306 70 6308 XOR";
"2 1 6307 6306 6309 XOR";
"2 1 6307 6308 6310 AND";
"2 1 6306 6310 6311 XOR";
"2 1 6185 71 6312 XOR";
"2 1 6311 71 6313 XOR";
"2 1 6312 6311 6314 XOR";
"2 1 6312 6313 6315 AND";
"2 1 6311 6315 6316 XOR";
"2 1 6188 72 6317 XOR";
"2 1 6316 72 6318 XOR";
"2 1 6317 6316 6319 XOR";
"2 1 6317 6318 6320 AND";
"2 1 6316 6320 6321 XOR";
"2 1 6191 73 6322 XOR";
"2 1 6321 73 6323 XOR";
"2 1 6322 6321 6324 XOR";
"2 1 6322 6323 6325 AND";
"2 1 6321 6325 6326 XOR";
"2 1 6194 74 6327 XOR";
"2 1 6326 74 6328 XOR";
"2 1 6327 6326 6329 XOR";
"2 1 6327 6328 6330 AND";
"2 1 6326 6330 6331 XOR";
"2 1 6197 75 6332 XOR";
"2 1 6331 75 6333 XOR";
"2 1 6332 6331 6334 XOR";
"2 1 6332 6333 6335 AND";
"2 1 6331 6335 6336 XOR";
"2 1 6200 76 6337 XOR";
"2 1 6336 76 6338 XOR";
"2 1 6337 6336 6339 XOR";
"2 1 6337 6338 6340 AND";
"2 1 6336 6340 6341 XOR";
"2 1 6203 77 6342 XOR";
"2 1 6341 77 6343 XOR";
"2 1 6342 6341 6344 XOR";
"2 1 6342 6343 6345 AND";
"2 1 6341 6345 6346 XOR";
"2 1 6206 78 6347 XOR";
"2 1 6346 78 6348 XOR";
"2 1 6347 6346 6349 XOR";
"2 1 6347 6348 6350 AND";
"2 1 6346 6350 6351 XOR";
"2 1 6209 79 6352 XOR";
"2 1 6351 79 6353 XOR";
"2 1 6352 6351 6354 XOR";
"2 1 6352 6353 6355 AND";
"2 1 6351 6355 6356 XOR";
"2 1 6212 80 6357 XOR";
"2 1 6356 80 6358 XOR";
"2 1 6357 6356 6359 XOR";
"2 1 6357 6358 6360 AND";
"2 1 6356 6360 6361 XOR";
"2 1 6215 81 6362 XOR";
"2 1 6361 81 6363 XOR";
"2 1 6362 6361 6364 XOR";
"2 1 6362 6363 6365 AND";
"2 1 6361 6365 6366 XOR";
"2 1 6218 82 6367 XOR";
"2 1 6366 82 6368 XOR";
"2 1 6367 6366 6369 XOR";
"2 1 6367 6368 6370 AND";
"2 1 6366 6370 6371 XOR";
"2 1 6221 83 6372 XOR";
"2 1 6371 83 6373 XOR";
"2 1 6372 6371 6374 XOR";
"2 1 6372 6373 6375 AND";
"2 1 6371 6375 6376 XOR";
"2 1 6224 84 6377 XOR";
"2 1 6376 84 6378 XOR";
"2 1 6377 6376 6379 XOR";
"2 1 6377 6378 6380 AND";
"2 1 6376 6380 6381 XOR";
"2 1 6227 85 6382 XOR";
"2 1 6381 85 6383 XOR";
"2 1 6382 6381 6384 XOR";
"2 1 6382 6383 6385 AND";
"2 1 6381 6385 6386 XOR";
"2 1 6230 86 6387 XOR";
"2 1 6386 86 6388 XOR";
"2 1 6387 6386 6389 XOR";
"2 1 6387 6388 6390 AND";
"2 1 6386 6390 6391 XOR";
"2 1 6233 87 6392 XOR";
"2 1 6391 87 6393 XOR";
"2 1 6392 6391 6394 XOR";
"2 1 6392 6393 6395 AND";
"2 1 6391 6395 6396 XOR";
"2 1 6236 88 6397 XOR";
"2 1 6396 88 6398 XOR";
"2 1 6397 6396 6399 XOR";
"2 1 6397 6398 6400 AND";
"2 1 6396 6400 6401 XOR";
"2 1 6239 89 6402 XOR";
"2 1 6401 89 6403 XOR";
"2 1 6402 6401 6404 XOR";
"2 1 6402 6403 6405 AND";
"2 1 6401 6405 6406 XOR";
"2 1 6242 90 6407 XOR";
"2 1 6406 90 6408 XOR";
"2 1 6407 6406 6409 XOR";
"2 1 6407 6408 6410 AND";
"2 1 6406 6410 6411 XOR";
"2 1 6245 91 6412 XOR";
"2 1 6411 91 6413 XOR";
"2 1 6412 6411 6414 XOR";
"2 1 6412 6413 6415 AND";
"2 1 6411 6415 6416 XOR";
"2 1 6248 92 6417 XOR";
"2 1 6416 92 6418 XOR";
"2 1 6417 6416 6419 XOR";
"2 1 6417 6418 6420 AND";
"2 1 6416 6420 6421 XOR";
"2 1 6251 93 6422 XOR";
"2 1 6421 93 6423 XOR";
"2 1 6422 6421 6424 XOR";
"2 1 6422 6423 6425 AND";
"2 1 6421 6425 6426 XOR";
"2 1 6254 94 6427 XOR";
"2 1 6426 94 6428 XOR";
"2 1 6427 6426 6429 XOR";
"2 1 6427 6428 6430 AND";
"2 1 6426 6430 6431 XOR";
"2 1 6257 95 6432 XOR";
"2 1 6431 95 6433 XOR";
"2 1 6432 6431 6434 XOR";
"2 1 6432 6433 6435 AND";
"2 1 6431 6435 6436 XOR";
"2 1 6260 96 6437 XOR";
"2 1 6436 96 6438 XOR";
"2 1 6437 6436 6439 XOR";
"2 1 6437 6438 6440 AND";
"2 1 6436 6440 6441 XOR";
"2 1 6263 97 6442 XOR";
"2 1 6441 97 6443 XOR";
"2 1 6442 6441 6444 XOR";
"2 1 6442 6443 6445 AND";
"2 1 6441 6445 6446 XOR";
"2 1 6266 98 6447 XOR";
"2 1 6446 98 6448 XOR";
"2 1 6447 6446 6449 XOR";
"2 1 6447 6448 6450 AND";
"2 1 6446 6450 6451 XOR";
"2 1 6269 99 6452 XOR";
"2 1 6451 99 6453 XOR";
"2 1 6452 6451 6454 XOR";
"2 1 6452 6453 6455 AND";
"2 1 6451 6455 6456 XOR";
"2 1 6272 100 6457 XOR";
"2 1 6456 100 6458 XOR";
"2 1 6457 6456 6459 XOR";
"2 1 6457 6458 6460 AND";
"2 1 6456 6460 6461 XOR";
"2 1 6275 101 6462 XOR";
"2 1 6461 101 6463 XOR";
"2 1 6462 6461 6464 XOR";
"2 1 6462 6463 6465 AND";
"2 1 6461 6465 6466 XOR";
"2 1 6278 102 6467 XOR";
"2 1 6466 102 6468 XOR";
"2 1 6467 6466 6469 XOR";
"2 1 6467 6468 6470 AND";
"2 1 6466 6470 6471 XOR";
"2 1 6471 199 6472 AND";
"2 1 6471 199 6473 XOR";
"2 1 6473 6472 6474 XOR";
"2 1 25 6280 6475 XOR";
"2 1 6474 6475 6476 AND";
"2 1 6476 6280 6477 XOR";
"2 1 6167 6284 6478 XOR";
"2 1 6474 6478 6479 AND";
"2 1 6479 6284 6480 XOR";
"2 1 6170 6289 6481 XOR";
"2 1 6474 6481 6482 AND";
"2 1 6482 6289 6483 XOR";
"2 1 6173 6294 6484 XOR";
"2 1 6474 6484 6485 AND";
"2 1 6485 6294 6486 XOR";
"2 1 6176 6299 6487 XOR";
"2 1 6474 6487 6488 AND";
"2 1 6488 6299 6489 XOR";
"2 1 6179 6304 6490 XOR";
"2 1 6474 6490 6491 AND";
"2 1 6491 6304 6492 XOR";
"2 1 6182 6309 6493 XOR";
"2 1 6474 6493 6494 AND";
"2 1 6494 6309 6495 XOR";
"2 1 6185 6314 6496 XOR";
"2 1 6474 6496 6497 AND";
"2 1 6497 6314 6498 XOR";
"2 1 6188 6319 6499 XOR";
"2 1 6474 6499 6500 AND";
"2 1 6500 6319 6501 XOR";
"2 1 6191 6324 6502 XOR";
"2 1 6474 6502 6503 AND";
"2 1 6503 6324 6504 XOR";
"2 1 6194 6329 6505 XOR";
"2 1 6474 6505 6506 AND";
"2 1 6506 6329 6507 XOR";
"2 1 6197 6334 6508 XOR";
"2 1 6474 6508 6509 AND";
"2 1 6509 6334 6510 XOR";
"2 1 6200 6339 6511 XOR";
"2 1 6474 6511 6512 AND";
"2 1 6512 6339 6513 XOR";
"2 1 6203 6344 6514 XOR";
"2 1 6474 6514 6515 AND";
"2 1 6515 6344 6516 XOR";
"2 1 6206 6349 6517 XOR";
"2 1 6474 6517 6518 AND";
"2 1 6518 6349 6519 XOR";
"2 1 6209 6354 6520 XOR";
"2 1 6474 6520 6521 AND";
"2 1 6521 6354 6522 XOR";
"2 1 6212 6359 6523 XOR";
"2 1 6474 6523 6524 AND";
"2 1 6524 6359 6525 XOR";
"2 1 6215 6364 6526 XOR";
"2 1 6474 6526 6527 AND";
"2 1 6527 6364 6528 XOR";
"2 1 6218 6369 6529 XOR";
"2 1 6474 6529 6530 AND";
"2 1 6530 6369 6531 XOR";
"2 1 6221 6374 6532 XOR";
"2 1 6474 6532 6533 AND";
"2 1 6533 6374 6534 XOR";
"2 1 6224 6379 6535 XOR";
"2 1 6474 6535 6536 AND";
"2 1 6536 6379 6537 XOR";
"2 1 6227 6384 6538 XOR";
"2 1 6474 6538 6539 AND";
"2 1 6539 6384 6540 XOR";
"2 1 6230 6389 6541 XOR";
"2 1 6474 6541 6542 AND";
"2 1 6542 6389 6543 XOR";
"2 1 6233 6394 6544 XOR";
"2 1 6474 6544 6545 AND";
"2 1 6545 6394 6546 XOR";
"2 1 6236 6399 6547 XOR";
"2 1 6474 6547 6548 AND";
"2 1 6548 6399 6549 XOR";
"2 1 6239 6404 6550 XOR";
"2 1 6474 6550 6551 AND";
"2 1 6551 6404 6552 XOR";
"2 1 6242 6409 6553 XOR";
"2 1 6474 6553 6554 AND";
"2 1 6554 6409 6555 XOR";
"2 1 6245 6414 6556 XOR";
"2 1 6474 6556 6557 AND";
"2 1 6557 6414 6558 XOR";
"2 1 6248 6419 6559 XOR";
"2 1 6474 6559 6560 AND";
"2 1 6560 6419 6561 XOR";
"2 1 6251 6424 6562 XOR";
"2 1 6474 6562 6563 AND";
"2 1 6563 6424 6564 XOR";
"2 1 6254 6429 6565 XOR";
"2 1 6474 6565 6566 AND";
"2 1 6566 6429 6567 XOR";
"2 1 6257 6434 6568 XOR";
"2 1 6474 6568 6569 AND";
"2 1 6569 6434 6570 XOR";
"2 1 6260 6439 6571 XOR";
"2 1 6474 6571 6572 AND";
"2 1 6572 6439 6573 XOR";
"2 1 6263 6444 6574 XOR";
"2 1 6474 6574 6575 AND";
"2 1 6575 6444 6576 XOR";
"2 1 6266 6449 6577 XOR";
"2 1 6474 6577 6578 AND";
"2 1 6578 6449 6579 XOR";
"2 1 6269 6454 6580 XOR";
"2 1 6474 6580 6581 AND";
"2 1 6581 6454 6582 XOR";
"2 1 6272 6459 6583 XOR";
"2 1 6474 6583 6584 AND";
"2 1 6584 6459 6585 XOR";
"2 1 6275 6464 6586 XOR";
"2 1 6474 6586 6587 AND";
"2 1 6587 6464 6588 XOR";
"2 1 6278 6469 6589 XOR";
"2 1 6474 6589 6590 AND";
"2 1 6590 6469 6591 XOR";
"1 1 6474 6592 INV";
"2 1 24 64 6593 XOR";
"2 1 6593 64 6594 AND";
"2 1 6477 65 6595 XOR";
"2 1 6594 65 6596 XOR";
"2 1 6595 6594 6597 XOR";
"2 1 6595 6596 6598 AND";
"2 1 6594 6598 6599 XOR";
"2 1 6480 66 6600 XOR";
"2 1 6599 66 6601 XOR";
"2 1 6600 6599 6602 XOR";
"2 1 6600 6601 6603 AND";
"2 1 6599 6603 6604 XOR";
"2 1 6483 67 6605 XOR";
"2 1 6604 67 6606 XOR";
"2 1 6605 6604 6607 XOR";
"2 1 6605 6606 6608 AND";
"2 1 6604 6608 6609 XOR";
"2 1 6486 68 6610 XOR";
"2 1 6609 68 6611 XOR";
"2 1 6610 6609 6612 XOR";
"2 1 6610 6611 6613 AND";
"2 1 6609 6613 6614 XOR";
"2 1 6489 69 6615 XOR";
"2 1 6614 69 6616 XOR";
"2 1 6615 6614 6617 XOR";
"2 1 6615 6616 6618 AND";
"2 1 6614 6618 6619 XOR";
"2 1 6492 70 6620 XOR";
"2 1 6619 70 6621 XOR";
"2 1 6620 6619 6622 XOR";
"2 1 6620 6621 6623 AND";
"2 1 6619 6623 6624 XOR";
"2 1 6495 71 6625 XOR";
"2 1 6624 71 6626 XOR";
"2 1 6625 6624 6627 XOR";
"2 1 6625 6626 6628 AND";
"2 1 6624 6628 6629 XOR";
"2 1 6498 72 6630 XOR";
"2 1 6629 72 6631 XOR";
"2 1 6630 6629 6632 XOR";
"2 1 6630 6631 6633 AND";
"2 1 6629 6633 6634 XOR";
"2 1 6501 73 6635 XOR";
"2 1 6634 73 6636 XOR";
"2 1 6635 6634 6637 XOR";
"2 1 6635 6636 6638 AND";
"2 1 6634 6638 6639 XOR";
"2 1 6504 74 6640 XOR";
"2 1 6639 74 6641 XOR";
"2 1 6640 6639 6642 XOR";
"2 1 6640 6641 6643 AND";
"2 1 6639 6643 6644 XOR";
"2 1 6507 75 6645 XOR";
"2 1 6644 75 6646 XOR";
"2 1 6645 6644 6647 XOR";
"2 1 6645 6646 6648 AND";
"2 1 6644 6648 6649 XOR";
"2 1 6510 76 6650 XOR";
"2 1 6649 76 6651 XOR";
"2 1 6650 6649 6652 XOR";
"2 1 6650 6651 6653 AND";
"2 1 6649 6653 6654 XOR";
"2 1 6513 77 6655 XOR";
"2 1 6654 77 6656 XOR";
"2 1 6655 6654 6657 XOR";
"2 1 6655 6656 6658 AND";
"2 1 6654 6658 6659 XOR";
"2 1 6516 78 6660 XOR";
"2 1 6659 78 6661 XOR";
"2 1 6660 6659 6662 XOR";
"2 1 6660 6661 6663 AND";
"2 1 6659 6663 6664 XOR";
"2 1 6519 79 6665 XOR";
"2 1 6664 79 6666 XOR";
"2 1 6665 6664 6667 XOR";
"2 1 6665 6666 6668 AND";
"2 1 6664 6668 6669 XOR";
"2 1 6522 80 6670 XOR";
"2 1 6669 80 6671 XOR";
"2 1 6670 6669 6672 XOR";
"2 1 6670 6671 6673 AND";
"2 1 6669 6673 6674 XOR";
"2 1 6525 81 6675 XOR";
"2 1 6674 81 6676 XOR";
"2 1 6675 6674 6677 XOR";
"2 1 6675 6676 6678 AND";
"2 1 6674 6678 6679 XOR";
"2 1 6528 82 6680 XOR";
"2 1 6679 82 6681 XOR";
"2 1 6680 6679 6682 XOR";
"2 1 6680 6681 6683 AND";
"2 1 6679 6683 6684 XOR";
"2 1 6531 83 6685 XOR";
"2 1 6684 83 6686 XOR";
"2 1 6685 6684 6687 XOR";
"2 1 6685 6686 6688 AND";
"2 1 6684 6688 6689 XOR";
"2 1 6534 84 6690 XOR";
"2 1 6689 84 6691 XOR";
"2 1 6690 6689 6692 XOR";
"2 1 6690 6691 6693 AND";
"2 1 6689 6693 6694 XOR";
"2 1 6537 85 6695 XOR";
"2 1 6694 85 6696 XOR";
"2 1 6695 6694 6697 XOR";
"2 1 6695 6696 6698 AND";
"2 1 6694 6698 6699 XOR";
"2 1 6540 86 6700 XOR";
"2 1 6699 86 6701 XOR";
"2 1 6700 6699 6702 XOR";
"2 1 6700 6701 6703 AND";
"2 1 6699 6703 6704 XOR";
"2 1 6543 87 6705 XOR";
"2 1 6704 87 6706 XOR";
"2 1 6705 6704 6707 XOR";
"2 1 6705 6706 6708 AND";
"2 1 6704 6708 6709 XOR";
"2 1 6546 88 6710 XOR";
"2 1 6709 88 6711 XOR";
"2 1 6710 6709 6712 XOR";
"2 1 6710 6711 6713 AND";
"2 1 6709 6713 6714 XOR";
"2 1 6549 89 6715 XOR";
"2 1 6714 89 6716 XOR";
"2 1 6715 6714 6717 XOR";
"2 1 6715 6716 6718 AND";
"2 1 6714 6718 6719 XOR";
"2 1 6552 90 6720 XOR";
"2 1 6719 90 6721 XOR";
"2 1 6720 6719 6722 XOR";
"2 1 6720 6721 6723 AND";
"2 1 6719 6723 6724 XOR";
"2 1 6555 91 6725 XOR";
"2 1 6724 91 6726 XOR";
"2 1 6725 6724 6727 XOR";
"2 1 6725 6726 6728 AND";
"2 1 6724 6728 6729 XOR";
"2 1 6558 92 6730 XOR";
"2 1 6729 92 6731 XOR";
"2 1 6730 6729 6732 XOR";
"2 1 6730 6731 6733 AND";
"2 1 6729 6733 6734 XOR";
"2 1 6561 93 6735 XOR";
"2 1 6734 93 6736 XOR";
"2 1 6735 6734 6737 XOR";
"2 1 6735 6736 6738 AND";
"2 1 6734 6738 6739 XOR";
"2 1 6564 94 6740 XOR";
"2 1 6739 94 6741 XOR";
"2 1 6740 6739 6742 XOR";
"2 1 6740 6741 6743 AND";
"2 1 6739 6743 6744 XOR";
"2 1 6567 95 6745 XOR";
"2 1 6744 95 6746 XOR";
"2 1 6745 6744 6747 XOR";
"2 1 6745 6746 6748 AND";
"2 1 6744 6748 6749 XOR";
"2 1 6570 96 6750 XOR";
"2 1 6749 96 6751 XOR";
"2 1 6750 6749 6752 XOR";
"2 1 6750 6751 6753 AND";
"2 1 6749 6753 6754 XOR";
"2 1 6573 97 6755 XOR";
"2 1 6754 97 6756 XOR";
"2 1 6755 6754 6757 XOR";
"2 1 6755 6756 6758 AND";
"2 1 6754 6758 6759 XOR";
"2 1 6576 98 6760 XOR";
"2 1 6759 98 6761 XOR";
"2 1 6760 6759 6762 XOR";
"2 1 6760 6761 6763 AND";
"2 1 6759 6763 6764 XOR";
"2 1 6579 99 6765 XOR";
"2 1 6764 99 6766 XOR";
"2 1 6765 6764 6767 XOR";
"2 1 6765 6766 6768 AND";
"2 1 6764 6768 6769 XOR";
"2 1 6582 100 6770 XOR";
"2 1 6769 100 6771 XOR";
"2 1 6770 6769 6772 XOR";
"2 1 6770 6771 6773 AND";
"2 1 6769 6773 6774 XOR";
"2 1 6585 101 6775 XOR";
"2 1 6774 101 6776 XOR";
"2 1 6775 6774 6777 XOR";
"2 1 6775 6776 6778 AND";
"2 1 6774 6778 6779 XOR";
"2 1 6588 102 6780 XOR";
"2 1 6779 102 6781 XOR";
"2 1 6780 6779 6782 XOR";
"2 1 6780 6781 6783 AND";
"2 1 6779 6783 6784 XOR";
"2 1 6591 103 6785 XOR";
"2 1 6784 103 6786 XOR";
"2 1 6785 6784 6787 XOR";
"2 1 6785 6786 6788 AND";
"2 1 6784 6788 6789 XOR";
"2 1 6789 196 6790 AND";
"2 1 6789 196 6791 XOR";
"2 1 6791 6790 6792 XOR";
"2 1 24 6593 6793 XOR";
"2 1 6792 6793 6794 AND";
"2 1 6794 6593 6795 XOR";
"2 1 6477 6597 6796 XOR";
"2 1 6792 6796 6797 AND";
"2 1 6797 6597 6798 XOR";
"2 1 6480 6602 6799 XOR";
"2 1 6792 6799 6800 AND";
"2 1 6800 6602 6801 XOR";
"2 1 6483 6607 6802 XOR";
"2 1 6792 6802 6803 AND";
"2 1 6803 6607 6804 XOR";
"2 1 6486 6612 6805 XOR";
"2 1 6792 6805 6806 AND";
"2 1 6806 6612 6807 XOR";
"2 1 6489 6617 6808 XOR";
"2 1 6792 6808 6809 AND";
"2 1 6809 6617 6810 XOR";
"2 1 6492 6622 6811 XOR";
"2 1 6792 6811 6812 AND";
"2 1 6812 6622 6813 XOR";
"2 1 6495 6627 6814 XOR";
"2 1 6792 6814 6815 AND";
"2 1 6815 6627 6816 XOR";
"2 1 6498 6632 6817 XOR";
"2 1 6792 6817 6818 AND";
"2 1 6818 6632 6819 XOR";
"2 1 6501 6637 6820 XOR";
"2 1 6792 6820 6821 AND";
"2 1 6821 6637 6822 XOR";
"2 1 6504 6642 6823 XOR";
"2 1 6792 6823 6824 AND";
"2 1 6824 6642 6825 XOR";
"2 1 6507 6647 6826 XOR";
"2 1 6792 6826 6827 AND";
"2 1 6827 6647 6828 XOR";
"2 1 6510 6652 6829 XOR";
"2 1 6792 6829 6830 AND";
"2 1 6830 6652 6831 XOR";
"2 1 6513 6657 6832 XOR";
"2 1 6792 6832 6833 AND";
"2 1 6833 6657 6834 XOR";
"2 1 6516 6662 6835 XOR";
"2 1 6792 6835 6836 AND";
"2 1 6836 6662 6837 XOR";
"2 1 6519 6667 6838 XOR";
"2 1 6792 6838 6839 AND";
"2 1 6839 6667 6840 XOR";
"2 1 6522 6672 6841 XOR";
"2 1 6792 6841 6842 AND";
"2 1 6842 6672 6843 XOR";
"2 1 6525 6677 6844 XOR";
"2 1 6792 6844 6845 AND";
"2 1 6845 6677 6846 XOR";
"2 1 6528 6682 6847 XOR";
"2 1 6792 6847 6848 AND";
"2 1 6848 6682 6849 XOR";
"2 1 6531 6687 6850 XOR";
"2 1 6792 6850 6851 AND";
"2 1 6851 6687 6852 XOR";
"2 1 6534 6692 6853 XOR";
"2 1 6792 6853 6854 AND";
"2 1 6854 6692 6855 XOR";
"2 1 6537 6697 6856 XOR";
"2 1 6792 6856 6857 AND";
"2 1 6857 6697 6858 XOR";
"2 1 6540 6702 6859 XOR";
"2 1 6792 6859 6860 AND";
"2 1 6860 6702 6861 XOR";
"2 1 6543 6707 6862 XOR";
"2 1 6792 6862 6863 AND";
"2 1 6863 6707 6864 XOR";
"2 1 6546 6712 6865 XOR";
"2 1 6792 6865 6866 AND";
"2 1 6866 6712 6867 XOR";
"2 1 6549 6717 6868 XOR";
"2 1 6792 6868 6869 AND";
"2 1 6869 6717 6870 XOR";
"2 1 6552 6722 6871 XOR";
"2 1 6792 6871 6872 AND";
"2 1 6872 6722 6873 XOR";
"2 1 6555 6727 6874 XOR";
"2 1 6792 6874 6875 AND";
"2 1 6875 6727 6876 XOR";
"2 1 6558 6732 6877 XOR";
"2 1 6792 6877 6878 AND";
"2 1 6878 6732 6879 XOR";
"2 1 6561 6737 6880 XOR";
"2 1 6792 6880 6881 AND";
"2 1 6881 6737 6882 XOR";
"2 1 6564 6742 6883 XOR";
"2 1 6792 6883 6884 AND";
"2 1 6884 6742 6885 XOR";
"2 1 6567 6747 6886 XOR";
"2 1 6792 6886 6887 AND";
"2 1 6887 6747 6888 XOR";
"2 1 6570 6752 6889 XOR";
"2 1 6792 6889 6890 AND";
"2 1 6890 6752 6891 XOR";
"2 1 6573 6757 6892 XOR";
"2 1 6792 6892 6893 AND";
"2 1 6893 6757 6894 XOR";
"2 1 6576 6762 6895 XOR";
"2 1 6792 6895 6896 AND";
"2 1 6896 6762 6897 XOR";
"2 1 6579 6767 6898 XOR";
"2 1 6792 6898 6899 AND";
"2 1 6899 6767 6900 XOR";
"2 1 6582 6772 6901 XOR";
"2 1 6792 6901 6902 AND";
"2 1 6902 6772 6903 XOR";
"2 1 6585 6777 6904 XOR";
"2 1 6792 6904 6905 AND";
"2 1 6905 6777 6906 XOR";
"2 1 6588 6782 6907 XOR";
"2 1 6792 6907 6908 AND";
"2 1 6908 6782 6909 XOR";
"2 1 6591 6787 6910 XOR";
"2 1 6792 6910 6911 AND";
"2 1 6911 6787 6912 XOR";
"1 1 6792 6913 INV";
"2 1 23 64 6914 XOR";
"2 1 6914 64 6915 AND";
"2 1 6795 65 6916 XOR";
"2 1 6915 65 6917 XOR";
"2 1 6916 6915 6918 XOR";
"2 1 6916 6917 6919 AND";
"2 1 6915 6919 6920 XOR";
"2 1 6798 66 6921 XOR";
"2 1 6920 66 6922 XOR";
"2 1 6921 6920 6923 XOR";
"2 1 6921 6922 6924 AND";
"2 1 6920 6924 6925 XOR";
"2 1 6801 67 6926 XOR";
"2 1 6925 67 6927 XOR";
"2 1 6926 6925 6928 XOR";
"2 1 6926 6927 6929 AND";
"2 1 6925 6929 6930 XOR";
"2 1 6804 68 6931 XOR";
"2 1 6930 68 6932 XOR";
"2 1 6931 6930 6933 XOR";
"2 1 6931 6932 6934 AND";
"2 1 6930 6934 6935 XOR";
"2 1 6807 69 6936 XOR";
"2 1 6935 69 6937 XOR";
"2 1 6936 6935 6938 XOR";
"2 1 6936 6937 6939 AND";
"2 1 6935 6939 6940 XOR";
"2 1 6810 70 6941 XOR";
"2 1 6940 70 6942 XOR";
"2 1 6941 6940 6943 XOR";
"2 1 6941 6942 6944 AND";
"2 1 6940 6944 6945 XOR";
"2 1 6813 71 6946 XOR";
"2 1 6945 71 6947 XOR";
"2 1 6946 6945 6948 XOR";
"2 1 6946 6947 6949 AND";
"2 1 6945 6949 6950 XOR";
"2 1 6816 72 6951 XOR";
"2 1 6950 72 6952 XOR";
"2 1 6951 6950 6953 XOR";
"2 1 6951 6952 6954 AND";
"2 1 6950 6954 6955 XOR";
"2 1 6819 73 6956 XOR";
"2 1 6955 73 6957 XOR";
"2 1 6956 6955 6958 XOR";
"2 1 6956 6957 6959 AND";
"2 1 6955 6959 6960 XOR";
"2 1 6822 74 6961 XOR";
"2 1 6960 74 6962 XOR";
"2 1 6961 6960 6963 XOR";
"2 1 6961 6962 6964 AND";
"2 1 6960 6964 6965 XOR";
"2 1 6825 75 6966 XOR";
"2 1 6965 75 6967 XOR";
"2 1 6966 6965 6968 XOR";
"2 1 6966 6967 6969 AND";
"2 1 6965 6969 6970 XOR";
"2 1 6828 76 6971 XOR";
"2 1 6970 76 6972 XOR";
"2 1 6971 6970 6973 XOR";
"2 1 6971 6972 6974 AND";
"2 1 6970 6974 6975 XOR";
"2 1 6831 77 6976 XOR";
"2 1 6975 77 6977 XOR";
"2 1 6976 6975 6978 XOR";
"2 1 6976 6977 6979 AND";
"2 1 6975 6979 6980 XOR";
"2 1 6834 78 6981 XOR";
"2 1 6980 78 6982 XOR";
"2 1 6981 6980 6983 XOR";
"2 1 6981 6982 6984 AND";
"2 1 6980 6984 6985 XOR";
"2 1 6837 79 6986 XOR";
"2 1 6985 79 6987 XOR";
"2 1 6986 6985 6988 XOR";
"2 1 6986 6987 6989 AND";
"2 1 6985 6989 6990 XOR";
"2 1 6840 80 6991 XOR";
"2 1 6990 80 6992 XOR";
"2 1 6991 6990 6993 XOR";
"2 1 6991 6992 6994 AND";
"2 1 6990 6994 6995 XOR";
"2 1 6843 81 6996 XOR";
"2 1 6995 81 6997 XOR";
"2 1 6996 6995 6998 XOR";
"2 1 6996 6997 6999 AND";
"2 1 6995 6999 7000 XOR";
"2 1 6846 82 7001 XOR";
"2 1 7000 82 7002 XOR";
"2 1 7001 7000 7003 XOR";
"2 1 7001 7002 7004 AND";
"2 1 7000 7004 7005 XOR";
"2 1 6849 83 7006 XOR";
"2 1 7005 83 7007 XOR";
"2 1 7006 7005 7008 XOR";
"2 1 7006 7007 7009 AND";
"2 1 7005 7009 7010 XOR";
"2 1 6852 84 7011 XOR";
"2 1 7010 84 7012 XOR";
"2 1 7011 7010 7013 XOR";
"2 1 7011 7012 7014 AND";
"2 1 7010 7014 7015 XOR";
"2 1 6855 85 7016 XOR";
"2 1 7015 85 7017 XOR";
"2 1 7016 7015 7018 XOR";
"2 1 7016 7017 7019 AND";
"2 1 7015 7019 7020 XOR";
"2 1 6858 86 7021 XOR";
"2 1 7020 86 7022 XOR";
"2 1 7021 7020 7023 XOR";
"2 1 7021 7022 7024 AND";
"2 1 7020 7024 7025 XOR";
"2 1 6861 87 7026 XOR";
"2 1 7025 87 7027 XOR";
"2 1 7026 7025 7028 XOR";
"2 1 7026 7027 7029 AND";
"2 1 7025 7029 7030 XOR";
"2 1 6864 88 7031 XOR";
"2 1 7030 88 7032 XOR";
"2 1 7031 7030 7033 XOR";
"2 1 7031 7032 7034 AND";
"2 1 7030 7034 7035 XOR";
"2 1 6867 89 7036 XOR";
"2 1 7035 89 7037 XOR";
"2 1 7036 7035 7038 XOR";
"2 1 7036 7037 7039 AND";
"2 1 7035 7039 7040 XOR";
"2 1 6870 90 7041 XOR";
"2 1 7040 90 7042 XOR";
"2 1 7041 7040 7043 XOR";
"2 1 7041 7042 7044 AND";
"2 1 7040 7044 7045 XOR";
"2 1 6873 91 7046 XOR";
"2 1 7045 91 7047 XOR";
"2 1 7046 7045 7048 XOR";
"2 1 7046 7047 7049 AND";
"2 1 7045 7049 7050 XOR";
"2 1 6876 92 7051 XOR";
"2 1 7050 92 7052 XOR";
"2 1 7051 7050 7053 XOR";
"2 1 7051 7052 7054 AND";
"2 1 7050 7054 7055 XOR";
"2 1 6879 93 7056 XOR";
"2 1 7055 93 7057 XOR";
"2 1 7056 7055 7058 XOR";
"2 1 7056 7057 7059 AND";
"2 1 7055 7059 7060 XOR";
"2 1 6882 94 7061 XOR";
"2 1 7060 94 7062 XOR";
"2 1 7061 7060 7063 XOR";
"2 1 7061 7062 7064 AND";
"2 1 7060 7064 7065 XOR";
"2 1 6885 95 7066 XOR";
"2 1 7065 95 7067 XOR";
"2 1 7066 7065 7068 XOR";
"2 1 7066 7067 7069 AND";
"2 1 7065 7069 7070 XOR";
"2 1 6888 96 7071 XOR";
"2 1 7070 96 7072 XOR";
"2 1 7071 7070 7073 XOR";
"2 1 7071 7072 7074 AND";
"2 1 7070 7074 7075 XOR";
"2 1 6891 97 7076 XOR";
"2 1 7075 97 7077 XOR";
"2 1 7076 7075 7078 XOR";
"2 1 7076 7077 7079 AND";
"2 1 7075 7079 7080 XOR";
"2 1 6894 98 7081 XOR";
"2 1 7080 98 7082 XOR";
"2 1 7081 7080 7083 XOR";
"2 1 7081 7082 7084 AND";
"2 1 7080 7084 7085 XOR";
"2 1 6897 99 7086 XOR";
"2 1 7085 99 7087 XOR";
"2 1 7086 7085 7088 XOR";
"2 1 7086 7087 7089 AND";
"2 1 7085 7089 7090 XOR";
"2 1 6900 100 7091 XOR";
"2 1 7090 100 7092 XOR";
"2 1 7091 7090 7093 XOR";
"2 1 7091 7092 7094 AND";
"2 1 7090 7094 7095 XOR";
"2 1 6903 101 7096 XOR";
"2 1 7095 101 7097 XOR";
"2 1 7096 7095 7098 XOR";
"2 1 7096 7097 7099 AND";
"2 1 7095 7099 7100 XOR";
"2 1 6906 102 7101 XOR";
"2 1 7100 102 7102 XOR";
"2 1 7101 7100 7103 XOR";
"2 1 7101 7102 7104 AND";
"2 1 7100 7104 7105 XOR";
"2 1 6909 103 7106 XOR";
"2 1 7105 103 7107 XOR";
"2 1 7106 7105 7108 XOR";
"2 1 7106 7107 7109 AND";
"2 1 7105 7109 7110 XOR";
"2 1 6912 104 7111 XOR";
"2 1 7110 104 7112 XOR";
"2 1 7111 7110 7113 XOR";
"2 1 7111 7112 7114 AND";
"2 1 7110 7114 7115 XOR";
"2 1 7115 193 7116 AND";
"2 1 7115 193 7117 XOR";
"2 1 7117 7116 7118 XOR";
"2 1 23 6914 7119 XOR";
"2 1 7118 7119 7120 AND";
"2 1 7120 6914 7121 XOR";
"2 1 6795 6918 7122 XOR";
"2 1 7118 7122 7123 AND";
"2 1 7123 6918 7124 XOR";
"2 1 6798 6923 7125 XOR";
"2 1 7118 7125 7126 AND";
"2 1 7126 6923 7127 XOR";
"2 1 6801 6928 7128 XOR";
"2 1 7118 7128 7129 AND";
"2 1 7129 6928 7130 XOR";
"2 1 6804 6933 7131 XOR";
"2 1 7118 7131 7132 AND";
"2 1 7132 6933 7133 XOR";
"2 1 6807 6938 7134 XOR";
"2 1 7118 7134 7135 AND";
"2 1 7135 6938 7136 XOR";
"2 1 6810 6943 7137 XOR";
"2 1 7118 7137 7138 AND";
"2 1 7138 6943 7139 XOR";
"2 1 6813 6948 7140 XOR";
"2 1 7118 7140 7141 AND";
"2 1 7141 6948 7142 XOR";
"2 1 6816 6953 7143 XOR";
"2 1 7118 7143 7144 AND";
"2 1 7144 6953 7145 XOR";
"2 1 6819 6958 7146 XOR";
"2 1 7118 7146 7147 AND";
"2 1 7147 6958 7148 XOR";
"2 1 6822 6963 7149 XOR";
"2 1 7118 7149 7150 AND";
"2 1 7150 6963 7151 XOR";
"2 1 6825 6968 7152 XOR";
"2 1 7118 7152 7153 AND";
"2 1 7153 6968 7154 XOR";
"2 1 6828 6973 7155 XOR";
"2 1 7118 7155 7156 AND";
"2 1 7156 6973 7157 XOR";
"2 1 6831 6978 7158 XOR";
"2 1 7118 7158 7159 AND";
"2 1 7159 6978 7160 XOR";
"2 1 6834 6983 7161 XOR";
"2 1 7118 7161 7162 AND";
"2 1 7162 6983 7163 XOR";
"2 1 6837 6988 7164 XOR";
"2 1 7118 7164 7165 AND";
"2 1 7165 6988 7166 XOR";
"2 1 6840 6993 7167 XOR";
"2 1 7118 7167 7168 AND";
"2 1 7168 6993 7169 XOR";
"2 1 6843 6998 7170 XOR";
"2 1 7118 7170 7171 AND";
"2 1 7171 6998 7172 XOR";
"2 1 6846 7003 7173 XOR";
"2 1 7118 7173 7174 AND";
"2 1 7174 7003 7175 XOR";
"2 1 6849 7008 7176 XOR";
"2 1 7118 7176 7177 AND";
"2 1 7177 7008 7178 XOR";
"2 1 6852 7013 7179 XOR";
"2 1 7118 7179 7180 AND";
"2 1 7180 7013 7181 XOR";
"2 1 6855 7018 7182 XOR";
"2 1 7118 7182 7183 AND";
"2 1 7183 7018 7184 XOR";
"2 1 6858 7023 7185 XOR";
"2 1 7118 7185 7186 AND";
"2 1 7186 7023 7187 XOR";
"2 1 6861 7028 7188 XOR";
"2 1 7118 7188 7189 AND";
"2 1 7189 7028 7190 XOR";
"2 1 6864 7033 7191 XOR";
"2 1 7118 7191 7192 AND";
"2 1 7192 7033 7193 XOR";
"2 1 6867 7038 7194 XOR";
"2 1 7118 7194 7195 AND";
"2 1 7195 7038 7196 XOR";
"2 1 6870 7043 7197 XOR";
"2 1 7118 7197 7198 AND";
"2 1 7198 7043 7199 XOR";
"2 1 6873 7048 7200 XOR";
"2 1 7118 7200 7201 AND";
"2 1 7201 7048 7202 XOR";
"2 1 6876 7053 7203 XOR";
"2 1 7118 7203 7204 AND";
"2 1 7204 7053 7205 XOR";
"2 1 6879 7058 7206 XOR";
"2 1 7118 7206 7207 AND";
"2 1 7207 7058 7208 XOR";
"2 1 6882 7063 7209 XOR";
"2 1 7118 7209 7210 AND";
"2 1 7210 7063 7211 XOR";
"2 1 6885 7068 7212 XOR";
"2 1 7118 7212 7213 AND";
"2 1 7213 7068 7214 XOR";
"2 1 6888 7073 7215 XOR";
"2 1 7118 7215 7216 AND";
"2 1 7216 7073 7217 XOR";
"2 1 6891 7078 7218 XOR";
"2 1 7118 7218 7219 AND";
"2 1 7219 7078 7220 XOR";
"2 1 6894 7083 7221 XOR";
"2 1 7118 7221 7222 AND";
"2 1 7222 7083 7223 XOR";
"2 1 6897 7088 7224 XOR";
"2 1 7118 7224 7225 AND";
"2 1 7225 7088 7226 XOR";
"2 1 6900 7093 7227 XOR";
"2 1 7118 7227 7228 AND";
"2 1 7228 7093 7229 XOR";
"2 1 6903 7098 7230 XOR";
"2 1 7118 7230 7231 AND";
"2 1 7231 7098 7232 XOR";
"2 1 6906 7103 7233 XOR";
"2 1 7118 7233 7234 AND";
"2 1 7234 7103 7235 XOR";
"2 1 6909 7108 7236 XOR";
"2 1 7118 7236 7237 AND";
"2 1 7237 7108 7238 XOR";
"2 1 6912 7113 7239 XOR";
"2 1 7118 7239 7240 AND";
"2 1 7240 7113 7241 XOR";
"1 1 7118 7242 INV";
"2 1 22 64 7243 XOR";
"2 1 7243 64 7244 AND";
"2 1 7121 65 7245 XOR";
"2 1 7244 65 7246 XOR";
"2 1 7245 7244 7247 XOR";
"2 1 7245 7246 7248 AND";
"2 1 7244 7248 7249 XOR";
"2 1 7124 66 7250 XOR";
"2 1 7249 66 7251 XOR";
"2 1 7250 7249 7252 XOR";
"2 1 7250 7251 7253 AND";
"2 1 7249 7253 7254 XOR";
"2 1 7127 67 7255 XOR";
"2 1 7254 67 7256 XOR";
"2 1 7255 7254 7257 XOR";
"2 1 7255 7256 7258 AND";
"2 1 7254 7258 7259 XOR";
"2 1 7130 68 7260 XOR";
"2 1 7259 68 7261 XOR";
"2 1 7260 7259 7262 XOR";
"2 1 7260 7261 7263 AND";
"2 1 7259 7263 7264 XOR";
"2 1 7133 69 7265 XOR";
"2 1 7264 69 7266 XOR";
"2 1 7265 7264 7267 XOR";
"2 1 7265 7266 7268 AND";
"2 1 7264 7268 7269 XOR";
"2 1 7136 70 7270 XOR";
"2 1 7269 70 7271 XOR";
"2 1 7270 7269 7272 XOR";
"2 1 7270 7271 7273 AND";
"2 1 7269 7273 7274 XOR";
"2 1 7139 71 7275 XOR";
"2 1 7274 71 7276 XOR";
"2 1 7275 7274 7277 XOR";
"2 1 7275 7276 7278 AND";
"2 1 7274 7278 7279 XOR";
"2 1 7142 72 7280 XOR";
"2 1 7279 72 7281 XOR";
"2 1 7280 7279 7282 XOR";
"2 1 7280 7281 7283 AND";
"2 1 7279 7283 7284 XOR";
"2 1 7145 73 7285 XOR";
"2 1 7284 73 7286 XOR";
"2 1 7285 7284 7287 XOR";
"2 1 7285 7286 7288 AND";
"2 1 7284 7288 7289 XOR";
"2 1 7148 74 7290 XOR";
"2 1 7289 74 7291 XOR";
"2 1 7290 7289 7292 XOR";
"2 1 7290 7291 7293 AND";
"2 1 7289 7293 7294 XOR";
"2 1 7151 75 7295 XOR";
"2 1 7294 75 7296 XOR";
"2 1 7295 7294 7297 XOR";
"2 1 7295 7296 7298 AND";
"2 1 7294 7298 7299 XOR";
"2 1 7154 76 7300 XOR";
"2 1 7299 76 7301 XOR";
"2 1 7300 7299 7302 XOR";
"2 1 7300 7301 7303 AND";
"2 1 7299 7303 7304 XOR";
"2 1 7157 77 7305 XOR";
"2 1 7304 77 7306 XOR";
"2 1 7305 7304 7307 XOR";
"2 1 7305 7306 7308 AND";
"2 1 7304 7308 7309 XOR";
"2 1 7160 78 7310 XOR";
"2 1 7309 78 7311 XOR";
"2 1 7310 7309 7312 XOR";
"2 1 7310 7311 7313 AND";
"2 1 7309 7313 7314 XOR";
"2 1 7163 79 7315 XOR";
"2 1 7314 79 7316 XOR";
"2 1 7315 7314 7317 XOR";
"2 1 7315 7316 7318 AND";
"2 1 7314 7318 7319 XOR";
"2 1 7166 80 7320 XOR";
"2 1 7319 80 7321 XOR";
"2 1 7320 7319 7322 XOR";
"2 1 7320 7321 7323 AND";
"2 1 7319 7323 7324 XOR";
"2 1 7169 81 7325 XOR";
"2 1 7324 81 7326 XOR";
"2 1 7325 7324 7327 XOR";
"2 1 7325 7326 7328 AND";
"2 1 7324 7328 7329 XOR";
"2 1 7172 82 7330 XOR";
"2 1 7329 82 7331 XOR";
"2 1 7330 7329 7332 XOR";
"2 1 7330 7331 7333 AND";
"2 1 7329 7333 7334 XOR";
"2 1 7175 83 7335 XOR";
"2 1 7334 83 7336 XOR";
"2 1 7335 7334 7337 XOR";
"2 1 7335 7336 7338 AND";
"2 1 7334 7338 7339 XOR";
"2 1 7178 84 7340 XOR";
"2 1 7339 84 7341 XOR";
"2 1 7340 7339 7342 XOR";
"2 1 7340 7341 7343 AND";
"2 1 7339 7343 7344 XOR";
"2 1 7181 85 7345 XOR";
"2 1 7344 85 7346 XOR";
"2 1 7345 7344 7347 XOR";
"2 1 7345 7346 7348 AND";
"2 1 7344 7348 7349 XOR";
"2 1 7184 86 7350 XOR";
"2 1 7349 86 7351 XOR";
"2 1 7350 7349 7352 XOR";
"2 1 7350 7351 7353 AND";
"2 1 7349 7353 7354 XOR";
"2 1 7187 87 7355 XOR";
"2 1 7354 87 7356 XOR";
"2 1 7355 7354 7357 XOR";
"2 1 7355 7356 7358 AND";
"2 1 7354 7358 7359 XOR";
"2 1 7190 88 7360 XOR";
"2 1 7359 88 7361 XOR";
"2 1 7360 7359 7362 XOR";
"2 1 7360 7361 7363 AND";
"2 1 7359 7363 7364 XOR";
"2 1 7193 89 7365 XOR";
"2 1 7364 89 7366 XOR";
"2 1 7365 7364 7367 XOR";
"2 1 7365 7366 7368 AND";
"2 1 7364 7368 7369 XOR";
"2 1 7196 90 7370 XOR";
"2 1 7369 90 7371 XOR";
"2 1 7370 7369 7372 XOR";
"2 1 7370 7371 7373 AND";
"2 1 7369 7373 7374 XOR";
"2 1 7199 91 7375 XOR";
"2 1 7374 91 7376 XOR";
"2 1 7375 7374 7377 XOR";
"2 1 7375 7376 7378 AND";
"2 1 7374 7378 7379 XOR";
"2 1 7202 92 7380 XOR";
"2 1 7379 92 7381 XOR";
"2 1 7380 7379 7382 XOR";
"2 1 7380 7381 7383 AND";
"2 1 7379 7383 7384 XOR";
"2 1 7205 93 7385 XOR";
"2 1 7384 93 7386 XOR";
"2 1 7385 7384 7387 XOR";
"2 1 7385 7386 7388 AND";
"2 1 7384 7388 7389 XOR";
"2 1 7208 94 7390 XOR";
"2 1 7389 94 7391 XOR";
"2 1 7390 7389 7392 XOR";
"2 1 7390 7391 7393 AND";
"2 1 7389 7393 7394 XOR";
"2 1 7211 95 7395 XOR";
"2 1 7394 95 7396 XOR";
"2 1 7395 7394 7397 XOR";
"2 1 7395 7396 7398 AND";
"2 1 7394 7398 7399 XOR";
"2 1 7214 96 7400 XOR";
"2 1 7399 96 7401 XOR";
"2 1 7400 7399 7402 XOR";
"2 1 7400 7401 7403 AND";
"2 1 7399 7403 7404 XOR";
"2 1 7217 97 7405 XOR";
"2 1 7404 97 7406 XOR";
"2 1 7405 7404 7407 XOR";
"2 1 7405 7406 7408 AND";
"2 1 7404 7408 7409 XOR";
"2 1 7220 98 7410 XOR";
"2 1 7409 98 7411 XOR";
"2 1 7410 7409 7412 XOR";
"2 1 7410 7411 7413 AND";
"2 1 7409 7413 7414 XOR";
"2 1 7223 99 7415 XOR";
"2 1 7414 99 7416 XOR";
"2 1 7415 7414 7417 XOR";
"2 1 7415 7416 7418 AND";
"2 1 7414 7418 7419 XOR";
"2 1 7226 100 7420 XOR";
"2 1 7419 100 7421 XOR";
"2 1 7420 7419 7422 XOR";
"2 1 7420 7421 7423 AND";
"2 1 7419 7423 7424 XOR";
"2 1 7229 101 7425 XOR";
"2 1 7424 101 7426 XOR";
"2 1 7425 7424 7427 XOR";
"2 1 7425 7426 7428 AND";
"2 1 7424 7428 7429 XOR";
"2 1 7232 102 7430 XOR";
"2 1 7429 102 7431 XOR";
"2 1 7430 7429 7432 XOR";
"2 1 7430 7431 7433 AND";
"2 1 7429 7433 7434 XOR";
"2 1 7235 103 7435 XOR";
"2 1 7434 103 7436 XOR";
"2 1 7435 7434 7437 XOR";
"2 1 7435 7436 7438 AND";
"2 1 7434 7438 7439 XOR";
"2 1 7238 104 7440 XOR";
"2 1 7439 104 7441 XOR";
"2 1 7440 7439 7442 XOR";
"2 1 7440 7441 7443 AND";
"2 1 7439 7443 7444 XOR";
"2 1 7241 105 7445 XOR";
"2 1 7444 105 7446 XOR";
"2 1 7445 7444 7447 XOR";
"2 1 7445 7446 7448 AND";
"2 1 7444 7448 7449 XOR";
"2 1 7449 190 7450 AND";
"2 1 7449 190 7451 XOR";
"2 1 7451 7450 7452 XOR";
"2 1 22 7243 7453 XOR";
"2 1 7452 7453 7454 AND";
"2 1 7454 7243 7455 XOR";
"2 1 7121 7247 7456 XOR";
"2 1 7452 7456 7457 AND";
"2 1 7457 7247 7458 XOR";
"2 1 7124 7252 7459 XOR";
"2 1 7452 7459 7460 AND";
"2 1 7460 7252 7461 XOR";
"2 1 7127 7257 7462 XOR";
"2 1 7452 7462 7463 AND";
"2 1 7463 7257 7464 XOR";
"2 1 7130 7262 7465 XOR";
"2 1 7452 7465 7466 AND";
"2 1 7466 7262 7467 XOR";
"2 1 7133 7267 7468 XOR";
"2 1 7452 7468 7469 AND";
"2 1 7469 7267 7470 XOR";
"2 1 7136 7272 7471 XOR";
"2 1 7452 7471 7472 AND";
"2 1 7472 7272 7473 XOR";
"2 1 7139 7277 7474 XOR";
"2 1 7452 7474 7475 AND";
"2 1 7475 7277 7476 XOR";
"2 1 7142 7282 7477 XOR";
"2 1 7452 7477 7478 AND";
"2 1 7478 7282 7479 XOR";
"2 1 7145 7287 7480 XOR";
"2 1 7452 7480 7481 AND";
"2 1 7481 7287 7482 XOR";
"2 1 7148 7292 7483 XOR";
"2 1 7452 7483 7484 AND";
"2 1 7484 7292 7485 XOR";
"2 1 7151 7297 7486 XOR";
"2 1 7452 7486 7487 AND";
"2 1 7487 7297 7488 XOR";
"2 1 7154 7302 7489 XOR";
"2 1 7452 7489 7490 AND";
"2 1 7490 7302 7491 XOR";
"2 1 7157 7307 7492 XOR";
"2 1 7452 7492 7493 AND";
"2 1 7493 7307 7494 XOR";
"2 1 7160 7312 7495 XOR";
"2 1 7452 7495 7496 AND";
"2 1 7496 7312 7497 XOR";
"2 1 7163 7317 7498 XOR";
"2 1 7452 7498 7499 AND";
"2 1 7499 7317 7500 XOR";
"2 1 7166 7322 7501 XOR";
"2 1 7452 7501 7502 AND";
"2 1 7502 7322 7503 XOR";
"2 1 7169 7327 7504 XOR";
"2 1 7452 7504 7505 AND";
"2 1 7505 7327 7506 XOR";
"2 1 7172 7332 7507 XOR";
"2 1 7452 7507 7508 AND";
"2 1 7508 7332 7509 XOR";
"2 1 7175 7337 7510 XOR";
"2 1 7452 7510 7511 AND";
"2 1 7511 7337 7512 XOR";
"2 1 7178 7342 7513 XOR";
"2 1 7452 7513 7514 AND";
"2 1 7514 7342 7515 XOR";
"2 1 7181 7347 7516 XOR";
"2 1 7452 7516 7517 AND";
"2 1 7517 7347 7518 XOR";
"2 1 7184 7352 7519 XOR";
"2 1 7452 7519 7520 AND";
"2 1 7520 7352 7521 XOR";
"2 1 7187 7357 7522 XOR";
"2 1 7452 7522 7523 AND";
"2 1 7523 7357 7524 XOR";
"2 1 7190 7362 7525 XOR";
"2 1 7452 7525 7526 AND";
"2 1 7526 7362 7527 XOR";
"2 1 7193 7367 7528 XOR";
"2 1 7452 7528 7529 AND";
"2 1 7529 7367 7530 XOR";
"2 1 7196 7372 7531 XOR";
"2 1 7452 7531 7532 AND";
"2 1 7532 7372 7533 XOR";
"2 1 7199 7377 7534 XOR";
"2 1 7452 7534 7535 AND";
"2 1 7535 7377 7536 XOR";
"2 1 7202 7382 7537 XOR";
"2 1 7452 7537 7538 AND";
"2 1 7538 7382 7539 XOR";
"2 1 7205 7387 7540 XOR";
"2 1 7452 7540 7541 AND";
"2 1 7541 7387 7542 XOR";
"2 1 7208 7392 7543 XOR";
"2 1 7452 7543 7544 AND";
"2 1 7544 7392 7545 XOR";
"2 1 7211 7397 7546 XOR";
"2 1 7452 7546 7547 AND";
"2 1 7547 7397 7548 XOR";
"2 1 7214 7402 7549 XOR";
"2 1 7452 7549 7550 AND";
"2 1 7550 7402 7551 XOR";
"2 1 7217 7407 7552 XOR";
"2 1 7452 7552 7553 AND";
"2 1 7553 7407 7554 XOR";
"2 1 7220 7412 7555 XOR";
"2 1 7452 7555 7556 AND";
"2 1 7556 7412 7557 XOR";
"2 1 7223 7417 7558 XOR";
"2 1 7452 7558 7559 AND";
"2 1 7559 7417 7560 XOR";
"2 1 7226 7422 7561 XOR";
"2 1 7452 7561 7562 AND";
"2 1 7562 7422 7563 XOR";
"2 1 7229 7427 7564 XOR";
"2 1 7452 7564 7565 AND";
"2 1 7565 7427 7566 XOR";
"2 1 7232 7432 7567 XOR";
"2 1 7452 7567 7568 AND";
"2 1 7568 7432 7569 XOR";
"2 1 7235 7437 7570 XOR";
"2 1 7452 7570 7571 AND";
"2 1 7571 7437 7572 XOR";
"2 1 7238 7442 7573 XOR";
"2 1 7452 7573 7574 AND";
"2 1 7574 7442 7575 XOR";
"2 1 7241 7447 7576 XOR";
"2 1 7452 7576 7577 AND";
"2 1 7577 7447 7578 XOR";
"1 1 7452 7579 INV";
"2 1 21 64 7580 XOR";
"2 1 7580 64 7581 AND";
"2 1 7455 65 7582 XOR";
"2 1 7581 65 7583 XOR";
"2 1 7582 7581 7584 XOR";
"2 1 7582 7583 7585 AND";
"2 1 7581 7585 7586 XOR";
"2 1 7458 66 7587 XOR";
"2 1 7586 66 7588 XOR";
"2 1 7587 7586 7589 XOR";
"2 1 7587 7588 7590 AND";
"2 1 7586 7590 7591 XOR";
"2 1 7461 67 7592 XOR";
"2 1 7591 67 7593 XOR";
"2 1 7592 7591 7594 XOR";
"2 1 7592 7593 7595 AND";
"2 1 7591 7595 7596 XOR";
"2 1 7464 68 7597 XOR";
"2 1 7596 68 7598 XOR";
"2 1 7597 7596 7599 XOR";
"2 1 7597 7598 7600 AND";
"2 1 7596 7600 7601 XOR";
"2 1 7467 69 7602 XOR";
"2 1 7601 69 7603 XOR";
"2 1 7602 7601 7604 XOR";
"2 1 7602 7603 7605 AND";
"2 1 7601 7605 7606 XOR";
"2 1 7470 70 7607 XOR";
"2 1 7606 70 7608 XOR";
"2 1 7607 7606 7609 XOR";
"2 1 7607 7608 7610 AND";
"2 1 7606 7610 7611 XOR";
"2 1 7473 71 7612 XOR";
"2 1 7611 71 7613 XOR";
"2 1 7612 7611 7614 XOR";
"2 1 7612 7613 7615 AND";
"2 1 7611 7615 7616 XOR";
"2 1 7476 72 7617 XOR";
"2 1 7616 72 7618 XOR";
"2 1 7617 7616 7619 XOR";
"2 1 7617 7618 7620 AND";
"2 1 7616 7620 7621 XOR";
"2 1 7479 73 7622 XOR";
"2 1 7621 73 7623 XOR";
"2 1 7622 7621 7624 XOR";
"2 1 7622 7623 7625 AND";
"2 1 7621 7625 7626 XOR";
"2 1 7482 74 7627 XOR";
"2 1 7626 74 7628 XOR";
"2 1 7627 7626 7629 XOR";
"2 1 7627 7628 7630 AND";
"2 1 7626 7630 7631 XOR";
"2 1 7485 75 7632 XOR";
"2 1 7631 75 7633 XOR";
"2 1 7632 7631 7634 XOR";
"2 1 7632 7633 7635 AND";
"2 1 7631 7635 7636 XOR";
"2 1 7488 76 7637 XOR";
"2 1 7636 76 7638 XOR";
"2 1 7637 7636 7639 XOR";
"2 1 7637 7638 7640 AND";
"2 1 7636 7640 7641 XOR";
"2 1 7491 77 7642 XOR";
"2 1 7641 77 7643 XOR";
"2 1 7642 7641 7644 XOR";
"2 1 7642 7643 7645 AND";
"2 1 7641 7645 7646 XOR";
"2 1 7494 78 7647 XOR";
"2 1 7646 78 7648 XOR";
"2 1 7647 7646 7649 XOR";
"2 1 7647 7648 7650 AND";
"2 1 7646 7650 7651 XOR";
"2 1 7497 79 7652 XOR";
"2 1 7651 79 7653 XOR";
"2 1 7652 7651 7654 XOR";
"2 1 7652 7653 7655 AND";
"2 1 7651 7655 7656 XOR";
"2 1 7500 80 7657 XOR";
"2 1 7656 80 7658 XOR";
"2 1 7657 7656 7659 XOR";
"2 1 7657 7658 7660 AND";
"2 1 7656 7660 7661 XOR";
"2 1 7503 81 7662 XOR";
"2 1 7661 81 7663 XOR";
"2 1 7662 7661 7664 XOR";
"2 1 7662 7663 7665 AND";
"2 1 7661 7665 7666 XOR";
"2 1 7506 82 7667 XOR";
"2 1 7666 82 7668 XOR";
"2 1 7667 7666 7669 XOR";
"2 1 7667 7668 7670 AND";
"2 1 7666 7670 7671 XOR";
"2 1 7509 83 7672 XOR";
"2 1 7671 83 7673 XOR";
"2 1 7672 7671 7674 XOR";
"2 1 7672 7673 7675 AND";
"2 1 7671 7675 7676 XOR";
"2 1 7512 84 7677 XOR";
"2 1 7676 84 7678 XOR";
"2 1 7677 7676 7679 XOR";
"2 1 7677 7678 7680 AND";
"2 1 7676 7680 7681 XOR";
"2 1 7515 85 7682 XOR";
"2 1 7681 85 7683 XOR";
"2 1 7682 7681 7684 XOR";
"2 1 7682 7683 7685 AND";
"2 1 7681 7685 7686 XOR";
"2 1 7518 86 7687 XOR";
"2 1 7686 86 7688 XOR";
"2 1 7687 7686 7689 XOR";
"2 1 7687 7688 7690 AND";
"2 1 7686 7690 7691 XOR";
"2 1 7521 87 7692 XOR";
"2 1 7691 87 7693 XOR";
"2 1 7692 7691 7694 XOR";
"2 1 7692 7693 7695 AND";
"2 1 7691 7695 7696 XOR";
"2 1 7524 88 7697 XOR";
"2 1 7696 88 7698 XOR";
"2 1 7697 7696 7699 XOR";
"2 1 7697 7698 7700 AND";
"2 1 7696 7700 7701 XOR";
"2 1 7527 89 7702 XOR";
"2 1 7701 89 7703 XOR";
"2 1 7702 7701 7704 XOR";
"2 1 7702 7703 7705 AND";
"2 1 7701 7705 7706 XOR";
"2 1 7530 90 7707 XOR";
"2 1 7706 90 7708 XOR";
"2 1 7707 7706 7709 XOR";
"2 1 7707 7708 7710 AND";
"2 1 7706 7710 7711 XOR";
"2 1 7533 91 7712 XOR";
"2 1 7711 91 7713 XOR";
"2 1 7712 7711 7714 XOR";
"2 1 7712 7713 7715 AND";
"2 1 7711 7715 7716 XOR";
"2 1 7536 92 7717 XOR";
"2 1 7716 92 7718 XOR";
"2 1 7717 7716 7719 XOR";
"2 1 7717 7718 7720 AND";
"2 1 7716 7720 7721 XOR";
"2 1 7539 93 7722 XOR";
"2 1 7721 93 7723 XOR";
"2 1 7722 7721 7724 XOR";
"2 1 7722 7723 7725 AND";
"2 1 7721 7725 7726 XOR";
"2 1 7542 94 7727 XOR";
"2 1 7726 94 7728 XOR";
"2 1 7727 7726 7729 XOR";
"2 1 7727 7728 7730 AND";
"2 1 7726 7730 7731 XOR";
"2 1 7545 95 7732 XOR";
"2 1 7731 95 7733 XOR";
"2 1 7732 7731 7734 XOR";
"2 1 7732 7733 7735 AND";
"2 1 7731 7735 7736 XOR";
"2 1 7548 96 7737 XOR";
"2 1 7736 96 7738 XOR";
"2 1 7737 7736 7739 XOR";
"2 1 7737 7738 7740 AND";
"2 1 7736 7740 7741 XOR";
"2 1 7551 97 7742 XOR";
"2 1 7741 97 7743 XOR";
"2 1 7742 7741 7744 XOR";
"2 1 7742 7743 7745 AND";
"2 1 7741 7745 7746 XOR";
"2 1 7554 98 7747 XOR";
"2 1 7746 98 7748 XOR";
"2 1 7747 7746 7749 XOR";
"2 1 7747 7748 7750 AND";
"2 1 7746 7750 7751 XOR";
"2 1 7557 99 7752 XOR";
"2 1 7751 99 7753 XOR";
"2 1 7752 7751 7754 XOR";
"2 1 7752 7753 7755 AND";
"2 1 7751 7755 7756 XOR";
"2 1 7560 100 7757 XOR";
"2 1 7756 100 7758 XOR";
"2 1 7757 7756 7759 XOR";
"2 1 7757 7758 7760 AND";
"2 1 7756 7760 7761 XOR";
"2 1 7563 101 7762 XOR";
"2 1 7761 101 7763 XOR";
"2 1 7762 7761 7764 XOR";
"2 1 7762 7763 7765 AND";
"2 1 7761 7765 7766 XOR";
"2 1 7566 102 7767 XOR";
"2 1 7766 102 7768 XOR";
"2 1 7767 7766 7769 XOR";
"2 1 7767 7768 7770 AND";
"2 1 7766 7770 7771 XOR";
"2 1 7569 103 7772 XOR";
"2 1 7771 103 7773 XOR";
"2 1 7772 7771 7774 XOR";
"2 1 7772 7773 7775 AND";
"2 1 7771 7775 7776 XOR";
"2 1 7572 104 7777 XOR";
"2 1 7776 104 7778 XOR";
"2 1 7777 7776 7779 XOR";
"2 1 7777 7778 7780 AND";
"2 1 7776 7780 7781 XOR";
"2 1 7575 105 7782 XOR";
"2 1 7781 105 7783 XOR";
"2 1 7782 7781 7784 XOR";
"2 1 7782 7783 7785 AND";
"2 1 7781 7785 7786 XOR";
"2 1 7578 106 7787 XOR";
"2 1 7786 106 7788 XOR";
"2 1 7787 7786 7789 XOR";
"2 1 7787 7788 7790 AND";
"2 1 7786 7790 7791 XOR";
"2 1 7791 187 7792 AND";
"2 1 7791 187 7793 XOR";
"2 1 7793 7792 7794 XOR";
"2 1 21 7580 7795 XOR";
"2 1 7794 7795 7796 AND";
"2 1 7796 7580 7797 XOR";
"2 1 7455 7584 7798 XOR";
"2 1 7794 7798 7799 AND";
"2 1 7799 7584 7800 XOR";
"2 1 7458 7589 7801 XOR";
"2 1 7794 7801 7802 AND";
"2 1 7802 7589 7803 XOR";
"2 1 7461 7594 7804 XOR";
"2 1 7794 7804 7805 AND";
"2 1 7805 7594 7806 XOR";
"2 1 7464 7599 7807 XOR";
"2 1 7794 7807 7808 AND";
"2 1 7808 7599 7809 XOR";
"2 1 7467 7604 7810 XOR";
"2 1 7794 7810 7811 AND";
"2 1 7811 7604 7812 XOR";
"2 1 7470 7609 7813 XOR";
"2 1 7794 7813 7814 AND";
"2 1 7814 7609 7815 XOR";
"2 1 7473 7614 7816 XOR";
"2 1 7794 7816 7817 AND";
"2 1 7817 7614 7818 XOR";
"2 1 7476 7619 7819 XOR";
"2 1 7794 7819 7820 AND";
"2 1 7820 7619 7821 XOR";
"2 1 7479 7624 7822 XOR";
"2 1 7794 7822 7823 AND";
"2 1 7823 7624 7824 XOR";
"2 1 7482 7629 7825 XOR";
"2 1 7794 7825 7826 AND";
"2 1 7826 7629 7827 XOR";
"2 1 7485 7634 7828 XOR";
"2 1 7794 7828 7829 AND";
"2 1 7829 7634 7830 XOR";
"2 1 7488 7639 7831 XOR";
"2 1 7794 7831 7832 AND";
"2 1 7832 7639 7833 XOR";
"2 1 7491 7644 7834 XOR";
"2 1 7794 7834 7835 AND";
"2 1 7835 7644 7836 XOR";
"2 1 7494 7649 7837 XOR";
"2 1 7794 7837 7838 AND";
"2 1 7838 7649 7839 XOR";
"2 1 7497 7654 7840 XOR";
"2 1 7794 7840 7841 AND";
"2 1 7841 7654 7842 XOR";
"2 1 7500 7659 7843 XOR";
"2 1 7794 7843 7844 AND";
"2 1 7844 7659 7845 XOR";
"2 1 7503 7664 7846 XOR";
"2 1 7794 7846 7847 AND";
"2 1 7847 7664 7848 XOR";
"2 1 7506 7669 7849 XOR";
"2 1 7794 7849 7850 AND";
"2 1 7850 7669 7851 XOR";
"2 1 7509 7674 7852 XOR";
"2 1 7794 7852 7853 AND";
"2 1 7853 7674 7854 XOR";
"2 1 7512 7679 7855 XOR";
"2 1 7794 7855 7856 AND";
"2 1 7856 7679 7857 XOR";
"2 1 7515 7684 7858 XOR";
"2 1 7794 7858 7859 AND";
"2 1 7859 7684 7860 XOR";
"2 1 7518 7689 7861 XOR";
"2 1 7794 7861 7862 AND";
"2 1 7862 7689 7863 XOR";
"2 1 7521 7694 7864 XOR";
"2 1 7794 7864 7865 AND";
"2 1 7865 7694 7866 XOR";
"2 1 7524 7699 7867 XOR";
"2 1 7794 7867 7868 AND";
"2 1 7868 7699 7869 XOR";
"2 1 7527 7704 7870 XOR";
"2 1 7794 7870 7871 AND";
"2 1 7871 7704 7872 XOR";
"2 1 7530 7709 7873 XOR";
"2 1 7794 7873 7874 AND";
"2 1 7874 7709 7875 XOR";
"2 1 7533 7714 7876 XOR";
"2 1 7794 7876 7877 AND";
"2 1 7877 7714 7878 XOR";
"2 1 7536 7719 7879 XOR";
"2 1 7794 7879 7880 AND";
"2 1 7880 7719 7881 XOR";
"2 1 7539 7724 7882 XOR";
"2 1 7794 7882 7883 AND";
"2 1 7883 7724 7884 XOR";
"2 1 7542 7729 7885 XOR";
"2 1 7794 7885 7886 AND";
"2 1 7886 7729 7887 XOR";
"2 1 7545 7734 7888 XOR";
"2 1 7794 7888 7889 AND";
"2 1 7889 7734 7890 XOR";
"2 1 7548 7739 7891 XOR";
"2 1 7794 7891 7892 AND";
"2 1 7892 7739 7893 XOR";
"2 1 7551 7744 7894 XOR";
"2 1 7794 7894 7895 AND";
"2 1 7895 7744 7896 XOR";
"2 1 7554 7749 7897 XOR";
"2 1 7794 7897 7898 AND";
"2 1 7898 7749 7899 XOR";
"2 1 7557 7754 7900 XOR";
"2 1 7794 7900 7901 AND";
"2 1 7901 7754 7902 XOR";
"2 1 7560 7759 7903 XOR";
"2 1 7794 7903 7904 AND";
"2 1 7904 7759 7905 XOR";
"2 1 7563 7764 7906 XOR";
"2 1 7794 7906 7907 AND";
"2 1 7907 7764 7908 XOR";
"2 1 7566 7769 7909 XOR";
"2 1 7794 7909 7910 AND";
"2 1 7910 7769 7911 XOR";
"2 1 7569 7774 7912 XOR";
"2 1 7794 7912 7913 AND";
"2 1 7913 7774 7914 XOR";
"2 1 7572 7779 7915 XOR";
"2 1 7794 7915 7916 AND";
"2 1 7916 7779 7917 XOR";
"2 1 7575 7784 7918 XOR";
"2 1 7794 7918 7919 AND";
"2 1 7919 7784 7920 XOR";
"2 1 7578 7789 7921 XOR";
"2 1 7794 7921 7922 AND";
"2 1 7922 7789 7923 XOR";
"1 1 7794 7924 INV";
"2 1 20 64 7925 XOR";
"2 1 7925 64 7926 AND";
"2 1 7797 65 7927 XOR";
"2 1 7926 65 7928 XOR";
"2 1 7927 7926 7929 XOR";
"2 1 7927 7928 7930 AND";
"2 1 7926 7930 7931 XOR";
"2 1 7800 66 7932 XOR";
"2 1 7931 66 7933 XOR";
"2 1 7932 7931 7934 XOR";
"2 1 7932 7933 7935 AND";
"2 1 7931 7935 7936 XOR";
"2 1 7803 67 7937 XOR";
"2 1 7936 67 7938 XOR";
"2 1 7937 7936 7939 XOR";
"2 1 7937 7938 7940 AND";
"2 1 7936 7940 7941 XOR";
"2 1 7806 68 7942 XOR";
"2 1 7941 68 7943 XOR";
"2 1 7942 7941 7944 XOR";
"2 1 7942 7943 7945 AND";
"2 1 7941 7945 7946 XOR";
"2 1 7809 69 7947 XOR";
"2 1 7946 69 7948 XOR";
"2 1 7947 7946 7949 XOR";
"2 1 7947 7948 7950 AND";
"2 1 7946 7950 7951 XOR";
"2 1 7812 70 7952 XOR";
"2 1 7951 70 7953 XOR";
"2 1 7952 7951 7954 XOR";
"2 1 7952 7953 7955 AND";
"2 1 7951 7955 7956 XOR";
"2 1 7815 71 7957 XOR";
"2 1 7956 71 7958 XOR";
"2 1 7957 7956 7959 XOR";
"2 1 7957 7958 7960 AND";
"2 1 7956 7960 7961 XOR";
"2 1 7818 72 7962 XOR";
"2 1 7961 72 7963 XOR";
"2 1 7962 7961 7964 XOR";
"2 1 7962 7963 7965 AND";
"2 1 7961 7965 7966 XOR";
"2 1 7821 73 7967 XOR";
"2 1 7966 73 7968 XOR";
"2 1 7967 7966 7969 XOR";
"2 1 7967 7968 7970 AND";
"2 1 7966 7970 7971 XOR";
"2 1 7824 74 7972 XOR";
"2 1 7971 74 7973 XOR";
"2 1 7972 7971 7974 XOR";
"2 1 7972 7973 7975 AND";
"2 1 7971 7975 7976 XOR";
"2 1 7827 75 7977 XOR";
"2 1 7976 75 7978 XOR";
"2 1 7977 7976 7979 XOR";
"2 1 7977 7978 7980 AND";
"2 1 7976 7980 7981 XOR";
"2 1 7830 76 7982 XOR";
"2 1 7981 76 7983 XOR";
"2 1 7982 7981 7984 XOR";
"2 1 7982 7983 7985 AND";
"2 1 7981 7985 7986 XOR";
"2 1 7833 77 7987 XOR";
"2 1 7986 77 7988 XOR";
"2 1 7987 7986 7989 XOR";
"2 1 7987 7988 7990 AND";
"2 1 7986 7990 7991 XOR";
"2 1 7836 78 7992 XOR";
"2 1 7991 78 7993 XOR";
"2 1 7992 7991 7994 XOR";
"2 1 7992 7993 7995 AND";
"2 1 7991 7995 7996 XOR";
"2 1 7839 79 7997 XOR";
"2 1 7996 79 7998 XOR";
"2 1 7997 7996 7999 XOR";
"2 1 7997 7998 8000 AND";
"2 1 7996 8000 8001 XOR";
"2 1 7842 80 8002 XOR";
"2 1 8001 80 8003 XOR";
"2 1 8002 8001 8004 XOR";
"2 1 8002 8003 8005 AND";
"2 1 8001 8005 8006 XOR";
"2 1 7845 81 8007 XOR";
"2 1 8006 81 8008 XOR";
"2 1 8007 8006 8009 XOR";
"2 1 8007 8008 8010 AND";
"2 1 8006 8010 8011 XOR";
"2 1 7848 82 8012 XOR";
"2 1 8011 82 8013 XOR";
"2 1 8012 8011 8014 XOR";
"2 1 8012 8013 8015 AND";
"2 1 8011 8015 8016 XOR";
"2 1 7851 83 8017 XOR";
"2 1 8016 83 8018 XOR";
"2 1 8017 8016 8019 XOR";
"2 1 8017 8018 8020 AND";
"2 1 8016 8020 8021 XOR";
"2 1 7854 84 8022 XOR";
"2 1 8021 84 8023 XOR";
"2 1 8022 8021 8024 XOR";
"2 1 8022 8023 8025 AND";
"2 1 8021 8025 8026 XOR";
"2 1 7857 85 8027 XOR";
"2 1 8026 85 8028 XOR";
"2 1 8027 8026 8029 XOR";
"2 1 8027 8028 8030 AND";
"2 1 8026 8030 8031 XOR";
"2 1 7860 86 8032 XOR";
"2 1 8031 86 8033 XOR";
"2 1 8032 8031 8034 XOR";
"2 1 8032 8033 8035 AND";
"2 1 8031 8035 8036 XOR";
"2 1 7863 87 8037 XOR";
"2 1 8036 87 8038 XOR";
"2 1 8037 8036 8039 XOR";
"2 1 8037 8038 8040 AND";
"2 1 8036 8040 8041 XOR";
"2 1 7866 88 8042 XOR";
"2 1 8041 88 8043 XOR";
"2 1 8042 8041 8044 XOR";
"2 1 8042 8043 8045 AND";
"2 1 8041 8045 8046 XOR";
"2 1 7869 89 8047 XOR";
"2 1 8046 89 8048 XOR";
"2 1 8047 8046 8049 XOR";
"2 1 8047 8048 8050 AND";
"2 1 8046 8050 8051 XOR";
"2 1 7872 90 8052 XOR";
"2 1 8051 90 8053 XOR";
"2 1 8052 8051 8054 XOR";
"2 1 8052 8053 8055 AND";
"2 1 8051 8055 8056 XOR";
"2 1 7875 91 8057 XOR";
"2 1 8056 91 8058 XOR";
"2 1 8057 8056 8059 XOR";
"2 1 8057 8058 8060 AND";
"2 1 8056 8060 8061 XOR";
"2 1 7878 92 8062 XOR";
"2 1 8061 92 8063 XOR";
"2 1 8062 8061 8064 XOR";
"2 1 8062 8063 8065 AND";
"2 1 8061 8065 8066 XOR";
"2 1 7881 93 8067 XOR";
"2 1 8066 93 8068 XOR";
"2 1 8067 8066 8069 XOR";
"2 1 8067 8068 8070 AND";
"2 1 8066 8070 8071 XOR";
"2 1 7884 94 8072 XOR";
"2 1 8071 94 8073 XOR";
"2 1 8072 8071 8074 XOR";
"2 1 8072 8073 8075 AND";
"2 1 8071 8075 8076 XOR";
"2 1 7887 95 8077 XOR";
"2 1 8076 95 8078 XOR";
"2 1 8077 8076 8079 XOR";
"2 1 8077 8078 8080 AND";
"2 1 8076 8080 8081 XOR";
"2 1 7890 96 8082 XOR";
"2 1 8081 96 8083 XOR";
"2 1 8082 8081 8084 XOR";
"2 1 8082 8083 8085 AND";
"2 1 8081 8085 8086 XOR";
"2 1 7893 97 8087 XOR";
"2 1 8086 97 8088 XOR";
"2 1 8087 8086 8089 XOR";
"2 1 8087 8088 8090 AND";
"2 1 8086 8090 8091 XOR";
"2 1 7896 98 8092 XOR";
"2 1 8091 98 8093 XOR";
"2 1 8092 8091 8094 XOR";
"2 1 8092 8093 8095 AND";
"2 1 8091 8095 8096 XOR";
"2 1 7899 99 8097 XOR";
"2 1 8096 99 8098 XOR";
"2 1 8097 8096 8099 XOR";
"2 1 8097 8098 8100 AND";
"2 1 8096 8100 8101 XOR";
"2 1 7902 100 8102 XOR";
"2 1 8101 100 8103 XOR";
"2 1 8102 8101 8104 XOR";
"2 1 8102 8103 8105 AND";
"2 1 8101 8105 8106 XOR";
"2 1 7905 101 8107 XOR";
"2 1 8106 101 8108 XOR";
"2 1 8107 8106 8109 XOR";
"2 1 8107 8108 8110 AND";
"2 1 8106 8110 8111 XOR";
"2 1 7908 102 8112 XOR";
"2 1 8111 102 8113 XOR";
"2 1 8112 8111 8114 XOR";
"2 1 8112 8113 8115 AND";
"2 1 8111 8115 8116 XOR";
"2 1 7911 103 8117 XOR";
"2 1 8116 103 8118 XOR";
"2 1 8117 8116 8119 XOR";
"2 1 8117 8118 8120 AND";
"2 1 8116 8120 8121 XOR";
"2 1 7914 104 8122 XOR";
"2 1 8121 104 8123 XOR";
"2 1 8122 8121 8124 XOR";
"2 1 8122 8123 8125 AND";
"2 1 8121 8125 8126 XOR";
"2 1 7917 105 8127 XOR";
"2 1 8126 105 8128 XOR";
"2 1 8127 8126 8129 XOR";
"2 1 8127 8128 8130 AND";
"2 1 8126 8130 8131 XOR";
"2 1 7920 106 8132 XOR";
"2 1 8131 106 8133 XOR";
"2 1 8132 8131 8134 XOR";
"2 1 8132 8133 8135 AND";
"2 1 8131 8135 8136 XOR";
"2 1 7923 107 8137 XOR";
"2 1 8136 107 8138 XOR";
"2 1 8137 8136 8139 XOR";
"2 1 8137 8138 8140 AND";
"2 1 8136 8140 8141 XOR";
"2 1 8141 184 8142 AND";
"2 1 8141 184 8143 XOR";
"2 1 8143 8142 8144 XOR";
"2 1 20 7925 8145 XOR";
"2 1 8144 8145 8146 AND";
"2 1 8146 7925 8147 XOR";
"2 1 7797 7929 8148 XOR";
"2 1 8144 8148 8149 AND";
"2 1 8149 7929 8150 XOR";
"2 1 7800 7934 8151 XOR";
"2 1 8144 8151 8152 AND";
"2 1 8152 7934 8153 XOR";
"2 1 7803 7939 8154 XOR";
"2 1 8144 8154 8155 AND";
"2 1 8155 7939 8156 XOR";
"2 1 7806 7944 8157 XOR";
"2 1 8144 8157 8158 AND";
"2 1 8158 7944 8159 XOR";
"2 1 7809 7949 8160 XOR";
"2 1 8144 8160 8161 AND";
"2 1 8161 7949 8162 XOR";
"2 1 7812 7954 8163 XOR";
"2 1 8144 8163 8164 AND";
"2 1 8164 7954 8165 XOR";
"2 1 7815 7959 8166 XOR";
"2 1 8144 8166 8167 AND";
"2 1 8167 7959 8168 XOR";
"2 1 7818 7964 8169 XOR";
"2 1 8144 8169 8170 AND";
"2 1 8170 7964 8171 XOR";
"2 1 7821 7969 8172 XOR";
"2 1 8144 8172 8173 AND";
"2 1 8173 7969 8174 XOR";
"2 1 7824 7974 8175 XOR";
"2 1 8144 8175 8176 AND";
"2 1 8176 7974 8177 XOR";
"2 1 7827 7979 8178 XOR";
"2 1 8144 8178 8179 AND";
"2 1 8179 7979 8180 XOR";
"2 1 7830 7984 8181 XOR";
"2 1 8144 8181 8182 AND";
"2 1 8182 7984 8183 XOR";
"2 1 7833 7989 8184 XOR";
"2 1 8144 8184 8185 AND";
"2 1 8185 7989 8186 XOR";
"2 1 7836 7994 8187 XOR";
"2 1 8144 8187 8188 AND";
"2 1 8188 7994 8189 XOR";
"2 1 7839 7999 8190 XOR";
"2 1 8144 8190 8191 AND";
"2 1 8191 7999 8192 XOR";
"2 1 7842 8004 8193 XOR";
"2 1 8144 8193 8194 AND";
"2 1 8194 8004 8195 XOR";
"2 1 7845 8009 8196 XOR";
"2 1 8144 8196 8197 AND";
"2 1 8197 8009 8198 XOR";
"2 1 7848 8014 8199 XOR";
"2 1 8144 8199 8200 AND";
"2 1 8200 8014 8201 XOR";
"2 1 7851 8019 8202 XOR";
"2 1 8144 8202 8203 AND";
"2 1 8203 8019 8204 XOR";
"2 1 7854 8024 8205 XOR";
"2 1 8144 8205 8206 AND";
"2 1 8206 8024 8207 XOR";
"2 1 7857 8029 8208 XOR";
"2 1 8144 8208 8209 AND";
"2 1 8209 8029 8210 XOR";
"2 1 7860 8034 8211 XOR";
"2 1 8144 8211 8212 AND";
"2 1 8212 8034 8213 XOR";
"2 1 7863 8039 8214 XOR";
"2 1 8144 8214 8215 AND";
"2 1 8215 8039 8216 XOR";
"2 1 7866 8044 8217 XOR";
"2 1 8144 8217 8218 AND";
"2 1 8218 8044 8219 XOR";
"2 1 7869 8049 8220 XOR";
"2 1 8144 8220 8221 AND";
"2 1 8221 8049 8222 XOR";
"2 1 7872 8054 8223 XOR";
"2 1 8144 8223 8224 AND";
"2 1 8224 8054 8225 XOR";
"2 1 7875 8059 8226 XOR";
"2 1 8144 8226 8227 AND";
"2 1 8227 8059 8228 XOR";
"2 1 7878 8064 8229 XOR";
"2 1 8144 8229 8230 AND";
"2 1 8230 8064 8231 XOR";
"2 1 7881 8069 8232 XOR";
"2 1 8144 8232 8233 AND";
"2 1 8233 8069 8234 XOR";
"2 1 7884 8074 8235 XOR";
"2 1 8144 8235 8236 AND";
"2 1 8236 8074 8237 XOR";
"2 1 7887 8079 8238 XOR";
"2 1 8144 8238 8239 AND";
"2 1 8239 8079 8240 XOR";
"2 1 7890 8084 8241 XOR";
"2 1 8144 8241 8242 AND";
"2 1 8242 8084 8243 XOR";
"2 1 7893 8089 8244 XOR";
"2 1 8144 8244 8245 AND";
"2 1 8245 8089 8246 XOR";
"2 1 7896 8094 8247 XOR";
"2 1 8144 8247 8248 AND";
"2 1 8248 8094 8249 XOR";
"2 1 7899 8099 8250 XOR";
"2 1 8144 8250 8251 AND";
"2 1 8251 8099 8252 XOR";
"2 1 7902 8104 8253 XOR";
"2 1 8144 8253 8254 AND";
"2 1 8254 8104 8255 XOR";
"2 1 7905 8109 8256 XOR";
"2 1 8144 8256 8257 AND";
"2 1 8257 8109 8258 XOR";
"2 1 7908 8114 8259 XOR";
"2 1 8144 8259 8260 AND";
"2 1 8260 8114 8261 XOR";
"2 1 7911 8119 8262 XOR";
"2 1 8144 8262 8263 AND";
"2 1 8263 8119 8264 XOR";
"2 1 7914 8124 8265 XOR";
"2 1 8144 8265 8266 AND";
"2 1 8266 8124 8267 XOR";
"2 1 7917 8129 8268 XOR";
"2 1 8144 8268 8269 AND";
"2 1 8269 8129 8270 XOR";
"2 1 7920 8134 8271 XOR";
"2 1 8144 8271 8272 AND";
"2 1 8272 8134 8273 XOR";
"2 1 7923 8139 8274 XOR";
"2 1 8144 8274 8275 AND";
"2 1 8275 8139 8276 XOR";
"1 1 8144 8277 INV";
"2 1 19 64 8278 XOR";
"2 1 8278 64 8279 AND";
"2 1 8147 65 8280 XOR";
"2 1 8279 65 8281 XOR";
"2 1 8280 8279 8282 XOR";
"2 1 8280 8281 8283 AND";
"2 1 8279 8283 8284 XOR";
"2 1 8150 66 8285 XOR";
"2 1 8284 66 8286 XOR";
"2 1 8285 8284 8287 XOR";
"2 1 8285 8286 8288 AND";
"2 1 8284 8288 8289 XOR";
"2 1 8153 67 8290 XOR";
"2 1 8289 67 8291 XOR";
"2 1 8290 8289 8292 XOR";
"2 1 8290 8291 8293 AND";
"2 1 8289 8293 8294 XOR";
"2 1 8156 68 8295 XOR";
"2 1 8294 68 8296 XOR";
"2 1 8295 8294 8297 XOR";
"2 1 8295 8296 8298 AND";
"2 1 8294 8298 8299 XOR";
"2 1 8159 69 8300 XOR";
"2 1 8299 69 8301 XOR";
"2 1 8300 8299 8302 XOR";
"2 1 8300 8301 8303 AND";
"2 1 8299 8303 8304 XOR";
"2 1 8162 70 8305 XOR";
"2 1 8304 70 8306 XOR";
"2 1 8305 8304 8307 XOR";
"2 1 8305 8306 8308 AND";
"2 1 8304 8308 8309 XOR";
"2 1 8165 71 8310 XOR";
"2 1 8309 71 8311 XOR";
"2 1 8310 8309 8312 XOR";
"2 1 8310 8311 8313 AND";
"2 1 8309 8313 8314 XOR";
"2 1 8168 72 8315 XOR";
"2 1 8314 72 8316 XOR";
"2 1 8315 8314 8317 XOR";
"2 1 8315 8316 8318 AND";
"2 1 8314 8318 8319 XOR";
"2 1 8171 73 8320 XOR";
"2 1 8319 73 8321 XOR";
"2 1 8320 8319 8322 XOR";
"2 1 8320 8321 8323 AND";
"2 1 8319 8323 8324 XOR";
"2 1 8174 74 8325 XOR";
"2 1 8324 74 8326 XOR";
"2 1 8325 8324 8327 XOR";
"2 1 8325 8326 8328 AND";
"2 1 8324 8328 8329 XOR";
"2 1 8177 75 8330 XOR";
"2 1 8329 75 8331 XOR";
"2 1 8330 8329 8332 XOR";
"2 1 8330 8331 8333 AND";
"2 1 8329 8333 8334 XOR";
"2 1 8180 76 8335 XOR";
"2 1 8334 76 8336 XOR";
"2 1 8335 8334 8337 XOR";
"2 1 8335 8336 8338 AND";
"2 1 8334 8338 8339 XOR";
"2 1 8183 77 8340 XOR";
"2 1 8339 77 8341 XOR";
"2 1 8340 8339 8342 XOR";
"2 1 8340 8341 8343 AND";
"2 1 8339 8343 8344 XOR";
"2 1 8186 78 8345 XOR";
"2 1 8344 78 8346 XOR";
"2 1 8345 8344 8347 XOR";
"2 1 8345 8346 8348 AND";
"2 1 8344 8348 8349 XOR";
"2 1 8189 79 8350 XOR";
"2 1 8349 79 8351 XOR";
"2 1 8350 8349 8352 XOR";
"2 1 8350 8351 8353 AND";
"2 1 8349 8353 8354 XOR";
"2 1 8192 80 8355 XOR";
"2 1 8354 80 8356 XOR";
"2 1 8355 8354 8357 XOR";
"2 1 8355 8356 8358 AND";
"2 1 8354 8358 8359 XOR";
"2 1 8195 81 8360 XOR";
"2 1 8359 81 8361 XOR";
"2 1 8360 8359 8362 XOR";
"2 1 8360 8361 8363 AND";
"2 1 8359 8363 8364 XOR";
"2 1 8198 82 8365 XOR";
"2 1 8364 82 8366 XOR";
"2 1 8365 8364 8367 XOR";
"2 1 8365 8366 8368 AND";
"2 1 8364 8368 8369 XOR";
"2 1 8201 83 8370 XOR";
"2 1 8369 83 8371 XOR";
"2 1 8370 8369 8372 XOR";
"2 1 8370 8371 8373 AND";
"2 1 8369 8373 8374 XOR";
"2 1 8204 84 8375 XOR";
"2 1 8374 84 8376 XOR";
"2 1 8375 8374 8377 XOR";
"2 1 8375 8376 8378 AND";
"2 1 8374 8378 8379 XOR";
"2 1 8207 85 8380 XOR";
"2 1 8379 85 8381 XOR";
"2 1 8380 8379 8382 XOR";
"2 1 8380 8381 8383 AND";
"2 1 8379 8383 8384 XOR";
"2 1 8210 86 8385 XOR";
"2 1 8384 86 8386 XOR";
"2 1 8385 8384 8387 XOR";
"2 1 8385 8386 8388 AND";
"2 1 8384 8388 8389 XOR";
"2 1 8213 87 8390 XOR";
"2 1 8389 87 8391 XOR";
"2 1 8390 8389 8392 XOR";
"2 1 8390 8391 8393 AND";
"2 1 8389 8393 8394 XOR";
"2 1 8216 88 8395 XOR";
"2 1 8394 88 8396 XOR";
"2 1 8395 8394 8397 XOR";
"2 1 8395 8396 8398 AND";
"2 1 8394 8398 8399 XOR";
"2 1 8219 89 8400 XOR";
"2 1 8399 89 8401 XOR";
"2 1 8400 8399 8402 XOR";
"2 1 8400 8401 8403 AND";
"2 1 8399 8403 8404 XOR";
"2 1 8222 90 8405 XOR";
"2 1 8404 90 8406 XOR";
"2 1 8405 8404 8407 XOR";
"2 1 8405 8406 8408 AND";
"2 1 8404 8408 8409 XOR";
"2 1 8225 91 8410 XOR";
"2 1 8409 91 8411 XOR";
"2 1 8410 8409 8412 XOR";
"2 1 8410 8411 8413 AND";
"2 1 8409 8413 8414 XOR";
"2 1 8228 92 8415 XOR";
"2 1 8414 92 8416 XOR";
"2 1 8415 8414 8417 XOR";
"2 1 8415 8416 8418 AND";
"2 1 8414 8418 8419 XOR";
"2 1 8231 93 8420 XOR";
"2 1 8419 93 8421 XOR";
"2 1 8420 8419 8422 XOR";
"2 1 8420 8421 8423 AND";
"2 1 8419 8423 8424 XOR";
"2 1 8234 94 8425 XOR";
"2 1 8424 94 8426 XOR";
"2 1 8425 8424 8427 XOR";
"2 1 8425 8426 8428 AND";
"2 1 8424 8428 8429 XOR";
"2 1 8237 95 8430 XOR";
"2 1 8429 95 8431 XOR";
"2 1 8430 8429 8432 XOR";
"2 1 8430 8431 8433 AND";
"2 1 8429 8433 8434 XOR";
"2 1 8240 96 8435 XOR";
"2 1 8434 96 8436 XOR";
"2 1 8435 8434 8437 XOR";
"2 1 8435 8436 8438 AND";
"2 1 8434 8438 8439 XOR";
"2 1 8243 97 8440 XOR";
"2 1 8439 97 8441 XOR";
"2 1 8440 8439 8442 XOR";
"2 1 8440 8441 8443 AND";
"2 1 8439 8443 8444 XOR";
"2 1 8246 98 8445 XOR";
"2 1 8444 98 8446 XOR";
"2 1 8445 8444 8447 XOR";
"2 1 8445 8446 8448 AND";
"2 1 8444 8448 8449 XOR";
"2 1 8249 99 8450 XOR";
"2 1 8449 99 8451 XOR";
"2 1 8450 8449 8452 XOR";
"2 1 8450 8451 8453 AND";
"2 1 8449 8453 8454 XOR";
"2 1 8252 100 8455 XOR";
"2 1 8454 100 8456 XOR";
"2 1 8455 8454 8457 XOR";
"2 1 8455 8456 8458 AND";
"2 1 8454 8458 8459 XOR";
"2 1 8255 101 8460 XOR";
"2 1 8459 101 8461 XOR";
"2 1 8460 8459 8462 XOR";
"2 1 8460 8461 8463 AND";
"2 1 8459 8463 8464 XOR";
"2 1 8258 102 8465 XOR";
"2 1 8464 102 8466 XOR";
"2 1 8465 8464 8467 XOR";
"2 1 8465 8466 8468 AND";
"2 1 8464 8468 8469 XOR";
"2 1 8261 103 8470 XOR";
"2 1 8469 103 8471 XOR";
"2 1 8470 8469 8472 XOR";
"2 1 8470 8471 8473 AND";
"2 1 8469 8473 8474 XOR";
"2 1 8264 104 8475 XOR";
"2 1 8474 104 8476 XOR";
"2 1 8475 8474 8477 XOR";
"2 1 8475 8476 8478 AND";
"2 1 8474 8478 8479 XOR";
"2 1 8267 105 8480 XOR";
"2 1 8479 105 8481 XOR";
"2 1 8480 8479 8482 XOR";
"2 1 8480 8481 8483 AND";
"2 1 8479 8483 8484 XOR";
"2 1 8270 106 8485 XOR";
"2 1 8484 106 8486 XOR";
"2 1 8485 8484 8487 XOR";
"2 1 8485 8486 8488 AND";
"2 1 8484 8488 8489 XOR";
"2 1 8273 107 8490 XOR";
"2 1 8489 107 8491 XOR";
"2 1 8490 8489 8492 XOR";
"2 1 8490 8491 8493 AND";
"2 1 8489 8493 8494 XOR";
"2 1 8276 108 8495 XOR";
"2 1 8494 108 8496 XOR";
"2 1 8495 8494 8497 XOR";
"2 1 8495 8496 8498 AND";
"2 1 8494 8498 8499 XOR";
"2 1 8499 181 8500 AND";
"2 1 8499 181 8501 XOR";
"2 1 8501 8500 8502 XOR";
"2 1 19 8278 8503 XOR";
"2 1 8502 8503 8504 AND";
"2 1 8504 8278 8505 XOR";
"2 1 8147 8282 8506 XOR";
"2 1 8502 8506 8507 AND";
"2 1 8507 8282 8508 XOR";
"2 1 8150 8287 8509 XOR";
"2 1 8502 8509 8510 AND";
"2 1 8510 8287 8511 XOR";
"2 1 8153 8292 8512 XOR";
"2 1 8502 8512 8513 AND";
"2 1 8513 8292 8514 XOR";
"2 1 8156 8297 8515 XOR";
"2 1 8502 8515 8516 AND";
"2 1 8516 8297 8517 XOR";
"2 1 8159 8302 8518 XOR";
"2 1 8502 8518 8519 AND";
"2 1 8519 8302 8520 XOR";
"2 1 8162 8307 8521 XOR";
"2 1 8502 8521 8522 AND";
"2 1 8522 8307 8523 XOR";
"2 1 8165 8312 8524 XOR";
"2 1 8502 8524 8525 AND";
"2 1 8525 8312 8526 XOR";
"2 1 8168 8317 8527 XOR";
"2 1 8502 8527 8528 AND";
"2 1 8528 8317 8529 XOR";
"2 1 8171 8322 8530 XOR";
"2 1 8502 8530 8531 AND";
"2 1 8531 8322 8532 XOR";
"2 1 8174 8327 8533 XOR";
"2 1 8502 8533 8534 AND";
"2 1 8534 8327 8535 XOR";
"2 1 8177 8332 8536 XOR";
"2 1 8502 8536 8537 AND";
"2 1 8537 8332 8538 XOR";
"2 1 8180 8337 8539 XOR";
"2 1 8502 8539 8540 AND";
"2 1 8540 8337 8541 XOR";
"2 1 8183 8342 8542 XOR";
"2 1 8502 8542 8543 AND";
"2 1 8543 8342 8544 XOR";
"2 1 8186 8347 8545 XOR";
"2 1 8502 8545 8546 AND";
"2 1 8546 8347 8547 XOR";
"2 1 8189 8352 8548 XOR";
"2 1 8502 8548 8549 AND";
"2 1 8549 8352 8550 XOR";
"2 1 8192 8357 8551 XOR";
"2 1 8502 8551 8552 AND";
"2 1 8552 8357 8553 XOR";
"2 1 8195 8362 8554 XOR";
"2 1 8502 8554 8555 AND";
"2 1 8555 8362 8556 XOR";
"2 1 8198 8367 8557 XOR";
"2 1 8502 8557 8558 AND";
"2 1 8558 8367 8559 XOR";
"2 1 8201 8372 8560 XOR";
"2 1 8502 8560 8561 AND";
"2 1 8561 8372 8562 XOR";
"2 1 8204 8377 8563 XOR";
"2 1 8502 8563 8564 AND";
"2 1 8564 8377 8565 XOR";
"2 1 8207 8382 8566 XOR";
"2 1 8502 8566 8567 AND";
"2 1 8567 8382 8568 XOR";
"2 1 8210 8387 8569 XOR";
"2 1 8502 8569 8570 AND";
"2 1 8570 8387 8571 XOR";
"2 1 8213 8392 8572 XOR";
"2 1 8502 8572 8573 AND";
"2 1 8573 8392 8574 XOR";
"2 1 8216 8397 8575 XOR";
"2 1 8502 8575 8576 AND";
"2 1 8576 8397 8577 XOR";
"2 1 8219 8402 8578 XOR";
"2 1 8502 8578 8579 AND";
"2 1 8579 8402 8580 XOR";
"2 1 8222 8407 8581 XOR";
"2 1 8502 8581 8582 AND";
"2 1 8582 8407 8583 XOR";
"2 1 8225 8412 8584 XOR";
"2 1 8502 8584 8585 AND";
"2 1 8585 8412 8586 XOR";
"2 1 8228 8417 8587 XOR";
"2 1 8502 8587 8588 AND";
"2 1 8588 8417 8589 XOR";
"2 1 8231 8422 8590 XOR";
"2 1 8502 8590 8591 AND";
"2 1 8591 8422 8592 XOR";
"2 1 8234 8427 8593 XOR";
"2 1 8502 8593 8594 AND";
"2 1 8594 8427 8595 XOR";
"2 1 8237 8432 8596 XOR";
"2 1 8502 8596 8597 AND";
"2 1 8597 8432 8598 XOR";
"2 1 8240 8437 8599 XOR";
"2 1 8502 8599 8600 AND";
"2 1 8600 8437 8601 XOR";
"2 1 8243 8442 8602 XOR";
"2 1 8502 8602 8603 AND";
"2 1 8603 8442 8604 XOR";
"2 1 8246 8447 8605 XOR";
"2 1 8502 8605 8606 AND";
"2 1 8606 8447 8607 XOR";
"2 1 8249 8452 8608 XOR";
"2 1 8502 8608 8609 AND";
"2 1 8609 8452 8610 XOR";
"2 1 8252 8457 8611 XOR";
"2 1 8502 8611 8612 AND";
"2 1 8612 8457 8613 XOR";
"2 1 8255 8462 8614 XOR";
"2 1 8502 8614 8615 AND";
"2 1 8615 8462 8616 XOR";
"2 1 8258 8467 8617 XOR";
"2 1 8502 8617 8618 AND";
"2 1 8618 8467 8619 XOR";
"2 1 8261 8472 8620 XOR";
"2 1 8502 8620 8621 AND";
"2 1 8621 8472 8622 XOR";
"2 1 8264 8477 8623 XOR";
"2 1 8502 8623 8624 AND";
"2 1 8624 8477 8625 XOR";
"2 1 8267 8482 8626 XOR";
"2 1 8502 8626 8627 AND";
"2 1 8627 8482 8628 XOR";
"2 1 8270 8487 8629 XOR";
"2 1 8502 8629 8630 AND";
"2 1 8630 8487 8631 XOR";
"2 1 8273 8492 8632 XOR";
"2 1 8502 8632 8633 AND";
"2 1 8633 8492 8634 XOR";
"2 1 8276 8497 8635 XOR";
"2 1 8502 8635 8636 AND";
"2 1 8636 8497 8637 XOR";
"1 1 8502 8638 INV";
"2 1 18 64 8639 XOR";
"2 1 8639 64 8640 AND";
"2 1 8505 65 8641 XOR";
"2 1 8640 65 8642 XOR";
"2 1 8641 8640 8643 XOR";
"2 1 8641 8642 8644 AND";
"2 1 8640 8644 8645 XOR";
"2 1 8508 66 8646 XOR";
"2 1 8645 66 8647 XOR";
"2 1 8646 8645 8648 XOR";
"2 1 8646 8647 8649 AND";
"2 1 8645 8649 8650 XOR";
"2 1 8511 67 8651 XOR";
"2 1 8650 67 8652 XOR";
"2 1 8651 8650 8653 XOR";
"2 1 8651 8652 8654 AND";
"2 1 8650 8654 8655 XOR";
"2 1 8514 68 8656 XOR";
"2 1 8655 68 8657 XOR";
"2 1 8656 8655 8658 XOR";
"2 1 8656 8657 8659 AND";
"2 1 8655 8659 8660 XOR";
"2 1 8517 69 8661 XOR";
"2 1 8660 69 8662 XOR";
"2 1 8661 8660 8663 XOR";
"2 1 8661 8662 8664 AND";
"2 1 8660 8664 8665 XOR";
"2 1 8520 70 8666 XOR";
"2 1 8665 70 8667 XOR";
"2 1 8666 8665 8668 XOR";
"2 1 8666 8667 8669 AND";
"2 1 8665 8669 8670 XOR";
"2 1 8523 71 8671 XOR";
"2 1 8670 71 8672 XOR";
"2 1 8671 8670 8673 XOR";
"2 1 8671 8672 8674 AND";
"2 1 8670 8674 8675 XOR";
"2 1 8526 72 8676 XOR";
"2 1 8675 72 8677 XOR";
"2 1 8676 8675 8678 XOR";
"2 1 8676 8677 8679 AND";
"2 1 8675 8679 8680 XOR";
"2 1 8529 73 8681 XOR";
"2 1 8680 73 8682 XOR";
"2 1 8681 8680 8683 XOR";
"2 1 8681 8682 8684 AND";
"2 1 8680 8684 8685 XOR";
"2 1 8532 74 8686 XOR";
"2 1 8685 74 8687 XOR";
"2 1 8686 8685 8688 XOR";
"2 1 8686 8687 8689 AND";
"2 1 8685 8689 8690 XOR";
"2 1 8535 75 8691 XOR";
"2 1 8690 75 8692 XOR";
"2 1 8691 8690 8693 XOR";
"2 1 8691 8692 8694 AND";
"2 1 8690 8694 8695 XOR";
"2 1 8538 76 8696 XOR";
"2 1 8695 76 8697 XOR";
"2 1 8696 8695 8698 XOR";
"2 1 8696 8697 8699 AND";
"2 1 8695 8699 8700 XOR";
"2 1 8541 77 8701 XOR";
"2 1 8700 77 8702 XOR";
"2 1 8701 8700 8703 XOR";
"2 1 8701 8702 8704 AND";
"2 1 8700 8704 8705 XOR";
"2 1 8544 78 8706 XOR";
"2 1 8705 78 8707 XOR";
"2 1 8706 8705 8708 XOR";
"2 1 8706 8707 8709 AND";
"2 1 8705 8709 8710 XOR";
"2 1 8547 79 8711 XOR";
"2 1 8710 79 8712 XOR";
"2 1 8711 8710 8713 XOR";
"2 1 8711 8712 8714 AND";
"2 1 8710 8714 8715 XOR";
"2 1 8550 80 8716 XOR";
"2 1 8715 80 8717 XOR";
"2 1 8716 8715 8718 XOR";
"2 1 8716 8717 8719 AND";
"2 1 8715 8719 8720 XOR";
"2 1 8553 81 8721 XOR";
"2 1 8720 81 8722 XOR";
"2 1 8721 8720 8723 XOR";
"2 1 8721 8722 8724 AND";
"2 1 8720 8724 8725 XOR";
"2 1 8556 82 8726 XOR";
"2 1 8725 82 8727 XOR";
"2 1 8726 8725 8728 XOR";
"2 1 8726 8727 8729 AND";
"2 1 8725 8729 8730 XOR";
"2 1 8559 83 8731 XOR";
"2 1 8730 83 8732 XOR";
"2 1 8731 8730 8733 XOR";
"2 1 8731 8732 8734 AND";
"2 1 8730 8734 8735 XOR";
"2 1 8562 84 8736 XOR";
"2 1 8735 84 8737 XOR";
"2 1 8736 8735 8738 XOR";
"2 1 8736 8737 8739 AND";
"2 1 8735 8739 8740 XOR";
"2 1 8565 85 8741 XOR";
"2 1 8740 85 8742 XOR";
"2 1 8741 8740 8743 XOR";
"2 1 8741 8742 8744 AND";
"2 1 8740 8744 8745 XOR";
"2 1 8568 86 8746 XOR";
"2 1 8745 86 8747 XOR";
"2 1 8746 8745 8748 XOR";
"2 1 8746 8747 8749 AND";
"2 1 8745 8749 8750 XOR";
"2 1 8571 87 8751 XOR";
"2 1 8750 87 8752 XOR";
"2 1 8751 8750 8753 XOR";
"2 1 8751 8752 8754 AND";
"2 1 8750 8754 8755 XOR";
"2 1 8574 88 8756 XOR";
"2 1 8755 88 8757 XOR";
"2 1 8756 8755 8758 XOR";
"2 1 8756 8757 8759 AND";
"2 1 8755 8759 8760 XOR";
"2 1 8577 89 8761 XOR";
"2 1 8760 89 8762 XOR";
"2 1 8761 8760 8763 XOR";
"2 1 8761 8762 8764 AND";
"2 1 8760 8764 8765 XOR";
"2 1 8580 90 8766 XOR";
"2 1 8765 90 8767 XOR";
"2 1 8766 8765 8768 XOR";
"2 1 8766 8767 8769 AND";
"2 1 8765 8769 8770 XOR";
"2 1 8583 91 8771 XOR";
"2 1 8770 91 8772 XOR";
"2 1 8771 8770 8773 XOR";
"2 1 8771 8772 8774 AND";
"2 1 8770 8774 8775 XOR";
"2 1 8586 92 8776 XOR";
"2 1 8775 92 8777 XOR";
"2 1 8776 8775 8778 XOR";
"2 1 8776 8777 8779 AND";
"2 1 8775 8779 8780 XOR";
"2 1 8589 93 8781 XOR";
"2 1 8780 93 8782 XOR";
"2 1 8781 8780 8783 XOR";
"2 1 8781 8782 8784 AND";
"2 1 8780 8784 8785 XOR";
"2 1 8592 94 8786 XOR";
"2 1 8785 94 8787 XOR";
"2 1 8786 8785 8788 XOR";
"2 1 8786 8787 8789 AND";
"2 1 8785 8789 8790 XOR";
"2 1 8595 95 8791 XOR";
"2 1 8790 95 8792 XOR";
"2 1 8791 8790 8793 XOR";
"2 1 8791 8792 8794 AND";
"2 1 8790 8794 8795 XOR";
"2 1 8598 96 8796 XOR";
"2 1 8795 96 8797 XOR";
"2 1 8796 8795 8798 XOR";
"2 1 8796 8797 8799 AND";
"2 1 8795 8799 8800 XOR";
"2 1 8601 97 8801 XOR";
"2 1 8800 97 8802 XOR";
"2 1 8801 8800 8803 XOR";
"2 1 8801 8802 8804 AND";
"2 1 8800 8804 8805 XOR";
"2 1 8604 98 8806 XOR";
"2 1 8805 98 8807 XOR";
"2 1 8806 8805 8808 XOR";
"2 1 8806 8807 8809 AND";
"2 1 8805 8809 8810 XOR";
"2 1 8607 99 8811 XOR";
"2 1 8810 99 8812 XOR";
"2 1 8811 8810 8813 XOR";
"2 1 8811 8812 8814 AND";
"2 1 8810 8814 8815 XOR";
"2 1 8610 100 8816 XOR";
"2 1 8815 100 8817 XOR";
"2 1 8816 8815 8818 XOR";
"2 1 8816 8817 8819 AND";
"2 1 8815 8819 8820 XOR";
"2 1 8613 101 8821 XOR";
"2 1 8820 101 8822 XOR";
"2 1 8821 8820 8823 XOR";
"2 1 8821 8822 8824 AND";
"2 1 8820 8824 8825 XOR";
"2 1 8616 102 8826 XOR";
"2 1 8825 102 8827 XOR";
"2 1 8826 8825 8828 XOR";
"2 1 8826 8827 8829 AND";
"2 1 8825 8829 8830 XOR";
"2 1 8619 103 8831 XOR";
"2 1 8830 103 8832 XOR";
"2 1 8831 8830 8833 XOR";
"2 1 8831 8832 8834 AND";
"2 1 8830 8834 8835 XOR";
"2 1 8622 104 8836 XOR";
"2 1 8835 104 8837 XOR";
"2 1 8836 8835 8838 XOR";
"2 1 8836 8837 8839 AND";
"2 1 8835 8839 8840 XOR";
"2 1 8625 105 8841 XOR";
"2 1 8840 105 8842 XOR";
"2 1 8841 8840 8843 XOR";
"2 1 8841 8842 8844 AND";
"2 1 8840 8844 8845 XOR";
"2 1 8628 106 8846 XOR";
"2 1 8845 106 8847 XOR";
"2 1 8846 8845 8848 XOR";
"2 1 8846 8847 8849 AND";
"2 1 8845 8849 8850 XOR";
"2 1 8631 107 8851 XOR";
"2 1 8850 107 8852 XOR";
"2 1 8851 8850 8853 XOR";
"2 1 8851 8852 8854 AND";
"2 1 8850 8854 8855 XOR";
"2 1 8634 108 8856 XOR";
"2 1 8855 108 8857 XOR";
"2 1 8856 8855 8858 XOR";
"2 1 8856 8857 8859 AND";
"2 1 8855 8859 8860 XOR";
"2 1 8637 109 8861 XOR";
"2 1 8860 109 8862 XOR";
"2 1 8861 8860 8863 XOR";
"2 1 8861 8862 8864 AND";
"2 1 8860 8864 8865 XOR";
"2 1 8865 178 8866 AND";
"2 1 8865 178 8867 XOR";
"2 1 8867 8866 8868 XOR";
"2 1 18 8639 8869 XOR";
"2 1 8868 8869 8870 AND";
"2 1 8870 8639 8871 XOR";
"2 1 8505 8643 8872 XOR";
"2 1 8868 8872 8873 AND";
"2 1 8873 8643 8874 XOR";
"2 1 8508 8648 8875 XOR";
"2 1 8868 8875 8876 AND";
"2 1 8876 8648 8877 XOR";
"2 1 8511 8653 8878 XOR";
"2 1 8868 8878 8879 AND";
"2 1 8879 8653 8880 XOR";
"2 1 8514 8658 8881 XOR";
"2 1 8868 8881 8882 AND";
"2 1 8882 8658 8883 XOR";
"2 1 8517 8663 8884 XOR";
"2 1 8868 8884 8885 AND";
"2 1 8885 8663 8886 XOR";
"2 1 8520 8668 8887 XOR";
"2 1 8868 8887 8888 AND";
"2 1 8888 8668 8889 XOR";
"2 1 8523 8673 8890 XOR";
"2 1 8868 8890 8891 AND";
"2 1 8891 8673 8892 XOR";
"2 1 8526 8678 8893 XOR";
"2 1 8868 8893 8894 AND";
"2 1 8894 8678 8895 XOR";
"2 1 8529 8683 8896 XOR";
"2 1 8868 8896 8897 AND";
"2 1 8897 8683 8898 XOR";
"2 1 8532 8688 8899 XOR";
"2 1 8868 8899 8900 AND";
"2 1 8900 8688 8901 XOR";
"2 1 8535 8693 8902 XOR";
"2 1 8868 8902 8903 AND";
"2 1 8903 8693 8904 XOR";
"2 1 8538 8698 8905 XOR";
"2 1 8868 8905 8906 AND";
"2 1 8906 8698 8907 XOR";
"2 1 8541 8703 8908 XOR";
"2 1 8868 8908 8909 AND";
"2 1 8909 8703 8910 XOR";
"2 1 8544 8708 8911 XOR";
"2 1 8868 8911 8912 AND";
"2 1 8912 8708 8913 XOR";
"2 1 8547 8713 8914 XOR";
"2 1 8868 8914 8915 AND";
"2 1 8915 8713 8916 XOR";
"2 1 8550 8718 8917 XOR";
"2 1 8868 8917 8918 AND";
"2 1 8918 8718 8919 XOR";
"2 1 8553 8723 8920 XOR";
"2 1 8868 8920 8921 AND";
"2 1 8921 8723 8922 XOR";
"2 1 8556 8728 8923 XOR";
"2 1 8868 8923 8924 AND";
"2 1 8924 8728 8925 XOR";
"2 1 8559 8733 8926 XOR";
"2 1 8868 8926 8927 AND";
"2 1 8927 8733 8928 XOR";
"2 1 8562 8738 8929 XOR";
"2 1 8868 8929 8930 AND";
"2 1 8930 8738 8931 XOR";
"2 1 8565 8743 8932 XOR";
"2 1 8868 8932 8933 AND";
"2 1 8933 8743 8934 XOR";
"2 1 8568 8748 8935 XOR";
"2 1 8868 8935 8936 AND";
"2 1 8936 8748 8937 XOR";
"2 1 8571 8753 8938 XOR";
"2 1 8868 8938 8939 AND";
"2 1 8939 8753 8940 XOR";
"2 1 8574 8758 8941 XOR";
"2 1 8868 8941 8942 AND";
"2 1 8942 8758 8943 XOR";
"2 1 8577 8763 8944 XOR";
"2 1 8868 8944 8945 AND";
"2 1 8945 8763 8946 XOR";
"2 1 8580 8768 8947 XOR";
"2 1 8868 8947 8948 AND";
"2 1 8948 8768 8949 XOR";
"2 1 8583 8773 8950 XOR";
"2 1 8868 8950 8951 AND";
"2 1 8951 8773 8952 XOR";
"2 1 8586 8778 8953 XOR";
"2 1 8868 8953 8954 AND";
"2 1 8954 8778 8955 XOR";
"2 1 8589 8783 8956 XOR";
"2 1 8868 8956 8957 AND";
"2 1 8957 8783 8958 XOR";
"2 1 8592 8788 8959 XOR";
"2 1 8868 8959 8960 AND";
"2 1 8960 8788 8961 XOR";
"2 1 8595 8793 8962 XOR";
"2 1 8868 8962 8963 AND";
"2 1 8963 8793 8964 XOR";
"2 1 8598 8798 8965 XOR";
"2 1 8868 8965 8966 AND";
"2 1 8966 8798 8967 XOR";
"2 1 8601 8803 8968 XOR";
"2 1 8868 8968 8969 AND";
"2 1 8969 8803 8970 XOR";
"2 1 8604 8808 8971 XOR";
"2 1 8868 8971 8972 AND";
"2 1 8972 8808 8973 XOR";
"2 1 8607 8813 8974 XOR";
"2 1 8868 8974 8975 AND";
"2 1 8975 8813 8976 XOR";
"2 1 8610 8818 8977 XOR";
"2 1 8868 8977 8978 AND";
"2 1 8978 8818 8979 XOR";
"2 1 8613 8823 8980 XOR";
"2 1 8868 8980 8981 AND";
"2 1 8981 8823 8982 XOR";
"2 1 8616 8828 8983 XOR";
"2 1 8868 8983 8984 AND";
"2 1 8984 8828 8985 XOR";
"2 1 8619 8833 8986 XOR";
"2 1 8868 8986 8987 AND";
"2 1 8987 8833 8988 XOR";
"2 1 8622 8838 8989 XOR";
"2 1 8868 8989 8990 AND";
"2 1 8990 8838 8991 XOR";
"2 1 8625 8843 8992 XOR";
"2 1 8868 8992 8993 AND";
"2 1 8993 8843 8994 XOR";
"2 1 8628 8848 8995 XOR";
"2 1 8868 8995 8996 AND";
"2 1 8996 8848 8997 XOR";
"2 1 8631 8853 8998 XOR";
"2 1 8868 8998 8999 AND";
"2 1 8999 8853 9000 XOR";
"2 1 8634 8858 9001 XOR";
"2 1 8868 9001 9002 AND";
"2 1 9002 8858 9003 XOR";
"2 1 8637 8863 9004 XOR";
"2 1 8868 9004 9005 AND";
"2 1 9005 8863 9006 XOR";
"1 1 8868 9007 INV";
"2 1 17 64 9008 XOR";
"2 1 9008 64 9009 AND";
"2 1 8871 65 9010 XOR";
"2 1 9009 65 9011 XOR";
"2 1 9010 9009 9012 XOR";
"2 1 9010 9011 9013 AND";
"2 1 9009 9013 9014 XOR";
"2 1 8874 66 9015 XOR";
"2 1 9014 66 9016 XOR";
"2 1 9015 9014 9017 XOR";
"2 1 9015 9016 9018 AND";
"2 1 9014 9018 9019 XOR";
"2 1 8877 67 9020 XOR";
"2 1 9019 67 9021 XOR";
"2 1 9020 9019 9022 XOR";
"2 1 9020 9021 9023 AND";
"2 1 9019 9023 9024 XOR";
"2 1 8880 68 9025 XOR";
"2 1 9024 68 9026 XOR";
"2 1 9025 9024 9027 XOR";
"2 1 9025 9026 9028 AND";
"2 1 9024 9028 9029 XOR";
"2 1 8883 69 9030 XOR";
"2 1 9029 69 9031 XOR";
"2 1 9030 9029 9032 XOR";
"2 1 9030 9031 9033 AND";
"2 1 9029 9033 9034 XOR";
"2 1 8886 70 9035 XOR";
"2 1 9034 70 9036 XOR";
"2 1 9035 9034 9037 XOR";
"2 1 9035 9036 9038 AND";
"2 1 9034 9038 9039 XOR";
"2 1 8889 71 9040 XOR";
"2 1 9039 71 9041 XOR";
"2 1 9040 9039 9042 XOR";
"2 1 9040 9041 9043 AND";
"2 1 9039 9043 9044 XOR";
"2 1 8892 72 9045 XOR";
"2 1 9044 72 9046 XOR";
"2 1 9045 9044 9047 XOR";
"2 1 9045 9046 9048 AND";
"2 1 9044 9048 9049 XOR";
"2 1 8895 73 9050 XOR";
"2 1 9049 73 9051 XOR";
"2 1 9050 9049 9052 XOR";
"2 1 9050 9051 9053 AND";
"2 1 9049 9053 9054 XOR";
"2 1 8898 74 9055 XOR";
"2 1 9054 74 9056 XOR";
"2 1 9055 9054 9057 XOR";
"2 1 9055 9056 9058 AND";
"2 1 9054 9058 9059 XOR";
"2 1 8901 75 9060 XOR";
"2 1 9059 75 9061 XOR";
"2 1 9060 9059 9062 XOR";
"2 1 9060 9061 9063 AND";
"2 1 9059 9063 9064 XOR";
"2 1 8904 76 9065 XOR";
"2 1 9064 76 9066 XOR";
"2 1 9065 9064 9067 XOR";
"2 1 9065 9066 9068 AND";
"2 1 9064 9068 9069 XOR";
"2 1 8907 77 9070 XOR";
"2 1 9069 77 9071 XOR";
"2 1 9070 9069 9072 XOR";
"2 1 9070 9071 9073 AND";
"2 1 9069 9073 9074 XOR";
"2 1 8910 78 9075 XOR";
"2 1 9074 78 9076 XOR";
"2 1 9075 9074 9077 XOR";
"2 1 9075 9076 9078 AND";
"2 1 9074 9078 9079 XOR";
"2 1 8913 79 9080 XOR";
"2 1 9079 79 9081 XOR";
"2 1 9080 9079 9082 XOR";
"2 1 9080 9081 9083 AND";
"2 1 9079 9083 9084 XOR";
"2 1 8916 80 9085 XOR";
"2 1 9084 80 9086 XOR";
"2 1 9085 9084 9087 XOR";
"2 1 9085 9086 9088 AND";
"2 1 9084 9088 9089 XOR";
"2 1 8919 81 9090 XOR";
"2 1 9089 81 9091 XOR";
"2 1 9090 9089 9092 XOR";
"2 1 9090 9091 9093 AND";
"2 1 9089 9093 9094 XOR";
"2 1 8922 82 9095 XOR";
"2 1 9094 82 9096 XOR";
"2 1 9095 9094 9097 XOR";
"2 1 9095 9096 9098 AND";
"2 1 9094 9098 9099 XOR";
"2 1 8925 83 9100 XOR";
"2 1 9099 83 9101 XOR";
"2 1 9100 9099 9102 XOR";
"2 1 9100 9101 9103 AND";
"2 1 9099 9103 9104 XOR";
"2 1 8928 84 9105 XOR";
"2 1 9104 84 9106 XOR";
"2 1 9105 9104 9107 XOR";
"2 1 9105 9106 9108 AND";
"2 1 9104 9108 9109 XOR";
"2 1 8931 85 9110 XOR";
"2 1 9109 85 9111 XOR";
"2 1 9110 9109 9112 XOR";
"2 1 9110 9111 9113 AND";
"2 1 9109 9113 9114 XOR";
"2 1 8934 86 9115 XOR";
"2 1 9114 86 9116 XOR";
"2 1 9115 9114 9117 XOR";
"2 1 9115 9116 9118 AND";
"2 1 9114 9118 9119 XOR";
"2 1 8937 87 9120 XOR";
"2 1 9119 87 9121 XOR";
"2 1 9120 9119 9122 XOR";
"2 1 9120 9121 9123 AND";
"2 1 9119 9123 9124 XOR";
"2 1 8940 88 9125 XOR";
"2 1 9124 88 9126 XOR";
"2 1 9125 9124 9127 XOR";
"2 1 9125 9126 9128 AND";
"2 1 9124 9128 9129 XOR";
"2 1 8943 89 9130 XOR";
"2 1 9129 89 9131 XOR";
"2 1 9130 9129 9132 XOR";
"2 1 9130 9131 9133 AND";
"2 1 9129 9133 9134 XOR";
"2 1 8946 90 9135 XOR";
"2 1 9134 90 9136 XOR";
"2 1 9135 9134 9137 XOR";
"2 1 9135 9136 9138 AND";
"2 1 9134 9138 9139 XOR";
"2 1 8949 91 9140 XOR";
"2 1 9139 91 9141 XOR";
"2 1 9140 9139 9142 XOR";
"2 1 9140 9141 9143 AND";
"2 1 9139 9143 9144 XOR";
"2 1 8952 92 9145 XOR";
"2 1 9144 92 9146 XOR";
"2 1 9145 9144 9147 XOR";
"2 1 9145 9146 9148 AND";
"2 1 9144 9148 9149 XOR";
"2 1 8955 93 9150 XOR";
"2 1 9149 93 9151 XOR";
"2 1 9150 9149 9152 XOR";
"2 1 9150 9151 9153 AND";
"2 1 9149 9153 9154 XOR";
"2 1 8958 94 9155 XOR";
"2 1 9154 94 9156 XOR";
"2 1 9155 9154 9157 XOR";
"2 1 9155 9156 9158 AND";
"2 1 9154 9158 9159 XOR";
"2 1 8961 95 9160 XOR";
"2 1 9159 95 9161 XOR";
"2 1 9160 9159 9162 XOR";
"2 1 9160 9161 9163 AND";
"2 1 9159 9163 9164 XOR";
"2 1 8964 96 9165 XOR";
"2 1 9164 96 9166 XOR";
"2 1 9165 9164 9167 XOR";
"2 1 9165 9166 9168 AND";
"2 1 9164 9168 9169 XOR";
"2 1 8967 97 9170 XOR";
"2 1 9169 97 9171 XOR";
"2 1 9170 9169 9172 XOR";
"2 1 9170 9171 9173 AND";
"2 1 9169 9173 9174 XOR";
"2 1 8970 98 9175 XOR";
"2 1 9174 98 9176 XOR";
"2 1 9175 9174 9177 XOR";
"2 1 9175 9176 9178 AND";
"2 1 9174 9178 9179 XOR";
"2 1 8973 99 9180 XOR";
"2 1 9179 99 9181 XOR";
"2 1 9180 9179 9182 XOR";
"2 1 9180 9181 9183 AND";
"2 1 9179 9183 9184 XOR";
"2 1 8976 100 9185 XOR";
"2 1 9184 100 9186 XOR";
"2 1 9185 9184 9187 XOR";
"2 1 9185 9186 9188 AND";
"2 1 9184 9188 9189 XOR";
"2 1 8979 101 9190 XOR";
"2 1 9189 101 9191 XOR";
"2 1 9190 9189 9192 XOR";
"2 1 9190 9191 9193 AND";
"2 1 9189 9193 9194 XOR";
"2 1 8982 102 9195 XOR";
"2 1 9194 102 9196 XOR";
"2 1 9195 9194 9197 XOR";
"2 1 9195 9196 9198 AND";
"2 1 9194 9198 9199 XOR";
"2 1 8985 103 9200 XOR";
"2 1 9199 103 9201 XOR";
"2 1 9200 9199 9202 XOR";
"2 1 9200 9201 9203 AND";
"2 1 9199 9203 9204 XOR";
"2 1 8988 104 9205 XOR";
"2 1 9204 104 9206 XOR";
"2 1 9205 9204 9207 XOR";
"2 1 9205 9206 9208 AND";
"2 1 9204 9208 9209 XOR";
"2 1 8991 105 9210 XOR";
"2 1 9209 105 9211 XOR";
"2 1 9210 9209 9212 XOR";
"2 1 9210 9211 9213 AND";
"2 1 9209 9213 9214 XOR";
"2 1 8994 106 9215 XOR";
"2 1 9214 106 9216 XOR";
"2 1 9215 9214 9217 XOR";
"2 1 9215 9216 9218 AND";
"2 1 9214 9218 9219 XOR";
"2 1 8997 107 9220 XOR";
"2 1 9219 107 9221 XOR";
"2 1 9220 9219 9222 XOR";
"2 1 9220 9221 9223 AND";
"2 1 9219 9223 9224 XOR";
"2 1 9000 108 9225 XOR";
"2 1 9224 108 9226 XOR";
"2 1 9225 9224 9227 XOR";
"2 1 9225 9226 9228 AND";
"2 1 9224 9228 9229 XOR";
"2 1 9003 109 9230 XOR";
"2 1 9229 109 9231 XOR";
"2 1 9230 9229 9232 XOR";
"2 1 9230 9231 9233 AND";
"2 1 9229 9233 9234 XOR";
"2 1 9006 110 9235 XOR";
"2 1 9234 110 9236 XOR";
"2 1 9235 9234 9237 XOR";
"2 1 9235 9236 9238 AND";
"2 1 9234 9238 9239 XOR";
"2 1 9239 175 9240 AND";
"2 1 9239 175 9241 XOR";
"2 1 9241 9240 9242 XOR";
"2 1 17 9008 9243 XOR";
"2 1 9242 9243 9244 AND";
"2 1 9244 9008 9245 XOR";
"2 1 8871 9012 9246 XOR";
"2 1 9242 9246 9247 AND";
"2 1 9247 9012 9248 XOR";
"2 1 8874 9017 9249 XOR";
"2 1 9242 9249 9250 AND";
"2 1 9250 9017 9251 XOR";
"2 1 8877 9022 9252 XOR";
"2 1 9242 9252 9253 AND";
"2 1 9253 9022 9254 XOR";
"2 1 8880 9027 9255 XOR";
"2 1 9242 9255 9256 AND";
"2 1 9256 9027 9257 XOR";
"2 1 8883 9032 9258 XOR";
"2 1 9242 9258 9259 AND";
"2 1 9259 9032 9260 XOR";
"2 1 8886 9037 9261 XOR";
"2 1 9242 9261 9262 AND";
"2 1 9262 9037 9263 XOR";
"2 1 8889 9042 9264 XOR";
"2 1 9242 9264 9265 AND";
"2 1 9265 9042 9266 XOR";
"2 1 8892 9047 9267 XOR";
"2 1 9242 9267 9268 AND";
"2 1 9268 9047 9269 XOR";
"2 1 8895 9052 9270 XOR";
"2 1 9242 9270 9271 AND";
"2 1 9271 9052 9272 XOR";
"2 1 8898 9057 9273 XOR";
"2 1 9242 9273 9274 AND";
"2 1 9274 9057 9275 XOR";
"2 1 8901 9062 9276 XOR";
"2 1 9242 9276 9277 AND";
"2 1 9277 9062 9278 XOR";
"2 1 8904 9067 9279 XOR";
"2 1 9242 9279 9280 AND";
"2 1 9280 9067 9281 XOR";
"2 1 8907 9072 9282 XOR";
"2 1 9242 9282 9283 AND";
"2 1 9283 9072 9284 XOR";
"2 1 8910 9077 9285 XOR";
"2 1 9242 9285 9286 AND";
"2 1 9286 9077 9287 XOR";
"2 1 8913 9082 9288 XOR";
"2 1 9242 9288 9289 AND";
"2 1 9289 9082 9290 XOR";
"2 1 8916 9087 9291 XOR";
"2 1 9242 9291 9292 AND";
"2 1 9292 9087 9293 XOR";
"2 1 8919 9092 9294 XOR";
"2 1 9242 9294 9295 AND";
"2 1 9295 9092 9296 XOR";
"2 1 8922 9097 9297 XOR";
"2 1 9242 9297 9298 AND";
"2 1 9298 9097 9299 XOR";
"2 1 8925 9102 9300 XOR";
"2 1 9242 9300 9301 AND";
"2 1 9301 9102 9302 XOR";
"2 1 8928 9107 9303 XOR";
"2 1 9242 9303 9304 AND";
"2 1 9304 9107 9305 XOR";
"2 1 8931 9112 9306 XOR";
"2 1 9242 9306 9307 AND";
"2 1 9307 9112 9308 XOR";
"2 1 8934 9117 9309 XOR";
"2 1 9242 9309 9310 AND";
"2 1 9310 9117 9311 XOR";
"2 1 8937 9122 9312 XOR";
"2 1 9242 9312 9313 AND";
"2 1 9313 9122 9314 XOR";
"2 1 8940 9127 9315 XOR";
"2 1 9242 9315 9316 AND";
"2 1 9316 9127 9317 XOR";
"2 1 8943 9132 9318 XOR";
"2 1 9242 9318 9319 AND";
"2 1 9319 9132 9320 XOR";
"2 1 8946 9137 9321 XOR";
"2 1 9242 9321 9322 AND";
"2 1 9322 9137 9323 XOR";
"2 1 8949 9142 9324 XOR";
"2 1 9242 9324 9325 AND";
"2 1 9325 9142 9326 XOR";
"2 1 8952 9147 9327 XOR";
"2 1 9242 9327 9328 AND";
"2 1 9328 9147 9329 XOR";
"2 1 8955 9152 9330 XOR";
"2 1 9242 9330 9331 AND";
"2 1 9331 9152 9332 XOR";
"2 1 8958 9157 9333 XOR";
"2 1 9242 9333 9334 AND";
"2 1 9334 9157 9335 XOR";
"2 1 8961 9162 9336 XOR";
"2 1 9242 9336 9337 AND";
"2 1 9337 9162 9338 XOR";
"2 1 8964 9167 9339 XOR";
"2 1 9242 9339 9340 AND";
"2 1 9340 9167 9341 XOR";
"2 1 8967 9172 9342 XOR";
"2 1 9242 9342 9343 AND";
"2 1 9343 9172 9344 XOR";
"2 1 8970 9177 9345 XOR";
"2 1 9242 9345 9346 AND";
"2 1 9346 9177 9347 XOR";
"2 1 8973 9182 9348 XOR";
"2 1 9242 9348 9349 AND";
"2 1 9349 9182 9350 XOR";
"2 1 8976 9187 9351 XOR";
"2 1 9242 9351 9352 AND";
"2 1 9352 9187 9353 XOR";
"2 1 8979 9192 9354 XOR";
"2 1 9242 9354 9355 AND";
"2 1 9355 9192 9356 XOR";
"2 1 8982 9197 9357 XOR";
"2 1 9242 9357 9358 AND";
"2 1 9358 9197 9359 XOR";
"2 1 8985 9202 9360 XOR";
"2 1 9242 9360 9361 AND";
"2 1 9361 9202 9362 XOR";
"2 1 8988 9207 9363 XOR";
"2 1 9242 9363 9364 AND";
"2 1 9364 9207 9365 XOR";
"2 1 8991 9212 9366 XOR";
"2 1 9242 9366 9367 AND";
"2 1 9367 9212 9368 XOR";
"2 1 8994 9217 9369 XOR";
"2 1 9242 9369 9370 AND";
"2 1 9370 9217 9371 XOR";
"2 1 8997 9222 9372 XOR";
"2 1 9242 9372 9373 AND";
"2 1 9373 9222 9374 XOR";
"2 1 9000 9227 9375 XOR";
"2 1 9242 9375 9376 AND";
"2 1 9376 9227 9377 XOR";
"2 1 9003 9232 9378 XOR";
"2 1 9242 9378 9379 AND";
"2 1 9379 9232 9380 XOR";
"2 1 9006 9237 9381 XOR";
"2 1 9242 9381 9382 AND";
"2 1 9382 9237 9383 XOR";
"1 1 9242 9384 INV";
"2 1 16 64 9385 XOR";
"2 1 9385 64 9386 AND";
"2 1 9245 65 9387 XOR";
"2 1 9386 65 9388 XOR";
"2 1 9387 9386 9389 XOR";
"2 1 9387 9388 9390 AND";
"2 1 9386 9390 9391 XOR";
"2 1 9248 66 9392 XOR";
"2 1 9391 66 9393 XOR";
"2 1 9392 9391 9394 XOR";
"2 1 9392 9393 9395 AND";
"2 1 9391 9395 9396 XOR";
"2 1 9251 67 9397 XOR";
"2 1 9396 67 9398 XOR";
"2 1 9397 9396 9399 XOR";
"2 1 9397 9398 9400 AND";
"2 1 9396 9400 9401 XOR";
"2 1 9254 68 9402 XOR";
"2 1 9401 68 9403 XOR";
"2 1 9402 9401 9404 XOR";
"2 1 9402 9403 9405 AND";
"2 1 9401 9405 9406 XOR";
"2 1 9257 69 9407 XOR";
"2 1 9406 69 9408 XOR";
"2 1 9407 9406 9409 XOR";
"2 1 9407 9408 9410 AND";
"2 1 9406 9410 9411 XOR";
"2 1 9260 70 9412 XOR";
"2 1 9411 70 9413 XOR";
"2 1 9412 9411 9414 XOR";
"2 1 9412 9413 9415 AND";
"2 1 9411 9415 9416 XOR";
"2 1 9263 71 9417 XOR";
"2 1 9416 71 9418 XOR";
"2 1 9417 9416 9419 XOR";
"2 1 9417 9418 9420 AND";
"2 1 9416 9420 9421 XOR";
"2 1 9266 72 9422 XOR";
"2 1 9421 72 9423 XOR";
"2 1 9422 9421 9424 XOR";
"2 1 9422 9423 9425 AND";
"2 1 9421 9425 9426 XOR";
"2 1 9269 73 9427 XOR";
"2 1 9426 73 9428 XOR";
"2 1 9427 9426 9429 XOR";
"2 1 9427 9428 9430 AND";
"2 1 9426 9430 9431 XOR";
"2 1 9272 74 9432 XOR";
"2 1 9431 74 9433 XOR";
"2 1 9432 9431 9434 XOR";
"2 1 9432 9433 9435 AND";
"2 1 9431 9435 9436 XOR";
"2 1 9275 75 9437 XOR";
"2 1 9436 75 9438 XOR";
"2 1 9437 9436 9439 XOR";
"2 1 9437 9438 9440 AND";
"2 1 9436 9440 9441 XOR";
"2 1 9278 76 9442 XOR";
"2 1 9441 76 9443 XOR";
"2 1 9442 9441 9444 XOR";
"2 1 9442 9443 9445 AND";
"2 1 9441 9445 9446 XOR";
"2 1 9281 77 9447 XOR";
"2 1 9446 77 9448 XOR";
"2 1 9447 9446 9449 XOR";
"2 1 9447 9448 9450 AND";
"2 1 9446 9450 9451 XOR";
"2 1 9284 78 9452 XOR";
"2 1 9451 78 9453 XOR";
"2 1 9452 9451 9454 XOR";
"2 1 9452 9453 9455 AND";
"2 1 9451 9455 9456 XOR";
"2 1 9287 79 9457 XOR";
"2 1 9456 79 9458 XOR";
"2 1 9457 9456 9459 XOR";
"2 1 9457 9458 9460 AND";
"2 1 9456 9460 9461 XOR";
"2 1 9290 80 9462 XOR";
"2 1 9461 80 9463 XOR";
"2 1 9462 9461 9464 XOR";
"2 1 9462 9463 9465 AND";
"2 1 9461 9465 9466 XOR";
"2 1 9293 81 9467 XOR";
"2 1 9466 81 9468 XOR";
"2 1 9467 9466 9469 XOR";
"2 1 9467 9468 9470 AND";
"2 1 9466 9470 9471 XOR";
"2 1 9296 82 9472 XOR";
"2 1 9471 82 9473 XOR";
"2 1 9472 9471 9474 XOR";
"2 1 9472 9473 9475 AND";
"2 1 9471 9475 9476 XOR";
"2 1 9299 83 9477 XOR";
"2 1 9476 83 9478 XOR";
"2 1 9477 9476 9479 XOR";
"2 1 9477 9478 9480 AND";
"2 1 9476 9480 9481 XOR";
"2 1 9302 84 9482 XOR";
"2 1 9481 84 9483 XOR";
"2 1 9482 9481 9484 XOR";
"2 1 9482 9483 9485 AND";
"2 1 9481 9485 9486 XOR";
"2 1 9305 85 9487 XOR";
"2 1 9486 85 9488 XOR";
"2 1 9487 9486 9489 XOR";
"2 1 9487 9488 9490 AND";
"2 1 9486 9490 9491 XOR";
"2 1 9308 86 9492 XOR";
"2 1 9491 86 9493 XOR";
"2 1 9492 9491 9494 XOR";
"2 1 9492 9493 9495 AND";
"2 1 9491 9495 9496 XOR";
"2 1 9311 87 9497 XOR";
"2 1 9496 87 9498 XOR";
"2 1 9497 9496 9499 XOR";
"2 1 9497 9498 9500 AND";
"2 1 9496 9500 9501 XOR";
"2 1 9314 88 9502 XOR";
"2 1 9501 88 9503 XOR";
"2 1 9502 9501 9504 XOR";
"2 1 9502 9503 9505 AND";
"2 1 9501 9505 9506 XOR";
"2 1 9317 89 9507 XOR";
"2 1 9506 89 9508 XOR";
"2 1 9507 9506 9509 XOR";
"2 1 9507 9508 9510 AND";
"2 1 9506 9510 9511 XOR";
"2 1 9320 90 9512 XOR";
"2 1 9511 90 9513 XOR";
"2 1 9512 9511 9514 XOR";
"2 1 9512 9513 9515 AND";
"2 1 9511 9515 9516 XOR";
"2 1 9323 91 9517 XOR";
"2 1 9516 91 9518 XOR";
"2 1 9517 9516 9519 XOR";
"2 1 9517 9518 9520 AND";
"2 1 9516 9520 9521 XOR";
"2 1 9326 92 9522 XOR";
"2 1 9521 92 9523 XOR";
"2 1 9522 9521 9524 XOR";
"2 1 9522 9523 9525 AND";
"2 1 9521 9525 9526 XOR";
"2 1 9329 93 9527 XOR";
"2 1 9526 93 9528 XOR";
"2 1 9527 9526 9529 XOR";
"2 1 9527 9528 9530 AND";
"2 1 9526 9530 9531 XOR";
"2 1 9332 94 9532 XOR";
"2 1 9531 94 9533 XOR";
"2 1 9532 9531 9534 XOR";
"2 1 9532 9533 9535 AND";
"2 1 9531 9535 9536 XOR";
"2 1 9335 95 9537 XOR";
"2 1 9536 95 9538 XOR";
"2 1 9537 9536 9539 XOR";
"2 1 9537 9538 9540 AND";
"2 1 9536 9540 9541 XOR";
"2 1 9338 96 9542 XOR";
"2 1 9541 96 9543 XOR";
"2 1 9542 9541 9544 XOR";
"2 1 9542 9543 9545 AND";
"2 1 9541 9545 9546 XOR";
"2 1 9341 97 9547 XOR";
"2 1 9546 97 9548 XOR";
"2 1 9547 9546 9549 XOR";
"2 1 9547 9548 9550 AND";
"2 1 9546 9550 9551 XOR";
"2 1 9344 98 9552 XOR";
"2 1 9551 98 9553 XOR";
"2 1 9552 9551 9554 XOR";
"2 1 9552 9553 9555 AND";
"2 1 9551 9555 9556 XOR";
"2 1 9347 99 9557 XOR";
"2 1 9556 99 9558 XOR";
"2 1 9557 9556 9559 XOR";
"2 1 9557 9558 9560 AND";
"2 1 9556 9560 9561 XOR";
"2 1 9350 100 9562 XOR";
"2 1 9561 100 9563 XOR";
"2 1 9562 9561 9564 XOR";
"2 1 9562 9563 9565 AND";
"2 1 9561 9565 9566 XOR";
"2 1 9353 101 9567 XOR";
"2 1 9566 101 9568 XOR";
"2 1 9567 9566 9569 XOR";
"2 1 9567 9568 9570 AND";
"2 1 9566 9570 9571 XOR";
"2 1 9356 102 9572 XOR";
"2 1 9571 102 9573 XOR";
"2 1 9572 9571 9574 XOR";
"2 1 9572 9573 9575 AND";
"2 1 9571 9575 9576 XOR";
"2 1 9359 103 9577 XOR";
"2 1 9576 103 9578 XOR";
"2 1 9577 9576 9579 XOR";
"2 1 9577 9578 9580 AND";
"2 1 9576 9580 9581 XOR";
"2 1 9362 104 9582 XOR";
"2 1 9581 104 9583 XOR";
"2 1 9582 9581 9584 XOR";
"2 1 9582 9583 9585 AND";
"2 1 9581 9585 9586 XOR";
"2 1 9365 105 9587 XOR";
"2 1 9586 105 9588 XOR";
"2 1 9587 9586 9589 XOR";
"2 1 9587 9588 9590 AND";
"2 1 9586 9590 9591 XOR";
"2 1 9368 106 9592 XOR";
"2 1 9591 106 9593 XOR";
"2 1 9592 9591 9594 XOR";
"2 1 9592 9593 9595 AND";
"2 1 9591 9595 9596 XOR";
"2 1 9371 107 9597 XOR";
"2 1 9596 107 9598 XOR";
"2 1 9597 9596 9599 XOR";
"2 1 9597 9598 9600 AND";
"2 1 9596 9600 9601 XOR";
"2 1 9374 108 9602 XOR";
"2 1 9601 108 9603 XOR";
"2 1 9602 9601 9604 XOR";
"2 1 9602 9603 9605 AND";
"2 1 9601 9605 9606 XOR";
"2 1 9377 109 9607 XOR";
"2 1 9606 109 9608 XOR";
"2 1 9607 9606 9609 XOR";
"2 1 9607 9608 9610 AND";
"2 1 9606 9610 9611 XOR";
"2 1 9380 110 9612 XOR";
"2 1 9611 110 9613 XOR";
"2 1 9612 9611 9614 XOR";
"2 1 9612 9613 9615 AND";
"2 1 9611 9615 9616 XOR";
"2 1 9383 111 9617 XOR";
"2 1 9616 111 9618 XOR";
"2 1 9617 9616 9619 XOR";
"2 1 9617 9618 9620 AND";
"2 1 9616 9620 9621 XOR";
"2 1 9621 172 9622 AND";
"2 1 9621 172 9623 XOR";
"2 1 9623 9622 9624 XOR";
"2 1 16 9385 9625 XOR";
"2 1 9624 9625 9626 AND";
"2 1 9626 9385 9627 XOR";
"2 1 9245 9389 9628 XOR";
"2 1 9624 9628 9629 AND";
"2 1 9629 9389 9630 XOR";
"2 1 9248 9394 9631 XOR";
"2 1 9624 9631 9632 AND";
"2 1 9632 9394 9633 XOR";
"2 1 9251 9399 9634 XOR";
"2 1 9624 9634 9635 AND";
"2 1 9635 9399 9636 XOR";
"2 1 9254 9404 9637 XOR";
"2 1 9624 9637 9638 AND";
"2 1 9638 9404 9639 XOR";
"2 1 9257 9409 9640 XOR";
"2 1 9624 9640 9641 AND";
"2 1 9641 9409 9642 XOR";
"2 1 9260 9414 9643 XOR";
"2 1 9624 9643 9644 AND";
"2 1 9644 9414 9645 XOR";
"2 1 9263 9419 9646 XOR";
"2 1 9624 9646 9647 AND";
"2 1 9647 9419 9648 XOR";
"2 1 9266 9424 9649 XOR";
"2 1 9624 9649 9650 AND";
"2 1 9650 9424 9651 XOR";
"2 1 9269 9429 9652 XOR";
"2 1 9624 9652 9653 AND";
"2 1 9653 9429 9654 XOR";
"2 1 9272 9434 9655 XOR";
"2 1 9624 9655 9656 AND";
"2 1 9656 9434 9657 XOR";
"2 1 9275 9439 9658 XOR";
"2 1 9624 9658 9659 AND";
"2 1 9659 9439 9660 XOR";
"2 1 9278 9444 9661 XOR";
"2 1 9624 9661 9662 AND";
"2 1 9662 9444 9663 XOR";
"2 1 9281 9449 9664 XOR";
"2 1 9624 9664 9665 AND";
"2 1 9665 9449 9666 XOR";
"2 1 9284 9454 9667 XOR";
"2 1 9624 9667 9668 AND";
"2 1 9668 9454 9669 XOR";
"2 1 9287 9459 9670 XOR";
"2 1 9624 9670 9671 AND";
"2 1 9671 9459 9672 XOR";
"2 1 9290 9464 9673 XOR";
"2 1 9624 9673 9674 AND";
"2 1 9674 9464 9675 XOR";
"2 1 9293 9469 9676 XOR";
"2 1 9624 9676 9677 AND";
"2 1 9677 9469 9678 XOR";
"2 1 9296 9474 9679 XOR";
"2 1 9624 9679 9680 AND";
"2 1 9680 9474 9681 XOR";
"2 1 9299 9479 9682 XOR";
"2 1 9624 9682 9683 AND";
"2 1 9683 9479 9684 XOR";
"2 1 9302 9484 9685 XOR";
"2 1 9624 9685 9686 AND";
"2 1 9686 9484 9687 XOR";
"2 1 9305 9489 9688 XOR";
"2 1 9624 9688 9689 AND";
"2 1 9689 9489 9690 XOR";
"2 1 9308 9494 9691 XOR";
"2 1 9624 9691 9692 AND";
"2 1 9692 9494 9693 XOR";
"2 1 9311 9499 9694 XOR";
"2 1 9624 9694 9695 AND";
"2 1 9695 9499 9696 XOR";
"2 1 9314 9504 9697 XOR";
"2 1 9624 9697 9698 AND";
"2 1 9698 9504 9699 XOR";
"2 1 9317 9509 9700 XOR";
"2 1 9624 9700 9701 AND";
"2 1 9701 9509 9702 XOR";
"2 1 9320 9514 9703 XOR";
"2 1 9624 9703 9704 AND";
"2 1 9704 9514 9705 XOR";
"2 1 9323 9519 9706 XOR";
"2 1 9624 9706 9707 AND";
"2 1 9707 9519 9708 XOR";
"2 1 9326 9524 9709 XOR";
"2 1 9624 9709 9710 AND";
"2 1 9710 9524 9711 XOR";
"2 1 9329 9529 9712 XOR";
"2 1 9624 9712 9713 AND";
"2 1 9713 9529 9714 XOR";
"2 1 9332 9534 9715 XOR";
"2 1 9624 9715 9716 AND";
"2 1 9716 9534 9717 XOR";
"2 1 9335 9539 9718 XOR";
"2 1 9624 9718 9719 AND";
"2 1 9719 9539 9720 XOR";
"2 1 9338 9544 9721 XOR";
"2 1 9624 9721 9722 AND";
"2 1 9722 9544 9723 XOR";
"2 1 9341 9549 9724 XOR";
"2 1 9624 9724 9725 AND";
"2 1 9725 9549 9726 XOR";
"2 1 9344 9554 9727 XOR";
"2 1 9624 9727 9728 AND";
"2 1 9728 9554 9729 XOR";
"2 1 9347 9559 9730 XOR";
"2 1 9624 9730 9731 AND";
"2 1 9731 9559 9732 XOR";
"2 1 9350 9564 9733 XOR";
"2 1 9624 9733 9734 AND";
"2 1 9734 9564 9735 XOR";
"2 1 9353 9569 9736 XOR";
"2 1 9624 9736 9737 AND";
"2 1 9737 9569 9738 XOR";
"2 1 9356 9574 9739 XOR";
"2 1 9624 9739 9740 AND";
"2 1 9740 9574 9741 XOR";
"2 1 9359 9579 9742 XOR";
"2 1 9624 9742 9743 AND";
"2 1 9743 9579 9744 XOR";
"2 1 9362 9584 9745 XOR";
"2 1 9624 9745 9746 AND";
"2 1 9746 9584 9747 XOR";
"2 1 9365 9589 9748 XOR";
"2 1 9624 9748 9749 AND";
"2 1 9749 9589 9750 XOR";
"2 1 9368 9594 9751 XOR";
"2 1 9624 9751 9752 AND";
"2 1 9752 9594 9753 XOR";
"2 1 9371 9599 9754 XOR";
"2 1 9624 9754 9755 AND";
"2 1 9755 9599 9756 XOR";
"2 1 9374 9604 9757 XOR";
"2 1 9624 9757 9758 AND";
"2 1 9758 9604 9759 XOR";
"2 1 9377 9609 9760 XOR";
"2 1 9624 9760 9761 AND";
"2 1 9761 9609 9762 XOR";
"2 1 9380 9614 9763 XOR";
"2 1 9624 9763 9764 AND";
"2 1 9764 9614 9765 XOR";
"2 1 9383 9619 9766 XOR";
"2 1 9624 9766 9767 AND";
"2 1 9767 9619 9768 XOR";
"1 1 9624 9769 INV";
"2 1 15 64 9770 XOR";
"2 1 9770 64 9771 AND";
"2 1 9627 65 9772 XOR";
"2 1 9771 65 9773 XOR";
"2 1 9772 9771 9774 XOR";
"2 1 9772 9773 9775 AND";
"2 1 9771 9775 9776 XOR";
"2 1 9630 66 9777 XOR";
"2 1 9776 66 9778 XOR";
"2 1 9777 9776 9779 XOR";
"2 1 9777 9778 9780 AND";
"2 1 9776 9780 9781 XOR";
"2 1 9633 67 9782 XOR";
"2 1 9781 67 9783 XOR";
"2 1 9782 9781 9784 XOR";
"2 1 9782 9783 9785 AND";
"2 1 9781 9785 9786 XOR";
"2 1 9636 68 9787 XOR";
"2 1 9786 68 9788 XOR";
"2 1 9787 9786 9789 XOR";
"2 1 9787 9788 9790 AND";
"2 1 9786 9790 9791 XOR";
"2 1 9639 69 9792 XOR";
"2 1 9791 69 9793 XOR";
"2 1 9792 9791 9794 XOR";
"2 1 9792 9793 9795 AND";
"2 1 9791 9795 9796 XOR";
"2 1 9642 70 9797 XOR";
"2 1 9796 70 9798 XOR";
"2 1 9797 9796 9799 XOR";
"2 1 9797 9798 9800 AND";
"2 1 9796 9800 9801 XOR";
"2 1 9645 71 9802 XOR";
"2 1 9801 71 9803 XOR";
"2 1 9802 9801 9804 XOR";
"2 1 9802 9803 9805 AND";
"2 1 9801 9805 9806 XOR";
"2 1 9648 72 9807 XOR";
"2 1 9806 72 9808 XOR";
"2 1 9807 9806 9809 XOR";
"2 1 9807 9808 9810 AND";
"2 1 9806 9810 9811 XOR";
"2 1 9651 73 9812 XOR";
"2 1 9811 73 9813 XOR";
"2 1 9812 9811 9814 XOR";
"2 1 9812 9813 9815 AND";
"2 1 9811 9815 9816 XOR";
"2 1 9654 74 9817 XOR";
"2 1 9816 74 9818 XOR";
"2 1 9817 9816 9819 XOR";
"2 1 9817 9818 9820 AND";
"2 1 9816 9820 9821 XOR";
"2 1 9657 75 9822 XOR";
"2 1 9821 75 9823 XOR";
"2 1 9822 9821 9824 XOR";
"2 1 9822 9823 9825 AND";
"2 1 9821 9825 9826 XOR";
"2 1 9660 76 9827 XOR";
"2 1 9826 76 9828 XOR";
"2 1 9827 9826 9829 XOR";
"2 1 9827 9828 9830 AND";
"2 1 9826 9830 9831 XOR";
"2 1 9663 77 9832 XOR";
"2 1 9831 77 9833 XOR";
"2 1 9832 9831 9834 XOR";
"2 1 9832 9833 9835 AND";
"2 1 9831 9835 9836 XOR";
"2 1 9666 78 9837 XOR";
"2 1 9836 78 9838 XOR";
"2 1 9837 9836 9839 XOR";
"2 1 9837 9838 9840 AND";
"2 1 9836 9840 9841 XOR";
"2 1 9669 79 9842 XOR";
"2 1 9841 79 9843 XOR";
"2 1 9842 9841 9844 XOR";
"2 1 9842 9843 9845 AND";
"2 1 9841 9845 9846 XOR";
"2 1 9672 80 9847 XOR";
"2 1 9846 80 9848 XOR";
"2 1 9847 9846 9849 XOR";
"2 1 9847 9848 9850 AND";
"2 1 9846 9850 9851 XOR";
"2 1 9675 81 9852 XOR";
"2 1 9851 81 9853 XOR";
"2 1 9852 9851 9854 XOR";
"2 1 9852 9853 9855 AND";
"2 1 9851 9855 9856 XOR";
"2 1 9678 82 9857 XOR";
"2 1 9856 82 9858 XOR";
"2 1 9857 9856 9859 XOR";
"2 1 9857 9858 9860 AND";
"2 1 9856 9860 9861 XOR";
"2 1 9681 83 9862 XOR";
"2 1 9861 83 9863 XOR";
"2 1 9862 9861 9864 XOR";
"2 1 9862 9863 9865 AND";
"2 1 9861 9865 9866 XOR";
"2 1 9684 84 9867 XOR";
"2 1 9866 84 9868 XOR";
"2 1 9867 9866 9869 XOR";
"2 1 9867 9868 9870 AND";
"2 1 9866 9870 9871 XOR";
"2 1 9687 85 9872 XOR";
"2 1 9871 85 9873 XOR";
"2 1 9872 9871 9874 XOR";
"2 1 9872 9873 9875 AND";
"2 1 9871 9875 9876 XOR";
"2 1 9690 86 9877 XOR";
"2 1 9876 86 9878 XOR";
"2 1 9877 9876 9879 XOR";
"2 1 9877 9878 9880 AND";
"2 1 9876 9880 9881 XOR";
"2 1 9693 87 9882 XOR";
"2 1 9881 87 9883 XOR";
"2 1 9882 9881 9884 XOR";
"2 1 9882 9883 9885 AND";
"2 1 9881 9885 9886 XOR";
"2 1 9696 88 9887 XOR";
"2 1 9886 88 9888 XOR";
"2 1 9887 9886 9889 XOR";
"2 1 9887 9888 9890 AND";
"2 1 9886 9890 9891 XOR";
"2 1 9699 89 9892 XOR";
"2 1 9891 89 9893 XOR";
"2 1 9892 9891 9894 XOR";
"2 1 9892 9893 9895 AND";
"2 1 9891 9895 9896 XOR";
"2 1 9702 90 9897 XOR";
"2 1 9896 90 9898 XOR";
"2 1 9897 9896 9899 XOR";
"2 1 9897 9898 9900 AND";
"2 1 9896 9900 9901 XOR";
"2 1 9705 91 9902 XOR";
"2 1 9901 91 9903 XOR";
"2 1 9902 9901 9904 XOR";
"2 1 9902 9903 9905 AND";
"2 1 9901 9905 9906 XOR";
"2 1 9708 92 9907 XOR";
"2 1 9906 92 9908 XOR";
"2 1 9907 9906 9909 XOR";
"2 1 9907 9908 9910 AND";
"2 1 9906 9910 9911 XOR";
"2 1 9711 93 9912 XOR";
"2 1 9911 93 9913 XOR";
"2 1 9912 9911 9914 XOR";
"2 1 9912 9913 9915 AND";
"2 1 9911 9915 9916 XOR";
"2 1 9714 94 9917 XOR";
"2 1 9916 94 9918 XOR";
"2 1 9917 9916 9919 XOR";
"2 1 9917 9918 9920 AND";
"2 1 9916 9920 9921 XOR";
"2 1 9717 95 9922 XOR";
"2 1 9921 95 9923 XOR";
"2 1 9922 9921 9924 XOR";
"2 1 9922 9923 9925 AND";
"2 1 9921 9925 9926 XOR";
"2 1 9720 96 9927 XOR";
"2 1 9926 96 9928 XOR";
"2 1 9927 9926 9929 XOR";
"2 1 9927 9928 9930 AND";
"2 1 9926 9930 9931 XOR";
"2 1 9723 97 9932 XOR";
"2 1 9931 97 9933 XOR";
"2 1 9932 9931 9934 XOR";
"2 1 9932 9933 9935 AND";
"2 1 9931 9935 9936 XOR";
"2 1 9726 98 9937 XOR";
"2 1 9936 98 9938 XOR";
"2 1 9937 9936 9939 XOR";
"2 1 9937 9938 9940 AND";
"2 1 9936 9940 9941 XOR";
"2 1 9729 99 9942 XOR";
"2 1 9941 99 9943 XOR";
"2 1 9942 9941 9944 XOR";
"2 1 9942 9943 9945 AND";
"2 1 9941 9945 9946 XOR";
"2 1 9732 100 9947 XOR";
"2 1 9946 100 9948 XOR";
"2 1 9947 9946 9949 XOR";
"2 1 9947 9948 9950 AND";
"2 1 9946 9950 9951 XOR";
"2 1 9735 101 9952 XOR";
"2 1 9951 101 9953 XOR";
"2 1 9952 9951 9954 XOR";
"2 1 9952 9953 9955 AND";
"2 1 9951 9955 9956 XOR";
"2 1 9738 102 9957 XOR";
"2 1 9956 102 9958 XOR";
"2 1 9957 9956 9959 XOR";
"2 1 9957 9958 9960 AND";
"2 1 9956 9960 9961 XOR";
"2 1 9741 103 9962 XOR";
"2 1 9961 103 9963 XOR";
"2 1 9962 9961 9964 XOR";
"2 1 9962 9963 9965 AND";
"2 1 9961 9965 9966 XOR";
"2 1 9744 104 9967 XOR";
"2 1 9966 104 9968 XOR";
"2 1 9967 9966 9969 XOR";
"2 1 9967 9968 9970 AND";
"2 1 9966 9970 9971 XOR";
"2 1 9747 105 9972 XOR";
"2 1 9971 105 9973 XOR";
"2 1 9972 9971 9974 XOR";
"2 1 9972 9973 9975 AND";
"2 1 9971 9975 9976 XOR";
"2 1 9750 106 9977 XOR";
"2 1 9976 106 9978 XOR";
"2 1 9977 9976 9979 XOR";
"2 1 9977 9978 9980 AND";
"2 1 9976 9980 9981 XOR";
"2 1 9753 107 9982 XOR";
"2 1 9981 107 9983 XOR";
"2 1 9982 9981 9984 XOR";
"2 1 9982 9983 9985 AND";
"2 1 9981 9985 9986 XOR";
"2 1 9756 108 9987 XOR";
"2 1 9986 108 9988 XOR";
"2 1 9987 9986 9989 XOR";
"2 1 9987 9988 9990 AND";
"2 1 9986 9990 9991 XOR";
"2 1 9759 109 9992 XOR";
"2 1 9991 109 9993 XOR";
"2 1 9992 9991 9994 XOR";
"2 1 9992 9993 9995 AND";
"2 1 9991 9995 9996 XOR";
"2 1 9762 110 9997 XOR";
"2 1 9996 110 9998 XOR";
"2 1 9997 9996 9999 XOR";
"2 1 9997 9998 10000 AND";
"2 1 9996 10000 10001 XOR";
"2 1 9765 111 10002 XOR";
"2 1 10001 111 10003 XOR";
"2 1 10002 10001 10004 XOR";
"2 1 10002 10003 10005 AND";
"2 1 10001 10005 10006 XOR";
"2 1 9768 112 10007 XOR";
"2 1 10006 112 10008 XOR";
"2 1 10007 10006 10009 XOR";
"2 1 10007 10008 10010 AND";
"2 1 10006 10010 10011 XOR";
"2 1 10011 169 10012 AND";
"2 1 10011 169 10013 XOR";
"2 1 10013 10012 10014 XOR";
"2 1 15 9770 10015 XOR";
"2 1 10014 10015 10016 AND";
"2 1 10016 9770 10017 XOR";
"2 1 9627 9774 10018 XOR";
"2 1 10014 10018 10019 AND";
"2 1 10019 9774 10020 XOR";
"2 1 9630 9779 10021 XOR";
"2 1 10014 10021 10022 AND";
"2 1 10022 9779 10023 XOR";
"2 1 9633 9784 10024 XOR";
"2 1 10014 10024 10025 AND";
"2 1 10025 9784 10026 XOR";
"2 1 9636 9789 10027 XOR";
"2 1 10014 10027 10028 AND";
"2 1 10028 9789 10029 XOR";
"2 1 9639 9794 10030 XOR";
"2 1 10014 10030 10031 AND";
"2 1 10031 9794 10032 XOR";
"2 1 9642 9799 10033 XOR";
"2 1 10014 10033 10034 AND";
"2 1 10034 9799 10035 XOR";
"2 1 9645 9804 10036 XOR";
"2 1 10014 10036 10037 AND";
"2 1 10037 9804 10038 XOR";
"2 1 9648 9809 10039 XOR";
"2 1 10014 10039 10040 AND";
"2 1 10040 9809 10041 XOR";
"2 1 9651 9814 10042 XOR";
"2 1 10014 10042 10043 AND";
"2 1 10043 9814 10044 XOR";
"2 1 9654 9819 10045 XOR";
"2 1 10014 10045 10046 AND";
"2 1 10046 9819 10047 XOR";
"2 1 9657 9824 10048 XOR";
"2 1 10014 10048 10049 AND";
"2 1 10049 9824 10050 XOR";
"2 1 9660 9829 10051 XOR";
"2 1 10014 10051 10052 AND";
"2 1 10052 9829 10053 XOR";
"2 1 9663 9834 10054 XOR";
"2 1 10014 10054 10055 AND";
"2 1 10055 9834 10056 XOR";
"2 1 9666 9839 10057 XOR";
"2 1 10014 10057 10058 AND";
"2 1 10058 9839 10059 XOR";
"2 1 9669 9844 10060 XOR";
"2 1 10014 10060 10061 AND";
"2 1 10061 9844 10062 XOR";
"2 1 9672 9849 10063 XOR";
"2 1 10014 10063 10064 AND";
"2 1 10064 9849 10065 XOR";
"2 1 9675 9854 10066 XOR";
"2 1 10014 10066 10067 AND";
"2 1 10067 9854 10068 XOR";
"2 1 9678 9859 10069 XOR";
"2 1 10014 10069 10070 AND";
"2 1 10070 9859 10071 XOR";
"2 1 9681 9864 10072 XOR";
"2 1 10014 10072 10073 AND";
"2 1 10073 9864 10074 XOR";
"2 1 9684 9869 10075 XOR";
"2 1 10014 10075 10076 AND";
"2 1 10076 9869 10077 XOR";
"2 1 9687 9874 10078 XOR";
"2 1 10014 10078 10079 AND";
"2 1 10079 9874 10080 XOR";
"2 1 9690 9879 10081 XOR";
"2 1 10014 10081 10082 AND";
"2 1 10082 9879 10083 XOR";
"2 1 9693 9884 10084 XOR";
"2 1 10014 10084 10085 AND";
"2 1 10085 9884 10086 XOR";
"2 1 9696 9889 10087 XOR";
"2 1 10014 10087 10088 AND";
"2 1 10088 9889 10089 XOR";
"2 1 9699 9894 10090 XOR";
"2 1 10014 10090 10091 AND";
"2 1 10091 9894 10092 XOR";
"2 1 9702 9899 10093 XOR";
"2 1 10014 10093 10094 AND";
"2 1 10094 9899 10095 XOR";
"2 1 9705 9904 10096 XOR";
"2 1 10014 10096 10097 AND";
"2 1 10097 9904 10098 XOR";
"2 1 9708 9909 10099 XOR";
"2 1 10014 10099 10100 AND";
"2 1 10100 9909 10101 XOR";
"2 1 9711 9914 10102 XOR";
"2 1 10014 10102 10103 AND";
"2 1 10103 9914 10104 XOR";
"2 1 9714 9919 10105 XOR";
"2 1 10014 10105 10106 AND";
"2 1 10106 9919 10107 XOR";
"2 1 9717 9924 10108 XOR";
"2 1 10014 10108 10109 AND";
"2 1 10109 9924 10110 XOR";
"2 1 9720 9929 10111 XOR";
"2 1 10014 10111 10112 AND";
"2 1 10112 9929 10113 XOR";
"2 1 9723 9934 10114 XOR";
"2 1 10014 10114 10115 AND";
"2 1 10115 9934 10116 XOR";
"2 1 9726 9939 10117 XOR";
"2 1 10014 10117 10118 AND";
"2 1 10118 9939 10119 XOR";
"2 1 9729 9944 10120 XOR";
"2 1 10014 10120 10121 AND";
"2 1 10121 9944 10122 XOR";
"2 1 9732 9949 10123 XOR";
"2 1 10014 10123 10124 AND";
"2 1 10124 9949 10125 XOR";
"2 1 9735 9954 10126 XOR";
"2 1 10014 10126 10127 AND";
"2 1 10127 9954 10128 XOR";
"2 1 9738 9959 10129 XOR";
"2 1 10014 10129 10130 AND";
"2 1 10130 9959 10131 XOR";
"2 1 9741 9964 10132 XOR";
"2 1 10014 10132 10133 AND";
"2 1 10133 9964 10134 XOR";
"2 1 9744 9969 10135 XOR";
"2 1 10014 10135 10136 AND";
"2 1 10136 9969 10137 XOR";
"2 1 9747 9974 10138 XOR";
"2 1 10014 10138 10139 AND";
"2 1 10139 9974 10140 XOR";
"2 1 9750 9979 10141 XOR";
"2 1 10014 10141 10142 AND";
"2 1 10142 9979 10143 XOR";
"2 1 9753 9984 10144 XOR";
"2 1 10014 10144 10145 AND";
"2 1 10145 9984 10146 XOR";
"2 1 9756 9989 10147 XOR";
"2 1 10014 10147 10148 AND";
"2 1 10148 9989 10149 XOR";
"2 1 9759 9994 10150 XOR";
"2 1 10014 10150 10151 AND";
"2 1 10151 9994 10152 XOR";
"2 1 9762 9999 10153 XOR";
"2 1 10014 10153 10154 AND";
"2 1 10154 9999 10155 XOR";
"2 1 9765 10004 10156 XOR";
"2 1 10014 10156 10157 AND";
"2 1 10157 10004 10158 XOR";
"2 1 9768 10009 10159 XOR";
"2 1 10014 10159 10160 AND";
"2 1 10160 10009 10161 XOR";
"1 1 10014 10162 INV";
"2 1 14 64 10163 XOR";
"2 1 10163 64 10164 AND";
"2 1 10017 65 10165 XOR";
"2 1 10164 65 10166 XOR";
"2 1 10165 10164 10167 XOR";
"2 1 10165 10166 10168 AND";
"2 1 10164 10168 10169 XOR";
"2 1 10020 66 10170 XOR";
"2 1 10169 66 10171 XOR";
"2 1 10170 10169 10172 XOR";
"2 1 10170 10171 10173 AND";
"2 1 10169 10173 10174 XOR";
"2 1 10023 67 10175 XOR";
"2 1 10174 67 10176 XOR";
"2 1 10175 10174 10177 XOR";
"2 1 10175 10176 10178 AND";
"2 1 10174 10178 10179 XOR";
"2 1 10026 68 10180 XOR";
"2 1 10179 68 10181 XOR";
"2 1 10180 10179 10182 XOR";
"2 1 10180 10181 10183 AND";
"2 1 10179 10183 10184 XOR";
"2 1 10029 69 10185 XOR";
"2 1 10184 69 10186 XOR";
"2 1 10185 10184 10187 XOR";
"2 1 10185 10186 10188 AND";
"2 1 10184 10188 10189 XOR";
"2 1 10032 70 10190 XOR";
"2 1 10189 70 10191 XOR";
"2 1 10190 10189 10192 XOR";
"2 1 10190 10191 10193 AND";
"2 1 10189 10193 10194 XOR";
"2 1 10035 71 10195 XOR";
"2 1 10194 71 10196 XOR";
"2 1 10195 10194 10197 XOR";
"2 1 10195 10196 10198 AND";
"2 1 10194 10198 10199 XOR";
"2 1 10038 72 10200 XOR";
"2 1 10199 72 10201 XOR";
"2 1 10200 10199 10202 XOR";
"2 1 10200 10201 10203 AND";
"2 1 10199 10203 10204 XOR";
"2 1 10041 73 10205 XOR";
"2 1 10204 73 10206 XOR";
"2 1 10205 10204 10207 XOR";
"2 1 10205 10206 10208 AND";
"2 1 10204 10208 10209 XOR";
"2 1 10044 74 10210 XOR";
"2 1 10209 74 10211 XOR";
"2 1 10210 10209 10212 XOR";
"2 1 10210 10211 10213 AND";
"2 1 10209 10213 10214 XOR";
"2 1 10047 75 10215 XOR";
"2 1 10214 75 10216 XOR";
"2 1 10215 10214 10217 XOR";
"2 1 10215 10216 10218 AND";
"2 1 10214 10218 10219 XOR";
"2 1 10050 76 10220 XOR";
"2 1 10219 76 10221 XOR";
"2 1 10220 10219 10222 XOR";
"2 1 10220 10221 10223 AND";
"2 1 10219 10223 10224 XOR";
"2 1 10053 77 10225 XOR";
"2 1 10224 77 10226 XOR";
"2 1 10225 10224 10227 XOR";
"2 1 10225 10226 10228 AND";
"2 1 10224 10228 10229 XOR";
"2 1 10056 78 10230 XOR";
"2 1 10229 78 10231 XOR";
"2 1 10230 10229 10232 XOR";
"2 1 10230 10231 10233 AND";
"2 1 10229 10233 10234 XOR";
"2 1 10059 79 10235 XOR";
"2 1 10234 79 10236 XOR";
"2 1 10235 10234 10237 XOR";
"2 1 10235 10236 10238 AND";
"2 1 10234 10238 10239 XOR";
"2 1 10062 80 10240 XOR";
"2 1 10239 80 10241 XOR";
"2 1 10240 10239 10242 XOR";
"2 1 10240 10241 10243 AND";
"2 1 10239 10243 10244 XOR";
"2 1 10065 81 10245 XOR";
"2 1 10244 81 10246 XOR";
"2 1 10245 10244 10247 XOR";
"2 1 10245 10246 10248 AND";
"2 1 10244 10248 10249 XOR";
"2 1 10068 82 10250 XOR";
"2 1 10249 82 10251 XOR";
"2 1 10250 10249 10252 XOR";
"2 1 10250 10251 10253 AND";
"2 1 10249 10253 10254 XOR";
"2 1 10071 83 10255 XOR";
"2 1 10254 83 10256 XOR";
"2 1 10255 10254 10257 XOR";
"2 1 10255 10256 10258 AND";
"2 1 10254 10258 10259 XOR";
"2 1 10074 84 10260 XOR";
"2 1 10259 84 10261 XOR";
"2 1 10260 10259 10262 XOR";
"2 1 10260 10261 10263 AND";
"2 1 10259 10263 10264 XOR";
"2 1 10077 85 10265 XOR";
"2 1 10264 85 10266 XOR";
"2 1 10265 10264 10267 XOR";
"2 1 10265 10266 10268 AND";
"2 1 10264 10268 10269 XOR";
"2 1 10080 86 10270 XOR";
"2 1 10269 86 10271 XOR";
"2 1 10270 10269 10272 XOR";
"2 1 10270 10271 10273 AND";
"2 1 10269 10273 10274 XOR";
"2 1 10083 87 10275 XOR";
"2 1 10274 87 10276 XOR";
"2 1 10275 10274 10277 XOR";
"2 1 10275 10276 10278 AND";
"2 1 10274 10278 10279 XOR";
"2 1 10086 88 10280 XOR";
"2 1 10279 88 10281 XOR";
"2 1 10280 10279 10282 XOR";
"2 1 10280 10281 10283 AND";
"2 1 10279 10283 10284 XOR";
"2 1 10089 89 10285 XOR";
"2 1 10284 89 10286 XOR";
"2 1 10285 10284 10287 XOR";
"2 1 10285 10286 10288 AND";
"2 1 10284 10288 10289 XOR";
"2 1 10092 90 10290 XOR";
"2 1 10289 90 10291 XOR";
"2 1 10290 10289 10292 XOR";
"2 1 10290 10291 10293 AND";
"2 1 10289 10293 10294 XOR";
"2 1 10095 91 10295 XOR";
"2 1 10294 91 10296 XOR";
"2 1 10295 10294 10297 XOR";
"2 1 10295 10296 10298 AND";
"2 1 10294 10298 10299 XOR";
"2 1 10098 92 10300 XOR";
"2 1 10299 92 10301 XOR";
"2 1 10300 10299 10302 XOR";
"2 1 10300 10301 10303 AND";
"2 1 10299 10303 10304 XOR";
"2 1 10101 93 10305 XOR";
"2 1 10304 93 10306 XOR";
"2 1 10305 10304 10307 XOR";
"2 1 10305 10306 10308 AND";
"2 1 10304 10308 10309 XOR";
"2 1 10104 94 10310 XOR";
"2 1 10309 94 10311 XOR";
"2 1 10310 10309 10312 XOR";
"2 1 10310 10311 10313 AND";
"2 1 10309 10313 10314 XOR";
"2 1 10107 95 10315 XOR";
"2 1 10314 95 10316 XOR";
"2 1 10315 10314 10317 XOR";
"2 1 10315 10316 10318 AND";
"2 1 10314 10318 10319 XOR";
"2 1 10110 96 10320 XOR";
"2 1 10319 96 10321 XOR";
"2 1 10320 10319 10322 XOR";
"2 1 10320 10321 10323 AND";
"2 1 10319 10323 10324 XOR";
"2 1 10113 97 10325 XOR";
"2 1 10324 97 10326 XOR";
"2 1 10325 10324 10327 XOR";
"2 1 10325 10326 10328 AND";
"2 1 10324 10328 10329 XOR";
"2 1 10116 98 10330 XOR";
"2 1 10329 98 10331 XOR";
"2 1 10330 10329 10332 XOR";
"2 1 10330 10331 10333 AND";
"2 1 10329 10333 10334 XOR";
"2 1 10119 99 10335 XOR";
"2 1 10334 99 10336 XOR";
"2 1 10335 10334 10337 XOR";
"2 1 10335 10336 10338 AND";
"2 1 10334 10338 10339 XOR";
"2 1 10122 100 10340 XOR";
"2 1 10339 100 10341 XOR";
"2 1 10340 10339 10342 XOR";
"2 1 10340 10341 10343 AND";
"2 1 10339 10343 10344 XOR";
"2 1 10125 101 10345 XOR";
"2 1 10344 101 10346 XOR";
"2 1 10345 10344 10347 XOR";
"2 1 10345 10346 10348 AND";
"2 1 10344 10348 10349 XOR";
"2 1 10128 102 10350 XOR";
"2 1 10349 102 10351 XOR";
"2 1 10350 10349 10352 XOR";
"2 1 10350 10351 10353 AND";
"2 1 10349 10353 10354 XOR";
"2 1 10131 103 10355 XOR";
"2 1 10354 103 10356 XOR";
"2 1 10355 10354 10357 XOR";
"2 1 10355 10356 10358 AND";
"2 1 10354 10358 10359 XOR";
"2 1 10134 104 10360 XOR";
"2 1 10359 104 10361 XOR";
"2 1 10360 10359 10362 XOR";
"2 1 10360 10361 10363 AND";
"2 1 10359 10363 10364 XOR";
"2 1 10137 105 10365 XOR";
"2 1 10364 105 10366 XOR";
"2 1 10365 10364 10367 XOR";
"2 1 10365 10366 10368 AND";
"2 1 10364 10368 10369 XOR";
"2 1 10140 106 10370 XOR";
"2 1 10369 106 10371 XOR";
"2 1 10370 10369 10372 XOR";
"2 1 10370 10371 10373 AND";
"2 1 10369 10373 10374 XOR";
"2 1 10143 107 10375 XOR";
"2 1 10374 107 10376 XOR";
"2 1 10375 10374 10377 XOR";
"2 1 10375 10376 10378 AND";
"2 1 10374 10378 10379 XOR";
"2 1 10146 108 10380 XOR";
"2 1 10379 108 10381 XOR";
"2 1 10380 10379 10382 XOR";
"2 1 10380 10381 10383 AND";
"2 1 10379 10383 10384 XOR";
"2 1 10149 109 10385 XOR";
"2 1 10384 109 10386 XOR";
"2 1 10385 10384 10387 XOR";
"2 1 10385 10386 10388 AND";
"2 1 10384 10388 10389 XOR";
"2 1 10152 110 10390 XOR";
"2 1 10389 110 10391 XOR";
"2 1 10390 10389 10392 XOR";
"2 1 10390 10391 10393 AND";
"2 1 10389 10393 10394 XOR";
"2 1 10155 111 10395 XOR";
"2 1 10394 111 10396 XOR";
"2 1 10395 10394 10397 XOR";
"2 1 10395 10396 10398 AND";
"2 1 10394 10398 10399 XOR";
"2 1 10158 112 10400 XOR";
"2 1 10399 112 10401 XOR";
"2 1 10400 10399 10402 XOR";
"2 1 10400 10401 10403 AND";
"2 1 10399 10403 10404 XOR";
"2 1 10161 113 10405 XOR";
"2 1 10404 113 10406 XOR";
"2 1 10405 10404 10407 XOR";
"2 1 10405 10406 10408 AND";
"2 1 10404 10408 10409 XOR";
"2 1 10409 166 10410 AND";
"2 1 10409 166 10411 XOR";
"2 1 10411 10410 10412 XOR";
"2 1 14 10163 10413 XOR";
"2 1 10412 10413 10414 AND";
"2 1 10414 10163 10415 XOR";
"2 1 10017 10167 10416 XOR";
"2 1 10412 10416 10417 AND";
"2 1 10417 10167 10418 XOR";
"2 1 10020 10172 10419 XOR";
"2 1 10412 10419 10420 AND";
"2 1 10420 10172 10421 XOR";
"2 1 10023 10177 10422 XOR";
"2 1 10412 10422 10423 AND";
"2 1 10423 10177 10424 XOR";
"2 1 10026 10182 10425 XOR";
"2 1 10412 10425 10426 AND";
"2 1 10426 10182 10427 XOR";
"2 1 10029 10187 10428 XOR";
"2 1 10412 10428 10429 AND";
"2 1 10429 10187 10430 XOR";
"2 1 10032 10192 10431 XOR";
"2 1 10412 10431 10432 AND";
"2 1 10432 10192 10433 XOR";
"2 1 10035 10197 10434 XOR";
"2 1 10412 10434 10435 AND";
"2 1 10435 10197 10436 XOR";
"2 1 10038 10202 10437 XOR";
"2 1 10412 10437 10438 AND";
"2 1 10438 10202 10439 XOR";
"2 1 10041 10207 10440 XOR";
"2 1 10412 10440 10441 AND";
"2 1 10441 10207 10442 XOR";
"2 1 10044 10212 10443 XOR";
"2 1 10412 10443 10444 AND";
"2 1 10444 10212 10445 XOR";
"2 1 10047 10217 10446 XOR";
"2 1 10412 10446 10447 AND";
"2 1 10447 10217 10448 XOR";
"2 1 10050 10222 10449 XOR";
"2 1 10412 10449 10450 AND";
"2 1 10450 10222 10451 XOR";
"2 1 10053 10227 10452 XOR";
"2 1 10412 10452 10453 AND";
"2 1 10453 10227 10454 XOR";
"2 1 10056 10232 10455 XOR";
"2 1 10412 10455 10456 AND";
"2 1 10456 10232 10457 XOR";
"2 1 10059 10237 10458 XOR";
"2 1 10412 10458 10459 AND";
"2 1 10459 10237 10460 XOR";
"2 1 10062 10242 10461 XOR";
"2 1 10412 10461 10462 AND";
"2 1 10462 10242 10463 XOR";
"2 1 10065 10247 10464 XOR";
"2 1 10412 10464 10465 AND";
"2 1 10465 10247 10466 XOR";
"2 1 10068 10252 10467 XOR";
"2 1 10412 10467 10468 AND";
"2 1 10468 10252 10469 XOR";
"2 1 10071 10257 10470 XOR";
"2 1 10412 10470 10471 AND";
"2 1 10471 10257 10472 XOR";
"2 1 10074 10262 10473 XOR";
"2 1 10412 10473 10474 AND";
"2 1 10474 10262 10475 XOR";
"2 1 10077 10267 10476 XOR";
"2 1 10412 10476 10477 AND";
"2 1 10477 10267 10478 XOR";
"2 1 10080 10272 10479 XOR";
"2 1 10412 10479 10480 AND";
"2 1 10480 10272 10481 XOR";
"2 1 10083 10277 10482 XOR";
"2 1 10412 10482 10483 AND";
"2 1 10483 10277 10484 XOR";
"2 1 10086 10282 10485 XOR";
"2 1 10412 10485 10486 AND";
"2 1 10486 10282 10487 XOR";
"2 1 10089 10287 10488 XOR";
"2 1 10412 10488 10489 AND";
"2 1 10489 10287 10490 XOR";
"2 1 10092 10292 10491 XOR";
"2 1 10412 10491 10492 AND";
"2 1 10492 10292 10493 XOR";
"2 1 10095 10297 10494 XOR";
"2 1 10412 10494 10495 AND";
"2 1 10495 10297 10496 XOR";
"2 1 10098 10302 10497 XOR";
"2 1 10412 10497 10498 AND";
"2 1 10498 10302 10499 XOR";
"2 1 10101 10307 10500 XOR";
"2 1 10412 10500 10501 AND";
"2 1 10501 10307 10502 XOR";
"2 1 10104 10312 10503 XOR";
"2 1 10412 10503 10504 AND";
"2 1 10504 10312 10505 XOR";
"2 1 10107 10317 10506 XOR";
"2 1 10412 10506 10507 AND";
"2 1 10507 10317 10508 XOR";
"2 1 10110 10322 10509 XOR";
"2 1 10412 10509 10510 AND";
"2 1 10510 10322 10511 XOR";
"2 1 10113 10327 10512 XOR";
"2 1 10412 10512 10513 AND";
"2 1 10513 10327 10514 XOR";
"2 1 10116 10332 10515 XOR";
"2 1 10412 10515 10516 AND";
"2 1 10516 10332 10517 XOR";
"2 1 10119 10337 10518 XOR";
"2 1 10412 10518 10519 AND";
"2 1 10519 10337 10520 XOR";
"2 1 10122 10342 10521 XOR";
"2 1 10412 10521 10522 AND";
"2 1 10522 10342 10523 XOR";
"2 1 10125 10347 10524 XOR";
"2 1 10412 10524 10525 AND";
"2 1 10525 10347 10526 XOR";
"2 1 10128 10352 10527 XOR";
"2 1 10412 10527 10528 AND";
"2 1 10528 10352 10529 XOR";
"2 1 10131 10357 10530 XOR";
"2 1 10412 10530 10531 AND";
"2 1 10531 10357 10532 XOR";
"2 1 10134 10362 10533 XOR";
"2 1 10412 10533 10534 AND";
"2 1 10534 10362 10535 XOR";
"2 1 10137 10367 10536 XOR";
"2 1 10412 10536 10537 AND";
"2 1 10537 10367 10538 XOR";
"2 1 10140 10372 10539 XOR";
"2 1 10412 10539 10540 AND";
"2 1 10540 10372 10541 XOR";
"2 1 10143 10377 10542 XOR";
"2 1 10412 10542 10543 AND";
"2 1 10543 10377 10544 XOR";
"2 1 10146 10382 10545 XOR";
"2 1 10412 10545 10546 AND";
"2 1 10546 10382 10547 XOR";
"2 1 10149 10387 10548 XOR";
"2 1 10412 10548 10549 AND";
"2 1 10549 10387 10550 XOR";
"2 1 10152 10392 10551 XOR";
"2 1 10412 10551 10552 AND";
"2 1 10552 10392 10553 XOR";
"2 1 10155 10397 10554 XOR";
"2 1 10412 10554 10555 AND";
"2 1 10555 10397 10556 XOR";
"2 1 10158 10402 10557 XOR";
"2 1 10412 10557 10558 AND";
"2 1 10558 10402 10559 XOR";
"2 1 10161 10407 10560 XOR";
"2 1 10412 10560 10561 AND";
"2 1 10561 10407 10562 XOR";
"1 1 10412 10563 INV";
"2 1 13 64 10564 XOR";
"2 1 10564 64 10565 AND";
"2 1 10415 65 10566 XOR";
"2 1 10565 65 10567 XOR";
"2 1 10566 10565 10568 XOR";
"2 1 10566 10567 10569 AND";
"2 1 10565 10569 10570 XOR";
"2 1 10418 66 10571 XOR";
"2 1 10570 66 10572 XOR";
"2 1 10571 10570 10573 XOR";
"2 1 10571 10572 10574 AND";
"2 1 10570 10574 10575 XOR";
"2 1 10421 67 10576 XOR";
"2 1 10575 67 10577 XOR";
"2 1 10576 10575 10578 XOR";
"2 1 10576 10577 10579 AND";
"2 1 10575 10579 10580 XOR";
"2 1 10424 68 10581 XOR";
"2 1 10580 68 10582 XOR";
"2 1 10581 10580 10583 XOR";
"2 1 10581 10582 10584 AND";
"2 1 10580 10584 10585 XOR";
"2 1 10427 69 10586 XOR";
"2 1 10585 69 10587 XOR";
"2 1 10586 10585 10588 XOR";
"2 1 10586 10587 10589 AND";
"2 1 10585 10589 10590 XOR";
"2 1 10430 70 10591 XOR";
"2 1 10590 70 10592 XOR";
"2 1 10591 10590 10593 XOR";
"2 1 10591 10592 10594 AND";
"2 1 10590 10594 10595 XOR";
"2 1 10433 71 10596 XOR";
"2 1 10595 71 10597 XOR";
"2 1 10596 10595 10598 XOR";
"2 1 10596 10597 10599 AND";
"2 1 10595 10599 10600 XOR";
"2 1 10436 72 10601 XOR";
"2 1 10600 72 10602 XOR";
"2 1 10601 10600 10603 XOR";
"2 1 10601 10602 10604 AND";
"2 1 10600 10604 10605 XOR";
"2 1 10439 73 10606 XOR";
"2 1 10605 73 10607 XOR";
"2 1 10606 10605 10608 XOR";
"2 1 10606 10607 10609 AND";
"2 1 10605 10609 10610 XOR";
"2 1 10442 74 10611 XOR";
"2 1 10610 74 10612 XOR";
"2 1 10611 10610 10613 XOR";
"2 1 10611 10612 10614 AND";
"2 1 10610 10614 10615 XOR";
"2 1 10445 75 10616 XOR";
"2 1 10615 75 10617 XOR";
"2 1 10616 10615 10618 XOR";
"2 1 10616 10617 10619 AND";
"2 1 10615 10619 10620 XOR";
"2 1 10448 76 10621 XOR";
"2 1 10620 76 10622 XOR";
"2 1 10621 10620 10623 XOR";
"2 1 10621 10622 10624 AND";
"2 1 10620 10624 10625 XOR";
"2 1 10451 77 10626 XOR";
"2 1 10625 77 10627 XOR";
"2 1 10626 10625 10628 XOR";
"2 1 10626 10627 10629 AND";
"2 1 10625 10629 10630 XOR";
"2 1 10454 78 10631 XOR";
"2 1 10630 78 10632 XOR";
"2 1 10631 10630 10633 XOR";
"2 1 10631 10632 10634 AND";
"2 1 10630 10634 10635 XOR";
"2 1 10457 79 10636 XOR";
"2 1 10635 79 10637 XOR";
"2 1 10636 10635 10638 XOR";
"2 1 10636 10637 10639 AND";
"2 1 10635 10639 10640 XOR";
"2 1 10460 80 10641 XOR";
"2 1 10640 80 10642 XOR";
"2 1 10641 10640 10643 XOR";
"2 1 10641 10642 10644 AND";
"2 1 10640 10644 10645 XOR";
"2 1 10463 81 10646 XOR";
"2 1 10645 81 10647 XOR";
"2 1 10646 10645 10648 XOR";
"2 1 10646 10647 10649 AND";
"2 1 10645 10649 10650 XOR";
"2 1 10466 82 10651 XOR";
"2 1 10650 82 10652 XOR";
"2 1 10651 10650 10653 XOR";
"2 1 10651 10652 10654 AND";
"2 1 10650 10654 10655 XOR";
"2 1 10469 83 10656 XOR";
"2 1 10655 83 10657 XOR";
"2 1 10656 10655 10658 XOR";
"2 1 10656 10657 10659 AND";
"2 1 10655 10659 10660 XOR";
"2 1 10472 84 10661 XOR";
"2 1 10660 84 10662 XOR";
"2 1 10661 10660 10663 XOR";
"2 1 10661 10662 10664 AND";
"2 1 10660 10664 10665 XOR";
"2 1 10475 85 10666 XOR";
"2 1 10665 85 10667 XOR";
"2 1 10666 10665 10668 XOR";
"2 1 10666 10667 10669 AND";
"2 1 10665 10669 10670 XOR";
"2 1 10478 86 10671 XOR";
"2 1 10670 86 10672 XOR";
"2 1 10671 10670 10673 XOR";
"2 1 10671 10672 10674 AND";
"2 1 10670 10674 10675 XOR";
"2 1 10481 87 10676 XOR";
"2 1 10675 87 10677 XOR";
"2 1 10676 10675 10678 XOR";
"2 1 10676 10677 10679 AND";
"2 1 10675 10679 10680 XOR";
"2 1 10484 88 10681 XOR";
"2 1 10680 88 10682 XOR";
"2 1 10681 10680 10683 XOR";
"2 1 10681 10682 10684 AND";
"2 1 10680 10684 10685 XOR";
"2 1 10487 89 10686 XOR";
"2 1 10685 89 10687 XOR";
"2 1 10686 10685 10688 XOR";
"2 1 10686 10687 10689 AND";
"2 1 10685 10689 10690 XOR";
"2 1 10490 90 10691 XOR";
"2 1 10690 90 10692 XOR";
"2 1 10691 10690 10693 XOR";
"2 1 10691 10692 10694 AND";
"2 1 10690 10694 10695 XOR";
"2 1 10493 91 10696 XOR";
"2 1 10695 91 10697 XOR";
"2 1 10696 10695 10698 XOR";
"2 1 10696 10697 10699 AND";
"2 1 10695 10699 10700 XOR";
"2 1 10496 92 10701 XOR";
"2 1 10700 92 10702 XOR";
"2 1 10701 10700 10703 XOR";
"2 1 10701 10702 10704 AND";
"2 1 10700 10704 10705 XOR";
"2 1 10499 93 10706 XOR";
"2 1 10705 93 10707 XOR";
"2 1 10706 10705 10708 XOR";
"2 1 10706 10707 10709 AND";
"2 1 10705 10709 10710 XOR";
"2 1 10502 94 10711 XOR";
"2 1 10710 94 10712 XOR";
"2 1 10711 10710 10713 XOR";
"2 1 10711 10712 10714 AND";
"2 1 10710 10714 10715 XOR";
"2 1 10505 95 10716 XOR";
"2 1 10715 95 10717 XOR";
"2 1 10716 10715 10718 XOR";
"2 1 10716 10717 10719 AND";
"2 1 10715 10719 10720 XOR";
"2 1 10508 96 10721 XOR";
"2 1 10720 96 10722 XOR";
"2 1 10721 10720 10723 XOR";
"2 1 10721 10722 10724 AND";
"2 1 10720 10724 10725 XOR";
"2 1 10511 97 10726 XOR";
"2 1 10725 97 10727 XOR";
"2 1 10726 10725 10728 XOR";
"2 1 10726 10727 10729 AND";
"2 1 10725 10729 10730 XOR";
"2 1 10514 98 10731 XOR";
"2 1 10730 98 10732 XOR";
"2 1 10731 10730 10733 XOR";
"2 1 10731 10732 10734 AND";
"2 1 10730 10734 10735 XOR";
"2 1 10517 99 10736 XOR";
"2 1 10735 99 10737 XOR";
"2 1 10736 10735 10738 XOR";
"2 1 10736 10737 10739 AND";
"2 1 10735 10739 10740 XOR";
"2 1 10520 100 10741 XOR";
"2 1 10740 100 10742 XOR";
"2 1 10741 10740 10743 XOR";
"2 1 10741 10742 10744 AND";
"2 1 10740 10744 10745 XOR";
"2 1 10523 101 10746 XOR";
"2 1 10745 101 10747 XOR";
"2 1 10746 10745 10748 XOR";
"2 1 10746 10747 10749 AND";
"2 1 10745 10749 10750 XOR";
"2 1 10526 102 10751 XOR";
"2 1 10750 102 10752 XOR";
"2 1 10751 10750 10753 XOR";
"2 1 10751 10752 10754 AND";
"2 1 10750 10754 10755 XOR";
"2 1 10529 103 10756 XOR";
"2 1 10755 103 10757 XOR";
"2 1 10756 10755 10758 XOR";
"2 1 10756 10757 10759 AND";
"2 1 10755 10759 10760 XOR";
"2 1 10532 104 10761 XOR";
"2 1 10760 104 10762 XOR";
"2 1 10761 10760 10763 XOR";
"2 1 10761 10762 10764 AND";
"2 1 10760 10764 10765 XOR";
"2 1 10535 105 10766 XOR";
"2 1 10765 105 10767 XOR";
"2 1 10766 10765 10768 XOR";
"2 1 10766 10767 10769 AND";
"2 1 10765 10769 10770 XOR";
"2 1 10538 106 10771 XOR";
"2 1 10770 106 10772 XOR";
"2 1 10771 10770 10773 XOR";
"2 1 10771 10772 10774 AND";
"2 1 10770 10774 10775 XOR";
"2 1 10541 107 10776 XOR";
"2 1 10775 107 10777 XOR";
"2 1 10776 10775 10778 XOR";
"2 1 10776 10777 10779 AND";
"2 1 10775 10779 10780 XOR";
"2 1 10544 108 10781 XOR";
"2 1 10780 108 10782 XOR";
"2 1 10781 10780 10783 XOR";
"2 1 10781 10782 10784 AND";
"2 1 10780 10784 10785 XOR";
"2 1 10547 109 10786 XOR";
"2 1 10785 109 10787 XOR";
"2 1 10786 10785 10788 XOR";
"2 1 10786 10787 10789 AND";
"2 1 10785 10789 10790 XOR";
"2 1 10550 110 10791 XOR";
"2 1 10790 110 10792 XOR";
"2 1 10791 10790 10793 XOR";
"2 1 10791 10792 10794 AND";
"2 1 10790 10794 10795 XOR";
"2 1 10553 111 10796 XOR";
"2 1 10795 111 10797 XOR";
"2 1 10796 10795 10798 XOR";
"2 1 10796 10797 10799 AND";
"2 1 10795 10799 10800 XOR";
"2 1 10556 112 10801 XOR";
"2 1 10800 112 10802 XOR";
"2 1 10801 10800 10803 XOR";
"2 1 10801 10802 10804 AND";
"2 1 10800 10804 10805 XOR";
"2 1 10559 113 10806 XOR";
"2 1 10805 113 10807 XOR";
"2 1 10806 10805 10808 XOR";
"2 1 10806 10807 10809 AND";
"2 1 10805 10809 10810 XOR";
"2 1 10562 114 10811 XOR";
"2 1 10810 114 10812 XOR";
"2 1 10811 10810 10813 XOR";
"2 1 10811 10812 10814 AND";
"2 1 10810 10814 10815 XOR";
"2 1 10815 163 10816 AND";
"2 1 10815 163 10817 XOR";
"2 1 10817 10816 10818 XOR";
"2 1 13 10564 10819 XOR";
"2 1 10818 10819 10820 AND";
"2 1 10820 10564 10821 XOR";
"2 1 10415 10568 10822 XOR";
"2 1 10818 10822 10823 AND";
"2 1 10823 10568 10824 XOR";
"2 1 10418 10573 10825 XOR";
"2 1 10818 10825 10826 AND";
"2 1 10826 10573 10827 XOR";
"2 1 10421 10578 10828 XOR";
"2 1 10818 10828 10829 AND";
"2 1 10829 10578 10830 XOR";
"2 1 10424 10583 10831 XOR";
"2 1 10818 10831 10832 AND";
"2 1 10832 10583 10833 XOR";
"2 1 10427 10588 10834 XOR";
"2 1 10818 10834 10835 AND";
"2 1 10835 10588 10836 XOR";
"2 1 10430 10593 10837 XOR";
"2 1 10818 10837 10838 AND";
"2 1 10838 10593 10839 XOR";
"2 1 10433 10598 10840 XOR";
"2 1 10818 10840 10841 AND";
"2 1 10841 10598 10842 XOR";
"2 1 10436 10603 10843 XOR";
"2 1 10818 10843 10844 AND";
"2 1 10844 10603 10845 XOR";
"2 1 10439 10608 10846 XOR";
"2 1 10818 10846 10847 AND";
"2 1 10847 10608 10848 XOR";
"2 1 10442 10613 10849 XOR";
"2 1 10818 10849 10850 AND";
"2 1 10850 10613 10851 XOR";
"2 1 10445 10618 10852 XOR";
"2 1 10818 10852 10853 AND";
"2 1 10853 10618 10854 XOR";
"2 1 10448 10623 10855 XOR";
"2 1 10818 10855 10856 AND";
"2 1 10856 10623 10857 XOR";
"2 1 10451 10628 10858 XOR";
"2 1 10818 10858 10859 AND";
"2 1 10859 10628 10860 XOR";
"2 1 10454 10633 10861 XOR";
"2 1 10818 10861 10862 AND";
"2 1 10862 10633 10863 XOR";
"2 1 10457 10638 10864 XOR";
"2 1 10818 10864 10865 AND";
"2 1 10865 10638 10866 XOR";
"2 1 10460 10643 10867 XOR";
"2 1 10818 10867 10868 AND";
"2 1 10868 10643 10869 XOR";
"2 1 10463 10648 10870 XOR";
"2 1 10818 10870 10871 AND";
"2 1 10871 10648 10872 XOR";
"2 1 10466 10653 10873 XOR";
"2 1 10818 10873 10874 AND";
"2 1 10874 10653 10875 XOR";
"2 1 10469 10658 10876 XOR";
"2 1 10818 10876 10877 AND";
"2 1 10877 10658 10878 XOR";
"2 1 10472 10663 10879 XOR";
"2 1 10818 10879 10880 AND";
"2 1 10880 10663 10881 XOR";
"2 1 10475 10668 10882 XOR";
"2 1 10818 10882 10883 AND";
"2 1 10883 10668 10884 XOR";
"2 1 10478 10673 10885 XOR";
"2 1 10818 10885 10886 AND";
"2 1 10886 10673 10887 XOR";
"2 1 10481 10678 10888 XOR";
"2 1 10818 10888 10889 AND";
"2 1 10889 10678 10890 XOR";
"2 1 10484 10683 10891 XOR";
"2 1 10818 10891 10892 AND";
"2 1 10892 10683 10893 XOR";
"2 1 10487 10688 10894 XOR";
"2 1 10818 10894 10895 AND";
"2 1 10895 10688 10896 XOR";
"2 1 10490 10693 10897 XOR";
"2 1 10818 10897 10898 AND";
"2 1 10898 10693 10899 XOR";
"2 1 10493 10698 10900 XOR";
"2 1 10818 10900 10901 AND";
"2 1 10901 10698 10902 XOR";
"2 1 10496 10703 10903 XOR";
"2 1 10818 10903 10904 AND";
"2 1 10904 10703 10905 XOR";
"2 1 10499 10708 10906 XOR";
"2 1 10818 10906 10907 AND";
"2 1 10907 10708 10908 XOR";
"2 1 10502 10713 10909 XOR";
"2 1 10818 10909 10910 AND";
"2 1 10910 10713 10911 XOR";
"2 1 10505 10718 10912 XOR";
"2 1 10818 10912 10913 AND";
"2 1 10913 10718 10914 XOR";
"2 1 10508 10723 10915 XOR";
"2 1 10818 10915 10916 AND";
"2 1 10916 10723 10917 XOR";
"2 1 10511 10728 10918 XOR";
"2 1 10818 10918 10919 AND";
"2 1 10919 10728 10920 XOR";
"2 1 10514 10733 10921 XOR";
"2 1 10818 10921 10922 AND";
"2 1 10922 10733 10923 XOR";
"2 1 10517 10738 10924 XOR";
"2 1 10818 10924 10925 AND";
"2 1 10925 10738 10926 XOR";
"2 1 10520 10743 10927 XOR";
"2 1 10818 10927 10928 AND";
"2 1 10928 10743 10929 XOR";
"2 1 10523 10748 10930 XOR";
"2 1 10818 10930 10931 AND";
"2 1 10931 10748 10932 XOR";
"2 1 10526 10753 10933 XOR";
"2 1 10818 10933 10934 AND";
"2 1 10934 10753 10935 XOR";
"2 1 10529 10758 10936 XOR";
"2 1 10818 10936 10937 AND";
"2 1 10937 10758 10938 XOR";
"2 1 10532 10763 10939 XOR";
"2 1 10818 10939 10940 AND";
"2 1 10940 10763 10941 XOR";
"2 1 10535 10768 10942 XOR";
"2 1 10818 10942 10943 AND";
"2 1 10943 10768 10944 XOR";
"2 1 10538 10773 10945 XOR";
"2 1 10818 10945 10946 AND";
"2 1 10946 10773 10947 XOR";
"2 1 10541 10778 10948 XOR";
"2 1 10818 10948 10949 AND";
"2 1 10949 10778 10950 XOR";
"2 1 10544 10783 10951 XOR";
"2 1 10818 10951 10952 AND";
"2 1 10952 10783 10953 XOR";
"2 1 10547 10788 10954 XOR";
"2 1 10818 10954 10955 AND";
"2 1 10955 10788 10956 XOR";
"2 1 10550 10793 10957 XOR";
"2 1 10818 10957 10958 AND";
"2 1 10958 10793 10959 XOR";
"2 1 10553 10798 10960 XOR";
"2 1 10818 10960 10961 AND";
"2 1 10961 10798 10962 XOR";
"2 1 10556 10803 10963 XOR";
"2 1 10818 10963 10964 AND";
"2 1 10964 10803 10965 XOR";
"2 1 10559 10808 10966 XOR";
"2 1 10818 10966 10967 AND";
"2 1 10967 10808 10968 XOR";
"2 1 10562 10813 10969 XOR";
"2 1 10818 10969 10970 AND";
"2 1 10970 10813 10971 XOR";
"1 1 10818 10972 INV";
"2 1 12 64 10973 XOR";
"2 1 10973 64 10974 AND";
"2 1 10821 65 10975 XOR";
"2 1 10974 65 10976 XOR";
"2 1 10975 10974 10977 XOR";
"2 1 10975 10976 10978 AND";
"2 1 10974 10978 10979 XOR";
"2 1 10824 66 10980 XOR";
"2 1 10979 66 10981 XOR";
"2 1 10980 10979 10982 XOR";
"2 1 10980 10981 10983 AND";
"2 1 10979 10983 10984 XOR";
"2 1 10827 67 10985 XOR";
"2 1 10984 67 10986 XOR";
"2 1 10985 10984 10987 XOR";
"2 1 10985 10986 10988 AND";
"2 1 10984 10988 10989 XOR";
"2 1 10830 68 10990 XOR";
"2 1 10989 68 10991 XOR";
"2 1 10990 10989 10992 XOR";
"2 1 10990 10991 10993 AND";
"2 1 10989 10993 10994 XOR";
"2 1 10833 69 10995 XOR";
"2 1 10994 69 10996 XOR";
"2 1 10995 10994 10997 XOR";
"2 1 10995 10996 10998 AND";
"2 1 10994 10998 10999 XOR";
"2 1 10836 70 11000 XOR";
"2 1 10999 70 11001 XOR";
"2 1 11000 10999 11002 XOR";
"2 1 11000 11001 11003 AND";
"2 1 10999 11003 11004 XOR";
"2 1 10839 71 11005 XOR";
"2 1 11004 71 11006 XOR";
"2 1 11005 11004 11007 XOR";
"2 1 11005 11006 11008 AND";
"2 1 11004 11008 11009 XOR";
"2 1 10842 72 11010 XOR";
"2 1 11009 72 11011 XOR";
"2 1 11010 11009 11012 XOR";
"2 1 11010 11011 11013 AND";
"2 1 11009 11013 11014 XOR";
"2 1 10845 73 11015 XOR";
"2 1 11014 73 11016 XOR";
"2 1 11015 11014 11017 XOR";
"2 1 11015 11016 11018 AND";
"2 1 11014 11018 11019 XOR";
"2 1 10848 74 11020 XOR";
"2 1 11019 74 11021 XOR";
"2 1 11020 11019 11022 XOR";
"2 1 11020 11021 11023 AND";
"2 1 11019 11023 11024 XOR";
"2 1 10851 75 11025 XOR";
"2 1 11024 75 11026 XOR";
"2 1 11025 11024 11027 XOR";
"2 1 11025 11026 11028 AND";
"2 1 11024 11028 11029 XOR";
"2 1 10854 76 11030 XOR";
"2 1 11029 76 11031 XOR";
"2 1 11030 11029 11032 XOR";
"2 1 11030 11031 11033 AND";
"2 1 11029 11033 11034 XOR";
"2 1 10857 77 11035 XOR";
"2 1 11034 77 11036 XOR";
"2 1 11035 11034 11037 XOR";
"2 1 11035 11036 11038 AND";
"2 1 11034 11038 11039 XOR";
"2 1 10860 78 11040 XOR";
"2 1 11039 78 11041 XOR";
"2 1 11040 11039 11042 XOR";
"2 1 11040 11041 11043 AND";
"2 1 11039 11043 11044 XOR";
"2 1 10863 79 11045 XOR";
"2 1 11044 79 11046 XOR";
"2 1 11045 11044 11047 XOR";
"2 1 11045 11046 11048 AND";
"2 1 11044 11048 11049 XOR";
"2 1 10866 80 11050 XOR";
"2 1 11049 80 11051 XOR";
"2 1 11050 11049 11052 XOR";
"2 1 11050 11051 11053 AND";
"2 1 11049 11053 11054 XOR";
"2 1 10869 81 11055 XOR";
"2 1 11054 81 11056 XOR";
"2 1 11055 11054 11057 XOR";
"2 1 11055 11056 11058 AND";
"2 1 11054 11058 11059 XOR";
"2 1 10872 82 11060 XOR";
"2 1 11059 82 11061 XOR";
"2 1 11060 11059 11062 XOR";
"2 1 11060 11061 11063 AND";
"2 1 11059 11063 11064 XOR";
"2 1 10875 83 11065 XOR";
"2 1 11064 83 11066 XOR";
"2 1 11065 11064 11067 XOR";
"2 1 11065 11066 11068 AND";
"2 1 11064 11068 11069 XOR";
"2 1 10878 84 11070 XOR";
"2 1 11069 84 11071 XOR";
"2 1 11070 11069 11072 XOR";
"2 1 11070 11071 11073 AND";
"2 1 11069 11073 11074 XOR";
"2 1 10881 85 11075 XOR";
"2 1 11074 85 11076 XOR";
"2 1 11075 11074 11077 XOR";
"2 1 11075 11076 11078 AND";
"2 1 11074 11078 11079 XOR";
"2 1 10884 86 11080 XOR";
"2 1 11079 86 11081 XOR";
"2 1 11080 11079 11082 XOR";
"2 1 11080 11081 11083 AND";
"2 1 11079 11083 11084 XOR";
"2 1 10887 87 11085 XOR";
"2 1 11084 87 11086 XOR";
"2 1 11085 11084 11087 XOR";
"2 1 11085 11086 11088 AND";
"2 1 11084 11088 11089 XOR";
"2 1 10890 88 11090 XOR";
"2 1 11089 88 11091 XOR";
"2 1 11090 11089 11092 XOR";
"2 1 11090 11091 11093 AND";
"2 1 11089 11093 11094 XOR";
"2 1 10893 89 11095 XOR";
"2 1 11094 89 11096 XOR";
"2 1 11095 11094 11097 XOR";
"2 1 11095 11096 11098 AND";
"2 1 11094 11098 11099 XOR";
"2 1 10896 90 11100 XOR";
"2 1 11099 90 11101 XOR";
"2 1 11100 11099 11102 XOR";
"2 1 11100 11101 11103 AND";
"2 1 11099 11103 11104 XOR";
"2 1 10899 91 11105 XOR";
"2 1 11104 91 11106 XOR";
"2 1 11105 11104 11107 XOR";
"2 1 11105 11106 11108 AND";
"2 1 11104 11108 11109 XOR";
"2 1 10902 92 11110 XOR";
"2 1 11109 92 11111 XOR";
"2 1 11110 11109 11112 XOR";
"2 1 11110 11111 11113 AND";
"2 1 11109 11113 11114 XOR";
"2 1 10905 93 11115 XOR";
"2 1 11114 93 11116 XOR";
"2 1 11115 11114 11117 XOR";
"2 1 11115 11116 11118 AND";
"2 1 11114 11118 11119 XOR";
"2 1 10908 94 11120 XOR";
"2 1 11119 94 11121 XOR";
"2 1 11120 11119 11122 XOR";
"2 1 11120 11121 11123 AND";
"2 1 11119 11123 11124 XOR";
"2 1 10911 95 11125 XOR";
"2 1 11124 95 11126 XOR";
"2 1 11125 11124 11127 XOR";
"2 1 11125 11126 11128 AND";
"2 1 11124 11128 11129 XOR";
"2 1 10914 96 11130 XOR";
"2 1 11129 96 11131 XOR";
"2 1 11130 11129 11132 XOR";
"2 1 11130 11131 11133 AND";
"2 1 11129 11133 11134 XOR";
"2 1 10917 97 11135 XOR";
"2 1 11134 97 11136 XOR";
"2 1 11135 11134 11137 XOR";
"2 1 11135 11136 11138 AND";
"2 1 11134 11138 11139 XOR";
"2 1 10920 98 11140 XOR";
"2 1 11139 98 11141 XOR";
"2 1 11140 11139 11142 XOR";
"2 1 11140 11141 11143 AND";
"2 1 11139 11143 11144 XOR";
"2 1 10923 99 11145 XOR";
"2 1 11144 99 11146 XOR";
"2 1 11145 11144 11147 XOR";
"2 1 11145 11146 11148 AND";
"2 1 11144 11148 11149 XOR";
"2 1 10926 100 11150 XOR";
"2 1 11149 100 11151 XOR";
"2 1 11150 11149 11152 XOR";
"2 1 11150 11151 11153 AND";
"2 1 11149 11153 11154 XOR";
"2 1 10929 101 11155 XOR";
"2 1 11154 101 11156 XOR";
"2 1 11155 11154 11157 XOR";
"2 1 11155 11156 11158 AND";
"2 1 11154 11158 11159 XOR";
"2 1 10932 102 11160 XOR";
"2 1 11159 102 11161 XOR";
"2 1 11160 11159 11162 XOR";
"2 1 11160 11161 11163 AND";
"2 1 11159 11163 11164 XOR";
"2 1 10935 103 11165 XOR";
"2 1 11164 103 11166 XOR";
"2 1 11165 11164 11167 XOR";
"2 1 11165 11166 11168 AND";
"2 1 11164 11168 11169 XOR";
"2 1 10938 104 11170 XOR";
"2 1 11169 104 11171 XOR";
"2 1 11170 11169 11172 XOR";
"2 1 11170 11171 11173 AND";
"2 1 11169 11173 11174 XOR";
"2 1 10941 105 11175 XOR";
"2 1 11174 105 11176 XOR";
"2 1 11175 11174 11177 XOR";
"2 1 11175 11176 11178 AND";
"2 1 11174 11178 11179 XOR";
"2 1 10944 106 11180 XOR";
"2 1 11179 106 11181 XOR";
"2 1 11180 11179 11182 XOR";
"2 1 11180 11181 11183 AND";
"2 1 11179 11183 11184 XOR";
"2 1 10947 107 11185 XOR";
"2 1 11184 107 11186 XOR";
"2 1 11185 11184 11187 XOR";
"2 1 11185 11186 11188 AND";
"2 1 11184 11188 11189 XOR";
"2 1 10950 108 11190 XOR";
"2 1 11189 108 11191 XOR";
"2 1 11190 11189 11192 XOR";
"2 1 11190 11191 11193 AND";
"2 1 11189 11193 11194 XOR";
"2 1 10953 109 11195 XOR";
"2 1 11194 109 11196 XOR";
"2 1 11195 11194 11197 XOR";
"2 1 11195 11196 11198 AND";
"2 1 11194 11198 11199 XOR";
"2 1 10956 110 11200 XOR";
"2 1 11199 110 11201 XOR";
"2 1 11200 11199 11202 XOR";
"2 1 11200 11201 11203 AND";
"2 1 11199 11203 11204 XOR";
"2 1 10959 111 11205 XOR";
"2 1 11204 111 11206 XOR";
"2 1 11205 11204 11207 XOR";
"2 1 11205 11206 11208 AND";
"2 1 11204 11208 11209 XOR";
"2 1 10962 112 11210 XOR";
"2 1 11209 112 11211 XOR";
"2 1 11210 11209 11212 XOR";
"2 1 11210 11211 11213 AND";
"2 1 11209 11213 11214 XOR";
"2 1 10965 113 11215 XOR";
"2 1 11214 113 11216 XOR";
"2 1 11215 11214 11217 XOR";
"2 1 11215 11216 11218 AND";
"2 1 11214 11218 11219 XOR";
"2 1 10968 114 11220 XOR";
"2 1 11219 114 11221 XOR";
"2 1 11220 11219 11222 XOR";
"2 1 11220 11221 11223 AND";
"2 1 11219 11223 11224 XOR";
"2 1 10971 115 11225 XOR";
"2 1 11224 115 11226 XOR";
"2 1 11225 11224 11227 XOR";
"2 1 11225 11226 11228 AND";
"2 1 11224 11228 11229 XOR";
"2 1 11229 160 11230 AND";
"2 1 11229 160 11231 XOR";
"2 1 11231 11230 11232 XOR";
"2 1 12 10973 11233 XOR";
"2 1 11232 11233 11234 AND";
"2 1 11234 10973 11235 XOR";
"2 1 10821 10977 11236 XOR";
"2 1 11232 11236 11237 AND";
"2 1 11237 10977 11238 XOR";
"2 1 10824 10982 11239 XOR";
"2 1 11232 11239 11240 AND";
"2 1 11240 10982 11241 XOR";
"2 1 10827 10987 11242 XOR";
"2 1 11232 11242 11243 AND";
"2 1 11243 10987 11244 XOR";
"2 1 10830 10992 11245 XOR";
"2 1 11232 11245 11246 AND";
"2 1 11246 10992 11247 XOR";
"2 1 10833 10997 11248 XOR";
"2 1 11232 11248 11249 AND";
"2 1 11249 10997 11250 XOR";
"2 1 10836 11002 11251 XOR";
"2 1 11232 11251 11252 AND";
"2 1 11252 11002 11253 XOR";
"2 1 10839 11007 11254 XOR";
"2 1 11232 11254 11255 AND";
"2 1 11255 11007 11256 XOR";
"2 1 10842 11012 11257 XOR";
"2 1 11232 11257 11258 AND";
"2 1 11258 11012 11259 XOR";
"2 1 10845 11017 11260 XOR";
"2 1 11232 11260 11261 AND";
"2 1 11261 11017 11262 XOR";
"2 1 10848 11022 11263 XOR";
"2 1 11232 11263 11264 AND";
"2 1 11264 11022 11265 XOR";
"2 1 10851 11027 11266 XOR";
"2 1 11232 11266 11267 AND";
"2 1 11267 11027 11268 XOR";
"2 1 10854 11032 11269 XOR";
"2 1 11232 11269 11270 AND";
"2 1 11270 11032 11271 XOR";
"2 1 10857 11037 11272 XOR";
"2 1 11232 11272 11273 AND";
"2 1 11273 11037 11274 XOR";
"2 1 10860 11042 11275 XOR";
"2 1 11232 11275 11276 AND";
"2 1 11276 11042 11277 XOR";
"2 1 10863 11047 11278 XOR";
"2 1 11232 11278 11279 AND";
"2 1 11279 11047 11280 XOR";
"2 1 10866 11052 11281 XOR";
"2 1 11232 11281 11282 AND";
"2 1 11282 11052 11283 XOR";
"2 1 10869 11057 11284 XOR";
"2 1 11232 11284 11285 AND";
"2 1 11285 11057 11286 XOR";
"2 1 10872 11062 11287 XOR";
"2 1 11232 11287 11288 AND";
"2 1 11288 11062 11289 XOR";
"2 1 10875 11067 11290 XOR";
"2 1 11232 11290 11291 AND";
"2 1 11291 11067 11292 XOR";
"2 1 10878 11072 11293 XOR";
"2 1 11232 11293 11294 AND";
"2 1 11294 11072 11295 XOR";
"2 1 10881 11077 11296 XOR";
"2 1 11232 11296 11297 AND";
"2 1 11297 11077 11298 XOR";
"2 1 10884 11082 11299 XOR";
"2 1 11232 11299 11300 AND";
"2 1 11300 11082 11301 XOR";
"2 1 10887 11087 11302 XOR";
"2 1 11232 11302 11303 AND";
"2 1 11303 11087 11304 XOR";
"2 1 10890 11092 11305 XOR";
"2 1 11232 11305 11306 AND";
"2 1 11306 11092 11307 XOR";
"2 1 10893 11097 11308 XOR";
"2 1 11232 11308 11309 AND";
"2 1 11309 11097 11310 XOR";
"2 1 10896 11102 11311 XOR";
"2 1 11232 11311 11312 AND";
"2 1 11312 11102 11313 XOR";
"2 1 10899 11107 11314 XOR";
"2 1 11232 11314 11315 AND";
"2 1 11315 11107 11316 XOR";
"2 1 10902 11112 11317 XOR";
"2 1 11232 11317 11318 AND";
"2 1 11318 11112 11319 XOR";
"2 1 10905 11117 11320 XOR";
"2 1 11232 11320 11321 AND";
"2 1 11321 11117 11322 XOR";
"2 1 10908 11122 11323 XOR";
"2 1 11232 11323 11324 AND";
"2 1 11324 11122 11325 XOR";
"2 1 10911 11127 11326 XOR";
"2 1 11232 11326 11327 AND";
"2 1 11327 11127 11328 XOR";
"2 1 10914 11132 11329 XOR";
"2 1 11232 11329 11330 AND";
"2 1 11330 11132 11331 XOR";
"2 1 10917 11137 11332 XOR";
"2 1 11232 11332 11333 AND";
"2 1 11333 11137 11334 XOR";
"2 1 10920 11142 11335 XOR";
"2 1 11232 11335 11336 AND";
"2 1 11336 11142 11337 XOR";
"2 1 10923 11147 11338 XOR";
"2 1 11232 11338 11339 AND";
"2 1 11339 11147 11340 XOR";
"2 1 10926 11152 11341 XOR";
"2 1 11232 11341 11342 AND";
"2 1 11342 11152 11343 XOR";
"2 1 10929 11157 11344 XOR";
"2 1 11232 11344 11345 AND";
"2 1 11345 11157 11346 XOR";
"2 1 10932 11162 11347 XOR";
"2 1 11232 11347 11348 AND";
"2 1 11348 11162 11349 XOR";
"2 1 10935 11167 11350 XOR";
"2 1 11232 11350 11351 AND";
"2 1 11351 11167 11352 XOR";
"2 1 10938 11172 11353 XOR";
"2 1 11232 11353 11354 AND";
"2 1 11354 11172 11355 XOR";
"2 1 10941 11177 11356 XOR";
"2 1 11232 11356 11357 AND";
"2 1 11357 11177 11358 XOR";
"2 1 10944 11182 11359 XOR";
"2 1 11232 11359 11360 AND";
"2 1 11360 11182 11361 XOR";
"2 1 10947 11187 11362 XOR";
"2 1 11232 11362 11363 AND";
"2 1 11363 11187 11364 XOR";
"2 1 10950 11192 11365 XOR";
"2 1 11232 11365 11366 AND";
"2 1 11366 11192 11367 XOR";
"2 1 10953 11197 11368 XOR";
"2 1 11232 11368 11369 AND";
"2 1 11369 11197 11370 XOR";
"2 1 10956 11202 11371 XOR";
"2 1 11232 11371 11372 AND";
"2 1 11372 11202 11373 XOR";
"2 1 10959 11207 11374 XOR";
"2 1 11232 11374 11375 AND";
"2 1 11375 11207 11376 XOR";
"2 1 10962 11212 11377 XOR";
"2 1 11232 11377 11378 AND";
"2 1 11378 11212 11379 XOR";
"2 1 10965 11217 11380 XOR";
"2 1 11232 11380 11381 AND";
"2 1 11381 11217 11382 XOR";
"2 1 10968 11222 11383 XOR";
"2 1 11232 11383 11384 AND";
"2 1 11384 11222 11385 XOR";
"2 1 10971 11227 11386 XOR";
"2 1 11232 11386 11387 AND";
"2 1 11387 11227 11388 XOR";
"1 1 11232 11389 INV";
"2 1 11 64 11390 XOR";
"2 1 11390 64 11391 AND";
"2 1 11235 65 11392 XOR";
"2 1 11391 65 11393 XOR";
"2 1 11392 11391 11394 XOR";
"2 1 11392 11393 11395 AND";
"2 1 11391 11395 11396 XOR";
"2 1 11238 66 11397 XOR";
"2 1 11396 66 11398 XOR";
"2 1 11397 11396 11399 XOR";
"2 1 11397 11398 11400 AND";
"2 1 11396 11400 11401 XOR";
"2 1 11241 67 11402 XOR";
"2 1 11401 67 11403 XOR";
"2 1 11402 11401 11404 XOR";
"2 1 11402 11403 11405 AND";
"2 1 11401 11405 11406 XOR";
"2 1 11244 68 11407 XOR";
"2 1 11406 68 11408 XOR";
"2 1 11407 11406 11409 XOR";
"2 1 11407 11408 11410 AND";
"2 1 11406 11410 11411 XOR";
"2 1 11247 69 11412 XOR";
"2 1 11411 69 11413 XOR";
"2 1 11412 11411 11414 XOR";
"2 1 11412 11413 11415 AND";
"2 1 11411 11415 11416 XOR";
"2 1 11250 70 11417 XOR";
"2 1 11416 70 11418 XOR";
"2 1 11417 11416 11419 XOR";
"2 1 11417 11418 11420 AND";
"2 1 11416 11420 11421 XOR";
"2 1 11253 71 11422 XOR";
"2 1 11421 71 11423 XOR";
"2 1 11422 11421 11424 XOR";
"2 1 11422 11423 11425 AND";
"2 1 11421 11425 11426 XOR";
"2 1 11256 72 11427 XOR";
"2 1 11426 72 11428 XOR";
"2 1 11427 11426 11429 XOR";
"2 1 11427 11428 11430 AND";
"2 1 11426 11430 11431 XOR";
"2 1 11259 73 11432 XOR";
"2 1 11431 73 11433 XOR";
"2 1 11432 11431 11434 XOR";
"2 1 11432 11433 11435 AND";
"2 1 11431 11435 11436 XOR";
"2 1 11262 74 11437 XOR";
"2 1 11436 74 11438 XOR";
"2 1 11437 11436 11439 XOR";
"2 1 11437 11438 11440 AND";
"2 1 11436 11440 11441 XOR";
"2 1 11265 75 11442 XOR";
"2 1 11441 75 11443 XOR";
"2 1 11442 11441 11444 XOR";
"2 1 11442 11443 11445 AND";
"2 1 11441 11445 11446 XOR";
"2 1 11268 76 11447 XOR";
"2 1 11446 76 11448 XOR";
"2 1 11447 11446 11449 XOR";
"2 1 11447 11448 11450 AND";
"2 1 11446 11450 11451 XOR";
"2 1 11271 77 11452 XOR";
"2 1 11451 77 11453 XOR";
"2 1 11452 11451 11454 XOR";
"2 1 11452 11453 11455 AND";
"2 1 11451 11455 11456 XOR";
"2 1 11274 78 11457 XOR";
"2 1 11456 78 11458 XOR";
"2 1 11457 11456 11459 XOR";
"2 1 11457 11458 11460 AND";
"2 1 11456 11460 11461 XOR";
"2 1 11277 79 11462 XOR";
"2 1 11461 79 11463 XOR";
"2 1 11462 11461 11464 XOR";
"2 1 11462 11463 11465 AND";
"2 1 11461 11465 11466 XOR";
"2 1 11280 80 11467 XOR";
"2 1 11466 80 11468 XOR";
"2 1 11467 11466 11469 XOR";
"2 1 11467 11468 11470 AND";
"2 1 11466 11470 11471 XOR";
"2 1 11283 81 11472 XOR";
"2 1 11471 81 11473 XOR";
"2 1 11472 11471 11474 XOR";
"2 1 11472 11473 11475 AND";
"2 1 11471 11475 11476 XOR";
"2 1 11286 82 11477 XOR";
"2 1 11476 82 11478 XOR";
"2 1 11477 11476 11479 XOR";
"2 1 11477 11478 11480 AND";
"2 1 11476 11480 11481 XOR";
"2 1 11289 83 11482 XOR";
"2 1 11481 83 11483 XOR";
"2 1 11482 11481 11484 XOR";
"2 1 11482 11483 11485 AND";
"2 1 11481 11485 11486 XOR";
"2 1 11292 84 11487 XOR";
"2 1 11486 84 11488 XOR";
"2 1 11487 11486 11489 XOR";
"2 1 11487 11488 11490 AND";
"2 1 11486 11490 11491 XOR";
"2 1 11295 85 11492 XOR";
"2 1 11491 85 11493 XOR";
"2 1 11492 11491 11494 XOR";
"2 1 11492 11493 11495 AND";
"2 1 11491 11495 11496 XOR";
"2 1 11298 86 11497 XOR";
"2 1 11496 86 11498 XOR";
"2 1 11497 11496 11499 XOR";
"2 1 11497 11498 11500 AND";
"2 1 11496 11500 11501 XOR";
"2 1 11301 87 11502 XOR";
"2 1 11501 87 11503 XOR";
"2 1 11502 11501 11504 XOR";
"2 1 11502 11503 11505 AND";
"2 1 11501 11505 11506 XOR";
"2 1 11304 88 11507 XOR";
"2 1 11506 88 11508 XOR";
"2 1 11507 11506 11509 XOR";
"2 1 11507 11508 11510 AND";
"2 1 11506 11510 11511 XOR";
"2 1 11307 89 11512 XOR";
"2 1 11511 89 11513 XOR";
"2 1 11512 11511 11514 XOR";
"2 1 11512 11513 11515 AND";
"2 1 11511 11515 11516 XOR";
"2 1 11310 90 11517 XOR";
"2 1 11516 90 11518 XOR";
"2 1 11517 11516 11519 XOR";
"2 1 11517 11518 11520 AND";
"2 1 11516 11520 11521 XOR";
"2 1 11313 91 11522 XOR";
"2 1 11521 91 11523 XOR";
"2 1 11522 11521 11524 XOR";
"2 1 11522 11523 11525 AND";
"2 1 11521 11525 11526 XOR";
"2 1 11316 92 11527 XOR";
"2 1 11526 92 11528 XOR";
"2 1 11527 11526 11529 XOR";
"2 1 11527 11528 11530 AND";
"2 1 11526 11530 11531 XOR";
"2 1 11319 93 11532 XOR";
"2 1 11531 93 11533 XOR";
"2 1 11532 11531 11534 XOR";
"2 1 11532 11533 11535 AND";
"2 1 11531 11535 11536 XOR";
"2 1 11322 94 11537 XOR";
"2 1 11536 94 11538 XOR";
"2 1 11537 11536 11539 XOR";
"2 1 11537 11538 11540 AND";
"2 1 11536 11540 11541 XOR";
"2 1 11325 95 11542 XOR";
"2 1 11541 95 11543 XOR";
"2 1 11542 11541 11544 XOR";
"2 1 11542 11543 11545 AND";
"2 1 11541 11545 11546 XOR";
"2 1 11328 96 11547 XOR";
"2 1 11546 96 11548 XOR";
"2 1 11547 11546 11549 XOR";
"2 1 11547 11548 11550 AND";
"2 1 11546 11550 11551 XOR";
"2 1 11331 97 11552 XOR";
"2 1 11551 97 11553 XOR";
"2 1 11552 11551 11554 XOR";
"2 1 11552 11553 11555 AND";
"2 1 11551 11555 11556 XOR";
"2 1 11334 98 11557 XOR";
"2 1 11556 98 11558 XOR";
"2 1 11557 11556 11559 XOR";
"2 1 11557 11558 11560 AND";
"2 1 11556 11560 11561 XOR";
"2 1 11337 99 11562 XOR";
"2 1 11561 99 11563 XOR";
"2 1 11562 11561 11564 XOR";
"2 1 11562 11563 11565 AND";
"2 1 11561 11565 11566 XOR";
"2 1 11340 100 11567 XOR";
"2 1 11566 100 11568 XOR";
"2 1 11567 11566 11569 XOR";
"2 1 11567 11568 11570 AND";
"2 1 11566 11570 11571 XOR";
"2 1 11343 101 11572 XOR";
"2 1 11571 101 11573 XOR";
"2 1 11572 11571 11574 XOR";
"2 1 11572 11573 11575 AND";
"2 1 11571 11575 11576 XOR";
"2 1 11346 102 11577 XOR";
"2 1 11576 102 11578 XOR";
"2 1 11577 11576 11579 XOR";
"2 1 11577 11578 11580 AND";
"2 1 11576 11580 11581 XOR";
"2 1 11349 103 11582 XOR";
"2 1 11581 103 11583 XOR";
"2 1 11582 11581 11584 XOR";
"2 1 11582 11583 11585 AND";
"2 1 11581 11585 11586 XOR";
"2 1 11352 104 11587 XOR";
"2 1 11586 104 11588 XOR";
"2 1 11587 11586 11589 XOR";
"2 1 11587 11588 11590 AND";
"2 1 11586 11590 11591 XOR";
"2 1 11355 105 11592 XOR";
"2 1 11591 105 11593 XOR";
"2 1 11592 11591 11594 XOR";
"2 1 11592 11593 11595 AND";
"2 1 11591 11595 11596 XOR";
"2 1 11358 106 11597 XOR";
"2 1 11596 106 11598 XOR";
"2 1 11597 11596 11599 XOR";
"2 1 11597 11598 11600 AND";
"2 1 11596 11600 11601 XOR";
"2 1 11361 107 11602 XOR";
"2 1 11601 107 11603 XOR";
"2 1 11602 11601 11604 XOR";
"2 1 11602 11603 11605 AND";
"2 1 11601 11605 11606 XOR";
"2 1 11364 108 11607 XOR";
"2 1 11606 108 11608 XOR";
"2 1 11607 11606 11609 XOR";
"2 1 11607 11608 11610 AND";
"2 1 11606 11610 11611 XOR";
"2 1 11367 109 11612 XOR";
"2 1 11611 109 11613 XOR";
"2 1 11612 11611 11614 XOR";
"2 1 11612 11613 11615 AND";
"2 1 11611 11615 11616 XOR";
"2 1 11370 110 11617 XOR";
"2 1 11616 110 11618 XOR";
"2 1 11617 11616 11619 XOR";
"2 1 11617 11618 11620 AND";
"2 1 11616 11620 11621 XOR";
"2 1 11373 111 11622 XOR";
"2 1 11621 111 11623 XOR";
"2 1 11622 11621 11624 XOR";
"2 1 11622 11623 11625 AND";
"2 1 11621 11625 11626 XOR";
"2 1 11376 112 11627 XOR";
"2 1 11626 112 11628 XOR";
"2 1 11627 11626 11629 XOR";
"2 1 11627 11628 11630 AND";
"2 1 11626 11630 11631 XOR";
"2 1 11379 113 11632 XOR";
"2 1 11631 113 11633 XOR";
"2 1 11632 11631 11634 XOR";
"2 1 11632 11633 11635 AND";
"2 1 11631 11635 11636 XOR";
"2 1 11382 114 11637 XOR";
"2 1 11636 114 11638 XOR";
"2 1 11637 11636 11639 XOR";
"2 1 11637 11638 11640 AND";
"2 1 11636 11640 11641 XOR";
"2 1 11385 115 11642 XOR";
"2 1 11641 115 11643 XOR";
"2 1 11642 11641 11644 XOR";
"2 1 11642 11643 11645 AND";
"2 1 11641 11645 11646 XOR";
"2 1 11388 116 11647 XOR";
"2 1 11646 116 11648 XOR";
"2 1 11647 11646 11649 XOR";
"2 1 11647 11648 11650 AND";
"2 1 11646 11650 11651 XOR";
"2 1 11651 157 11652 AND";
"2 1 11651 157 11653 XOR";
"2 1 11653 11652 11654 XOR";
"2 1 11 11390 11655 XOR";
"2 1 11654 11655 11656 AND";
"2 1 11656 11390 11657 XOR";
"2 1 11235 11394 11658 XOR";
"2 1 11654 11658 11659 AND";
"2 1 11659 11394 11660 XOR";
"2 1 11238 11399 11661 XOR";
"2 1 11654 11661 11662 AND";
"2 1 11662 11399 11663 XOR";
"2 1 11241 11404 11664 XOR";
"2 1 11654 11664 11665 AND";
"2 1 11665 11404 11666 XOR";
"2 1 11244 11409 11667 XOR";
"2 1 11654 11667 11668 AND";
"2 1 11668 11409 11669 XOR";
"2 1 11247 11414 11670 XOR";
"2 1 11654 11670 11671 AND";
"2 1 11671 11414 11672 XOR";
"2 1 11250 11419 11673 XOR";
"2 1 11654 11673 11674 AND";
"2 1 11674 11419 11675 XOR";
"2 1 11253 11424 11676 XOR";
"2 1 11654 11676 11677 AND";
"2 1 11677 11424 11678 XOR";
"2 1 11256 11429 11679 XOR";
"2 1 11654 11679 11680 AND";
"2 1 11680 11429 11681 XOR";
"2 1 11259 11434 11682 XOR";
"2 1 11654 11682 11683 AND";
"2 1 11683 11434 11684 XOR";
"2 1 11262 11439 11685 XOR";
"2 1 11654 11685 11686 AND";
"2 1 11686 11439 11687 XOR";
"2 1 11265 11444 11688 XOR";
"2 1 11654 11688 11689 AND";
"2 1 11689 11444 11690 XOR";
"2 1 11268 11449 11691 XOR";
"2 1 11654 11691 11692 AND";
"2 1 11692 11449 11693 XOR";
"2 1 11271 11454 11694 XOR";
"2 1 11654 11694 11695 AND";
"2 1 11695 11454 11696 XOR";
"2 1 11274 11459 11697 XOR";
"2 1 11654 11697 11698 AND";
"2 1 11698 11459 11699 XOR";
"2 1 11277 11464 11700 XOR";
"2 1 11654 11700 11701 AND";
"2 1 11701 11464 11702 XOR";
"2 1 11280 11469 11703 XOR";
"2 1 11654 11703 11704 AND";
"2 1 11704 11469 11705 XOR";
"2 1 11283 11474 11706 XOR";
"2 1 11654 11706 11707 AND";
"2 1 11707 11474 11708 XOR";
"2 1 11286 11479 11709 XOR";
"2 1 11654 11709 11710 AND";
"2 1 11710 11479 11711 XOR";
"2 1 11289 11484 11712 XOR";
"2 1 11654 11712 11713 AND";
"2 1 11713 11484 11714 XOR";
"2 1 11292 11489 11715 XOR";
"2 1 11654 11715 11716 AND";
"2 1 11716 11489 11717 XOR";
"2 1 11295 11494 11718 XOR";
"2 1 11654 11718 11719 AND";
"2 1 11719 11494 11720 XOR";
"2 1 11298 11499 11721 XOR";
"2 1 11654 11721 11722 AND";
"2 1 11722 11499 11723 XOR";
"2 1 11301 11504 11724 XOR";
"2 1 11654 11724 11725 AND";
"2 1 11725 11504 11726 XOR";
"2 1 11304 11509 11727 XOR";
"2 1 11654 11727 11728 AND";
"2 1 11728 11509 11729 XOR";
"2 1 11307 11514 11730 XOR";
"2 1 11654 11730 11731 AND";
"2 1 11731 11514 11732 XOR";
"2 1 11310 11519 11733 XOR";
"2 1 11654 11733 11734 AND";
"2 1 11734 11519 11735 XOR";
"2 1 11313 11524 11736 XOR";
"2 1 11654 11736 11737 AND";
"2 1 11737 11524 11738 XOR";
"2 1 11316 11529 11739 XOR";
"2 1 11654 11739 11740 AND";
"2 1 11740 11529 11741 XOR";
"2 1 11319 11534 11742 XOR";
"2 1 11654 11742 11743 AND";
"2 1 11743 11534 11744 XOR";
"2 1 11322 11539 11745 XOR";
"2 1 11654 11745 11746 AND";
"2 1 11746 11539 11747 XOR";
"2 1 11325 11544 11748 XOR";
"2 1 11654 11748 11749 AND";
"2 1 11749 11544 11750 XOR";
"2 1 11328 11549 11751 XOR";
"2 1 11654 11751 11752 AND";
"2 1 11752 11549 11753 XOR";
"2 1 11331 11554 11754 XOR";
"2 1 11654 11754 11755 AND";
"2 1 11755 11554 11756 XOR";
"2 1 11334 11559 11757 XOR";
"2 1 11654 11757 11758 AND";
"2 1 11758 11559 11759 XOR";
"2 1 11337 11564 11760 XOR";
"2 1 11654 11760 11761 AND";
"2 1 11761 11564 11762 XOR";
"2 1 11340 11569 11763 XOR";
"2 1 11654 11763 11764 AND";
"2 1 11764 11569 11765 XOR";
"2 1 11343 11574 11766 XOR";
"2 1 11654 11766 11767 AND";
"2 1 11767 11574 11768 XOR";
"2 1 11346 11579 11769 XOR";
"2 1 11654 11769 11770 AND";
"2 1 11770 11579 11771 XOR";
"2 1 11349 11584 11772 XOR";
"2 1 11654 11772 11773 AND";
"2 1 11773 11584 11774 XOR";
"2 1 11352 11589 11775 XOR";
"2 1 11654 11775 11776 AND";
"2 1 11776 11589 11777 XOR";
"2 1 11355 11594 11778 XOR";
"2 1 11654 11778 11779 AND";
"2 1 11779 11594 11780 XOR";
"2 1 11358 11599 11781 XOR";
"2 1 11654 11781 11782 AND";
"2 1 11782 11599 11783 XOR";
"2 1 11361 11604 11784 XOR";
"2 1 11654 11784 11785 AND";
"2 1 11785 11604 11786 XOR";
"2 1 11364 11609 11787 XOR";
"2 1 11654 11787 11788 AND";
"2 1 11788 11609 11789 XOR";
"2 1 11367 11614 11790 XOR";
"2 1 11654 11790 11791 AND";
"2 1 11791 11614 11792 XOR";
"2 1 11370 11619 11793 XOR";
"2 1 11654 11793 11794 AND";
"2 1 11794 11619 11795 XOR";
"2 1 11373 11624 11796 XOR";
"2 1 11654 11796 11797 AND";
"2 1 11797 11624 11798 XOR";
"2 1 11376 11629 11799 XOR";
"2 1 11654 11799 11800 AND";
"2 1 11800 11629 11801 XOR";
"2 1 11379 11634 11802 XOR";
"2 1 11654 11802 11803 AND";
"2 1 11803 11634 11804 XOR";
"2 1 11382 11639 11805 XOR";
"2 1 11654 11805 11806 AND";
"2 1 11806 11639 11807 XOR";
"2 1 11385 11644 11808 XOR";
"2 1 11654 11808 11809 AND";
"2 1 11809 11644 11810 XOR";
"2 1 11388 11649 11811 XOR";
"2 1 11654 11811 11812 AND";
"2 1 11812 11649 11813 XOR";
"1 1 11654 11814 INV";
"2 1 10 64 11815 XOR";
"2 1 11815 64 11816 AND";
"2 1 11657 65 11817 XOR";
"2 1 11816 65 11818 XOR";
"2 1 11817 11816 11819 XOR";
"2 1 11817 11818 11820 AND";
"2 1 11816 11820 11821 XOR";
"2 1 11660 66 11822 XOR";
"2 1 11821 66 11823 XOR";
"2 1 11822 11821 11824 XOR";
"2 1 11822 11823 11825 AND";
"2 1 11821 11825 11826 XOR";
"2 1 11663 67 11827 XOR";
"2 1 11826 67 11828 XOR";
"2 1 11827 11826 11829 XOR";
"2 1 11827 11828 11830 AND";
"2 1 11826 11830 11831 XOR";
"2 1 11666 68 11832 XOR";
"2 1 11831 68 11833 XOR";
"2 1 11832 11831 11834 XOR";
"2 1 11832 11833 11835 AND";
"2 1 11831 11835 11836 XOR";
"2 1 11669 69 11837 XOR";
"2 1 11836 69 11838 XOR";
"2 1 11837 11836 11839 XOR";
"2 1 11837 11838 11840 AND";
"2 1 11836 11840 11841 XOR";
"2 1 11672 70 11842 XOR";
"2 1 11841 70 11843 XOR";
"2 1 11842 11841 11844 XOR";
"2 1 11842 11843 11845 AND";
"2 1 11841 11845 11846 XOR";
"2 1 11675 71 11847 XOR";
"2 1 11846 71 11848 XOR";
"2 1 11847 11846 11849 XOR";
"2 1 11847 11848 11850 AND";
"2 1 11846 11850 11851 XOR";
"2 1 11678 72 11852 XOR";
"2 1 11851 72 11853 XOR";
"2 1 11852 11851 11854 XOR";
"2 1 11852 11853 11855 AND";
"2 1 11851 11855 11856 XOR";
"2 1 11681 73 11857 XOR";
"2 1 11856 73 11858 XOR";
"2 1 11857 11856 11859 XOR";
"2 1 11857 11858 11860 AND";
"2 1 11856 11860 11861 XOR";
"2 1 11684 74 11862 XOR";
"2 1 11861 74 11863 XOR";
"2 1 11862 11861 11864 XOR";
"2 1 11862 11863 11865 AND";
"2 1 11861 11865 11866 XOR";
"2 1 11687 75 11867 XOR";
"2 1 11866 75 11868 XOR";
"2 1 11867 11866 11869 XOR";
"2 1 11867 11868 11870 AND";
"2 1 11866 11870 11871 XOR";
"2 1 11690 76 11872 XOR";
"2 1 11871 76 11873 XOR";
"2 1 11872 11871 11874 XOR";
"2 1 11872 11873 11875 AND";
"2 1 11871 11875 11876 XOR";
"2 1 11693 77 11877 XOR";
"2 1 11876 77 11878 XOR";
"2 1 11877 11876 11879 XOR";
"2 1 11877 11878 11880 AND";
"2 1 11876 11880 11881 XOR";
"2 1 11696 78 11882 XOR";
"2 1 11881 78 11883 XOR";
"2 1 11882 11881 11884 XOR";
"2 1 11882 11883 11885 AND";
"2 1 11881 11885 11886 XOR";
"2 1 11699 79 11887 XOR";
"2 1 11886 79 11888 XOR";
"2 1 11887 11886 11889 XOR";
"2 1 11887 11888 11890 AND";
"2 1 11886 11890 11891 XOR";
"2 1 11702 80 11892 XOR";
"2 1 11891 80 11893 XOR";
"2 1 11892 11891 11894 XOR";
"2 1 11892 11893 11895 AND";
"2 1 11891 11895 11896 XOR";
"2 1 11705 81 11897 XOR";
"2 1 11896 81 11898 XOR";
"2 1 11897 11896 11899 XOR";
"2 1 11897 11898 11900 AND";
"2 1 11896 11900 11901 XOR";
"2 1 11708 82 11902 XOR";
"2 1 11901 82 11903 XOR";
"2 1 11902 11901 11904 XOR";
"2 1 11902 11903 11905 AND";
"2 1 11901 11905 11906 XOR";
"2 1 11711 83 11907 XOR";
"2 1 11906 83 11908 XOR";
"2 1 11907 11906 11909 XOR";
"2 1 11907 11908 11910 AND";
"2 1 11906 11910 11911 XOR";
"2 1 11714 84 11912 XOR";
"2 1 11911 84 11913 XOR";
"2 1 11912 11911 11914 XOR";
"2 1 11912 11913 11915 AND";
"2 1 11911 11915 11916 XOR";
"2 1 11717 85 11917 XOR";
"2 1 11916 85 11918 XOR";
"2 1 11917 11916 11919 XOR";
"2 1 11917 11918 11920 AND";
"2 1 11916 11920 11921 XOR";
"2 1 11720 86 11922 XOR";
"2 1 11921 86 11923 XOR";
"2 1 11922 11921 11924 XOR";
"2 1 11922 11923 11925 AND";
"2 1 11921 11925 11926 XOR";
"2 1 11723 87 11927 XOR";
"2 1 11926 87 11928 XOR";
"2 1 11927 11926 11929 XOR";
"2 1 11927 11928 11930 AND";
"2 1 11926 11930 11931 XOR";
"2 1 11726 88 11932 XOR";
"2 1 11931 88 11933 XOR";
"2 1 11932 11931 11934 XOR";
"2 1 11932 11933 11935 AND";
"2 1 11931 11935 11936 XOR";
"2 1 11729 89 11937 XOR";
"2 1 11936 89 11938 XOR";
"2 1 11937 11936 11939 XOR";
"2 1 11937 11938 11940 AND";
"2 1 11936 11940 11941 XOR";
"2 1 11732 90 11942 XOR";
"2 1 11941 90 11943 XOR";
"2 1 11942 11941 11944 XOR";
"2 1 11942 11943 11945 AND";
"2 1 11941 11945 11946 XOR";
"2 1 11735 91 11947 XOR";
"2 1 11946 91 11948 XOR";
"2 1 11947 11946 11949 XOR";
"2 1 11947 11948 11950 AND";
"2 1 11946 11950 11951 XOR";
"2 1 11738 92 11952 XOR";
"2 1 11951 92 11953 XOR";
"2 1 11952 11951 11954 XOR";
"2 1 11952 11953 11955 AND";
"2 1 11951 11955 11956 XOR";
"2 1 11741 93 11957 XOR";
"2 1 11956 93 11958 XOR";
"2 1 11957 11956 11959 XOR";
"2 1 11957 11958 11960 AND";
"2 1 11956 11960 11961 XOR";
"2 1 11744 94 11962 XOR";
"2 1 11961 94 11963 XOR";
"2 1 11962 11961 11964 XOR";
"2 1 11962 11963 11965 AND";
"2 1 11961 11965 11966 XOR";
"2 1 11747 95 11967 XOR";
"2 1 11966 95 11968 XOR";
"2 1 11967 11966 11969 XOR";
"2 1 11967 11968 11970 AND";
"2 1 11966 11970 11971 XOR";
"2 1 11750 96 11972 XOR";
"2 1 11971 96 11973 XOR";
"2 1 11972 11971 11974 XOR";
"2 1 11972 11973 11975 AND";
"2 1 11971 11975 11976 XOR";
"2 1 11753 97 11977 XOR";
"2 1 11976 97 11978 XOR";
"2 1 11977 11976 11979 XOR";
"2 1 11977 11978 11980 AND";
"2 1 11976 11980 11981 XOR";
"2 1 11756 98 11982 XOR";
"2 1 11981 98 11983 XOR";
"2 1 11982 11981 11984 XOR";
"2 1 11982 11983 11985 AND";
"2 1 11981 11985 11986 XOR";
"2 1 11759 99 11987 XOR";
"2 1 11986 99 11988 XOR";
"2 1 11987 11986 11989 XOR";
"2 1 11987 11988 11990 AND";
"2 1 11986 11990 11991 XOR";
"2 1 11762 100 11992 XOR";
"2 1 11991 100 11993 XOR";
"2 1 11992 11991 11994 XOR";
"2 1 11992 11993 11995 AND";
"2 1 11991 11995 11996 XOR";
"2 1 11765 101 11997 XOR";
"2 1 11996 101 11998 XOR";
"2 1 11997 11996 11999 XOR";
"2 1 11997 11998 12000 AND";
"2 1 11996 12000 12001 XOR";
"2 1 11768 102 12002 XOR";
"2 1 12001 102 12003 XOR";
"2 1 12002 12001 12004 XOR";
"2 1 12002 12003 12005 AND";
"2 1 12001 12005 12006 XOR";
"2 1 11771 103 12007 XOR";
"2 1 12006 103 12008 XOR";
"2 1 12007 12006 12009 XOR";
"2 1 12007 12008 12010 AND";
"2 1 12006 12010 12011 XOR";
"2 1 11774 104 12012 XOR";
"2 1 12011 104 12013 XOR";
"2 1 12012 12011 12014 XOR";
"2 1 12012 12013 12015 AND";
"2 1 12011 12015 12016 XOR";
"2 1 11777 105 12017 XOR";
"2 1 12016 105 12018 XOR";
"2 1 12017 12016 12019 XOR";
"2 1 12017 12018 12020 AND";
"2 1 12016 12020 12021 XOR";
"2 1 11780 106 12022 XOR";
"2 1 12021 106 12023 XOR";
"2 1 12022 12021 12024 XOR";
"2 1 12022 12023 12025 AND";
"2 1 12021 12025 12026 XOR";
"2 1 11783 107 12027 XOR";
"2 1 12026 107 12028 XOR";
"2 1 12027 12026 12029 XOR";
"2 1 12027 12028 12030 AND";
"2 1 12026 12030 12031 XOR";
"2 1 11786 108 12032 XOR";
"2 1 12031 108 12033 XOR";
"2 1 12032 12031 12034 XOR";
"2 1 12032 12033 12035 AND";
"2 1 12031 12035 12036 XOR";
"2 1 11789 109 12037 XOR";
"2 1 12036 109 12038 XOR";
"2 1 12037 12036 12039 XOR";
"2 1 12037 12038 12040 AND";
"2 1 12036 12040 12041 XOR";
"2 1 11792 110 12042 XOR";
"2 1 12041 110 12043 XOR";
"2 1 12042 12041 12044 XOR";
"2 1 12042 12043 12045 AND";
"2 1 12041 12045 12046 XOR";
"2 1 11795 111 12047 XOR";
"2 1 12046 111 12048 XOR";
"2 1 12047 12046 12049 XOR";
"2 1 12047 12048 12050 AND";
"2 1 12046 12050 12051 XOR";
"2 1 11798 112 12052 XOR";
"2 1 12051 112 12053 XOR";
"2 1 12052 12051 12054 XOR";
"2 1 12052 12053 12055 AND";
"2 1 12051 12055 12056 XOR";
"2 1 11801 113 12057 XOR";
"2 1 12056 113 12058 XOR";
"2 1 12057 12056 12059 XOR";
"2 1 12057 12058 12060 AND";
"2 1 12056 12060 12061 XOR";
"2 1 11804 114 12062 XOR";
"2 1 12061 114 12063 XOR";
"2 1 12062 12061 12064 XOR";
"2 1 12062 12063 12065 AND";
"2 1 12061 12065 12066 XOR";
"2 1 11807 115 12067 XOR";
"2 1 12066 115 12068 XOR";
"2 1 12067 12066 12069 XOR";
"2 1 12067 12068 12070 AND";
"2 1 12066 12070 12071 XOR";
"2 1 11810 116 12072 XOR";
"2 1 12071 116 12073 XOR";
"2 1 12072 12071 12074 XOR";
"2 1 12072 12073 12075 AND";
"2 1 12071 12075 12076 XOR";
"2 1 11813 117 12077 XOR";
"2 1 12076 117 12078 XOR";
"2 1 12077 12076 12079 XOR";
"2 1 12077 12078 12080 AND";
"2 1 12076 12080 12081 XOR";
"2 1 12081 154 12082 AND";
"2 1 12081 154 12083 XOR";
"2 1 12083 12082 12084 XOR";
"2 1 10 11815 12085 XOR";
"2 1 12084 12085 12086 AND";
"2 1 12086 11815 12087 XOR";
"2 1 11657 11819 12088 XOR";
"2 1 12084 12088 12089 AND";
"2 1 12089 11819 12090 XOR";
"2 1 11660 11824 12091 XOR";
"2 1 12084 12091 12092 AND";
"2 1 12092 11824 12093 XOR";
"2 1 11663 11829 12094 XOR";
"2 1 12084 12094 12095 AND";
"2 1 12095 11829 12096 XOR";
"2 1 11666 11834 12097 XOR";
"2 1 12084 12097 12098 AND";
"2 1 12098 11834 12099 XOR";
"2 1 11669 11839 12100 XOR";
"2 1 12084 12100 12101 AND";
"2 1 12101 11839 12102 XOR";
"2 1 11672 11844 12103 XOR";
"2 1 12084 12103 12104 AND";
"2 1 12104 11844 12105 XOR";
"2 1 11675 11849 12106 XOR";
"2 1 12084 12106 12107 AND";
"2 1 12107 11849 12108 XOR";
"2 1 11678 11854 12109 XOR";
"2 1 12084 12109 12110 AND";
"2 1 12110 11854 12111 XOR";
"2 1 11681 11859 12112 XOR";
"2 1 12084 12112 12113 AND";
"2 1 12113 11859 12114 XOR";
"2 1 11684 11864 12115 XOR";
"2 1 12084 12115 12116 AND";
"2 1 12116 11864 12117 XOR";
"2 1 11687 11869 12118 XOR";
"2 1 12084 12118 12119 AND";
"2 1 12119 11869 12120 XOR";
"2 1 11690 11874 12121 XOR";
"2 1 12084 12121 12122 AND";
"2 1 12122 11874 12123 XOR";
"2 1 11693 11879 12124 XOR";
"2 1 12084 12124 12125 AND";
"2 1 12125 11879 12126 XOR";
"2 1 11696 11884 12127 XOR";
"2 1 12084 12127 12128 AND";
"2 1 12128 11884 12129 XOR";
"2 1 11699 11889 12130 XOR";
"2 1 12084 12130 12131 AND";
"2 1 12131 11889 12132 XOR";
"2 1 11702 11894 12133 XOR";
"2 1 12084 12133 12134 AND";
"2 1 12134 11894 12135 XOR";
"2 1 11705 11899 12136 XOR";
"2 1 12084 12136 12137 AND";
"2 1 12137 11899 12138 XOR";
"2 1 11708 11904 12139 XOR";
"2 1 12084 12139 12140 AND";
"2 1 12140 11904 12141 XOR";
"2 1 11711 11909 12142 XOR";
"2 1 12084 12142 12143 AND";
"2 1 12143 11909 12144 XOR";
"2 1 11714 11914 12145 XOR";
"2 1 12084 12145 12146 AND";
"2 1 12146 11914 12147 XOR";
"2 1 11717 11919 12148 XOR";
"2 1 12084 12148 12149 AND";
"2 1 12149 11919 12150 XOR";
"2 1 11720 11924 12151 XOR";
"2 1 12084 12151 12152 AND";
"2 1 12152 11924 12153 XOR";
"2 1 11723 11929 12154 XOR";
"2 1 12084 12154 12155 AND";
"2 1 12155 11929 12156 XOR";
"2 1 11726 11934 12157 XOR";
"2 1 12084 12157 12158 AND";
"2 1 12158 11934 12159 XOR";
"2 1 11729 11939 12160 XOR";
"2 1 12084 12160 12161 AND";
"2 1 12161 11939 12162 XOR";
"2 1 11732 11944 12163 XOR";
"2 1 12084 12163 12164 AND";
"2 1 12164 11944 12165 XOR";
"2 1 11735 11949 12166 XOR";
"2 1 12084 12166 12167 AND";
"2 1 12167 11949 12168 XOR";
"2 1 11738 11954 12169 XOR";
"2 1 12084 12169 12170 AND";
"2 1 12170 11954 12171 XOR";
"2 1 11741 11959 12172 XOR";
"2 1 12084 12172 12173 AND";
"2 1 12173 11959 12174 XOR";
"2 1 11744 11964 12175 XOR";
"2 1 12084 12175 12176 AND";
"2 1 12176 11964 12177 XOR";
"2 1 11747 11969 12178 XOR";
"2 1 12084 12178 12179 AND";
"2 1 12179 11969 12180 XOR";
"2 1 11750 11974 12181 XOR";
"2 1 12084 12181 12182 AND";
"2 1 12182 11974 12183 XOR";
"2 1 11753 11979 12184 XOR";
"2 1 12084 12184 12185 AND";
"2 1 12185 11979 12186 XOR";
"2 1 11756 11984 12187 XOR";
"2 1 12084 12187 12188 AND";
"2 1 12188 11984 12189 XOR";
"2 1 11759 11989 12190 XOR";
"2 1 12084 12190 12191 AND";
"2 1 12191 11989 12192 XOR";
"2 1 11762 11994 12193 XOR";
"2 1 12084 12193 12194 AND";
"2 1 12194 11994 12195 XOR";
"2 1 11765 11999 12196 XOR";
"2 1 12084 12196 12197 AND";
"2 1 12197 11999 12198 XOR";
"2 1 11768 12004 12199 XOR";
"2 1 12084 12199 12200 AND";
"2 1 12200 12004 12201 XOR";
"2 1 11771 12009 12202 XOR";
"2 1 12084 12202 12203 AND";
"2 1 12203 12009 12204 XOR";
"2 1 11774 12014 12205 XOR";
"2 1 12084 12205 12206 AND";
"2 1 12206 12014 12207 XOR";
"2 1 11777 12019 12208 XOR";
"2 1 12084 12208 12209 AND";
"2 1 12209 12019 12210 XOR";
"2 1 11780 12024 12211 XOR";
"2 1 12084 12211 12212 AND";
"2 1 12212 12024 12213 XOR";
"2 1 11783 12029 12214 XOR";
"2 1 12084 12214 12215 AND";
"2 1 12215 12029 12216 XOR";
"2 1 11786 12034 12217 XOR";
"2 1 12084 12217 12218 AND";
"2 1 12218 12034 12219 XOR";
"2 1 11789 12039 12220 XOR";
"2 1 12084 12220 12221 AND";
"2 1 12221 12039 12222 XOR";
"2 1 11792 12044 12223 XOR";
"2 1 12084 12223 12224 AND";
"2 1 12224 12044 12225 XOR";
"2 1 11795 12049 12226 XOR";
"2 1 12084 12226 12227 AND";
"2 1 12227 12049 12228 XOR";
"2 1 11798 12054 12229 XOR";
"2 1 12084 12229 12230 AND";
"2 1 12230 12054 12231 XOR";
"2 1 11801 12059 12232 XOR";
"2 1 12084 12232 12233 AND";
"2 1 12233 12059 12234 XOR";
"2 1 11804 12064 12235 XOR";
"2 1 12084 12235 12236 AND";
"2 1 12236 12064 12237 XOR";
"2 1 11807 12069 12238 XOR";
"2 1 12084 12238 12239 AND";
"2 1 12239 12069 12240 XOR";
"2 1 11810 12074 12241 XOR";
"2 1 12084 12241 12242 AND";
"2 1 12242 12074 12243 XOR";
"2 1 11813 12079 12244 XOR";
"2 1 12084 12244 12245 AND";
"2 1 12245 12079 12246 XOR";
"1 1 12084 12247 INV";
"2 1 9 64 12248 XOR";
"2 1 12248 64 12249 AND";
"2 1 12087 65 12250 XOR";
"2 1 12249 65 12251 XOR";
"2 1 12250 12249 12252 XOR";
"2 1 12250 12251 12253 AND";
"2 1 12249 12253 12254 XOR";
"2 1 12090 66 12255 XOR";
"2 1 12254 66 12256 XOR";
"2 1 12255 12254 12257 XOR";
"2 1 12255 12256 12258 AND";
"2 1 12254 12258 12259 XOR";
"2 1 12093 67 12260 XOR";
"2 1 12259 67 12261 XOR";
"2 1 12260 12259 12262 XOR";
"2 1 12260 12261 12263 AND";
"2 1 12259 12263 12264 XOR";
"2 1 12096 68 12265 XOR";
"2 1 12264 68 12266 XOR";
"2 1 12265 12264 12267 XOR";
"2 1 12265 12266 12268 AND";
"2 1 12264 12268 12269 XOR";
"2 1 12099 69 12270 XOR";
"2 1 12269 69 12271 XOR";
"2 1 12270 12269 12272 XOR";
"2 1 12270 12271 12273 AND";
"2 1 12269 12273 12274 XOR";
"2 1 12102 70 12275 XOR";
"2 1 12274 70 12276 XOR";
"2 1 12275 12274 12277 XOR";
"2 1 12275 12276 12278 AND";
"2 1 12274 12278 12279 XOR";
"2 1 12105 71 12280 XOR";
"2 1 12279 71 12281 XOR";
"2 1 12280 12279 12282 XOR";
"2 1 12280 12281 12283 AND";
"2 1 12279 12283 12284 XOR";
"2 1 12108 72 12285 XOR";
"2 1 12284 72 12286 XOR";
"2 1 12285 12284 12287 XOR";
"2 1 12285 12286 12288 AND";
"2 1 12284 12288 12289 XOR";
"2 1 12111 73 12290 XOR";
"2 1 12289 73 12291 XOR";
"2 1 12290 12289 12292 XOR";
"2 1 12290 12291 12293 AND";
"2 1 12289 12293 12294 XOR";
"2 1 12114 74 12295 XOR";
"2 1 12294 74 12296 XOR";
"2 1 12295 12294 12297 XOR";
"2 1 12295 12296 12298 AND";
"2 1 12294 12298 12299 XOR";
"2 1 12117 75 12300 XOR";
"2 1 12299 75 12301 XOR";
"2 1 12300 12299 12302 XOR";
"2 1 12300 12301 12303 AND";
"2 1 12299 12303 12304 XOR";
"2 1 12120 76 12305 XOR";
"2 1 12304 76 12306 XOR";
"2 1 12305 12304 12307 XOR";
"2 1 12305 12306 12308 AND";
"2 1 12304 12308 12309 XOR";
"2 1 12123 77 12310 XOR";
"2 1 12309 77 12311 XOR";
"2 1 12310 12309 12312 XOR";
"2 1 12310 12311 12313 AND";
"2 1 12309 12313 12314 XOR";
"2 1 12126 78 12315 XOR";
"2 1 12314 78 12316 XOR";
"2 1 12315 12314 12317 XOR";
"2 1 12315 12316 12318 AND";
"2 1 12314 12318 12319 XOR";
"2 1 12129 79 12320 XOR";
"2 1 12319 79 12321 XOR";
"2 1 12320 12319 12322 XOR";
"2 1 12320 12321 12323 AND";
"2 1 12319 12323 12324 XOR";
"2 1 12132 80 12325 XOR";
"2 1 12324 80 12326 XOR";
"2 1 12325 12324 12327 XOR";
"2 1 12325 12326 12328 AND";
"2 1 12324 12328 12329 XOR";
"2 1 12135 81 12330 XOR";
"2 1 12329 81 12331 XOR";
"2 1 12330 12329 12332 XOR";
"2 1 12330 12331 12333 AND";
"2 1 12329 12333 12334 XOR";
"2 1 12138 82 12335 XOR";
"2 1 12334 82 12336 XOR";
"2 1 12335 12334 12337 XOR";
"2 1 12335 12336 12338 AND";
"2 1 12334 12338 12339 XOR";
"2 1 12141 83 12340 XOR";
"2 1 12339 83 12341 XOR";
"2 1 12340 12339 12342 XOR";
"2 1 12340 12341 12343 AND";
"2 1 12339 12343 12344 XOR";
"2 1 12144 84 12345 XOR";
"2 1 12344 84 12346 XOR";
"2 1 12345 12344 12347 XOR";
"2 1 12345 12346 12348 AND";
"2 1 12344 12348 12349 XOR";
"2 1 12147 85 12350 XOR";
"2 1 12349 85 12351 XOR";
"2 1 12350 12349 12352 XOR";
"2 1 12350 12351 12353 AND";
"2 1 12349 12353 12354 XOR";
"2 1 12150 86 12355 XOR";
"2 1 12354 86 12356 XOR";
"2 1 12355 12354 12357 XOR";
"2 1 12355 12356 12358 AND";
"2 1 12354 12358 12359 XOR";
"2 1 12153 87 12360 XOR";
"2 1 12359 87 12361 XOR";
"2 1 12360 12359 12362 XOR";
"2 1 12360 12361 12363 AND";
"2 1 12359 12363 12364 XOR";
"2 1 12156 88 12365 XOR";
"2 1 12364 88 12366 XOR";
"2 1 12365 12364 12367 XOR";
"2 1 12365 12366 12368 AND";
"2 1 12364 12368 12369 XOR";
"2 1 12159 89 12370 XOR";
"2 1 12369 89 12371 XOR";
"2 1 12370 12369 12372 XOR";
"2 1 12370 12371 12373 AND";
"2 1 12369 12373 12374 XOR";
"2 1 12162 90 12375 XOR";
"2 1 12374 90 12376 XOR";
"2 1 12375 12374 12377 XOR";
"2 1 12375 12376 12378 AND";
"2 1 12374 12378 12379 XOR";
"2 1 12165 91 12380 XOR";
"2 1 12379 91 12381 XOR";
"2 1 12380 12379 12382 XOR";
"2 1 12380 12381 12383 AND";
"2 1 12379 12383 12384 XOR";
"2 1 12168 92 12385 XOR";
"2 1 12384 92 12386 XOR";
"2 1 12385 12384 12387 XOR";
"2 1 12385 12386 12388 AND";
"2 1 12384 12388 12389 XOR";
"2 1 12171 93 12390 XOR";
"2 1 12389 93 12391 XOR";
"2 1 12390 12389 12392 XOR";
"2 1 12390 12391 12393 AND";
"2 1 12389 12393 12394 XOR";
"2 1 12174 94 12395 XOR";
"2 1 12394 94 12396 XOR";
"2 1 12395 12394 12397 XOR";
"2 1 12395 12396 12398 AND";
"2 1 12394 12398 12399 XOR";
"2 1 12177 95 12400 XOR";
"2 1 12399 95 12401 XOR";
"2 1 12400 12399 12402 XOR";
"2 1 12400 12401 12403 AND";
"2 1 12399 12403 12404 XOR";
"2 1 12180 96 12405 XOR";
"2 1 12404 96 12406 XOR";
"2 1 12405 12404 12407 XOR";
"2 1 12405 12406 12408 AND";
"2 1 12404 12408 12409 XOR";
"2 1 12183 97 12410 XOR";
"2 1 12409 97 12411 XOR";
"2 1 12410 12409 12412 XOR";
"2 1 12410 12411 12413 AND";
"2 1 12409 12413 12414 XOR";
"2 1 12186 98 12415 XOR";
"2 1 12414 98 12416 XOR";
"2 1 12415 12414 12417 XOR";
"2 1 12415 12416 12418 AND";
"2 1 12414 12418 12419 XOR";
"2 1 12189 99 12420 XOR";
"2 1 12419 99 12421 XOR";
"2 1 12420 12419 12422 XOR";
"2 1 12420 12421 12423 AND";
"2 1 12419 12423 12424 XOR";
"2 1 12192 100 12425 XOR";
"2 1 12424 100 12426 XOR";
"2 1 12425 12424 12427 XOR";
"2 1 12425 12426 12428 AND";
"2 1 12424 12428 12429 XOR";
"2 1 12195 101 12430 XOR";
"2 1 12429 101 12431 XOR";
"2 1 12430 12429 12432 XOR";
"2 1 12430 12431 12433 AND";
"2 1 12429 12433 12434 XOR";
"2 1 12198 102 12435 XOR";
"2 1 12434 102 12436 XOR";
"2 1 12435 12434 12437 XOR";
"2 1 12435 12436 12438 AND";
"2 1 12434 12438 12439 XOR";
"2 1 12201 103 12440 XOR";
"2 1 12439 103 12441 XOR";
"2 1 12440 12439 12442 XOR";
"2 1 12440 12441 12443 AND";
"2 1 12439 12443 12444 XOR";
"2 1 12204 104 12445 XOR";
"2 1 12444 104 12446 XOR";
"2 1 12445 12444 12447 XOR";
"2 1 12445 12446 12448 AND";
"2 1 12444 12448 12449 XOR";
"2 1 12207 105 12450 XOR";
"2 1 12449 105 12451 XOR";
"2 1 12450 12449 12452 XOR";
"2 1 12450 12451 12453 AND";
"2 1 12449 12453 12454 XOR";
"2 1 12210 106 12455 XOR";
"2 1 12454 106 12456 XOR";
"2 1 12455 12454 12457 XOR";
"2 1 12455 12456 12458 AND";
"2 1 12454 12458 12459 XOR";
"2 1 12213 107 12460 XOR";
"2 1 12459 107 12461 XOR";
"2 1 12460 12459 12462 XOR";
"2 1 12460 12461 12463 AND";
"2 1 12459 12463 12464 XOR";
"2 1 12216 108 12465 XOR";
"2 1 12464 108 12466 XOR";
"2 1 12465 12464 12467 XOR";
"2 1 12465 12466 12468 AND";
"2 1 12464 12468 12469 XOR";
"2 1 12219 109 12470 XOR";
"2 1 12469 109 12471 XOR";
"2 1 12470 12469 12472 XOR";
"2 1 12470 12471 12473 AND";
"2 1 12469 12473 12474 XOR";
"2 1 12222 110 12475 XOR";
"2 1 12474 110 12476 XOR";
"2 1 12475 12474 12477 XOR";
"2 1 12475 12476 12478 AND";
"2 1 12474 12478 12479 XOR";
"2 1 12225 111 12480 XOR";
"2 1 12479 111 12481 XOR";
"2 1 12480 12479 12482 XOR";
"2 1 12480 12481 12483 AND";
"2 1 12479 12483 12484 XOR";
"2 1 12228 112 12485 XOR";
"2 1 12484 112 12486 XOR";
"2 1 12485 12484 12487 XOR";
"2 1 12485 12486 12488 AND";
"2 1 12484 12488 12489 XOR";
"2 1 12231 113 12490 XOR";
"2 1 12489 113 12491 XOR";
"2 1 12490 12489 12492 XOR";
"2 1 12490 12491 12493 AND";
"2 1 12489 12493 12494 XOR";
"2 1 12234 114 12495 XOR";
"2 1 12494 114 12496 XOR";
"2 1 12495 12494 12497 XOR";
"2 1 12495 12496 12498 AND";
"2 1 12494 12498 12499 XOR";
"2 1 12237 115 12500 XOR";
"2 1 12499 115 12501 XOR";
"2 1 12500 12499 12502 XOR";
"2 1 12500 12501 12503 AND";
"2 1 12499 12503 12504 XOR";
"2 1 12240 116 12505 XOR";
"2 1 12504 116 12506 XOR";
"2 1 12505 12504 12507 XOR";
"2 1 12505 12506 12508 AND";
"2 1 12504 12508 12509 XOR";
"2 1 12243 117 12510 XOR";
"2 1 12509 117 12511 XOR";
"2 1 12510 12509 12512 XOR";
"2 1 12510 12511 12513 AND";
"2 1 12509 12513 12514 XOR";
"2 1 12246 118 12515 XOR";
"2 1 12514 118 12516 XOR";
"2 1 12515 12514 12517 XOR";
"2 1 12515 12516 12518 AND";
"2 1 12514 12518 12519 XOR";
"2 1 12519 151 12520 AND";
"2 1 12519 151 12521 XOR";
"2 1 12521 12520 12522 XOR";
"2 1 9 12248 12523 XOR";
"2 1 12522 12523 12524 AND";
"2 1 12524 12248 12525 XOR";
"2 1 12087 12252 12526 XOR";
"2 1 12522 12526 12527 AND";
"2 1 12527 12252 12528 XOR";
"2 1 12090 12257 12529 XOR";
"2 1 12522 12529 12530 AND";
"2 1 12530 12257 12531 XOR";
"2 1 12093 12262 12532 XOR";
"2 1 12522 12532 12533 AND";
"2 1 12533 12262 12534 XOR";
"2 1 12096 12267 12535 XOR";
"2 1 12522 12535 12536 AND";
"2 1 12536 12267 12537 XOR";
"2 1 12099 12272 12538 XOR";
"2 1 12522 12538 12539 AND";
"2 1 12539 12272 12540 XOR";
"2 1 12102 12277 12541 XOR";
"2 1 12522 12541 12542 AND";
"2 1 12542 12277 12543 XOR";
"2 1 12105 12282 12544 XOR";
"2 1 12522 12544 12545 AND";
"2 1 12545 12282 12546 XOR";
"2 1 12108 12287 12547 XOR";
"2 1 12522 12547 12548 AND";
"2 1 12548 12287 12549 XOR";
"2 1 12111 12292 12550 XOR";
"2 1 12522 12550 12551 AND";
"2 1 12551 12292 12552 XOR";
"2 1 12114 12297 12553 XOR";
"2 1 12522 12553 12554 AND";
"2 1 12554 12297 12555 XOR";
"2 1 12117 12302 12556 XOR";
"2 1 12522 12556 12557 AND";
"2 1 12557 12302 12558 XOR";
"2 1 12120 12307 12559 XOR";
"2 1 12522 12559 12560 AND";
"2 1 12560 12307 12561 XOR";
"2 1 12123 12312 12562 XOR";
"2 1 12522 12562 12563 AND";
"2 1 12563 12312 12564 XOR";
"2 1 12126 12317 12565 XOR";
"2 1 12522 12565 12566 AND";
"2 1 12566 12317 12567 XOR";
"2 1 12129 12322 12568 XOR";
"2 1 12522 12568 12569 AND";
"2 1 12569 12322 12570 XOR";
"2 1 12132 12327 12571 XOR";
"2 1 12522 12571 12572 AND";
"2 1 12572 12327 12573 XOR";
"2 1 12135 12332 12574 XOR";
"2 1 12522 12574 12575 AND";
"2 1 12575 12332 12576 XOR";
"2 1 12138 12337 12577 XOR";
"2 1 12522 12577 12578 AND";
"2 1 12578 12337 12579 XOR";
"2 1 12141 12342 12580 XOR";
"2 1 12522 12580 12581 AND";
"2 1 12581 12342 12582 XOR";
"2 1 12144 12347 12583 XOR";
"2 1 12522 12583 12584 AND";
"2 1 12584 12347 12585 XOR";
"2 1 12147 12352 12586 XOR";
"2 1 12522 12586 12587 AND";
"2 1 12587 12352 12588 XOR";
"2 1 12150 12357 12589 XOR";
"2 1 12522 12589 12590 AND";
"2 1 12590 12357 12591 XOR";
"2 1 12153 12362 12592 XOR";
"2 1 12522 12592 12593 AND";
"2 1 12593 12362 12594 XOR";
"2 1 12156 12367 12595 XOR";
"2 1 12522 12595 12596 AND";
"2 1 12596 12367 12597 XOR";
"2 1 12159 12372 12598 XOR";
"2 1 12522 12598 12599 AND";
"2 1 12599 12372 12600 XOR";
"2 1 12162 12377 12601 XOR";
"2 1 12522 12601 12602 AND";
"2 1 12602 12377 12603 XOR";
"2 1 12165 12382 12604 XOR";
"2 1 12522 12604 12605 AND";
"2 1 12605 12382 12606 XOR";
"2 1 12168 12387 12607 XOR";
"2 1 12522 12607 12608 AND";
"2 1 12608 12387 12609 XOR";
"2 1 12171 12392 12610 XOR";
"2 1 12522 12610 12611 AND";
"2 1 12611 12392 12612 XOR";
"2 1 12174 12397 12613 XOR";
"2 1 12522 12613 12614 AND";
"2 1 12614 12397 12615 XOR";
"2 1 12177 12402 12616 XOR";
"2 1 12522 12616 12617 AND";
"2 1 12617 12402 12618 XOR";
"2 1 12180 12407 12619 XOR";
"2 1 12522 12619 12620 AND";
"2 1 12620 12407 12621 XOR";
"2 1 12183 12412 12622 XOR";
"2 1 12522 12622 12623 AND";
"2 1 12623 12412 12624 XOR";
"2 1 12186 12417 12625 XOR";
"2 1 12522 12625 12626 AND";
"2 1 12626 12417 12627 XOR";
"2 1 12189 12422 12628 XOR";
"2 1 12522 12628 12629 AND";
"2 1 12629 12422 12630 XOR";
"2 1 12192 12427 12631 XOR";
"2 1 12522 12631 12632 AND";
"2 1 12632 12427 12633 XOR";
"2 1 12195 12432 12634 XOR";
"2 1 12522 12634 12635 AND";
"2 1 12635 12432 12636 XOR";
"2 1 12198 12437 12637 XOR";
"2 1 12522 12637 12638 AND";
"2 1 12638 12437 12639 XOR";
"2 1 12201 12442 12640 XOR";
"2 1 12522 12640 12641 AND";
"2 1 12641 12442 12642 XOR";
"2 1 12204 12447 12643 XOR";
"2 1 12522 12643 12644 AND";
"2 1 12644 12447 12645 XOR";
"2 1 12207 12452 12646 XOR";
"2 1 12522 12646 12647 AND";
"2 1 12647 12452 12648 XOR";
"2 1 12210 12457 12649 XOR";
"2 1 12522 12649 12650 AND";
"2 1 12650 12457 12651 XOR";
"2 1 12213 12462 12652 XOR";
"2 1 12522 12652 12653 AND";
"2 1 12653 12462 12654 XOR";
"2 1 12216 12467 12655 XOR";
"2 1 12522 12655 12656 AND";
"2 1 12656 12467 12657 XOR";
"2 1 12219 12472 12658 XOR";
"2 1 12522 12658 12659 AND";
"2 1 12659 12472 12660 XOR";
"2 1 12222 12477 12661 XOR";
"2 1 12522 12661 12662 AND";
"2 1 12662 12477 12663 XOR";
"2 1 12225 12482 12664 XOR";
"2 1 12522 12664 12665 AND";
"2 1 12665 12482 12666 XOR";
"2 1 12228 12487 12667 XOR";
"2 1 12522 12667 12668 AND";
"2 1 12668 12487 12669 XOR";
"2 1 12231 12492 12670 XOR";
"2 1 12522 12670 12671 AND";
"2 1 12671 12492 12672 XOR";
"2 1 12234 12497 12673 XOR";
"2 1 12522 12673 12674 AND";
"2 1 12674 12497 12675 XOR";
"2 1 12237 12502 12676 XOR";
"2 1 12522 12676 12677 AND";
"2 1 12677 12502 12678 XOR";
"2 1 12240 12507 12679 XOR";
"2 1 12522 12679 12680 AND";
"2 1 12680 12507 12681 XOR";
"2 1 12243 12512 12682 XOR";
"2 1 12522 12682 12683 AND";
"2 1 12683 12512 12684 XOR";
"2 1 12246 12517 12685 XOR";
"2 1 12522 12685 12686 AND";
"2 1 12686 12517 12687 XOR";
"1 1 12522 12688 INV";
"2 1 8 64 12689 XOR";
"2 1 12689 64 12690 AND";
"2 1 12525 65 12691 XOR";
"2 1 12690 65 12692 XOR";
"2 1 12691 12690 12693 XOR";
"2 1 12691 12692 12694 AND";
"2 1 12690 12694 12695 XOR";
"2 1 12528 66 12696 XOR";
"2 1 12695 66 12697 XOR";
"2 1 12696 12695 12698 XOR";
"2 1 12696 12697 12699 AND";
"2 1 12695 12699 12700 XOR";
"2 1 12531 67 12701 XOR";
"2 1 12700 67 12702 XOR";
"2 1 12701 12700 12703 XOR";
"2 1 12701 12702 12704 AND";
"2 1 12700 12704 12705 XOR";
"2 1 12534 68 12706 XOR";
"2 1 12705 68 12707 XOR";
"2 1 12706 12705 12708 XOR";
"2 1 12706 12707 12709 AND";
"2 1 12705 12709 12710 XOR";
"2 1 12537 69 12711 XOR";
"2 1 12710 69 12712 XOR";
"2 1 12711 12710 12713 XOR";
"2 1 12711 12712 12714 AND";
"2 1 12710 12714 12715 XOR";
"2 1 12540 70 12716 XOR";
"2 1 12715 70 12717 XOR";
"2 1 12716 12715 12718 XOR";
"2 1 12716 12717 12719 AND";
"2 1 12715 12719 12720 XOR";
"2 1 12543 71 12721 XOR";
"2 1 12720 71 12722 XOR";
"2 1 12721 12720 12723 XOR";
"2 1 12721 12722 12724 AND";
"2 1 12720 12724 12725 XOR";
"2 1 12546 72 12726 XOR";
"2 1 12725 72 12727 XOR";
"2 1 12726 12725 12728 XOR";
"2 1 12726 12727 12729 AND";
"2 1 12725 12729 12730 XOR";
"2 1 12549 73 12731 XOR";
"2 1 12730 73 12732 XOR";
"2 1 12731 12730 12733 XOR";
"2 1 12731 12732 12734 AND";
"2 1 12730 12734 12735 XOR";
"2 1 12552 74 12736 XOR";
"2 1 12735 74 12737 XOR";
"2 1 12736 12735 12738 XOR";
"2 1 12736 12737 12739 AND";
"2 1 12735 12739 12740 XOR";
"2 1 12555 75 12741 XOR";
"2 1 12740 75 12742 XOR";
"2 1 12741 12740 12743 XOR";
"2 1 12741 12742 12744 AND";
"2 1 12740 12744 12745 XOR";
"2 1 12558 76 12746 XOR";
"2 1 12745 76 12747 XOR";
"2 1 12746 12745 12748 XOR";
"2 1 12746 12747 12749 AND";
"2 1 12745 12749 12750 XOR";
"2 1 12561 77 12751 XOR";
"2 1 12750 77 12752 XOR";
"2 1 12751 12750 12753 XOR";
"2 1 12751 12752 12754 AND";
"2 1 12750 12754 12755 XOR";
"2 1 12564 78 12756 XOR";
"2 1 12755 78 12757 XOR";
"2 1 12756 12755 12758 XOR";
"2 1 12756 12757 12759 AND";
"2 1 12755 12759 12760 XOR";
"2 1 12567 79 12761 XOR";
"2 1 12760 79 12762 XOR";
"2 1 12761 12760 12763 XOR";
"2 1 12761 12762 12764 AND";
"2 1 12760 12764 12765 XOR";
"2 1 12570 80 12766 XOR";
"2 1 12765 80 12767 XOR";
"2 1 12766 12765 12768 XOR";
"2 1 12766 12767 12769 AND";
"2 1 12765 12769 12770 XOR";
"2 1 12573 81 12771 XOR";
"2 1 12770 81 12772 XOR";
"2 1 12771 12770 12773 XOR";
"2 1 12771 12772 12774 AND";
"2 1 12770 12774 12775 XOR";
"2 1 12576 82 12776 XOR";
"2 1 12775 82 12777 XOR";
"2 1 12776 12775 12778 XOR";
"2 1 12776 12777 12779 AND";
"2 1 12775 12779 12780 XOR";
"2 1 12579 83 12781 XOR";
"2 1 12780 83 12782 XOR";
"2 1 12781 12780 12783 XOR";
"2 1 12781 12782 12784 AND";
"2 1 12780 12784 12785 XOR";
"2 1 12582 84 12786 XOR";
"2 1 12785 84 12787 XOR";
"2 1 12786 12785 12788 XOR";
"2 1 12786 12787 12789 AND";
"2 1 12785 12789 12790 XOR";
"2 1 12585 85 12791 XOR";
"2 1 12790 85 12792 XOR";
"2 1 12791 12790 12793 XOR";
"2 1 12791 12792 12794 AND";
"2 1 12790 12794 12795 XOR";
"2 1 12588 86 12796 XOR";
"2 1 12795 86 12797 XOR";
"2 1 12796 12795 12798 XOR";
"2 1 12796 12797 12799 AND";
"2 1 12795 12799 12800 XOR";
"2 1 12591 87 12801 XOR";
"2 1 12800 87 12802 XOR";
"2 1 12801 12800 12803 XOR";
"2 1 12801 12802 12804 AND";
"2 1 12800 12804 12805 XOR";
"2 1 12594 88 12806 XOR";
"2 1 12805 88 12807 XOR";
"2 1 12806 12805 12808 XOR";
"2 1 12806 12807 12809 AND";
"2 1 12805 12809 12810 XOR";
"2 1 12597 89 12811 XOR";
"2 1 12810 89 12812 XOR";
"2 1 12811 12810 12813 XOR";
"2 1 12811 12812 12814 AND";
"2 1 12810 12814 12815 XOR";
"2 1 12600 90 12816 XOR";
"2 1 12815 90 12817 XOR";
"2 1 12816 12815 12818 XOR";
"2 1 12816 12817 12819 AND";
"2 1 12815 12819 12820 XOR";
"2 1 12603 91 12821 XOR";
"2 1 12820 91 12822 XOR";
"2 1 12821 12820 12823 XOR";
"2 1 12821 12822 12824 AND";
"2 1 12820 12824 12825 XOR";
"2 1 12606 92 12826 XOR";
"2 1 12825 92 12827 XOR";
"2 1 12826 12825 12828 XOR";
"2 1 12826 12827 12829 AND";
"2 1 12825 12829 12830 XOR";
"2 1 12609 93 12831 XOR";
"2 1 12830 93 12832 XOR";
"2 1 12831 12830 12833 XOR";
"2 1 12831 12832 12834 AND";
"2 1 12830 12834 12835 XOR";
"2 1 12612 94 12836 XOR";
"2 1 12835 94 12837 XOR";
"2 1 12836 12835 12838 XOR";
"2 1 12836 12837 12839 AND";
"2 1 12835 12839 12840 XOR";
"2 1 12615 95 12841 XOR";
"2 1 12840 95 12842 XOR";
"2 1 12841 12840 12843 XOR";
"2 1 12841 12842 12844 AND";
"2 1 12840 12844 12845 XOR";
"2 1 12618 96 12846 XOR";
"2 1 12845 96 12847 XOR";
"2 1 12846 12845 12848 XOR";
"2 1 12846 12847 12849 AND";
"2 1 12845 12849 12850 XOR";
"2 1 12621 97 12851 XOR";
"2 1 12850 97 12852 XOR";
"2 1 12851 12850 12853 XOR";
"2 1 12851 12852 12854 AND";
"2 1 12850 12854 12855 XOR";
"2 1 12624 98 12856 XOR";
"2 1 12855 98 12857 XOR";
"2 1 12856 12855 12858 XOR";
"2 1 12856 12857 12859 AND";
"2 1 12855 12859 12860 XOR";
"2 1 12627 99 12861 XOR";
"2 1 12860 99 12862 XOR";
"2 1 12861 12860 12863 XOR";
"2 1 12861 12862 12864 AND";
"2 1 12860 12864 12865 XOR";
"2 1 12630 100 12866 XOR";
"2 1 12865 100 12867 XOR";
"2 1 12866 12865 12868 XOR";
"2 1 12866 12867 12869 AND";
"2 1 12865 12869 12870 XOR";
"2 1 12633 101 12871 XOR";
"2 1 12870 101 12872 XOR";
"2 1 12871 12870 12873 XOR";
"2 1 12871 12872 12874 AND";
"2 1 12870 12874 12875 XOR";
"2 1 12636 102 12876 XOR";
"2 1 12875 102 12877 XOR";
"2 1 12876 12875 12878 XOR";
"2 1 12876 12877 12879 AND";
"2 1 12875 12879 12880 XOR";
"2 1 12639 103 12881 XOR";
"2 1 12880 103 12882 XOR";
"2 1 12881 12880 12883 XOR";
"2 1 12881 12882 12884 AND";
"2 1 12880 12884 12885 XOR";
"2 1 12642 104 12886 XOR";
"2 1 12885 104 12887 XOR";
"2 1 12886 12885 12888 XOR";
"2 1 12886 12887 12889 AND";
"2 1 12885 12889 12890 XOR";
"2 1 12645 105 12891 XOR";
"2 1 12890 105 12892 XOR";
"2 1 12891 12890 12893 XOR";
"2 1 12891 12892 12894 AND";
"2 1 12890 12894 12895 XOR";
"2 1 12648 106 12896 XOR";
"2 1 12895 106 12897 XOR";
"2 1 12896 12895 12898 XOR";
"2 1 12896 12897 12899 AND";
"2 1 12895 12899 12900 XOR";
"2 1 12651 107 12901 XOR";
"2 1 12900 107 12902 XOR";
"2 1 12901 12900 12903 XOR";
"2 1 12901 12902 12904 AND";
"2 1 12900 12904 12905 XOR";
"2 1 12654 108 12906 XOR";
"2 1 12905 108 12907 XOR";
"2 1 12906 12905 12908 XOR";
"2 1 12906 12907 12909 AND";
"2 1 12905 12909 12910 XOR";
"2 1 12657 109 12911 XOR";
"2 1 12910 109 12912 XOR";
"2 1 12911 12910 12913 XOR";
"2 1 12911 12912 12914 AND";
"2 1 12910 12914 12915 XOR";
"2 1 12660 110 12916 XOR";
"2 1 12915 110 12917 XOR";
"2 1 12916 12915 12918 XOR";
"2 1 12916 12917 12919 AND";
"2 1 12915 12919 12920 XOR";
"2 1 12663 111 12921 XOR";
"2 1 12920 111 12922 XOR";
"2 1 12921 12920 12923 XOR";
"2 1 12921 12922 12924 AND";
"2 1 12920 12924 12925 XOR";
"2 1 12666 112 12926 XOR";
"2 1 12925 112 12927 XOR";
"2 1 12926 12925 12928 XOR";
"2 1 12926 12927 12929 AND";
"2 1 12925 12929 12930 XOR";
"2 1 12669 113 12931 XOR";
"2 1 12930 113 12932 XOR";
"2 1 12931 12930 12933 XOR";
"2 1 12931 12932 12934 AND";
"2 1 12930 12934 12935 XOR";
"2 1 12672 114 12936 XOR";
"2 1 12935 114 12937 XOR";
"2 1 12936 12935 12938 XOR";
"2 1 12936 12937 12939 AND";
"2 1 12935 12939 12940 XOR";
"2 1 12675 115 12941 XOR";
"2 1 12940 115 12942 XOR";
"2 1 12941 12940 12943 XOR";
"2 1 12941 12942 12944 AND";
"2 1 12940 12944 12945 XOR";
"2 1 12678 116 12946 XOR";
"2 1 12945 116 12947 XOR";
"2 1 12946 12945 12948 XOR";
"2 1 12946 12947 12949 AND";
"2 1 12945 12949 12950 XOR";
"2 1 12681 117 12951 XOR";
"2 1 12950 117 12952 XOR";
"2 1 12951 12950 12953 XOR";
"2 1 12951 12952 12954 AND";
"2 1 12950 12954 12955 XOR";
"2 1 12684 118 12956 XOR";
"2 1 12955 118 12957 XOR";
"2 1 12956 12955 12958 XOR";
"2 1 12956 12957 12959 AND";
"2 1 12955 12959 12960 XOR";
"2 1 12687 119 12961 XOR";
"2 1 12960 119 12962 XOR";
"2 1 12961 12960 12963 XOR";
"2 1 12961 12962 12964 AND";
"2 1 12960 12964 12965 XOR";
"2 1 12965 148 12966 AND";
"2 1 12965 148 12967 XOR";
"2 1 12967 12966 12968 XOR";
"2 1 8 12689 12969 XOR";
"2 1 12968 12969 12970 AND";
"2 1 12970 12689 12971 XOR";
"2 1 12525 12693 12972 XOR";
"2 1 12968 12972 12973 AND";
"2 1 12973 12693 12974 XOR";
"2 1 12528 12698 12975 XOR";
"2 1 12968 12975 12976 AND";
"2 1 12976 12698 12977 XOR";
"2 1 12531 12703 12978 XOR";
"2 1 12968 12978 12979 AND";
"2 1 12979 12703 12980 XOR";
"2 1 12534 12708 12981 XOR";
"2 1 12968 12981 12982 AND";
"2 1 12982 12708 12983 XOR";
"2 1 12537 12713 12984 XOR";
"2 1 12968 12984 12985 AND";
"2 1 12985 12713 12986 XOR";
"2 1 12540 12718 12987 XOR";
"2 1 12968 12987 12988 AND";
"2 1 12988 12718 12989 XOR";
"2 1 12543 12723 12990 XOR";
"2 1 12968 12990 12991 AND";
"2 1 12991 12723 12992 XOR";
"2 1 12546 12728 12993 XOR";
"2 1 12968 12993 12994 AND";
"2 1 12994 12728 12995 XOR";
"2 1 12549 12733 12996 XOR";
"2 1 12968 12996 12997 AND";
"2 1 12997 12733 12998 XOR";
"2 1 12552 12738 12999 XOR";
"2 1 12968 12999 13000 AND";
"2 1 13000 12738 13001 XOR";
"2 1 12555 12743 13002 XOR";
"2 1 12968 13002 13003 AND";
"2 1 13003 12743 13004 XOR";
"2 1 12558 12748 13005 XOR";
"2 1 12968 13005 13006 AND";
"2 1 13006 12748 13007 XOR";
"2 1 12561 12753 13008 XOR";
"2 1 12968 13008 13009 AND";
"2 1 13009 12753 13010 XOR";
"2 1 12564 12758 13011 XOR";
"2 1 12968 13011 13012 AND";
"2 1 13012 12758 13013 XOR";
"2 1 12567 12763 13014 XOR";
"2 1 12968 13014 13015 AND";
"2 1 13015 12763 13016 XOR";
"2 1 12570 12768 13017 XOR";
"2 1 12968 13017 13018 AND";
"2 1 13018 12768 13019 XOR";
"2 1 12573 12773 13020 XOR";
"2 1 12968 13020 13021 AND";
"2 1 13021 12773 13022 XOR";
"2 1 12576 12778 13023 XOR";
"2 1 12968 13023 13024 AND";
"2 1 13024 12778 13025 XOR";
"2 1 12579 12783 13026 XOR";
"2 1 12968 13026 13027 AND";
"2 1 13027 12783 13028 XOR";
"2 1 12582 12788 13029 XOR";
"2 1 12968 13029 13030 AND";
"2 1 13030 12788 13031 XOR";
"2 1 12585 12793 13032 XOR";
"2 1 12968 13032 13033 AND";
"2 1 13033 12793 13034 XOR";
"2 1 12588 12798 13035 XOR";
"2 1 12968 13035 13036 AND";
"2 1 13036 12798 13037 XOR";
"2 1 12591 12803 13038 XOR";
"2 1 12968 13038 13039 AND";
"2 1 13039 12803 13040 XOR";
"2 1 12594 12808 13041 XOR";
"2 1 12968 13041 13042 AND";
"2 1 13042 12808 13043 XOR";
"2 1 12597 12813 13044 XOR";
"2 1 12968 13044 13045 AND";
"2 1 13045 12813 13046 XOR";
"2 1 12600 12818 13047 XOR";
"2 1 12968 13047 13048 AND";
"2 1 13048 12818 13049 XOR";
"2 1 12603 12823 13050 XOR";
"2 1 12968 13050 13051 AND";
"2 1 13051 12823 13052 XOR";
"2 1 12606 12828 13053 XOR";
"2 1 12968 13053 13054 AND";
"2 1 13054 12828 13055 XOR";
"2 1 12609 12833 13056 XOR";
"2 1 12968 13056 13057 AND";
"2 1 13057 12833 13058 XOR";
"2 1 12612 12838 13059 XOR";
"2 1 12968 13059 13060 AND";
"2 1 13060 12838 13061 XOR";
"2 1 12615 12843 13062 XOR";
"2 1 12968 13062 13063 AND";
"2 1 13063 12843 13064 XOR";
"2 1 12618 12848 13065 XOR";
"2 1 12968 13065 13066 AND";
"2 1 13066 12848 13067 XOR";
"2 1 12621 12853 13068 XOR";
"2 1 12968 13068 13069 AND";
"2 1 13069 12853 13070 XOR";
"2 1 12624 12858 13071 XOR";
"2 1 12968 13071 13072 AND";
"2 1 13072 12858 13073 XOR";
"2 1 12627 12863 13074 XOR";
"2 1 12968 13074 13075 AND";
"2 1 13075 12863 13076 XOR";
"2 1 12630 12868 13077 XOR";
"2 1 12968 13077 13078 AND";
"2 1 13078 12868 13079 XOR";
"2 1 12633 12873 13080 XOR";
"2 1 12968 13080 13081 AND";
"2 1 13081 12873 13082 XOR";
"2 1 12636 12878 13083 XOR";
"2 1 12968 13083 13084 AND";
"2 1 13084 12878 13085 XOR";
"2 1 12639 12883 13086 XOR";
"2 1 12968 13086 13087 AND";
"2 1 13087 12883 13088 XOR";
"2 1 12642 12888 13089 XOR";
"2 1 12968 13089 13090 AND";
"2 1 13090 12888 13091 XOR";
"2 1 12645 12893 13092 XOR";
"2 1 12968 13092 13093 AND";
"2 1 13093 12893 13094 XOR";
"2 1 12648 12898 13095 XOR";
"2 1 12968 13095 13096 AND";
"2 1 13096 12898 13097 XOR";
"2 1 12651 12903 13098 XOR";
"2 1 12968 13098 13099 AND";
"2 1 13099 12903 13100 XOR";
"2 1 12654 12908 13101 XOR";
"2 1 12968 13101 13102 AND";
"2 1 13102 12908 13103 XOR";
"2 1 12657 12913 13104 XOR";
"2 1 12968 13104 13105 AND";
"2 1 13105 12913 13106 XOR";
"2 1 12660 12918 13107 XOR";
"2 1 12968 13107 13108 AND";
"2 1 13108 12918 13109 XOR";
"2 1 12663 12923 13110 XOR";
"2 1 12968 13110 13111 AND";
"2 1 13111 12923 13112 XOR";
"2 1 12666 12928 13113 XOR";
"2 1 12968 13113 13114 AND";
"2 1 13114 12928 13115 XOR";
"2 1 12669 12933 13116 XOR";
"2 1 12968 13116 13117 AND";
"2 1 13117 12933 13118 XOR";
"2 1 12672 12938 13119 XOR";
"2 1 12968 13119 13120 AND";
"2 1 13120 12938 13121 XOR";
"2 1 12675 12943 13122 XOR";
"2 1 12968 13122 13123 AND";
"2 1 13123 12943 13124 XOR";
"2 1 12678 12948 13125 XOR";
"2 1 12968 13125 13126 AND";
"2 1 13126 12948 13127 XOR";
"2 1 12681 12953 13128 XOR";
"2 1 12968 13128 13129 AND";
"2 1 13129 12953 13130 XOR";
"2 1 12684 12958 13131 XOR";
"2 1 12968 13131 13132 AND";
"2 1 13132 12958 13133 XOR";
"2 1 12687 12963 13134 XOR";
"2 1 12968 13134 13135 AND";
"2 1 13135 12963 13136 XOR";
"1 1 12968 13137 INV";
"2 1 7 64 13138 XOR";
"2 1 13138 64 13139 AND";
"2 1 12971 65 13140 XOR";
"2 1 13139 65 13141 XOR";
"2 1 13140 13139 13142 XOR";
"2 1 13140 13141 13143 AND";
"2 1 13139 13143 13144 XOR";
"2 1 12974 66 13145 XOR";
"2 1 13144 66 13146 XOR";
"2 1 13145 13144 13147 XOR";
"2 1 13145 13146 13148 AND";
"2 1 13144 13148 13149 XOR";
"2 1 12977 67 13150 XOR";
"2 1 13149 67 13151 XOR";
"2 1 13150 13149 13152 XOR";
"2 1 13150 13151 13153 AND";
"2 1 13149 13153 13154 XOR";
"2 1 12980 68 13155 XOR";
"2 1 13154 68 13156 XOR";
"2 1 13155 13154 13157 XOR";
"2 1 13155 13156 13158 AND";
"2 1 13154 13158 13159 XOR";
"2 1 12983 69 13160 XOR";
"2 1 13159 69 13161 XOR";
"2 1 13160 13159 13162 XOR";
"2 1 13160 13161 13163 AND";
"2 1 13159 13163 13164 XOR";
"2 1 12986 70 13165 XOR";
"2 1 13164 70 13166 XOR";
"2 1 13165 13164 13167 XOR";
"2 1 13165 13166 13168 AND";
"2 1 13164 13168 13169 XOR";
"2 1 12989 71 13170 XOR";
"2 1 13169 71 13171 XOR";
"2 1 13170 13169 13172 XOR";
"2 1 13170 13171 13173 AND";
"2 1 13169 13173 13174 XOR";
"2 1 12992 72 13175 XOR";
"2 1 13174 72 13176 XOR";
"2 1 13175 13174 13177 XOR";
"2 1 13175 13176 13178 AND";
"2 1 13174 13178 13179 XOR";
"2 1 12995 73 13180 XOR";
"2 1 13179 73 13181 XOR";
"2 1 13180 13179 13182 XOR";
"2 1 13180 13181 13183 AND";
"2 1 13179 13183 13184 XOR";
"2 1 12998 74 13185 XOR";
"2 1 13184 74 13186 XOR";
"2 1 13185 13184 13187 XOR";
"2 1 13185 13186 13188 AND";
"2 1 13184 13188 13189 XOR";
"2 1 13001 75 13190 XOR";
"2 1 13189 75 13191 XOR";
"2 1 13190 13189 13192 XOR";
"2 1 13190 13191 13193 AND";
"2 1 13189 13193 13194 XOR";
"2 1 13004 76 13195 XOR";
"2 1 13194 76 13196 XOR";
"2 1 13195 13194 13197 XOR";
"2 1 13195 13196 13198 AND";
"2 1 13194 13198 13199 XOR";
"2 1 13007 77 13200 XOR";
"2 1 13199 77 13201 XOR";
"2 1 13200 13199 13202 XOR";
"2 1 13200 13201 13203 AND";
"2 1 13199 13203 13204 XOR";
"2 1 13010 78 13205 XOR";
"2 1 13204 78 13206 XOR";
"2 1 13205 13204 13207 XOR";
"2 1 13205 13206 13208 AND";
"2 1 13204 13208 13209 XOR";
"2 1 13013 79 13210 XOR";
"2 1 13209 79 13211 XOR";
"2 1 13210 13209 13212 XOR";
"2 1 13210 13211 13213 AND";
"2 1 13209 13213 13214 XOR";
"2 1 13016 80 13215 XOR";
"2 1 13214 80 13216 XOR";
"2 1 13215 13214 13217 XOR";
"2 1 13215 13216 13218 AND";
"2 1 13214 13218 13219 XOR";
"2 1 13019 81 13220 XOR";
"2 1 13219 81 13221 XOR";
"2 1 13220 13219 13222 XOR";
"2 1 13220 13221 13223 AND";
"2 1 13219 13223 13224 XOR";
"2 1 13022 82 13225 XOR";
"2 1 13224 82 13226 XOR";
"2 1 13225 13224 13227 XOR";
"2 1 13225 13226 13228 AND";
"2 1 13224 13228 13229 XOR";
"2 1 13025 83 13230 XOR";
"2 1 13229 83 13231 XOR";
"2 1 13230 13229 13232 XOR";
"2 1 13230 13231 13233 AND";
"2 1 13229 13233 13234 XOR";
"2 1 13028 84 13235 XOR";
"2 1 13234 84 13236 XOR";
"2 1 13235 13234 13237 XOR";
"2 1 13235 13236 13238 AND";
"2 1 13234 13238 13239 XOR";
"2 1 13031 85 13240 XOR";
"2 1 13239 85 13241 XOR";
"2 1 13240 13239 13242 XOR";
"2 1 13240 13241 13243 AND";
"2 1 13239 13243 13244 XOR";
"2 1 13034 86 13245 XOR";
"2 1 13244 86 13246 XOR";
"2 1 13245 13244 13247 XOR";
"2 1 13245 13246 13248 AND";
"2 1 13244 13248 13249 XOR";
"2 1 13037 87 13250 XOR";
"2 1 13249 87 13251 XOR";
"2 1 13250 13249 13252 XOR";
"2 1 13250 13251 13253 AND";
"2 1 13249 13253 13254 XOR";
"2 1 13040 88 13255 XOR";
"2 1 13254 88 13256 XOR";
"2 1 13255 13254 13257 XOR";
"2 1 13255 13256 13258 AND";
"2 1 13254 13258 13259 XOR";
"2 1 13043 89 13260 XOR";
"2 1 13259 89 13261 XOR";
"2 1 13260 13259 13262 XOR";
"2 1 13260 13261 13263 AND";
"2 1 13259 13263 13264 XOR";
"2 1 13046 90 13265 XOR";
"2 1 13264 90 13266 XOR";
"2 1 13265 13264 13267 XOR";
"2 1 13265 13266 13268 AND";
"2 1 13264 13268 13269 XOR";
"2 1 13049 91 13270 XOR";
"2 1 13269 91 13271 XOR";
"2 1 13270 13269 13272 XOR";
"2 1 13270 13271 13273 AND";
"2 1 13269 13273 13274 XOR";
"2 1 13052 92 13275 XOR";
"2 1 13274 92 13276 XOR";
"2 1 13275 13274 13277 XOR";
"2 1 13275 13276 13278 AND";
"2 1 13274 13278 13279 XOR";
"2 1 13055 93 13280 XOR";
"2 1 13279 93 13281 XOR";
"2 1 13280 13279 13282 XOR";
"2 1 13280 13281 13283 AND";
"2 1 13279 13283 13284 XOR";
"2 1 13058 94 13285 XOR";
"2 1 13284 94 13286 XOR";
"2 1 13285 13284 13287 XOR";
"2 1 13285 13286 13288 AND";
"2 1 13284 13288 13289 XOR";
"2 1 13061 95 13290 XOR";
"2 1 13289 95 13291 XOR";
"2 1 13290 13289 13292 XOR";
"2 1 13290 13291 13293 AND";
"2 1 13289 13293 13294 XOR";
"2 1 13064 96 13295 XOR";
"2 1 13294 96 13296 XOR";
"2 1 13295 13294 13297 XOR";
"2 1 13295 13296 13298 AND";
"2 1 13294 13298 13299 XOR";
"2 1 13067 97 13300 XOR";
"2 1 13299 97 13301 XOR";
"2 1 13300 13299 13302 XOR";
"2 1 13300 13301 13303 AND";
"2 1 13299 13303 13304 XOR";
"2 1 13070 98 13305 XOR";
"2 1 13304 98 13306 XOR";
"2 1 13305 13304 13307 XOR";
"2 1 13305 13306 13308 AND";
"2 1 13304 13308 13309 XOR";
"2 1 13073 99 13310 XOR";
"2 1 13309 99 13311 XOR";
"2 1 13310 13309 13312 XOR";
"2 1 13310 13311 13313 AND";
"2 1 13309 13313 13314 XOR";
"2 1 13076 100 13315 XOR";
"2 1 13314 100 13316 XOR";
"2 1 13315 13314 13317 XOR";
"2 1 13315 13316 13318 AND";
"2 1 13314 13318 13319 XOR";
"2 1 13079 101 13320 XOR";
"2 1 13319 101 13321 XOR";
"2 1 13320 13319 13322 XOR";
"2 1 13320 13321 13323 AND";
"2 1 13319 13323 13324 XOR";
"2 1 13082 102 13325 XOR";
"2 1 13324 102 13326 XOR";
"2 1 13325 13324 13327 XOR";
"2 1 13325 13326 13328 AND";
"2 1 13324 13328 13329 XOR";
"2 1 13085 103 13330 XOR";
"2 1 13329 103 13331 XOR";
"2 1 13330 13329 13332 XOR";
"2 1 13330 13331 13333 AND";
"2 1 13329 13333 13334 XOR";
"2 1 13088 104 13335 XOR";
"2 1 13334 104 13336 XOR";
"2 1 13335 13334 13337 XOR";
"2 1 13335 13336 13338 AND";
"2 1 13334 13338 13339 XOR";
"2 1 13091 105 13340 XOR";
"2 1 13339 105 13341 XOR";
"2 1 13340 13339 13342 XOR";
"2 1 13340 13341 13343 AND";
"2 1 13339 13343 13344 XOR";
"2 1 13094 106 13345 XOR";
"2 1 13344 106 13346 XOR";
"2 1 13345 13344 13347 XOR";
"2 1 13345 13346 13348 AND";
"2 1 13344 13348 13349 XOR";
"2 1 13097 107 13350 XOR";
"2 1 13349 107 13351 XOR";
"2 1 13350 13349 13352 XOR";
"2 1 13350 13351 13353 AND";
"2 1 13349 13353 13354 XOR";
"2 1 13100 108 13355 XOR";
"2 1 13354 108 13356 XOR";
"2 1 13355 13354 13357 XOR";
"2 1 13355 13356 13358 AND";
"2 1 13354 13358 13359 XOR";
"2 1 13103 109 13360 XOR";
"2 1 13359 109 13361 XOR";
"2 1 13360 13359 13362 XOR";
"2 1 13360 13361 13363 AND";
"2 1 13359 13363 13364 XOR";
"2 1 13106 110 13365 XOR";
"2 1 13364 110 13366 XOR";
"2 1 13365 13364 13367 XOR";
"2 1 13365 13366 13368 AND";
"2 1 13364 13368 13369 XOR";
"2 1 13109 111 13370 XOR";
"2 1 13369 111 13371 XOR";
"2 1 13370 13369 13372 XOR";
"2 1 13370 13371 13373 AND";
"2 1 13369 13373 13374 XOR";
"2 1 13112 112 13375 XOR";
"2 1 13374 112 13376 XOR";
"2 1 13375 13374 13377 XOR";
"2 1 13375 13376 13378 AND";
"2 1 13374 13378 13379 XOR";
"2 1 13115 113 13380 XOR";
"2 1 13379 113 13381 XOR";
"2 1 13380 13379 13382 XOR";
"2 1 13380 13381 13383 AND";
"2 1 13379 13383 13384 XOR";
"2 1 13118 114 13385 XOR";
"2 1 13384 114 13386 XOR";
"2 1 13385 13384 13387 XOR";
"2 1 13385 13386 13388 AND";
"2 1 13384 13388 13389 XOR";
"2 1 13121 115 13390 XOR";
"2 1 13389 115 13391 XOR";
"2 1 13390 13389 13392 XOR";
"2 1 13390 13391 13393 AND";
"2 1 13389 13393 13394 XOR";
"2 1 13124 116 13395 XOR";
"2 1 13394 116 13396 XOR";
"2 1 13395 13394 13397 XOR";
"2 1 13395 13396 13398 AND";
"2 1 13394 13398 13399 XOR";
"2 1 13127 117 13400 XOR";
"2 1 13399 117 13401 XOR";
"2 1 13400 13399 13402 XOR";
"2 1 13400 13401 13403 AND";
"2 1 13399 13403 13404 XOR";
"2 1 13130 118 13405 XOR";
"2 1 13404 118 13406 XOR";
"2 1 13405 13404 13407 XOR";
"2 1 13405 13406 13408 AND";
"2 1 13404 13408 13409 XOR";
"2 1 13133 119 13410 XOR";
"2 1 13409 119 13411 XOR";
"2 1 13410 13409 13412 XOR";
"2 1 13410 13411 13413 AND";
"2 1 13409 13413 13414 XOR";
"2 1 13136 120 13415 XOR";
"2 1 13414 120 13416 XOR";
"2 1 13415 13414 13417 XOR";
"2 1 13415 13416 13418 AND";
"2 1 13414 13418 13419 XOR";
"2 1 13419 145 13420 AND";
"2 1 13419 145 13421 XOR";
"2 1 13421 13420 13422 XOR";
"2 1 7 13138 13423 XOR";
"2 1 13422 13423 13424 AND";
"2 1 13424 13138 13425 XOR";
"2 1 12971 13142 13426 XOR";
"2 1 13422 13426 13427 AND";
"2 1 13427 13142 13428 XOR";
"2 1 12974 13147 13429 XOR";
"2 1 13422 13429 13430 AND";
"2 1 13430 13147 13431 XOR";
"2 1 12977 13152 13432 XOR";
"2 1 13422 13432 13433 AND";
"2 1 13433 13152 13434 XOR";
"2 1 12980 13157 13435 XOR";
"2 1 13422 13435 13436 AND";
"2 1 13436 13157 13437 XOR";
"2 1 12983 13162 13438 XOR";
"2 1 13422 13438 13439 AND";
"2 1 13439 13162 13440 XOR";
"2 1 12986 13167 13441 XOR";
"2 1 13422 13441 13442 AND";
"2 1 13442 13167 13443 XOR";
"2 1 12989 13172 13444 XOR";
"2 1 13422 13444 13445 AND";
"2 1 13445 13172 13446 XOR";
"2 1 12992 13177 13447 XOR";
"2 1 13422 13447 13448 AND";
"2 1 13448 13177 13449 XOR";
"2 1 12995 13182 13450 XOR";
"2 1 13422 13450 13451 AND";
"2 1 13451 13182 13452 XOR";
"2 1 12998 13187 13453 XOR";
"2 1 13422 13453 13454 AND";
"2 1 13454 13187 13455 XOR";
"2 1 13001 13192 13456 XOR";
"2 1 13422 13456 13457 AND";
"2 1 13457 13192 13458 XOR";
"2 1 13004 13197 13459 XOR";
"2 1 13422 13459 13460 AND";
"2 1 13460 13197 13461 XOR";
"2 1 13007 13202 13462 XOR";
"2 1 13422 13462 13463 AND";
"2 1 13463 13202 13464 XOR";
"2 1 13010 13207 13465 XOR";
"2 1 13422 13465 13466 AND";
"2 1 13466 13207 13467 XOR";
"2 1 13013 13212 13468 XOR";
"2 1 13422 13468 13469 AND";
"2 1 13469 13212 13470 XOR";
"2 1 13016 13217 13471 XOR";
"2 1 13422 13471 13472 AND";
"2 1 13472 13217 13473 XOR";
"2 1 13019 13222 13474 XOR";
"2 1 13422 13474 13475 AND";
"2 1 13475 13222 13476 XOR";
"2 1 13022 13227 13477 XOR";
"2 1 13422 13477 13478 AND";
"2 1 13478 13227 13479 XOR";
"2 1 13025 13232 13480 XOR";
"2 1 13422 13480 13481 AND";
"2 1 13481 13232 13482 XOR";
"2 1 13028 13237 13483 XOR";
"2 1 13422 13483 13484 AND";
"2 1 13484 13237 13485 XOR";
"2 1 13031 13242 13486 XOR";
"2 1 13422 13486 13487 AND";
"2 1 13487 13242 13488 XOR";
"2 1 13034 13247 13489 XOR";
"2 1 13422 13489 13490 AND";
"2 1 13490 13247 13491 XOR";
"2 1 13037 13252 13492 XOR";
"2 1 13422 13492 13493 AND";
"2 1 13493 13252 13494 XOR";
"2 1 13040 13257 13495 XOR";
"2 1 13422 13495 13496 AND";
"2 1 13496 13257 13497 XOR";
"2 1 13043 13262 13498 XOR";
"2 1 13422 13498 13499 AND";
"2 1 13499 13262 13500 XOR";
"2 1 13046 13267 13501 XOR";
"2 1 13422 13501 13502 AND";
"2 1 13502 13267 13503 XOR";
"2 1 13049 13272 13504 XOR";
"2 1 13422 13504 13505 AND";
"2 1 13505 13272 13506 XOR";
"2 1 13052 13277 13507 XOR";
"2 1 13422 13507 13508 AND";
"2 1 13508 13277 13509 XOR";
"2 1 13055 13282 13510 XOR";
"2 1 13422 13510 13511 AND";
"2 1 13511 13282 13512 XOR";
"2 1 13058 13287 13513 XOR";
"2 1 13422 13513 13514 AND";
"2 1 13514 13287 13515 XOR";
"2 1 13061 13292 13516 XOR";
"2 1 13422 13516 13517 AND";
"2 1 13517 13292 13518 XOR";
"2 1 13064 13297 13519 XOR";
"2 1 13422 13519 13520 AND";
"2 1 13520 13297 13521 XOR";
"2 1 13067 13302 13522 XOR";
"2 1 13422 13522 13523 AND";
"2 1 13523 13302 13524 XOR";
"2 1 13070 13307 13525 XOR";
"2 1 13422 13525 13526 AND";
"2 1 13526 13307 13527 XOR";
"2 1 13073 13312 13528 XOR";
"2 1 13422 13528 13529 AND";
"2 1 13529 13312 13530 XOR";
"2 1 13076 13317 13531 XOR";
"2 1 13422 13531 13532 AND";
"2 1 13532 13317 13533 XOR";
"2 1 13079 13322 13534 XOR";
"2 1 13422 13534 13535 AND";
"2 1 13535 13322 13536 XOR";
"2 1 13082 13327 13537 XOR";
"2 1 13422 13537 13538 AND";
"2 1 13538 13327 13539 XOR";
"2 1 13085 13332 13540 XOR";
"2 1 13422 13540 13541 AND";
"2 1 13541 13332 13542 XOR";
"2 1 13088 13337 13543 XOR";
"2 1 13422 13543 13544 AND";
"2 1 13544 13337 13545 XOR";
"2 1 13091 13342 13546 XOR";
"2 1 13422 13546 13547 AND";
"2 1 13547 13342 13548 XOR";
"2 1 13094 13347 13549 XOR";
"2 1 13422 13549 13550 AND";
"2 1 13550 13347 13551 XOR";
"2 1 13097 13352 13552 XOR";
"2 1 13422 13552 13553 AND";
"2 1 13553 13352 13554 XOR";
"2 1 13100 13357 13555 XOR";
"2 1 13422 13555 13556 AND";
"2 1 13556 13357 13557 XOR";
"2 1 13103 13362 13558 XOR";
"2 1 13422 13558 13559 AND";
"2 1 13559 13362 13560 XOR";
"2 1 13106 13367 13561 XOR";
"2 1 13422 13561 13562 AND";
"2 1 13562 13367 13563 XOR";
"2 1 13109 13372 13564 XOR";
"2 1 13422 13564 13565 AND";
"2 1 13565 13372 13566 XOR";
"2 1 13112 13377 13567 XOR";
"2 1 13422 13567 13568 AND";
"2 1 13568 13377 13569 XOR";
"2 1 13115 13382 13570 XOR";
"2 1 13422 13570 13571 AND";
"2 1 13571 13382 13572 XOR";
"2 1 13118 13387 13573 XOR";
"2 1 13422 13573 13574 AND";
"2 1 13574 13387 13575 XOR";
"2 1 13121 13392 13576 XOR";
"2 1 13422 13576 13577 AND";
"2 1 13577 13392 13578 XOR";
"2 1 13124 13397 13579 XOR";
"2 1 13422 13579 13580 AND";
"2 1 13580 13397 13581 XOR";
"2 1 13127 13402 13582 XOR";
"2 1 13422 13582 13583 AND";
"2 1 13583 13402 13584 XOR";
"2 1 13130 13407 13585 XOR";
"2 1 13422 13585 13586 AND";
"2 1 13586 13407 13587 XOR";
"2 1 13133 13412 13588 XOR";
"2 1 13422 13588 13589 AND";
"2 1 13589 13412 13590 XOR";
"2 1 13136 13417 13591 XOR";
"2 1 13422 13591 13592 AND";
"2 1 13592 13417 13593 XOR";
"1 1 13422 13594 INV";
"2 1 6 64 13595 XOR";
"2 1 13595 64 13596 AND";
"2 1 13425 65 13597 XOR";
"2 1 13596 65 13598 XOR";
"2 1 13597 13596 13599 XOR";
"2 1 13597 13598 13600 AND";
"2 1 13596 13600 13601 XOR";
"2 1 13428 66 13602 XOR";
"2 1 13601 66 13603 XOR";
"2 1 13602 13601 13604 XOR";
"2 1 13602 13603 13605 AND";
"2 1 13601 13605 13606 XOR";
"2 1 13431 67 13607 XOR";
"2 1 13606 67 13608 XOR";
"2 1 13607 13606 13609 XOR";
"2 1 13607 13608 13610 AND";
"2 1 13606 13610 13611 XOR";
"2 1 13434 68 13612 XOR";
"2 1 13611 68 13613 XOR";
"2 1 13612 13611 13614 XOR";
"2 1 13612 13613 13615 AND";
"2 1 13611 13615 13616 XOR";
"2 1 13437 69 13617 XOR";
"2 1 13616 69 13618 XOR";
"2 1 13617 13616 13619 XOR";
"2 1 13617 13618 13620 AND";
"2 1 13616 13620 13621 XOR";
"2 1 13440 70 13622 XOR";
"2 1 13621 70 13623 XOR";
"2 1 13622 13621 13624 XOR";
"2 1 13622 13623 13625 AND";
"2 1 13621 13625 13626 XOR";
"2 1 13443 71 13627 XOR";
"2 1 13626 71 13628 XOR";
"2 1 13627 13626 13629 XOR";
"2 1 13627 13628 13630 AND";
"2 1 13626 13630 13631 XOR";
"2 1 13446 72 13632 XOR";
"2 1 13631 72 13633 XOR";
"2 1 13632 13631 13634 XOR";
"2 1 13632 13633 13635 AND";
"2 1 13631 13635 13636 XOR";
"2 1 13449 73 13637 XOR";
"2 1 13636 73 13638 XOR";
"2 1 13637 13636 13639 XOR";
"2 1 13637 13638 13640 AND";
"2 1 13636 13640 13641 XOR";
"2 1 13452 74 13642 XOR";
"2 1 13641 74 13643 XOR";
"2 1 13642 13641 13644 XOR";
"2 1 13642 13643 13645 AND";
"2 1 13641 13645 13646 XOR";
"2 1 13455 75 13647 XOR";
"2 1 13646 75 13648 XOR";
"2 1 13647 13646 13649 XOR";
"2 1 13647 13648 13650 AND";
"2 1 13646 13650 13651 XOR";
"2 1 13458 76 13652 XOR";
"2 1 13651 76 13653 XOR";
"2 1 13652 13651 13654 XOR";
"2 1 13652 13653 13655 AND";
"2 1 13651 13655 13656 XOR";
"2 1 13461 77 13657 XOR";
"2 1 13656 77 13658 XOR";
"2 1 13657 13656 13659 XOR";
"2 1 13657 13658 13660 AND";
"2 1 13656 13660 13661 XOR";
"2 1 13464 78 13662 XOR";
"2 1 13661 78 13663 XOR";
"2 1 13662 13661 13664 XOR";
"2 1 13662 13663 13665 AND";
"2 1 13661 13665 13666 XOR";
"2 1 13467 79 13667 XOR";
"2 1 13666 79 13668 XOR";
"2 1 13667 13666 13669 XOR";
"2 1 13667 13668 13670 AND";
"2 1 13666 13670 13671 XOR";
"2 1 13470 80 13672 XOR";
"2 1 13671 80 13673 XOR";
"2 1 13672 13671 13674 XOR";
"2 1 13672 13673 13675 AND";
"2 1 13671 13675 13676 XOR";
"2 1 13473 81 13677 XOR";
"2 1 13676 81 13678 XOR";
"2 1 13677 13676 13679 XOR";
"2 1 13677 13678 13680 AND";
"2 1 13676 13680 13681 XOR";
"2 1 13476 82 13682 XOR";
"2 1 13681 82 13683 XOR";
"2 1 13682 13681 13684 XOR";
"2 1 13682 13683 13685 AND";
"2 1 13681 13685 13686 XOR";
"2 1 13479 83 13687 XOR";
"2 1 13686 83 13688 XOR";
"2 1 13687 13686 13689 XOR";
"2 1 13687 13688 13690 AND";
"2 1 13686 13690 13691 XOR";
"2 1 13482 84 13692 XOR";
"2 1 13691 84 13693 XOR";
"2 1 13692 13691 13694 XOR";
"2 1 13692 13693 13695 AND";
"2 1 13691 13695 13696 XOR";
"2 1 13485 85 13697 XOR";
"2 1 13696 85 13698 XOR";
"2 1 13697 13696 13699 XOR";
"2 1 13697 13698 13700 AND";
"2 1 13696 13700 13701 XOR";
"2 1 13488 86 13702 XOR";
"2 1 13701 86 13703 XOR";
"2 1 13702 13701 13704 XOR";
"2 1 13702 13703 13705 AND";
"2 1 13701 13705 13706 XOR";
"2 1 13491 87 13707 XOR";
"2 1 13706 87 13708 XOR";
"2 1 13707 13706 13709 XOR";
"2 1 13707 13708 13710 AND";
"2 1 13706 13710 13711 XOR";
"2 1 13494 88 13712 XOR";
"2 1 13711 88 13713 XOR";
"2 1 13712 13711 13714 XOR";
"2 1 13712 13713 13715 AND";
"2 1 13711 13715 13716 XOR";
"2 1 13497 89 13717 XOR";
"2 1 13716 89 13718 XOR";
"2 1 13717 13716 13719 XOR";
"2 1 13717 13718 13720 AND";
"2 1 13716 13720 13721 XOR";
"2 1 13500 90 13722 XOR";
"2 1 13721 90 13723 XOR";
"2 1 13722 13721 13724 XOR";
"2 1 13722 13723 13725 AND";
"2 1 13721 13725 13726 XOR";
"2 1 13503 91 13727 XOR";
"2 1 13726 91 13728 XOR";
"2 1 13727 13726 13729 XOR";
"2 1 13727 13728 13730 AND";
"2 1 13726 13730 13731 XOR";
"2 1 13506 92 13732 XOR";
"2 1 13731 92 13733 XOR";
"2 1 13732 13731 13734 XOR";
"2 1 13732 13733 13735 AND";
"2 1 13731 13735 13736 XOR";
"2 1 13509 93 13737 XOR";
"2 1 13736 93 13738 XOR";
"2 1 13737 13736 13739 XOR";
"2 1 13737 13738 13740 AND";
"2 1 13736 13740 13741 XOR";
"2 1 13512 94 13742 XOR";
"2 1 13741 94 13743 XOR";
"2 1 13742 13741 13744 XOR";
"2 1 13742 13743 13745 AND";
"2 1 13741 13745 13746 XOR";
"2 1 13515 95 13747 XOR";
"2 1 13746 95 13748 XOR";
"2 1 13747 13746 13749 XOR";
"2 1 13747 13748 13750 AND";
"2 1 13746 13750 13751 XOR";
"2 1 13518 96 13752 XOR";
"2 1 13751 96 13753 XOR";
"2 1 13752 13751 13754 XOR";
"2 1 13752 13753 13755 AND";
"2 1 13751 13755 13756 XOR";
"2 1 13521 97 13757 XOR";
"2 1 13756 97 13758 XOR";
"2 1 13757 13756 13759 XOR";
"2 1 13757 13758 13760 AND";
"2 1 13756 13760 13761 XOR";
"2 1 13524 98 13762 XOR";
"2 1 13761 98 13763 XOR";
"2 1 13762 13761 13764 XOR";
"2 1 13762 13763 13765 AND";
"2 1 13761 13765 13766 XOR";
"2 1 13527 99 13767 XOR";
"2 1 13766 99 13768 XOR";
"2 1 13767 13766 13769 XOR";
"2 1 13767 13768 13770 AND";
"2 1 13766 13770 13771 XOR";
"2 1 13530 100 13772 XOR";
"2 1 13771 100 13773 XOR";
"2 1 13772 13771 13774 XOR";
"2 1 13772 13773 13775 AND";
"2 1 13771 13775 13776 XOR";
"2 1 13533 101 13777 XOR";
"2 1 13776 101 13778 XOR";
"2 1 13777 13776 13779 XOR";
"2 1 13777 13778 13780 AND";
"2 1 13776 13780 13781 XOR";
"2 1 13536 102 13782 XOR";
"2 1 13781 102 13783 XOR";
"2 1 13782 13781 13784 XOR";
"2 1 13782 13783 13785 AND";
"2 1 13781 13785 13786 XOR";
"2 1 13539 103 13787 XOR";
"2 1 13786 103 13788 XOR";
"2 1 13787 13786 13789 XOR";
"2 1 13787 13788 13790 AND";
"2 1 13786 13790 13791 XOR";
"2 1 13542 104 13792 XOR";
"2 1 13791 104 13793 XOR";
"2 1 13792 13791 13794 XOR";
"2 1 13792 13793 13795 AND";
"2 1 13791 13795 13796 XOR";
"2 1 13545 105 13797 XOR";
"2 1 13796 105 13798 XOR";
"2 1 13797 13796 13799 XOR";
"2 1 13797 13798 13800 AND";
"2 1 13796 13800 13801 XOR";
"2 1 13548 106 13802 XOR";
"2 1 13801 106 13803 XOR";
"2 1 13802 13801 13804 XOR";
"2 1 13802 13803 13805 AND";
"2 1 13801 13805 13806 XOR";
"2 1 13551 107 13807 XOR";
"2 1 13806 107 13808 XOR";
"2 1 13807 13806 13809 XOR";
"2 1 13807 13808 13810 AND";
"2 1 13806 13810 13811 XOR";
"2 1 13554 108 13812 XOR";
"2 1 13811 108 13813 XOR";
"2 1 13812 13811 13814 XOR";
"2 1 13812 13813 13815 AND";
"2 1 13811 13815 13816 XOR";
"2 1 13557 109 13817 XOR";
"2 1 13816 109 13818 XOR";
"2 1 13817 13816 13819 XOR";
"2 1 13817 13818 13820 AND";
"2 1 13816 13820 13821 XOR";
"2 1 13560 110 13822 XOR";
"2 1 13821 110 13823 XOR";
"2 1 13822 13821 13824 XOR";
"2 1 13822 13823 13825 AND";
"2 1 13821 13825 13826 XOR";
"2 1 13563 111 13827 XOR";
"2 1 13826 111 13828 XOR";
"2 1 13827 13826 13829 XOR";
"2 1 13827 13828 13830 AND";
"2 1 13826 13830 13831 XOR";
"2 1 13566 112 13832 XOR";
"2 1 13831 112 13833 XOR";
"2 1 13832 13831 13834 XOR";
"2 1 13832 13833 13835 AND";
"2 1 13831 13835 13836 XOR";
"2 1 13569 113 13837 XOR";
"2 1 13836 113 13838 XOR";
"2 1 13837 13836 13839 XOR";
"2 1 13837 13838 13840 AND";
"2 1 13836 13840 13841 XOR";
"2 1 13572 114 13842 XOR";
"2 1 13841 114 13843 XOR";
"2 1 13842 13841 13844 XOR";
"2 1 13842 13843 13845 AND";
"2 1 13841 13845 13846 XOR";
"2 1 13575 115 13847 XOR";
"2 1 13846 115 13848 XOR";
"2 1 13847 13846 13849 XOR";
"2 1 13847 13848 13850 AND";
"2 1 13846 13850 13851 XOR";
"2 1 13578 116 13852 XOR";
"2 1 13851 116 13853 XOR";
"2 1 13852 13851 13854 XOR";
"2 1 13852 13853 13855 AND";
"2 1 13851 13855 13856 XOR";
"2 1 13581 117 13857 XOR";
"2 1 13856 117 13858 XOR";
"2 1 13857 13856 13859 XOR";
"2 1 13857 13858 13860 AND";
"2 1 13856 13860 13861 XOR";
"2 1 13584 118 13862 XOR";
"2 1 13861 118 13863 XOR";
"2 1 13862 13861 13864 XOR";
"2 1 13862 13863 13865 AND";
"2 1 13861 13865 13866 XOR";
"2 1 13587 119 13867 XOR";
"2 1 13866 119 13868 XOR";
"2 1 13867 13866 13869 XOR";
"2 1 13867 13868 13870 AND";
"2 1 13866 13870 13871 XOR";
"2 1 13590 120 13872 XOR";
"2 1 13871 120 13873 XOR";
"2 1 13872 13871 13874 XOR";
"2 1 13872 13873 13875 AND";
"2 1 13871 13875 13876 XOR";
"2 1 13593 121 13877 XOR";
"2 1 13876 121 13878 XOR";
"2 1 13877 13876 13879 XOR";
"2 1 13877 13878 13880 AND";
"2 1 13876 13880 13881 XOR";
"2 1 13881 142 13882 AND";
"2 1 13881 142 13883 XOR";
"2 1 13883 13882 13884 XOR";
"2 1 6 13595 13885 XOR";
"2 1 13884 13885 13886 AND";
"2 1 13886 13595 13887 XOR";
"2 1 13425 13599 13888 XOR";
"2 1 13884 13888 13889 AND";
"2 1 13889 13599 13890 XOR";
"2 1 13428 13604 13891 XOR";
"2 1 13884 13891 13892 AND";
"2 1 13892 13604 13893 XOR";
"2 1 13431 13609 13894 XOR";
"2 1 13884 13894 13895 AND";
"2 1 13895 13609 13896 XOR";
"2 1 13434 13614 13897 XOR";
"2 1 13884 13897 13898 AND";
"2 1 13898 13614 13899 XOR";
"2 1 13437 13619 13900 XOR";
"2 1 13884 13900 13901 AND";
"2 1 13901 13619 13902 XOR";
"2 1 13440 13624 13903 XOR";
"2 1 13884 13903 13904 AND";
"2 1 13904 13624 13905 XOR";
"2 1 13443 13629 13906 XOR";
"2 1 13884 13906 13907 AND";
"2 1 13907 13629 13908 XOR";
"2 1 13446 13634 13909 XOR";
"2 1 13884 13909 13910 AND";
"2 1 13910 13634 13911 XOR";
"2 1 13449 13639 13912 XOR";
"2 1 13884 13912 13913 AND";
"2 1 13913 13639 13914 XOR";
"2 1 13452 13644 13915 XOR";
"2 1 13884 13915 13916 AND";
"2 1 13916 13644 13917 XOR";
"2 1 13455 13649 13918 XOR";
"2 1 13884 13918 13919 AND";
"2 1 13919 13649 13920 XOR";
"2 1 13458 13654 13921 XOR";
"2 1 13884 13921 13922 AND";
"2 1 13922 13654 13923 XOR";
"2 1 13461 13659 13924 XOR";
"2 1 13884 13924 13925 AND";
"2 1 13925 13659 13926 XOR";
"2 1 13464 13664 13927 XOR";
"2 1 13884 13927 13928 AND";
"2 1 13928 13664 13929 XOR";
"2 1 13467 13669 13930 XOR";
"2 1 13884 13930 13931 AND";
"2 1 13931 13669 13932 XOR";
"2 1 13470 13674 13933 XOR";
"2 1 13884 13933 13934 AND";
"2 1 13934 13674 13935 XOR";
"2 1 13473 13679 13936 XOR";
"2 1 13884 13936 13937 AND";
"2 1 13937 13679 13938 XOR";
"2 1 13476 13684 13939 XOR";
"2 1 13884 13939 13940 AND";
"2 1 13940 13684 13941 XOR";
"2 1 13479 13689 13942 XOR";
"2 1 13884 13942 13943 AND";
"2 1 13943 13689 13944 XOR";
"2 1 13482 13694 13945 XOR";
"2 1 13884 13945 13946 AND";
"2 1 13946 13694 13947 XOR";
"2 1 13485 13699 13948 XOR";
"2 1 13884 13948 13949 AND";
"2 1 13949 13699 13950 XOR";
"2 1 13488 13704 13951 XOR";
"2 1 13884 13951 13952 AND";
"2 1 13952 13704 13953 XOR";
"2 1 13491 13709 13954 XOR";
"2 1 13884 13954 13955 AND";
"2 1 13955 13709 13956 XOR";
"2 1 13494 13714 13957 XOR";
"2 1 13884 13957 13958 AND";
"2 1 13958 13714 13959 XOR";
"2 1 13497 13719 13960 XOR";
"2 1 13884 13960 13961 AND";
"2 1 13961 13719 13962 XOR";
"2 1 13500 13724 13963 XOR";
"2 1 13884 13963 13964 AND";
"2 1 13964 13724 13965 XOR";
"2 1 13503 13729 13966 XOR";
"2 1 13884 13966 13967 AND";
"2 1 13967 13729 13968 XOR";
"2 1 13506 13734 13969 XOR";
"2 1 13884 13969 13970 AND";
"2 1 13970 13734 13971 XOR";
"2 1 13509 13739 13972 XOR";
"2 1 13884 13972 13973 AND";
"2 1 13973 13739 13974 XOR";
"2 1 13512 13744 13975 XOR";
"2 1 13884 13975 13976 AND";
"2 1 13976 13744 13977 XOR";
"2 1 13515 13749 13978 XOR";
"2 1 13884 13978 13979 AND";
"2 1 13979 13749 13980 XOR";
"2 1 13518 13754 13981 XOR";
"2 1 13884 13981 13982 AND";
"2 1 13982 13754 13983 XOR";
"2 1 13521 13759 13984 XOR";
"2 1 13884 13984 13985 AND";
"2 1 13985 13759 13986 XOR";
"2 1 13524 13764 13987 XOR";
"2 1 13884 13987 13988 AND";
"2 1 13988 13764 13989 XOR";
"2 1 13527 13769 13990 XOR";
"2 1 13884 13990 13991 AND";
"2 1 13991 13769 13992 XOR";
"2 1 13530 13774 13993 XOR";
"2 1 13884 13993 13994 AND";
"2 1 13994 13774 13995 XOR";
"2 1 13533 13779 13996 XOR";
"2 1 13884 13996 13997 AND";
"2 1 13997 13779 13998 XOR";
"2 1 13536 13784 13999 XOR";
"2 1 13884 13999 14000 AND";
"2 1 14000 13784 14001 XOR";
"2 1 13539 13789 14002 XOR";
"2 1 13884 14002 14003 AND";
"2 1 14003 13789 14004 XOR";
"2 1 13542 13794 14005 XOR";
"2 1 13884 14005 14006 AND";
"2 1 14006 13794 14007 XOR";
"2 1 13545 13799 14008 XOR";
"2 1 13884 14008 14009 AND";
"2 1 14009 13799 14010 XOR";
"2 1 13548 13804 14011 XOR";
"2 1 13884 14011 14012 AND";
"2 1 14012 13804 14013 XOR";
"2 1 13551 13809 14014 XOR";
"2 1 13884 14014 14015 AND";
"2 1 14015 13809 14016 XOR";
"2 1 13554 13814 14017 XOR";
"2 1 13884 14017 14018 AND";
"2 1 14018 13814 14019 XOR";
"2 1 13557 13819 14020 XOR";
"2 1 13884 14020 14021 AND";
"2 1 14021 13819 14022 XOR";
"2 1 13560 13824 14023 XOR";
"2 1 13884 14023 14024 AND";
"2 1 14024 13824 14025 XOR";
"2 1 13563 13829 14026 XOR";
"2 1 13884 14026 14027 AND";
"2 1 14027 13829 14028 XOR";
"2 1 13566 13834 14029 XOR";
"2 1 13884 14029 14030 AND";
"2 1 14030 13834 14031 XOR";
"2 1 13569 13839 14032 XOR";
"2 1 13884 14032 14033 AND";
"2 1 14033 13839 14034 XOR";
"2 1 13572 13844 14035 XOR";
"2 1 13884 14035 14036 AND";
"2 1 14036 13844 14037 XOR";
"2 1 13575 13849 14038 XOR";
"2 1 13884 14038 14039 AND";
"2 1 14039 13849 14040 XOR";
"2 1 13578 13854 14041 XOR";
"2 1 13884 14041 14042 AND";
"2 1 14042 13854 14043 XOR";
"2 1 13581 13859 14044 XOR";
"2 1 13884 14044 14045 AND";
"2 1 14045 13859 14046 XOR";
"2 1 13584 13864 14047 XOR";
"2 1 13884 14047 14048 AND";
"2 1 14048 13864 14049 XOR";
"2 1 13587 13869 14050 XOR";
"2 1 13884 14050 14051 AND";
"2 1 14051 13869 14052 XOR";
"2 1 13590 13874 14053 XOR";
"2 1 13884 14053 14054 AND";
"2 1 14054 13874 14055 XOR";
"2 1 13593 13879 14056 XOR";
"2 1 13884 14056 14057 AND";
"2 1 14057 13879 14058 XOR";
"1 1 13884 14059 INV";
"2 1 5 64 14060 XOR";
"2 1 14060 64 14061 AND";
"2 1 13887 65 14062 XOR";
"2 1 14061 65 14063 XOR";
"2 1 14062 14061 14064 XOR";
"2 1 14062 14063 14065 AND";
"2 1 14061 14065 14066 XOR";
"2 1 13890 66 14067 XOR";
"2 1 14066 66 14068 XOR";
"2 1 14067 14066 14069 XOR";
"2 1 14067 14068 14070 AND";
"2 1 14066 14070 14071 XOR";
"2 1 13893 67 14072 XOR";
"2 1 14071 67 14073 XOR";
"2 1 14072 14071 14074 XOR";
"2 1 14072 14073 14075 AND";
"2 1 14071 14075 14076 XOR";
"2 1 13896 68 14077 XOR";
"2 1 14076 68 14078 XOR";
"2 1 14077 14076 14079 XOR";
"2 1 14077 14078 14080 AND";
"2 1 14076 14080 14081 XOR";
"2 1 13899 69 14082 XOR";
"2 1 14081 69 14083 XOR";
"2 1 14082 14081 14084 XOR";
"2 1 14082 14083 14085 AND";
"2 1 14081 14085 14086 XOR";
"2 1 13902 70 14087 XOR";
"2 1 14086 70 14088 XOR";
"2 1 14087 14086 14089 XOR";
"2 1 14087 14088 14090 AND";
"2 1 14086 14090 14091 XOR";
"2 1 13905 71 14092 XOR";
"2 1 14091 71 14093 XOR";
"2 1 14092 14091 14094 XOR";
"2 1 14092 14093 14095 AND";
"2 1 14091 14095 14096 XOR";
"2 1 13908 72 14097 XOR";
"2 1 14096 72 14098 XOR";
"2 1 14097 14096 14099 XOR";
"2 1 14097 14098 14100 AND";
"2 1 14096 14100 14101 XOR";
"2 1 13911 73 14102 XOR";
"2 1 14101 73 14103 XOR";
"2 1 14102 14101 14104 XOR";
"2 1 14102 14103 14105 AND";
"2 1 14101 14105 14106 XOR";
"2 1 13914 74 14107 XOR";
"2 1 14106 74 14108 XOR";
"2 1 14107 14106 14109 XOR";
"2 1 14107 14108 14110 AND";
"2 1 14106 14110 14111 XOR";
"2 1 13917 75 14112 XOR";
"2 1 14111 75 14113 XOR";
"2 1 14112 14111 14114 XOR";
"2 1 14112 14113 14115 AND";
"2 1 14111 14115 14116 XOR";
"2 1 13920 76 14117 XOR";
"2 1 14116 76 14118 XOR";
"2 1 14117 14116 14119 XOR";
"2 1 14117 14118 14120 AND";
"2 1 14116 14120 14121 XOR";
"2 1 13923 77 14122 XOR";
"2 1 14121 77 14123 XOR";
"2 1 14122 14121 14124 XOR";
"2 1 14122 14123 14125 AND";
"2 1 14121 14125 14126 XOR";
"2 1 13926 78 14127 XOR";
"2 1 14126 78 14128 XOR";
"2 1 14127 14126 14129 XOR";
"2 1 14127 14128 14130 AND";
"2 1 14126 14130 14131 XOR";
"2 1 13929 79 14132 XOR";
"2 1 14131 79 14133 XOR";
"2 1 14132 14131 14134 XOR";
"2 1 14132 14133 14135 AND";
"2 1 14131 14135 14136 XOR";
"2 1 13932 80 14137 XOR";
"2 1 14136 80 14138 XOR";
"2 1 14137 14136 14139 XOR";
"2 1 14137 14138 14140 AND";
"2 1 14136 14140 14141 XOR";
"2 1 13935 81 14142 XOR";
"2 1 14141 81 14143 XOR";
"2 1 14142 14141 14144 XOR";
"2 1 14142 14143 14145 AND";
"2 1 14141 14145 14146 XOR";
"2 1 13938 82 14147 XOR";
"2 1 14146 82 14148 XOR";
"2 1 14147 14146 14149 XOR";
"2 1 14147 14148 14150 AND";
"2 1 14146 14150 14151 XOR";
"2 1 13941 83 14152 XOR";
"2 1 14151 83 14153 XOR";
"2 1 14152 14151 14154 XOR";
"2 1 14152 14153 14155 AND";
"2 1 14151 14155 14156 XOR";
"2 1 13944 84 14157 XOR";
"2 1 14156 84 14158 XOR";
"2 1 14157 14156 14159 XOR";
"2 1 14157 14158 14160 AND";
"2 1 14156 14160 14161 XOR";
"2 1 13947 85 14162 XOR";
"2 1 14161 85 14163 XOR";
"2 1 14162 14161 14164 XOR";
"2 1 14162 14163 14165 AND";
"2 1 14161 14165 14166 XOR";
"2 1 13950 86 14167 XOR";
"2 1 14166 86 14168 XOR";
"2 1 14167 14166 14169 XOR";
"2 1 14167 14168 14170 AND";
"2 1 14166 14170 14171 XOR";
"2 1 13953 87 14172 XOR";
"2 1 14171 87 14173 XOR";
"2 1 14172 14171 14174 XOR";
"2 1 14172 14173 14175 AND";
"2 1 14171 14175 14176 XOR";
"2 1 13956 88 14177 XOR";
"2 1 14176 88 14178 XOR";
"2 1 14177 14176 14179 XOR";
"2 1 14177 14178 14180 AND";
"2 1 14176 14180 14181 XOR";
"2 1 13959 89 14182 XOR";
"2 1 14181 89 14183 XOR";
"2 1 14182 14181 14184 XOR";
"2 1 14182 14183 14185 AND";
"2 1 14181 14185 14186 XOR";
"2 1 13962 90 14187 XOR";
"2 1 14186 90 14188 XOR";
"2 1 14187 14186 14189 XOR";
"2 1 14187 14188 14190 AND";
"2 1 14186 14190 14191 XOR";
"2 1 13965 91 14192 XOR";
"2 1 14191 91 14193 XOR";
"2 1 14192 14191 14194 XOR";
"2 1 14192 14193 14195 AND";
"2 1 14191 14195 14196 XOR";
"2 1 13968 92 14197 XOR";
"2 1 14196 92 14198 XOR";
"2 1 14197 14196 14199 XOR";
"2 1 14197 14198 14200 AND";
"2 1 14196 14200 14201 XOR";
"2 1 13971 93 14202 XOR";
"2 1 14201 93 14203 XOR";
"2 1 14202 14201 14204 XOR";
"2 1 14202 14203 14205 AND";
"2 1 14201 14205 14206 XOR";
"2 1 13974 94 14207 XOR";
"2 1 14206 94 14208 XOR";
"2 1 14207 14206 14209 XOR";
"2 1 14207 14208 14210 AND";
"2 1 14206 14210 14211 XOR";
"2 1 13977 95 14212 XOR";
"2 1 14211 95 14213 XOR";
"2 1 14212 14211 14214 XOR";
"2 1 14212 14213 14215 AND";
"2 1 14211 14215 14216 XOR";
"2 1 13980 96 14217 XOR";
"2 1 14216 96 14218 XOR";
"2 1 14217 14216 14219 XOR";
"2 1 14217 14218 14220 AND";
"2 1 14216 14220 14221 XOR";
"2 1 13983 97 14222 XOR";
"2 1 14221 97 14223 XOR";
"2 1 14222 14221 14224 XOR";
"2 1 14222 14223 14225 AND";
"2 1 14221 14225 14226 XOR";
"2 1 13986 98 14227 XOR";
"2 1 14226 98 14228 XOR";
"2 1 14227 14226 14229 XOR";
"2 1 14227 14228 14230 AND";
"2 1 14226 14230 14231 XOR";
"2 1 13989 99 14232 XOR";
"2 1 14231 99 14233 XOR";
"2 1 14232 14231 14234 XOR";
"2 1 14232 14233 14235 AND";
"2 1 14231 14235 14236 XOR";
"2 1 13992 100 14237 XOR";
"2 1 14236 100 14238 XOR";
"2 1 14237 14236 14239 XOR";
"2 1 14237 14238 14240 AND";
"2 1 14236 14240 14241 XOR";
"2 1 13995 101 14242 XOR";
"2 1 14241 101 14243 XOR";
"2 1 14242 14241 14244 XOR";
"2 1 14242 14243 14245 AND";
"2 1 14241 14245 14246 XOR";
"2 1 13998 102 14247 XOR";
"2 1 14246 102 14248 XOR";
"2 1 14247 14246 14249 XOR";
"2 1 14247 14248 14250 AND";
"2 1 14246 14250 14251 XOR";
"2 1 14001 103 14252 XOR";
"2 1 14251 103 14253 XOR";
"2 1 14252 14251 14254 XOR";
"2 1 14252 14253 14255 AND";
"2 1 14251 14255 14256 XOR";
"2 1 14004 104 14257 XOR";
"2 1 14256 104 14258 XOR";
"2 1 14257 14256 14259 XOR";
"2 1 14257 14258 14260 AND";
"2 1 14256 14260 14261 XOR";
"2 1 14007 105 14262 XOR";
"2 1 14261 105 14263 XOR";
"2 1 14262 14261 14264 XOR";
"2 1 14262 14263 14265 AND";
"2 1 14261 14265 14266 XOR";
"2 1 14010 106 14267 XOR";
"2 1 14266 106 14268 XOR";
"2 1 14267 14266 14269 XOR";
"2 1 14267 14268 14270 AND";
"2 1 14266 14270 14271 XOR";
"2 1 14013 107 14272 XOR";
"2 1 14271 107 14273 XOR";
"2 1 14272 14271 14274 XOR";
"2 1 14272 14273 14275 AND";
"2 1 14271 14275 14276 XOR";
"2 1 14016 108 14277 XOR";
"2 1 14276 108 14278 XOR";
"2 1 14277 14276 14279 XOR";
"2 1 14277 14278 14280 AND";
"2 1 14276 14280 14281 XOR";
"2 1 14019 109 14282 XOR";
"2 1 14281 109 14283 XOR";
"2 1 14282 14281 14284 XOR";
"2 1 14282 14283 14285 AND";
"2 1 14281 14285 14286 XOR";
"2 1 14022 110 14287 XOR";
"2 1 14286 110 14288 XOR";
"2 1 14287 14286 14289 XOR";
"2 1 14287 14288 14290 AND";
"2 1 14286 14290 14291 XOR";
"2 1 14025 111 14292 XOR";
"2 1 14291 111 14293 XOR";
"2 1 14292 14291 14294 XOR";
"2 1 14292 14293 14295 AND";
"2 1 14291 14295 14296 XOR";
"2 1 14028 112 14297 XOR";
"2 1 14296 112 14298 XOR";
"2 1 14297 14296 14299 XOR";
"2 1 14297 14298 14300 AND";
"2 1 14296 14300 14301 XOR";
"2 1 14031 113 14302 XOR";
"2 1 14301 113 14303 XOR";
"2 1 14302 14301 14304 XOR";
"2 1 14302 14303 14305 AND";
"2 1 14301 14305 14306 XOR";
"2 1 14034 114 14307 XOR";
"2 1 14306 114 14308 XOR";
"2 1 14307 14306 14309 XOR";
"2 1 14307 14308 14310 AND";
"2 1 14306 14310 14311 XOR";
"2 1 14037 115 14312 XOR";
"2 1 14311 115 14313 XOR";
"2 1 14312 14311 14314 XOR";
"2 1 14312 14313 14315 AND";
"2 1 14311 14315 14316 XOR";
"2 1 14040 116 14317 XOR";
"2 1 14316 116 14318 XOR";
"2 1 14317 14316 14319 XOR";
"2 1 14317 14318 14320 AND";
"2 1 14316 14320 14321 XOR";
"2 1 14043 117 14322 XOR";
"2 1 14321 117 14323 XOR";
"2 1 14322 14321 14324 XOR";
"2 1 14322 14323 14325 AND";
"2 1 14321 14325 14326 XOR";
"2 1 14046 118 14327 XOR";
"2 1 14326 118 14328 XOR";
"2 1 14327 14326 14329 XOR";
"2 1 14327 14328 14330 AND";
"2 1 14326 14330 14331 XOR";
"2 1 14049 119 14332 XOR";
"2 1 14331 119 14333 XOR";
"2 1 14332 14331 14334 XOR";
"2 1 14332 14333 14335 AND";
"2 1 14331 14335 14336 XOR";
"2 1 14052 120 14337 XOR";
"2 1 14336 120 14338 XOR";
"2 1 14337 14336 14339 XOR";
"2 1 14337 14338 14340 AND";
"2 1 14336 14340 14341 XOR";
"2 1 14055 121 14342 XOR";
"2 1 14341 121 14343 XOR";
"2 1 14342 14341 14344 XOR";
"2 1 14342 14343 14345 AND";
"2 1 14341 14345 14346 XOR";
"2 1 14058 122 14347 XOR";
"2 1 14346 122 14348 XOR";
"2 1 14347 14346 14349 XOR";
"2 1 14347 14348 14350 AND";
"2 1 14346 14350 14351 XOR";
"2 1 14351 139 14352 AND";
"2 1 14351 139 14353 XOR";
"2 1 14353 14352 14354 XOR";
"2 1 5 14060 14355 XOR";
"2 1 14354 14355 14356 AND";
"2 1 14356 14060 14357 XOR";
"2 1 13887 14064 14358 XOR";
"2 1 14354 14358 14359 AND";
"2 1 14359 14064 14360 XOR";
"2 1 13890 14069 14361 XOR";
"2 1 14354 14361 14362 AND";
"2 1 14362 14069 14363 XOR";
"2 1 13893 14074 14364 XOR";
"2 1 14354 14364 14365 AND";
"2 1 14365 14074 14366 XOR";
"2 1 13896 14079 14367 XOR";
"2 1 14354 14367 14368 AND";
"2 1 14368 14079 14369 XOR";
"2 1 13899 14084 14370 XOR";
"2 1 14354 14370 14371 AND";
"2 1 14371 14084 14372 XOR";
"2 1 13902 14089 14373 XOR";
"2 1 14354 14373 14374 AND";
"2 1 14374 14089 14375 XOR";
"2 1 13905 14094 14376 XOR";
"2 1 14354 14376 14377 AND";
"2 1 14377 14094 14378 XOR";
"2 1 13908 14099 14379 XOR";
"2 1 14354 14379 14380 AND";
"2 1 14380 14099 14381 XOR";
"2 1 13911 14104 14382 XOR";
"2 1 14354 14382 14383 AND";
"2 1 14383 14104 14384 XOR";
"2 1 13914 14109 14385 XOR";
"2 1 14354 14385 14386 AND";
"2 1 14386 14109 14387 XOR";
"2 1 13917 14114 14388 XOR";
"2 1 14354 14388 14389 AND";
"2 1 14389 14114 14390 XOR";
"2 1 13920 14119 14391 XOR";
"2 1 14354 14391 14392 AND";
"2 1 14392 14119 14393 XOR";
"2 1 13923 14124 14394 XOR";
"2 1 14354 14394 14395 AND";
"2 1 14395 14124 14396 XOR";
"2 1 13926 14129 14397 XOR";
"2 1 14354 14397 14398 AND";
"2 1 14398 14129 14399 XOR";
"2 1 13929 14134 14400 XOR";
"2 1 14354 14400 14401 AND";
"2 1 14401 14134 14402 XOR";
"2 1 13932 14139 14403 XOR";
"2 1 14354 14403 14404 AND";
"2 1 14404 14139 14405 XOR";
"2 1 13935 14144 14406 XOR";
"2 1 14354 14406 14407 AND";
"2 1 14407 14144 14408 XOR";
"2 1 13938 14149 14409 XOR";
"2 1 14354 14409 14410 AND";
"2 1 14410 14149 14411 XOR";
"2 1 13941 14154 14412 XOR";
"2 1 14354 14412 14413 AND";
"2 1 14413 14154 14414 XOR";
"2 1 13944 14159 14415 XOR";
"2 1 14354 14415 14416 AND";
"2 1 14416 14159 14417 XOR";
"2 1 13947 14164 14418 XOR";
"2 1 14354 14418 14419 AND";
"2 1 14419 14164 14420 XOR";
"2 1 13950 14169 14421 XOR";
"2 1 14354 14421 14422 AND";
"2 1 14422 14169 14423 XOR";
"2 1 13953 14174 14424 XOR";
"2 1 14354 14424 14425 AND";
"2 1 14425 14174 14426 XOR";
"2 1 13956 14179 14427 XOR";
"2 1 14354 14427 14428 AND";
"2 1 14428 14179 14429 XOR";
"2 1 13959 14184 14430 XOR";
"2 1 14354 14430 14431 AND";
"2 1 14431 14184 14432 XOR";
"2 1 13962 14189 14433 XOR";
"2 1 14354 14433 14434 AND";
"2 1 14434 14189 14435 XOR";
"2 1 13965 14194 14436 XOR";
"2 1 14354 14436 14437 AND";
"2 1 14437 14194 14438 XOR";
"2 1 13968 14199 14439 XOR";
"2 1 14354 14439 14440 AND";
"2 1 14440 14199 14441 XOR";
"2 1 13971 14204 14442 XOR";
"2 1 14354 14442 14443 AND";
"2 1 14443 14204 14444 XOR";
"2 1 13974 14209 14445 XOR";
"2 1 14354 14445 14446 AND";
"2 1 14446 14209 14447 XOR";
"2 1 13977 14214 14448 XOR";
"2 1 14354 14448 14449 AND";
"2 1 14449 14214 14450 XOR";
"2 1 13980 14219 14451 XOR";
"2 1 14354 14451 14452 AND";
"2 1 14452 14219 14453 XOR";
"2 1 13983 14224 14454 XOR";
"2 1 14354 14454 14455 AND";
"2 1 14455 14224 14456 XOR";
"2 1 13986 14229 14457 XOR";
"2 1 14354 14457 14458 AND";
"2 1 14458 14229 14459 XOR";
"2 1 13989 14234 14460 XOR";
"2 1 14354 14460 14461 AND";
"2 1 14461 14234 14462 XOR";
"2 1 13992 14239 14463 XOR";
"2 1 14354 14463 14464 AND";
"2 1 14464 14239 14465 XOR";
"2 1 13995 14244 14466 XOR";
"2 1 14354 14466 14467 AND";
"2 1 14467 14244 14468 XOR";
"2 1 13998 14249 14469 XOR";
"2 1 14354 14469 14470 AND";
"2 1 14470 14249 14471 XOR";
"2 1 14001 14254 14472 XOR";
"2 1 14354 14472 14473 AND";
"2 1 14473 14254 14474 XOR";
"2 1 14004 14259 14475 XOR";
"2 1 14354 14475 14476 AND";
"2 1 14476 14259 14477 XOR";
"2 1 14007 14264 14478 XOR";
"2 1 14354 14478 14479 AND";
"2 1 14479 14264 14480 XOR";
"2 1 14010 14269 14481 XOR";
"2 1 14354 14481 14482 AND";
"2 1 14482 14269 14483 XOR";
"2 1 14013 14274 14484 XOR";
"2 1 14354 14484 14485 AND";
"2 1 14485 14274 14486 XOR";
"2 1 14016 14279 14487 XOR";
"2 1 14354 14487 14488 AND";
"2 1 14488 14279 14489 XOR";
"2 1 14019 14284 14490 XOR";
"2 1 14354 14490 14491 AND";
"2 1 14491 14284 14492 XOR";
"2 1 14022 14289 14493 XOR";
"2 1 14354 14493 14494 AND";
"2 1 14494 14289 14495 XOR";
"2 1 14025 14294 14496 XOR";
"2 1 14354 14496 14497 AND";
"2 1 14497 14294 14498 XOR";
"2 1 14028 14299 14499 XOR";
"2 1 14354 14499 14500 AND";
"2 1 14500 14299 14501 XOR";
"2 1 14031 14304 14502 XOR";
"2 1 14354 14502 14503 AND";
"2 1 14503 14304 14504 XOR";
"2 1 14034 14309 14505 XOR";
"2 1 14354 14505 14506 AND";
"2 1 14506 14309 14507 XOR";
"2 1 14037 14314 14508 XOR";
"2 1 14354 14508 14509 AND";
"2 1 14509 14314 14510 XOR";
"2 1 14040 14319 14511 XOR";
"2 1 14354 14511 14512 AND";
"2 1 14512 14319 14513 XOR";
"2 1 14043 14324 14514 XOR";
"2 1 14354 14514 14515 AND";
"2 1 14515 14324 14516 XOR";
"2 1 14046 14329 14517 XOR";
"2 1 14354 14517 14518 AND";
"2 1 14518 14329 14519 XOR";
"2 1 14049 14334 14520 XOR";
"2 1 14354 14520 14521 AND";
"2 1 14521 14334 14522 XOR";
"2 1 14052 14339 14523 XOR";
"2 1 14354 14523 14524 AND";
"2 1 14524 14339 14525 XOR";
"2 1 14055 14344 14526 XOR";
"2 1 14354 14526 14527 AND";
"2 1 14527 14344 14528 XOR";
"2 1 14058 14349 14529 XOR";
"2 1 14354 14529 14530 AND";
"2 1 14530 14349 14531 XOR";
"1 1 14354 14532 INV";
"2 1 4 64 14533 XOR";
"2 1 14533 64 14534 AND";
"2 1 14357 65 14535 XOR";
"2 1 14534 65 14536 XOR";
"2 1 14535 14534 14537 XOR";
"2 1 14535 14536 14538 AND";
"2 1 14534 14538 14539 XOR";
"2 1 14360 66 14540 XOR";
"2 1 14539 66 14541 XOR";
"2 1 14540 14539 14542 XOR";
"2 1 14540 14541 14543 AND";
"2 1 14539 14543 14544 XOR";
"2 1 14363 67 14545 XOR";
"2 1 14544 67 14546 XOR";
"2 1 14545 14544 14547 XOR";
"2 1 14545 14546 14548 AND";
"2 1 14544 14548 14549 XOR";
"2 1 14366 68 14550 XOR";
"2 1 14549 68 14551 XOR";
"2 1 14550 14549 14552 XOR";
"2 1 14550 14551 14553 AND";
"2 1 14549 14553 14554 XOR";
"2 1 14369 69 14555 XOR";
"2 1 14554 69 14556 XOR";
"2 1 14555 14554 14557 XOR";
"2 1 14555 14556 14558 AND";
"2 1 14554 14558 14559 XOR";
"2 1 14372 70 14560 XOR";
"2 1 14559 70 14561 XOR";
"2 1 14560 14559 14562 XOR";
"2 1 14560 14561 14563 AND";
"2 1 14559 14563 14564 XOR";
"2 1 14375 71 14565 XOR";
"2 1 14564 71 14566 XOR";
"2 1 14565 14564 14567 XOR";
"2 1 14565 14566 14568 AND";
"2 1 14564 14568 14569 XOR";
"2 1 14378 72 14570 XOR";
"2 1 14569 72 14571 XOR";
"2 1 14570 14569 14572 XOR";
"2 1 14570 14571 14573 AND";
"2 1 14569 14573 14574 XOR";
"2 1 14381 73 14575 XOR";
"2 1 14574 73 14576 XOR";
"2 1 14575 14574 14577 XOR";
"2 1 14575 14576 14578 AND";
"2 1 14574 14578 14579 XOR";
"2 1 14384 74 14580 XOR";
"2 1 14579 74 14581 XOR";
"2 1 14580 14579 14582 XOR";
"2 1 14580 14581 14583 AND";
"2 1 14579 14583 14584 XOR";
"2 1 14387 75 14585 XOR";
"2 1 14584 75 14586 XOR";
"2 1 14585 14584 14587 XOR";
"2 1 14585 14586 14588 AND";
"2 1 14584 14588 14589 XOR";
"2 1 14390 76 14590 XOR";
"2 1 14589 76 14591 XOR";
"2 1 14590 14589 14592 XOR";
"2 1 14590 14591 14593 AND";
"2 1 14589 14593 14594 XOR";
"2 1 14393 77 14595 XOR";
"2 1 14594 77 14596 XOR";
"2 1 14595 14594 14597 XOR";
"2 1 14595 14596 14598 AND";
"2 1 14594 14598 14599 XOR";
"2 1 14396 78 14600 XOR";
"2 1 14599 78 14601 XOR";
"2 1 14600 14599 14602 XOR";
"2 1 14600 14601 14603 AND";
"2 1 14599 14603 14604 XOR";
"2 1 14399 79 14605 XOR";
"2 1 14604 79 14606 XOR";
"2 1 14605 14604 14607 XOR";
"2 1 14605 14606 14608 AND";
"2 1 14604 14608 14609 XOR";
"2 1 14402 80 14610 XOR";
"2 1 14609 80 14611 XOR";
"2 1 14610 14609 14612 XOR";
"2 1 14610 14611 14613 AND";
"2 1 14609 14613 14614 XOR";
"2 1 14405 81 14615 XOR";
"2 1 14614 81 14616 XOR";
"2 1 14615 14614 14617 XOR";
"2 1 14615 14616 14618 AND";
"2 1 14614 14618 14619 XOR";
"2 1 14408 82 14620 XOR";
"2 1 14619 82 14621 XOR";
"2 1 14620 14619 14622 XOR";
"2 1 14620 14621 14623 AND";
"2 1 14619 14623 14624 XOR";
"2 1 14411 83 14625 XOR";
"2 1 14624 83 14626 XOR";
"2 1 14625 14624 14627 XOR";
"2 1 14625 14626 14628 AND";
"2 1 14624 14628 14629 XOR";
"2 1 14414 84 14630 XOR";
"2 1 14629 84 14631 XOR";
"2 1 14630 14629 14632 XOR";
"2 1 14630 14631 14633 AND";
"2 1 14629 14633 14634 XOR";
"2 1 14417 85 14635 XOR";
"2 1 14634 85 14636 XOR";
"2 1 14635 14634 14637 XOR";
"2 1 14635 14636 14638 AND";
"2 1 14634 14638 14639 XOR";
"2 1 14420 86 14640 XOR";
"2 1 14639 86 14641 XOR";
"2 1 14640 14639 14642 XOR";
"2 1 14640 14641 14643 AND";
"2 1 14639 14643 14644 XOR";
"2 1 14423 87 14645 XOR";
"2 1 14644 87 14646 XOR";
"2 1 14645 14644 14647 XOR";
"2 1 14645 14646 14648 AND";
"2 1 14644 14648 14649 XOR";
"2 1 14426 88 14650 XOR";
"2 1 14649 88 14651 XOR";
"2 1 14650 14649 14652 XOR";
"2 1 14650 14651 14653 AND";
"2 1 14649 14653 14654 XOR";
"2 1 14429 89 14655 XOR";
"2 1 14654 89 14656 XOR";
"2 1 14655 14654 14657 XOR";
"2 1 14655 14656 14658 AND";
"2 1 14654 14658 14659 XOR";
"2 1 14432 90 14660 XOR";
"2 1 14659 90 14661 XOR";
"2 1 14660 14659 14662 XOR";
"2 1 14660 14661 14663 AND";
"2 1 14659 14663 14664 XOR";
"2 1 14435 91 14665 XOR";
"2 1 14664 91 14666 XOR";
"2 1 14665 14664 14667 XOR";
"2 1 14665 14666 14668 AND";
"2 1 14664 14668 14669 XOR";
"2 1 14438 92 14670 XOR";
"2 1 14669 92 14671 XOR";
"2 1 14670 14669 14672 XOR";
"2 1 14670 14671 14673 AND";
"2 1 14669 14673 14674 XOR";
"2 1 14441 93 14675 XOR";
"2 1 14674 93 14676 XOR";
"2 1 14675 14674 14677 XOR";
"2 1 14675 14676 14678 AND";
"2 1 14674 14678 14679 XOR";
"2 1 14444 94 14680 XOR";
"2 1 14679 94 14681 XOR";
"2 1 14680 14679 14682 XOR";
"2 1 14680 14681 14683 AND";
"2 1 14679 14683 14684 XOR";
"2 1 14447 95 14685 XOR";
"2 1 14684 95 14686 XOR";
"2 1 14685 14684 14687 XOR";
"2 1 14685 14686 14688 AND";
"2 1 14684 14688 14689 XOR";
"2 1 14450 96 14690 XOR";
"2 1 14689 96 14691 XOR";
"2 1 14690 14689 14692 XOR";
"2 1 14690 14691 14693 AND";
"2 1 14689 14693 14694 XOR";
"2 1 14453 97 14695 XOR";
"2 1 14694 97 14696 XOR";
"2 1 14695 14694 14697 XOR";
"2 1 14695 14696 14698 AND";
"2 1 14694 14698 14699 XOR";
"2 1 14456 98 14700 XOR";
"2 1 14699 98 14701 XOR";
"2 1 14700 14699 14702 XOR";
"2 1 14700 14701 14703 AND";
"2 1 14699 14703 14704 XOR";
"2 1 14459 99 14705 XOR";
"2 1 14704 99 14706 XOR";
"2 1 14705 14704 14707 XOR";
"2 1 14705 14706 14708 AND";
"2 1 14704 14708 14709 XOR";
"2 1 14462 100 14710 XOR";
"2 1 14709 100 14711 XOR";
"2 1 14710 14709 14712 XOR";
"2 1 14710 14711 14713 AND";
"2 1 14709 14713 14714 XOR";
"2 1 14465 101 14715 XOR";
"2 1 14714 101 14716 XOR";
"2 1 14715 14714 14717 XOR";
"2 1 14715 14716 14718 AND";
"2 1 14714 14718 14719 XOR";
"2 1 14468 102 14720 XOR";
"2 1 14719 102 14721 XOR";
"2 1 14720 14719 14722 XOR";
"2 1 14720 14721 14723 AND";
"2 1 14719 14723 14724 XOR";
"2 1 14471 103 14725 XOR";
"2 1 14724 103 14726 XOR";
"2 1 14725 14724 14727 XOR";
"2 1 14725 14726 14728 AND";
"2 1 14724 14728 14729 XOR";
"2 1 14474 104 14730 XOR";
"2 1 14729 104 14731 XOR";
"2 1 14730 14729 14732 XOR";
"2 1 14730 14731 14733 AND";
"2 1 14729 14733 14734 XOR";
"2 1 14477 105 14735 XOR";
"2 1 14734 105 14736 XOR";
"2 1 14735 14734 14737 XOR";
"2 1 14735 14736 14738 AND";
"2 1 14734 14738 14739 XOR";
"2 1 14480 106 14740 XOR";
"2 1 14739 106 14741 XOR";
"2 1 14740 14739 14742 XOR";
"2 1 14740 14741 14743 AND";
"2 1 14739 14743 14744 XOR";
"2 1 14483 107 14745 XOR";
"2 1 14744 107 14746 XOR";
"2 1 14745 14744 14747 XOR";
"2 1 14745 14746 14748 AND";
"2 1 14744 14748 14749 XOR";
"2 1 14486 108 14750 XOR";
"2 1 14749 108 14751 XOR";
"2 1 14750 14749 14752 XOR";
"2 1 14750 14751 14753 AND";
"2 1 14749 14753 14754 XOR";
"2 1 14489 109 14755 XOR";
"2 1 14754 109 14756 XOR";
"2 1 14755 14754 14757 XOR";
"2 1 14755 14756 14758 AND";
"2 1 14754 14758 14759 XOR";
"2 1 14492 110 14760 XOR";
"2 1 14759 110 14761 XOR";
"2 1 14760 14759 14762 XOR";
"2 1 14760 14761 14763 AND";
"2 1 14759 14763 14764 XOR";
"2 1 14495 111 14765 XOR";
"2 1 14764 111 14766 XOR";
"2 1 14765 14764 14767 XOR";
"2 1 14765 14766 14768 AND";
"2 1 14764 14768 14769 XOR";
"2 1 14498 112 14770 XOR";
"2 1 14769 112 14771 XOR";
"2 1 14770 14769 14772 XOR";
"2 1 14770 14771 14773 AND";
"2 1 14769 14773 14774 XOR";
"2 1 14501 113 14775 XOR";
"2 1 14774 113 14776 XOR";
"2 1 14775 14774 14777 XOR";
"2 1 14775 14776 14778 AND";
"2 1 14774 14778 14779 XOR";
"2 1 14504 114 14780 XOR";
"2 1 14779 114 14781 XOR";
"2 1 14780 14779 14782 XOR";
"2 1 14780 14781 14783 AND";
"2 1 14779 14783 14784 XOR";
"2 1 14507 115 14785 XOR";
"2 1 14784 115 14786 XOR";
"2 1 14785 14784 14787 XOR";
"2 1 14785 14786 14788 AND";
"2 1 14784 14788 14789 XOR";
"2 1 14510 116 14790 XOR";
"2 1 14789 116 14791 XOR";
"2 1 14790 14789 14792 XOR";
"2 1 14790 14791 14793 AND";
"2 1 14789 14793 14794 XOR";
"2 1 14513 117 14795 XOR";
"2 1 14794 117 14796 XOR";
"2 1 14795 14794 14797 XOR";
"2 1 14795 14796 14798 AND";
"2 1 14794 14798 14799 XOR";
"2 1 14516 118 14800 XOR";
"2 1 14799 118 14801 XOR";
"2 1 14800 14799 14802 XOR";
"2 1 14800 14801 14803 AND";
"2 1 14799 14803 14804 XOR";
"2 1 14519 119 14805 XOR";
"2 1 14804 119 14806 XOR";
"2 1 14805 14804 14807 XOR";
"2 1 14805 14806 14808 AND";
"2 1 14804 14808 14809 XOR";
"2 1 14522 120 14810 XOR";
"2 1 14809 120 14811 XOR";
"2 1 14810 14809 14812 XOR";
"2 1 14810 14811 14813 AND";
"2 1 14809 14813 14814 XOR";
"2 1 14525 121 14815 XOR";
"2 1 14814 121 14816 XOR";
"2 1 14815 14814 14817 XOR";
"2 1 14815 14816 14818 AND";
"2 1 14814 14818 14819 XOR";
"2 1 14528 122 14820 XOR";
"2 1 14819 122 14821 XOR";
"2 1 14820 14819 14822 XOR";
"2 1 14820 14821 14823 AND";
"2 1 14819 14823 14824 XOR";
"2 1 14531 123 14825 XOR";
"2 1 14824 123 14826 XOR";
"2 1 14825 14824 14827 XOR";
"2 1 14825 14826 14828 AND";
"2 1 14824 14828 14829 XOR";
"2 1 14829 136 14830 AND";
"2 1 14829 136 14831 XOR";
"2 1 14831 14830 14832 XOR";
"2 1 4 14533 14833 XOR";
"2 1 14832 14833 14834 AND";
"2 1 14834 14533 14835 XOR";
"2 1 14357 14537 14836 XOR";
"2 1 14832 14836 14837 AND";
"2 1 14837 14537 14838 XOR";
"2 1 14360 14542 14839 XOR";
"2 1 14832 14839 14840 AND";
"2 1 14840 14542 14841 XOR";
"2 1 14363 14547 14842 XOR";
"2 1 14832 14842 14843 AND";
"2 1 14843 14547 14844 XOR";
"2 1 14366 14552 14845 XOR";
"2 1 14832 14845 14846 AND";
"2 1 14846 14552 14847 XOR";
"2 1 14369 14557 14848 XOR";
"2 1 14832 14848 14849 AND";
"2 1 14849 14557 14850 XOR";
"2 1 14372 14562 14851 XOR";
"2 1 14832 14851 14852 AND";
"2 1 14852 14562 14853 XOR";
"2 1 14375 14567 14854 XOR";
"2 1 14832 14854 14855 AND";
"2 1 14855 14567 14856 XOR";
"2 1 14378 14572 14857 XOR";
"2 1 14832 14857 14858 AND";
"2 1 14858 14572 14859 XOR";
"2 1 14381 14577 14860 XOR";
"2 1 14832 14860 14861 AND";
"2 1 14861 14577 14862 XOR";
"2 1 14384 14582 14863 XOR";
"2 1 14832 14863 14864 AND";
"2 1 14864 14582 14865 XOR";
"2 1 14387 14587 14866 XOR";
"2 1 14832 14866 14867 AND";
"2 1 14867 14587 14868 XOR";
"2 1 14390 14592 14869 XOR";
"2 1 14832 14869 14870 AND";
"2 1 14870 14592 14871 XOR";
"2 1 14393 14597 14872 XOR";
"2 1 14832 14872 14873 AND";
"2 1 14873 14597 14874 XOR";
"2 1 14396 14602 14875 XOR";
"2 1 14832 14875 14876 AND";
"2 1 14876 14602 14877 XOR";
"2 1 14399 14607 14878 XOR";
"2 1 14832 14878 14879 AND";
"2 1 14879 14607 14880 XOR";
"2 1 14402 14612 14881 XOR";
"2 1 14832 14881 14882 AND";
"2 1 14882 14612 14883 XOR";
"2 1 14405 14617 14884 XOR";
"2 1 14832 14884 14885 AND";
"2 1 14885 14617 14886 XOR";
"2 1 14408 14622 14887 XOR";
"2 1 14832 14887 14888 AND";
"2 1 14888 14622 14889 XOR";
"2 1 14411 14627 14890 XOR";
"2 1 14832 14890 14891 AND";
"2 1 14891 14627 14892 XOR";
"2 1 14414 14632 14893 XOR";
"2 1 14832 14893 14894 AND";
"2 1 14894 14632 14895 XOR";
"2 1 14417 14637 14896 XOR";
"2 1 14832 14896 14897 AND";
"2 1 14897 14637 14898 XOR";
"2 1 14420 14642 14899 XOR";
"2 1 14832 14899 14900 AND";
"2 1 14900 14642 14901 XOR";
"2 1 14423 14647 14902 XOR";
"2 1 14832 14902 14903 AND";
"2 1 14903 14647 14904 XOR";
"2 1 14426 14652 14905 XOR";
"2 1 14832 14905 14906 AND";
"2 1 14906 14652 14907 XOR";
"2 1 14429 14657 14908 XOR";
"2 1 14832 14908 14909 AND";
"2 1 14909 14657 14910 XOR";
"2 1 14432 14662 14911 XOR";
"2 1 14832 14911 14912 AND";
"2 1 14912 14662 14913 XOR";
"2 1 14435 14667 14914 XOR";
"2 1 14832 14914 14915 AND";
"2 1 14915 14667 14916 XOR";
"2 1 14438 14672 14917 XOR";
"2 1 14832 14917 14918 AND";
"2 1 14918 14672 14919 XOR";
"2 1 14441 14677 14920 XOR";
"2 1 14832 14920 14921 AND";
"2 1 14921 14677 14922 XOR";
"2 1 14444 14682 14923 XOR";
"2 1 14832 14923 14924 AND";
"2 1 14924 14682 14925 XOR";
"2 1 14447 14687 14926 XOR";
"2 1 14832 14926 14927 AND";
"2 1 14927 14687 14928 XOR";
"2 1 14450 14692 14929 XOR";
"2 1 14832 14929 14930 AND";
"2 1 14930 14692 14931 XOR";
"2 1 14453 14697 14932 XOR";
"2 1 14832 14932 14933 AND";
"2 1 14933 14697 14934 XOR";
"2 1 14456 14702 14935 XOR";
"2 1 14832 14935 14936 AND";
"2 1 14936 14702 14937 XOR";
"2 1 14459 14707 14938 XOR";
"2 1 14832 14938 14939 AND";
"2 1 14939 14707 14940 XOR";
"2 1 14462 14712 14941 XOR";
"2 1 14832 14941 14942 AND";
"2 1 14942 14712 14943 XOR";
"2 1 14465 14717 14944 XOR";
"2 1 14832 14944 14945 AND";
"2 1 14945 14717 14946 XOR";
"2 1 14468 14722 14947 XOR";
"2 1 14832 14947 14948 AND";
"2 1 14948 14722 14949 XOR";
"2 1 14471 14727 14950 XOR";
"2 1 14832 14950 14951 AND";
"2 1 14951 14727 14952 XOR";
"2 1 14474 14732 14953 XOR";
"2 1 14832 14953 14954 AND";
"2 1 14954 14732 14955 XOR";
"2 1 14477 14737 14956 XOR";
"2 1 14832 14956 14957 AND";
"2 1 14957 14737 14958 XOR";
"2 1 14480 14742 14959 XOR";
"2 1 14832 14959 14960 AND";
"2 1 14960 14742 14961 XOR";
"2 1 14483 14747 14962 XOR";
"2 1 14832 14962 14963 AND";
"2 1 14963 14747 14964 XOR";
"2 1 14486 14752 14965 XOR";
"2 1 14832 14965 14966 AND";
"2 1 14966 14752 14967 XOR";
"2 1 14489 14757 14968 XOR";
"2 1 14832 14968 14969 AND";
"2 1 14969 14757 14970 XOR";
"2 1 14492 14762 14971 XOR";
"2 1 14832 14971 14972 AND";
"2 1 14972 14762 14973 XOR";
"2 1 14495 14767 14974 XOR";
"2 1 14832 14974 14975 AND";
"2 1 14975 14767 14976 XOR";
"2 1 14498 14772 14977 XOR";
"2 1 14832 14977 14978 AND";
"2 1 14978 14772 14979 XOR";
"2 1 14501 14777 14980 XOR";
"2 1 14832 14980 14981 AND";
"2 1 14981 14777 14982 XOR";
"2 1 14504 14782 14983 XOR";
"2 1 14832 14983 14984 AND";
"2 1 14984 14782 14985 XOR";
"2 1 14507 14787 14986 XOR";
"2 1 14832 14986 14987 AND";
"2 1 14987 14787 14988 XOR";
"2 1 14510 14792 14989 XOR";
"2 1 14832 14989 14990 AND";
"2 1 14990 14792 14991 XOR";
"2 1 14513 14797 14992 XOR";
"2 1 14832 14992 14993 AND";
"2 1 14993 14797 14994 XOR";
"2 1 14516 14802 14995 XOR";
"2 1 14832 14995 14996 AND";
"2 1 14996 14802 14997 XOR";
"2 1 14519 14807 14998 XOR";
"2 1 14832 14998 14999 AND";
"2 1 14999 14807 15000 XOR";
"2 1 14522 14812 15001 XOR";
"2 1 14832 15001 15002 AND";
"2 1 15002 14812 15003 XOR";
"2 1 14525 14817 15004 XOR";
"2 1 14832 15004 15005 AND";
"2 1 15005 14817 15006 XOR";
"2 1 14528 14822 15007 XOR";
"2 1 14832 15007 15008 AND";
"2 1 15008 14822 15009 XOR";
"2 1 14531 14827 15010 XOR";
"2 1 14832 15010 15011 AND";
"2 1 15011 14827 15012 XOR";
"1 1 14832 15013 INV";
"2 1 3 64 15014 XOR";
"2 1 15014 64 15015 AND";
"2 1 14835 65 15016 XOR";
"2 1 15015 65 15017 XOR";
"2 1 15016 15015 15018 XOR";
"2 1 15016 15017 15019 AND";
"2 1 15015 15019 15020 XOR";
"2 1 14838 66 15021 XOR";
"2 1 15020 66 15022 XOR";
"2 1 15021 15020 15023 XOR";
"2 1 15021 15022 15024 AND";
"2 1 15020 15024 15025 XOR";
"2 1 14841 67 15026 XOR";
"2 1 15025 67 15027 XOR";
"2 1 15026 15025 15028 XOR";
"2 1 15026 15027 15029 AND";
"2 1 15025 15029 15030 XOR";
"2 1 14844 68 15031 XOR";
"2 1 15030 68 15032 XOR";
"2 1 15031 15030 15033 XOR";
"2 1 15031 15032 15034 AND";
"2 1 15030 15034 15035 XOR";
"2 1 14847 69 15036 XOR";
"2 1 15035 69 15037 XOR";
"2 1 15036 15035 15038 XOR";
"2 1 15036 15037 15039 AND";
"2 1 15035 15039 15040 XOR";
"2 1 14850 70 15041 XOR";
"2 1 15040 70 15042 XOR";
"2 1 15041 15040 15043 XOR";
"2 1 15041 15042 15044 AND";
"2 1 15040 15044 15045 XOR";
"2 1 14853 71 15046 XOR";
"2 1 15045 71 15047 XOR";
"2 1 15046 15045 15048 XOR";
"2 1 15046 15047 15049 AND";
"2 1 15045 15049 15050 XOR";
"2 1 14856 72 15051 XOR";
"2 1 15050 72 15052 XOR";
"2 1 15051 15050 15053 XOR";
"2 1 15051 15052 15054 AND";
"2 1 15050 15054 15055 XOR";
"2 1 14859 73 15056 XOR";
"2 1 15055 73 15057 XOR";
"2 1 15056 15055 15058 XOR";
"2 1 15056 15057 15059 AND";
"2 1 15055 15059 15060 XOR";
"2 1 14862 74 15061 XOR";
"2 1 15060 74 15062 XOR";
"2 1 15061 15060 15063 XOR";
"2 1 15061 15062 15064 AND";
"2 1 15060 15064 15065 XOR";
"2 1 14865 75 15066 XOR";
"2 1 15065 75 15067 XOR";
"2 1 15066 15065 15068 XOR";
"2 1 15066 15067 15069 AND";
"2 1 15065 15069 15070 XOR";
"2 1 14868 76 15071 XOR";
"2 1 15070 76 15072 XOR";
"2 1 15071 15070 15073 XOR";
"2 1 15071 15072 15074 AND";
"2 1 15070 15074 15075 XOR";
"2 1 14871 77 15076 XOR";
"2 1 15075 77 15077 XOR";
"2 1 15076 15075 15078 XOR";
"2 1 15076 15077 15079 AND";
"2 1 15075 15079 15080 XOR";
"2 1 14874 78 15081 XOR";
"2 1 15080 78 15082 XOR";
"2 1 15081 15080 15083 XOR";
"2 1 15081 15082 15084 AND";
"2 1 15080 15084 15085 XOR";
"2 1 14877 79 15086 XOR";
"2 1 15085 79 15087 XOR";
"2 1 15086 15085 15088 XOR";
"2 1 15086 15087 15089 AND";
"2 1 15085 15089 15090 XOR";
"2 1 14880 80 15091 XOR";
"2 1 15090 80 15092 XOR";
"2 1 15091 15090 15093 XOR";
"2 1 15091 15092 15094 AND";
"2 1 15090 15094 15095 XOR";
"2 1 14883 81 15096 XOR";
"2 1 15095 81 15097 XOR";
"2 1 15096 15095 15098 XOR";
"2 1 15096 15097 15099 AND";
"2 1 15095 15099 15100 XOR";
"2 1 14886 82 15101 XOR";
"2 1 15100 82 15102 XOR";
"2 1 15101 15100 15103 XOR";
"2 1 15101 15102 15104 AND";
"2 1 15100 15104 15105 XOR";
"2 1 14889 83 15106 XOR";
"2 1 15105 83 15107 XOR";
"2 1 15106 15105 15108 XOR";
"2 1 15106 15107 15109 AND";
"2 1 15105 15109 15110 XOR";
"2 1 14892 84 15111 XOR";
"2 1 15110 84 15112 XOR";
"2 1 15111 15110 15113 XOR";
"2 1 15111 15112 15114 AND";
"2 1 15110 15114 15115 XOR";
"2 1 14895 85 15116 XOR";
"2 1 15115 85 15117 XOR";
"2 1 15116 15115 15118 XOR";
"2 1 15116 15117 15119 AND";
"2 1 15115 15119 15120 XOR";
"2 1 14898 86 15121 XOR";
"2 1 15120 86 15122 XOR";
"2 1 15121 15120 15123 XOR";
"2 1 15121 15122 15124 AND";
"2 1 15120 15124 15125 XOR";
"2 1 14901 87 15126 XOR";
"2 1 15125 87 15127 XOR";
"2 1 15126 15125 15128 XOR";
"2 1 15126 15127 15129 AND";
"2 1 15125 15129 15130 XOR";
"2 1 14904 88 15131 XOR";
"2 1 15130 88 15132 XOR";
"2 1 15131 15130 15133 XOR";
"2 1 15131 15132 15134 AND";
"2 1 15130 15134 15135 XOR";
"2 1 14907 89 15136 XOR";
"2 1 15135 89 15137 XOR";
"2 1 15136 15135 15138 XOR";
"2 1 15136 15137 15139 AND";
"2 1 15135 15139 15140 XOR";
"2 1 14910 90 15141 XOR";
"2 1 15140 90 15142 XOR";
"2 1 15141 15140 15143 XOR";
"2 1 15141 15142 15144 AND";
"2 1 15140 15144 15145 XOR";
"2 1 14913 91 15146 XOR";
"2 1 15145 91 15147 XOR";
"2 1 15146 15145 15148 XOR";
"2 1 15146 15147 15149 AND";
"2 1 15145 15149 15150 XOR";
"2 1 14916 92 15151 XOR";
"2 1 15150 92 15152 XOR";
"2 1 15151 15150 15153 XOR";
"2 1 15151 15152 15154 AND";
"2 1 15150 15154 15155 XOR";
"2 1 14919 93 15156 XOR";
"2 1 15155 93 15157 XOR";
"2 1 15156 15155 15158 XOR";
"2 1 15156 15157 15159 AND";
"2 1 15155 15159 15160 XOR";
"2 1 14922 94 15161 XOR";
"2 1 15160 94 15162 XOR";
"2 1 15161 15160 15163 XOR";
"2 1 15161 15162 15164 AND";
"2 1 15160 15164 15165 XOR";
"2 1 14925 95 15166 XOR";
"2 1 15165 95 15167 XOR";
"2 1 15166 15165 15168 XOR";
"2 1 15166 15167 15169 AND";
"2 1 15165 15169 15170 XOR";
"2 1 14928 96 15171 XOR";
"2 1 15170 96 15172 XOR";
"2 1 15171 15170 15173 XOR";
"2 1 15171 15172 15174 AND";
"2 1 15170 15174 15175 XOR";
"2 1 14931 97 15176 XOR";
"2 1 15175 97 15177 XOR";
"2 1 15176 15175 15178 XOR";
"2 1 15176 15177 15179 AND";
"2 1 15175 15179 15180 XOR";
"2 1 14934 98 15181 XOR";
"2 1 15180 98 15182 XOR";
"2 1 15181 15180 15183 XOR";
"2 1 15181 15182 15184 AND";
"2 1 15180 15184 15185 XOR";
"2 1 14937 99 15186 XOR";
"2 1 15185 99 15187 XOR";
"2 1 15186 15185 15188 XOR";
"2 1 15186 15187 15189 AND";
"2 1 15185 15189 15190 XOR";
"2 1 14940 100 15191 XOR";
"2 1 15190 100 15192 XOR";
"2 1 15191 15190 15193 XOR";
"2 1 15191 15192 15194 AND";
"2 1 15190 15194 15195 XOR";
"2 1 14943 101 15196 XOR";
"2 1 15195 101 15197 XOR";
"2 1 15196 15195 15198 XOR";
"2 1 15196 15197 15199 AND";
"2 1 15195 15199 15200 XOR";
"2 1 14946 102 15201 XOR";
"2 1 15200 102 15202 XOR";
"2 1 15201 15200 15203 XOR";
"2 1 15201 15202 15204 AND";
"2 1 15200 15204 15205 XOR";
"2 1 14949 103 15206 XOR";
"2 1 15205 103 15207 XOR";
"2 1 15206 15205 15208 XOR";
"2 1 15206 15207 15209 AND";
"2 1 15205 15209 15210 XOR";
"2 1 14952 104 15211 XOR";
"2 1 15210 104 15212 XOR";
"2 1 15211 15210 15213 XOR";
"2 1 15211 15212 15214 AND";
"2 1 15210 15214 15215 XOR";
"2 1 14955 105 15216 XOR";
"2 1 15215 105 15217 XOR";
"2 1 15216 15215 15218 XOR";
"2 1 15216 15217 15219 AND";
"2 1 15215 15219 15220 XOR";
"2 1 14958 106 15221 XOR";
"2 1 15220 106 15222 XOR";
"2 1 15221 15220 15223 XOR";
"2 1 15221 15222 15224 AND";
"2 1 15220 15224 15225 XOR";
"2 1 14961 107 15226 XOR";
"2 1 15225 107 15227 XOR";
"2 1 15226 15225 15228 XOR";
"2 1 15226 15227 15229 AND";
"2 1 15225 15229 15230 XOR";
"2 1 14964 108 15231 XOR";
"2 1 15230 108 15232 XOR";
"2 1 15231 15230 15233 XOR";
"2 1 15231 15232 15234 AND";
"2 1 15230 15234 15235 XOR";
"2 1 14967 109 15236 XOR";
"2 1 15235 109 15237 XOR";
"2 1 15236 15235 15238 XOR";
"2 1 15236 15237 15239 AND";
"2 1 15235 15239 15240 XOR";
"2 1 14970 110 15241 XOR";
"2 1 15240 110 15242 XOR";
"2 1 15241 15240 15243 XOR";
"2 1 15241 15242 15244 AND";
"2 1 15240 15244 15245 XOR";
"2 1 14973 111 15246 XOR";
"2 1 15245 111 15247 XOR";
"2 1 15246 15245 15248 XOR";
"2 1 15246 15247 15249 AND";
"2 1 15245 15249 15250 XOR";
"2 1 14976 112 15251 XOR";
"2 1 15250 112 15252 XOR";
"2 1 15251 15250 15253 XOR";
"2 1 15251 15252 15254 AND";
"2 1 15250 15254 15255 XOR";
"2 1 14979 113 15256 XOR";
"2 1 15255 113 15257 XOR";
"2 1 15256 15255 15258 XOR";
"2 1 15256 15257 15259 AND";
"2 1 15255 15259 15260 XOR";
"2 1 14982 114 15261 XOR";
"2 1 15260 114 15262 XOR";
"2 1 15261 15260 15263 XOR";
"2 1 15261 15262 15264 AND";
"2 1 15260 15264 15265 XOR";
"2 1 14985 115 15266 XOR";
"2 1 15265 115 15267 XOR";
"2 1 15266 15265 15268 XOR";
"2 1 15266 15267 15269 AND";
"2 1 15265 15269 15270 XOR";
"2 1 14988 116 15271 XOR";
"2 1 15270 116 15272 XOR";
"2 1 15271 15270 15273 XOR";
"2 1 15271 15272 15274 AND";
"2 1 15270 15274 15275 XOR";
"2 1 14991 117 15276 XOR";
"2 1 15275 117 15277 XOR";
"2 1 15276 15275 15278 XOR";
"2 1 15276 15277 15279 AND";
"2 1 15275 15279 15280 XOR";
"2 1 14994 118 15281 XOR";
"2 1 15280 118 15282 XOR";
"2 1 15281 15280 15283 XOR";
"2 1 15281 15282 15284 AND";
"2 1 15280 15284 15285 XOR";
"2 1 14997 119 15286 XOR";
"2 1 15285 119 15287 XOR";
"2 1 15286 15285 15288 XOR";
"2 1 15286 15287 15289 AND";
"2 1 15285 15289 15290 XOR";
"2 1 15000 120 15291 XOR";
"2 1 15290 120 15292 XOR";
"2 1 15291 15290 15293 XOR";
"2 1 15291 15292 15294 AND";
"2 1 15290 15294 15295 XOR";
"2 1 15003 121 15296 XOR";
"2 1 15295 121 15297 XOR";
"2 1 15296 15295 15298 XOR";
"2 1 15296 15297 15299 AND";
"2 1 15295 15299 15300 XOR";
"2 1 15006 122 15301 XOR";
"2 1 15300 122 15302 XOR";
"2 1 15301 15300 15303 XOR";
"2 1 15301 15302 15304 AND";
"2 1 15300 15304 15305 XOR";
"2 1 15009 123 15306 XOR";
"2 1 15305 123 15307 XOR";
"2 1 15306 15305 15308 XOR";
"2 1 15306 15307 15309 AND";
"2 1 15305 15309 15310 XOR";
"2 1 15012 124 15311 XOR";
"2 1 15310 124 15312 XOR";
"2 1 15311 15310 15313 XOR";
"2 1 15311 15312 15314 AND";
"2 1 15310 15314 15315 XOR";
"2 1 15315 133 15316 AND";
"2 1 15315 133 15317 XOR";
"2 1 15317 15316 15318 XOR";
"2 1 3 15014 15319 XOR";
"2 1 15318 15319 15320 AND";
"2 1 15320 15014 15321 XOR";
"2 1 14835 15018 15322 XOR";
"2 1 15318 15322 15323 AND";
"2 1 15323 15018 15324 XOR";
"2 1 14838 15023 15325 XOR";
"2 1 15318 15325 15326 AND";
"2 1 15326 15023 15327 XOR";
"2 1 14841 15028 15328 XOR";
"2 1 15318 15328 15329 AND";
"2 1 15329 15028 15330 XOR";
"2 1 14844 15033 15331 XOR";
"2 1 15318 15331 15332 AND";
"2 1 15332 15033 15333 XOR";
"2 1 14847 15038 15334 XOR";
"2 1 15318 15334 15335 AND";
"2 1 15335 15038 15336 XOR";
"2 1 14850 15043 15337 XOR";
"2 1 15318 15337 15338 AND";
"2 1 15338 15043 15339 XOR";
"2 1 14853 15048 15340 XOR";
"2 1 15318 15340 15341 AND";
"2 1 15341 15048 15342 XOR";
"2 1 14856 15053 15343 XOR";
"2 1 15318 15343 15344 AND";
"2 1 15344 15053 15345 XOR";
"2 1 14859 15058 15346 XOR";
"2 1 15318 15346 15347 AND";
"2 1 15347 15058 15348 XOR";
"2 1 14862 15063 15349 XOR";
"2 1 15318 15349 15350 AND";
"2 1 15350 15063 15351 XOR";
"2 1 14865 15068 15352 XOR";
"2 1 15318 15352 15353 AND";
"2 1 15353 15068 15354 XOR";
"2 1 14868 15073 15355 XOR";
"2 1 15318 15355 15356 AND";
"2 1 15356 15073 15357 XOR";
"2 1 14871 15078 15358 XOR";
"2 1 15318 15358 15359 AND";
"2 1 15359 15078 15360 XOR";
"2 1 14874 15083 15361 XOR";
"2 1 15318 15361 15362 AND";
"2 1 15362 15083 15363 XOR";
"2 1 14877 15088 15364 XOR";
"2 1 15318 15364 15365 AND";
"2 1 15365 15088 15366 XOR";
"2 1 14880 15093 15367 XOR";
"2 1 15318 15367 15368 AND";
"2 1 15368 15093 15369 XOR";
"2 1 14883 15098 15370 XOR";
"2 1 15318 15370 15371 AND";
"2 1 15371 15098 15372 XOR";
"2 1 14886 15103 15373 XOR";
"2 1 15318 15373 15374 AND";
"2 1 15374 15103 15375 XOR";
"2 1 14889 15108 15376 XOR";
"2 1 15318 15376 15377 AND";
"2 1 15377 15108 15378 XOR";
"2 1 14892 15113 15379 XOR";
"2 1 15318 15379 15380 AND";
"2 1 15380 15113 15381 XOR";
"2 1 14895 15118 15382 XOR";
"2 1 15318 15382 15383 AND";
"2 1 15383 15118 15384 XOR";
"2 1 14898 15123 15385 XOR";
"2 1 15318 15385 15386 AND";
"2 1 15386 15123 15387 XOR";
"2 1 14901 15128 15388 XOR";
"2 1 15318 15388 15389 AND";
"2 1 15389 15128 15390 XOR";
"2 1 14904 15133 15391 XOR";
"2 1 15318 15391 15392 AND";
"2 1 15392 15133 15393 XOR";
"2 1 14907 15138 15394 XOR";
"2 1 15318 15394 15395 AND";
"2 1 15395 15138 15396 XOR";
"2 1 14910 15143 15397 XOR";
"2 1 15318 15397 15398 AND";
"2 1 15398 15143 15399 XOR";
"2 1 14913 15148 15400 XOR";
"2 1 15318 15400 15401 AND";
"2 1 15401 15148 15402 XOR";
"2 1 14916 15153 15403 XOR";
"2 1 15318 15403 15404 AND";
"2 1 15404 15153 15405 XOR";
"2 1 14919 15158 15406 XOR";
"2 1 15318 15406 15407 AND";
"2 1 15407 15158 15408 XOR";
"2 1 14922 15163 15409 XOR";
"2 1 15318 15409 15410 AND";
"2 1 15410 15163 15411 XOR";
"2 1 14925 15168 15412 XOR";
"2 1 15318 15412 15413 AND";
"2 1 15413 15168 15414 XOR";
"2 1 14928 15173 15415 XOR";
"2 1 15318 15415 15416 AND";
"2 1 15416 15173 15417 XOR";
"2 1 14931 15178 15418 XOR";
"2 1 15318 15418 15419 AND";
"2 1 15419 15178 15420 XOR";
"2 1 14934 15183 15421 XOR";
"2 1 15318 15421 15422 AND";
"2 1 15422 15183 15423 XOR";
"2 1 14937 15188 15424 XOR";
"2 1 15318 15424 15425 AND";
"2 1 15425 15188 15426 XOR";
"2 1 14940 15193 15427 XOR";
"2 1 15318 15427 15428 AND";
"2 1 15428 15193 15429 XOR";
"2 1 14943 15198 15430 XOR";
"2 1 15318 15430 15431 AND";
"2 1 15431 15198 15432 XOR";
"2 1 14946 15203 15433 XOR";
"2 1 15318 15433 15434 AND";
"2 1 15434 15203 15435 XOR";
"2 1 14949 15208 15436 XOR";
"2 1 15318 15436 15437 AND";
"2 1 15437 15208 15438 XOR";
"2 1 14952 15213 15439 XOR";
"2 1 15318 15439 15440 AND";
"2 1 15440 15213 15441 XOR";
"2 1 14955 15218 15442 XOR";
"2 1 15318 15442 15443 AND";
"2 1 15443 15218 15444 XOR";
"2 1 14958 15223 15445 XOR";
"2 1 15318 15445 15446 AND";
"2 1 15446 15223 15447 XOR";
"2 1 14961 15228 15448 XOR";
"2 1 15318 15448 15449 AND";
"2 1 15449 15228 15450 XOR";
"2 1 14964 15233 15451 XOR";
"2 1 15318 15451 15452 AND";
"2 1 15452 15233 15453 XOR";
"2 1 14967 15238 15454 XOR";
"2 1 15318 15454 15455 AND";
"2 1 15455 15238 15456 XOR";
"2 1 14970 15243 15457 XOR";
"2 1 15318 15457 15458 AND";
"2 1 15458 15243 15459 XOR";
"2 1 14973 15248 15460 XOR";
"2 1 15318 15460 15461 AND";
"2 1 15461 15248 15462 XOR";
"2 1 14976 15253 15463 XOR";
"2 1 15318 15463 15464 AND";
"2 1 15464 15253 15465 XOR";
"2 1 14979 15258 15466 XOR";
"2 1 15318 15466 15467 AND";
"2 1 15467 15258 15468 XOR";
"2 1 14982 15263 15469 XOR";
"2 1 15318 15469 15470 AND";
"2 1 15470 15263 15471 XOR";
"2 1 14985 15268 15472 XOR";
"2 1 15318 15472 15473 AND";
"2 1 15473 15268 15474 XOR";
"2 1 14988 15273 15475 XOR";
"2 1 15318 15475 15476 AND";
"2 1 15476 15273 15477 XOR";
"2 1 14991 15278 15478 XOR";
"2 1 15318 15478 15479 AND";
"2 1 15479 15278 15480 XOR";
"2 1 14994 15283 15481 XOR";
"2 1 15318 15481 15482 AND";
"2 1 15482 15283 15483 XOR";
"2 1 14997 15288 15484 XOR";
"2 1 15318 15484 15485 AND";
"2 1 15485 15288 15486 XOR";
"2 1 15000 15293 15487 XOR";
"2 1 15318 15487 15488 AND";
"2 1 15488 15293 15489 XOR";
"2 1 15003 15298 15490 XOR";
"2 1 15318 15490 15491 AND";
"2 1 15491 15298 15492 XOR";
"2 1 15006 15303 15493 XOR";
"2 1 15318 15493 15494 AND";
"2 1 15494 15303 15495 XOR";
"2 1 15009 15308 15496 XOR";
"2 1 15318 15496 15497 AND";
"2 1 15497 15308 15498 XOR";
"2 1 15012 15313 15499 XOR";
"2 1 15318 15499 15500 AND";
"2 1 15500 15313 15501 XOR";
"1 1 15318 15502 INV";
"2 1 2 64 15503 XOR";
"2 1 15503 64 15504 AND";
"2 1 15321 65 15505 XOR";
"2 1 15504 65 15506 XOR";
"2 1 15505 15504 15507 XOR";
"2 1 15505 15506 15508 AND";
"2 1 15504 15508 15509 XOR";
"2 1 15324 66 15510 XOR";
"2 1 15509 66 15511 XOR";
"2 1 15510 15509 15512 XOR";
"2 1 15510 15511 15513 AND";
"2 1 15509 15513 15514 XOR";
"2 1 15327 67 15515 XOR";
"2 1 15514 67 15516 XOR";
"2 1 15515 15514 15517 XOR";
"2 1 15515 15516 15518 AND";
"2 1 15514 15518 15519 XOR";
"2 1 15330 68 15520 XOR";
"2 1 15519 68 15521 XOR";
"2 1 15520 15519 15522 XOR";
"2 1 15520 15521 15523 AND";
"2 1 15519 15523 15524 XOR";
"2 1 15333 69 15525 XOR";
"2 1 15524 69 15526 XOR";
"2 1 15525 15524 15527 XOR";
"2 1 15525 15526 15528 AND";
"2 1 15524 15528 15529 XOR";
"2 1 15336 70 15530 XOR";
"2 1 15529 70 15531 XOR";
"2 1 15530 15529 15532 XOR";
"2 1 15530 15531 15533 AND";
"2 1 15529 15533 15534 XOR";
"2 1 15339 71 15535 XOR";
"2 1 15534 71 15536 XOR";
"2 1 15535 15534 15537 XOR";
"2 1 15535 15536 15538 AND";
"2 1 15534 15538 15539 XOR";
"2 1 15342 72 15540 XOR";
"2 1 15539 72 15541 XOR";
"2 1 15540 15539 15542 XOR";
"2 1 15540 15541 15543 AND";
"2 1 15539 15543 15544 XOR";
"2 1 15345 73 15545 XOR";
"2 1 15544 73 15546 XOR";
"2 1 15545 15544 15547 XOR";
"2 1 15545 15546 15548 AND";
"2 1 15544 15548 15549 XOR";
"2 1 15348 74 15550 XOR";
"2 1 15549 74 15551 XOR";
"2 1 15550 15549 15552 XOR";
"2 1 15550 15551 15553 AND";
"2 1 15549 15553 15554 XOR";
"2 1 15351 75 15555 XOR";
"2 1 15554 75 15556 XOR";
"2 1 15555 15554 15557 XOR";
"2 1 15555 15556 15558 AND";
"2 1 15554 15558 15559 XOR";
"2 1 15354 76 15560 XOR";
"2 1 15559 76 15561 XOR";
"2 1 15560 15559 15562 XOR";
"2 1 15560 15561 15563 AND";
"2 1 15559 15563 15564 XOR";
"2 1 15357 77 15565 XOR";
"2 1 15564 77 15566 XOR";
"2 1 15565 15564 15567 XOR";
"2 1 15565 15566 15568 AND";
"2 1 15564 15568 15569 XOR";
"2 1 15360 78 15570 XOR";
"2 1 15569 78 15571 XOR";
"2 1 15570 15569 15572 XOR";
"2 1 15570 15571 15573 AND";
"2 1 15569 15573 15574 XOR";
"2 1 15363 79 15575 XOR";
"2 1 15574 79 15576 XOR";
"2 1 15575 15574 15577 XOR";
"2 1 15575 15576 15578 AND";
"2 1 15574 15578 15579 XOR";
"2 1 15366 80 15580 XOR";
"2 1 15579 80 15581 XOR";
"2 1 15580 15579 15582 XOR";
"2 1 15580 15581 15583 AND";
"2 1 15579 15583 15584 XOR";
"2 1 15369 81 15585 XOR";
"2 1 15584 81 15586 XOR";
"2 1 15585 15584 15587 XOR";
"2 1 15585 15586 15588 AND";
"2 1 15584 15588 15589 XOR";
"2 1 15372 82 15590 XOR";
"2 1 15589 82 15591 XOR";
"2 1 15590 15589 15592 XOR";
"2 1 15590 15591 15593 AND";
"2 1 15589 15593 15594 XOR";
"2 1 15375 83 15595 XOR";
"2 1 15594 83 15596 XOR";
"2 1 15595 15594 15597 XOR";
"2 1 15595 15596 15598 AND";
"2 1 15594 15598 15599 XOR";
"2 1 15378 84 15600 XOR";
"2 1 15599 84 15601 XOR";
"2 1 15600 15599 15602 XOR";
"2 1 15600 15601 15603 AND";
"2 1 15599 15603 15604 XOR";
"2 1 15381 85 15605 XOR";
"2 1 15604 85 15606 XOR";
"2 1 15605 15604 15607 XOR";
"2 1 15605 15606 15608 AND";
"2 1 15604 15608 15609 XOR";
"2 1 15384 86 15610 XOR";
"2 1 15609 86 15611 XOR";
"2 1 15610 15609 15612 XOR";
"2 1 15610 15611 15613 AND";
"2 1 15609 15613 15614 XOR";
"2 1 15387 87 15615 XOR";
"2 1 15614 87 15616 XOR";
"2 1 15615 15614 15617 XOR";
"2 1 15615 15616 15618 AND";
"2 1 15614 15618 15619 XOR";
"2 1 15390 88 15620 XOR";
"2 1 15619 88 15621 XOR";
"2 1 15620 15619 15622 XOR";
"2 1 15620 15621 15623 AND";
"2 1 15619 15623 15624 XOR";
"2 1 15393 89 15625 XOR";
"2 1 15624 89 15626 XOR";
"2 1 15625 15624 15627 XOR";
"2 1 15625 15626 15628 AND";
"2 1 15624 15628 15629 XOR";
"2 1 15396 90 15630 XOR";
"2 1 15629 90 15631 XOR";
"2 1 15630 15629 15632 XOR";
"2 1 15630 15631 15633 AND";
"2 1 15629 15633 15634 XOR";
"2 1 15399 91 15635 XOR";
"2 1 15634 91 15636 XOR";
"2 1 15635 15634 15637 XOR";
"2 1 15635 15636 15638 AND";
"2 1 15634 15638 15639 XOR";
"2 1 15402 92 15640 XOR";
"2 1 15639 92 15641 XOR";
"2 1 15640 15639 15642 XOR";
"2 1 15640 15641 15643 AND";
"2 1 15639 15643 15644 XOR";
"2 1 15405 93 15645 XOR";
"2 1 15644 93 15646 XOR";
"2 1 15645 15644 15647 XOR";
"2 1 15645 15646 15648 AND";
"2 1 15644 15648 15649 XOR";
"2 1 15408 94 15650 XOR";
"2 1 15649 94 15651 XOR";
"2 1 15650 15649 15652 XOR";
"2 1 15650 15651 15653 AND";
"2 1 15649 15653 15654 XOR";
"2 1 15411 95 15655 XOR";
"2 1 15654 95 15656 XOR";
"2 1 15655 15654 15657 XOR";
"2 1 15655 15656 15658 AND";
"2 1 15654 15658 15659 XOR";
"2 1 15414 96 15660 XOR";
"2 1 15659 96 15661 XOR";
"2 1 15660 15659 15662 XOR";
"2 1 15660 15661 15663 AND";
"2 1 15659 15663 15664 XOR";
"2 1 15417 97 15665 XOR";
"2 1 15664 97 15666 XOR";
"2 1 15665 15664 15667 XOR";
"2 1 15665 15666 15668 AND";
"2 1 15664 15668 15669 XOR";
"2 1 15420 98 15670 XOR";
"2 1 15669 98 15671 XOR";
"2 1 15670 15669 15672 XOR";
"2 1 15670 15671 15673 AND";
"2 1 15669 15673 15674 XOR";
"2 1 15423 99 15675 XOR";
"2 1 15674 99 15676 XOR";
"2 1 15675 15674 15677 XOR";
"2 1 15675 15676 15678 AND";
"2 1 15674 15678 15679 XOR";
"2 1 15426 100 15680 XOR";
"2 1 15679 100 15681 XOR";
"2 1 15680 15679 15682 XOR";
"2 1 15680 15681 15683 AND";
"2 1 15679 15683 15684 XOR";
"2 1 15429 101 15685 XOR";
"2 1 15684 101 15686 XOR";
"2 1 15685 15684 15687 XOR";
"2 1 15685 15686 15688 AND";
"2 1 15684 15688 15689 XOR";
"2 1 15432 102 15690 XOR";
"2 1 15689 102 15691 XOR";
"2 1 15690 15689 15692 XOR";
"2 1 15690 15691 15693 AND";
"2 1 15689 15693 15694 XOR";
"2 1 15435 103 15695 XOR";
"2 1 15694 103 15696 XOR";
"2 1 15695 15694 15697 XOR";
"2 1 15695 15696 15698 AND";
"2 1 15694 15698 15699 XOR";
"2 1 15438 104 15700 XOR";
"2 1 15699 104 15701 XOR";
"2 1 15700 15699 15702 XOR";
"2 1 15700 15701 15703 AND";
"2 1 15699 15703 15704 XOR";
"2 1 15441 105 15705 XOR";
"2 1 15704 105 15706 XOR";
"2 1 15705 15704 15707 XOR";
"2 1 15705 15706 15708 AND";
"2 1 15704 15708 15709 XOR";
"2 1 15444 106 15710 XOR";
"2 1 15709 106 15711 XOR";
"2 1 15710 15709 15712 XOR";
"2 1 15710 15711 15713 AND";
"2 1 15709 15713 15714 XOR";
"2 1 15447 107 15715 XOR";
"2 1 15714 107 15716 XOR";
"2 1 15715 15714 15717 XOR";
"2 1 15715 15716 15718 AND";
"2 1 15714 15718 15719 XOR";
"2 1 15450 108 15720 XOR";
"2 1 15719 108 15721 XOR";
"2 1 15720 15719 15722 XOR";
"2 1 15720 15721 15723 AND";
"2 1 15719 15723 15724 XOR";
"2 1 15453 109 15725 XOR";
"2 1 15724 109 15726 XOR";
"2 1 15725 15724 15727 XOR";
"2 1 15725 15726 15728 AND";
"2 1 15724 15728 15729 XOR";
"2 1 15456 110 15730 XOR";
"2 1 15729 110 15731 XOR";
"2 1 15730 15729 15732 XOR";
"2 1 15730 15731 15733 AND";
"2 1 15729 15733 15734 XOR";
"2 1 15459 111 15735 XOR";
"2 1 15734 111 15736 XOR";
"2 1 15735 15734 15737 XOR";
"2 1 15735 15736 15738 AND";
"2 1 15734 15738 15739 XOR";
"2 1 15462 112 15740 XOR";
"2 1 15739 112 15741 XOR";
"2 1 15740 15739 15742 XOR";
"2 1 15740 15741 15743 AND";
"2 1 15739 15743 15744 XOR";
"2 1 15465 113 15745 XOR";
"2 1 15744 113 15746 XOR";
"2 1 15745 15744 15747 XOR";
"2 1 15745 15746 15748 AND";
"2 1 15744 15748 15749 XOR";
"2 1 15468 114 15750 XOR";
"2 1 15749 114 15751 XOR";
"2 1 15750 15749 15752 XOR";
"2 1 15750 15751 15753 AND";
"2 1 15749 15753 15754 XOR";
"2 1 15471 115 15755 XOR";
"2 1 15754 115 15756 XOR";
"2 1 15755 15754 15757 XOR";
"2 1 15755 15756 15758 AND";
"2 1 15754 15758 15759 XOR";
"2 1 15474 116 15760 XOR";
"2 1 15759 116 15761 XOR";
"2 1 15760 15759 15762 XOR";
"2 1 15760 15761 15763 AND";
"2 1 15759 15763 15764 XOR";
"2 1 15477 117 15765 XOR";
"2 1 15764 117 15766 XOR";
"2 1 15765 15764 15767 XOR";
"2 1 15765 15766 15768 AND";
"2 1 15764 15768 15769 XOR";
"2 1 15480 118 15770 XOR";
"2 1 15769 118 15771 XOR";
"2 1 15770 15769 15772 XOR";
"2 1 15770 15771 15773 AND";
"2 1 15769 15773 15774 XOR";
"2 1 15483 119 15775 XOR";
"2 1 15774 119 15776 XOR";
"2 1 15775 15774 15777 XOR";
"2 1 15775 15776 15778 AND";
"2 1 15774 15778 15779 XOR";
"2 1 15486 120 15780 XOR";
"2 1 15779 120 15781 XOR";
"2 1 15780 15779 15782 XOR";
"2 1 15780 15781 15783 AND";
"2 1 15779 15783 15784 XOR";
"2 1 15489 121 15785 XOR";
"2 1 15784 121 15786 XOR";
"2 1 15785 15784 15787 XOR";
"2 1 15785 15786 15788 AND";
"2 1 15784 15788 15789 XOR";
"2 1 15492 122 15790 XOR";
"2 1 15789 122 15791 XOR";
"2 1 15790 15789 15792 XOR";
"2 1 15790 15791 15793 AND";
"2 1 15789 15793 15794 XOR";
"2 1 15495 123 15795 XOR";
"2 1 15794 123 15796 XOR";
"2 1 15795 15794 15797 XOR";
"2 1 15795 15796 15798 AND";
"2 1 15794 15798 15799 XOR";
"2 1 15498 124 15800 XOR";
"2 1 15799 124 15801 XOR";
"2 1 15800 15799 15802 XOR";
"2 1 15800 15801 15803 AND";
"2 1 15799 15803 15804 XOR";
"2 1 15501 125 15805 XOR";
"2 1 15804 125 15806 XOR";
"2 1 15805 15804 15807 XOR";
"2 1 15805 15806 15808 AND";
"2 1 15804 15808 15809 XOR";
"2 1 15809 130 15810 AND";
"2 1 15809 130 15811 XOR";
"2 1 15811 15810 15812 XOR";
"2 1 2 15503 15813 XOR";
"2 1 15812 15813 15814 AND";
"2 1 15814 15503 15815 XOR";
"2 1 15321 15507 15816 XOR";
"2 1 15812 15816 15817 AND";
"2 1 15817 15507 15818 XOR";
"2 1 15324 15512 15819 XOR";
"2 1 15812 15819 15820 AND";
"2 1 15820 15512 15821 XOR";
"2 1 15327 15517 15822 XOR";
"2 1 15812 15822 15823 AND";
"2 1 15823 15517 15824 XOR";
"2 1 15330 15522 15825 XOR";
"2 1 15812 15825 15826 AND";
"2 1 15826 15522 15827 XOR";
"2 1 15333 15527 15828 XOR";
"2 1 15812 15828 15829 AND";
"2 1 15829 15527 15830 XOR";
"2 1 15336 15532 15831 XOR";
"2 1 15812 15831 15832 AND";
"2 1 15832 15532 15833 XOR";
"2 1 15339 15537 15834 XOR";
"2 1 15812 15834 15835 AND";
"2 1 15835 15537 15836 XOR";
"2 1 15342 15542 15837 XOR";
"2 1 15812 15837 15838 AND";
"2 1 15838 15542 15839 XOR";
"2 1 15345 15547 15840 XOR";
"2 1 15812 15840 15841 AND";
"2 1 15841 15547 15842 XOR";
"2 1 15348 15552 15843 XOR";
"2 1 15812 15843 15844 AND";
"2 1 15844 15552 15845 XOR";
"2 1 15351 15557 15846 XOR";
"2 1 15812 15846 15847 AND";
"2 1 15847 15557 15848 XOR";
"2 1 15354 15562 15849 XOR";
"2 1 15812 15849 15850 AND";
"2 1 15850 15562 15851 XOR";
"2 1 15357 15567 15852 XOR";
"2 1 15812 15852 15853 AND";
"2 1 15853 15567 15854 XOR";
"2 1 15360 15572 15855 XOR";
"2 1 15812 15855 15856 AND";
"2 1 15856 15572 15857 XOR";
"2 1 15363 15577 15858 XOR";
"2 1 15812 15858 15859 AND";
"2 1 15859 15577 15860 XOR";
"2 1 15366 15582 15861 XOR";
"2 1 15812 15861 15862 AND";
"2 1 15862 15582 15863 XOR";
"2 1 15369 15587 15864 XOR";
"2 1 15812 15864 15865 AND";
"2 1 15865 15587 15866 XOR";
"2 1 15372 15592 15867 XOR";
"2 1 15812 15867 15868 AND";
"2 1 15868 15592 15869 XOR";
"2 1 15375 15597 15870 XOR";
"2 1 15812 15870 15871 AND";
"2 1 15871 15597 15872 XOR";
"2 1 15378 15602 15873 XOR";
"2 1 15812 15873 15874 AND";
"2 1 15874 15602 15875 XOR";
"2 1 15381 15607 15876 XOR";
"2 1 15812 15876 15877 AND";
"2 1 15877 15607 15878 XOR";
"2 1 15384 15612 15879 XOR";
"2 1 15812 15879 15880 AND";
"2 1 15880 15612 15881 XOR";
"2 1 15387 15617 15882 XOR";
"2 1 15812 15882 15883 AND";
"2 1 15883 15617 15884 XOR";
"2 1 15390 15622 15885 XOR";
"2 1 15812 15885 15886 AND";
"2 1 15886 15622 15887 XOR";
"2 1 15393 15627 15888 XOR";
"2 1 15812 15888 15889 AND";
"2 1 15889 15627 15890 XOR";
"2 1 15396 15632 15891 XOR";
"2 1 15812 15891 15892 AND";
"2 1 15892 15632 15893 XOR";
"2 1 15399 15637 15894 XOR";
"2 1 15812 15894 15895 AND";
"2 1 15895 15637 15896 XOR";
"2 1 15402 15642 15897 XOR";
"2 1 15812 15897 15898 AND";
"2 1 15898 15642 15899 XOR";
"2 1 15405 15647 15900 XOR";
"2 1 15812 15900 15901 AND";
"2 1 15901 15647 15902 XOR";
"2 1 15408 15652 15903 XOR";
"2 1 15812 15903 15904 AND";
"2 1 15904 15652 15905 XOR";
"2 1 15411 15657 15906 XOR";
"2 1 15812 15906 15907 AND";
"2 1 15907 15657 15908 XOR";
"2 1 15414 15662 15909 XOR";
"2 1 15812 15909 15910 AND";
"2 1 15910 15662 15911 XOR";
"2 1 15417 15667 15912 XOR";
"2 1 15812 15912 15913 AND";
"2 1 15913 15667 15914 XOR";
"2 1 15420 15672 15915 XOR";
"2 1 15812 15915 15916 AND";
"2 1 15916 15672 15917 XOR";
"2 1 15423 15677 15918 XOR";
"2 1 15812 15918 15919 AND";
"2 1 15919 15677 15920 XOR";
"2 1 15426 15682 15921 XOR";
"2 1 15812 15921 15922 AND";
"2 1 15922 15682 15923 XOR";
"2 1 15429 15687 15924 XOR";
"2 1 15812 15924 15925 AND";
"2 1 15925 15687 15926 XOR";
"2 1 15432 15692 15927 XOR";
"2 1 15812 15927 15928 AND";
"2 1 15928 15692 15929 XOR";
"2 1 15435 15697 15930 XOR";
"2 1 15812 15930 15931 AND";
"2 1 15931 15697 15932 XOR";
"2 1 15438 15702 15933 XOR";
"2 1 15812 15933 15934 AND";
"2 1 15934 15702 15935 XOR";
"2 1 15441 15707 15936 XOR";
"2 1 15812 15936 15937 AND";
"2 1 15937 15707 15938 XOR";
"2 1 15444 15712 15939 XOR";
"2 1 15812 15939 15940 AND";
"2 1 15940 15712 15941 XOR";
"2 1 15447 15717 15942 XOR";
"2 1 15812 15942 15943 AND";
"2 1 15943 15717 15944 XOR";
"2 1 15450 15722 15945 XOR";
"2 1 15812 15945 15946 AND";
"2 1 15946 15722 15947 XOR";
"2 1 15453 15727 15948 XOR";
"2 1 15812 15948 15949 AND";
"2 1 15949 15727 15950 XOR";
"2 1 15456 15732 15951 XOR";
"2 1 15812 15951 15952 AND";
"2 1 15952 15732 15953 XOR";
"2 1 15459 15737 15954 XOR";
"2 1 15812 15954 15955 AND";
"2 1 15955 15737 15956 XOR";
"2 1 15462 15742 15957 XOR";
"2 1 15812 15957 15958 AND";
"2 1 15958 15742 15959 XOR";
"2 1 15465 15747 15960 XOR";
"2 1 15812 15960 15961 AND";
"2 1 15961 15747 15962 XOR";
"2 1 15468 15752 15963 XOR";
"2 1 15812 15963 15964 AND";
"2 1 15964 15752 15965 XOR";
"2 1 15471 15757 15966 XOR";
"2 1 15812 15966 15967 AND";
"2 1 15967 15757 15968 XOR";
"2 1 15474 15762 15969 XOR";
"2 1 15812 15969 15970 AND";
"2 1 15970 15762 15971 XOR";
"2 1 15477 15767 15972 XOR";
"2 1 15812 15972 15973 AND";
"2 1 15973 15767 15974 XOR";
"2 1 15480 15772 15975 XOR";
"2 1 15812 15975 15976 AND";
"2 1 15976 15772 15977 XOR";
"2 1 15483 15777 15978 XOR";
"2 1 15812 15978 15979 AND";
"2 1 15979 15777 15980 XOR";
"2 1 15486 15782 15981 XOR";
"2 1 15812 15981 15982 AND";
"2 1 15982 15782 15983 XOR";
"2 1 15489 15787 15984 XOR";
"2 1 15812 15984 15985 AND";
"2 1 15985 15787 15986 XOR";
"2 1 15492 15792 15987 XOR";
"2 1 15812 15987 15988 AND";
"2 1 15988 15792 15989 XOR";
"2 1 15495 15797 15990 XOR";
"2 1 15812 15990 15991 AND";
"2 1 15991 15797 15992 XOR";
"2 1 15498 15802 15993 XOR";
"2 1 15812 15993 15994 AND";
"2 1 15994 15802 15995 XOR";
"2 1 15501 15807 15996 XOR";
"2 1 15812 15996 15997 AND";
"2 1 15997 15807 15998 XOR";
"1 1 15812 15999 INV";
"2 1 1 64 16000 XOR";
"2 1 16000 64 16001 AND";
"2 1 15815 65 16002 XOR";
"2 1 16001 65 16003 XOR";
"2 1 16002 16001 16004 XOR";
"2 1 16002 16003 16005 AND";
"2 1 16001 16005 16006 XOR";
"2 1 15818 66 16007 XOR";
"2 1 16006 66 16008 XOR";
"2 1 16007 16006 16009 XOR";
"2 1 16007 16008 16010 AND";
"2 1 16006 16010 16011 XOR";
"2 1 15821 67 16012 XOR";
"2 1 16011 67 16013 XOR";
"2 1 16012 16011 16014 XOR";
"2 1 16012 16013 16015 AND";
"2 1 16011 16015 16016 XOR";
"2 1 15824 68 16017 XOR";
"2 1 16016 68 16018 XOR";
"2 1 16017 16016 16019 XOR";
"2 1 16017 16018 16020 AND";
"2 1 16016 16020 16021 XOR";
"2 1 15827 69 16022 XOR";
"2 1 16021 69 16023 XOR";
"2 1 16022 16021 16024 XOR";
"2 1 16022 16023 16025 AND";
"2 1 16021 16025 16026 XOR";
"2 1 15830 70 16027 XOR";
"2 1 16026 70 16028 XOR";
"2 1 16027 16026 16029 XOR";
"2 1 16027 16028 16030 AND";
"2 1 16026 16030 16031 XOR";
"2 1 15833 71 16032 XOR";
"2 1 16031 71 16033 XOR";
"2 1 16032 16031 16034 XOR";
"2 1 16032 16033 16035 AND";
"2 1 16031 16035 16036 XOR";
"2 1 15836 72 16037 XOR";
"2 1 16036 72 16038 XOR";
"2 1 16037 16036 16039 XOR";
"2 1 16037 16038 16040 AND";
"2 1 16036 16040 16041 XOR";
"2 1 15839 73 16042 XOR";
"2 1 16041 73 16043 XOR";
"2 1 16042 16041 16044 XOR";
"2 1 16042 16043 16045 AND";
"2 1 16041 16045 16046 XOR";
"2 1 15842 74 16047 XOR";
"2 1 16046 74 16048 XOR";
"2 1 16047 16046 16049 XOR";
"2 1 16047 16048 16050 AND";
"2 1 16046 16050 16051 XOR";
"2 1 15845 75 16052 XOR";
"2 1 16051 75 16053 XOR";
"2 1 16052 16051 16054 XOR";
"2 1 16052 16053 16055 AND";
"2 1 16051 16055 16056 XOR";
"2 1 15848 76 16057 XOR";
"2 1 16056 76 16058 XOR";
"2 1 16057 16056 16059 XOR";
"2 1 16057 16058 16060 AND";
"2 1 16056 16060 16061 XOR";
"2 1 15851 77 16062 XOR";
"2 1 16061 77 16063 XOR";
"2 1 16062 16061 16064 XOR";
"2 1 16062 16063 16065 AND";
"2 1 16061 16065 16066 XOR";
"2 1 15854 78 16067 XOR";
"2 1 16066 78 16068 XOR";
"2 1 16067 16066 16069 XOR";
"2 1 16067 16068 16070 AND";
"2 1 16066 16070 16071 XOR";
"2 1 15857 79 16072 XOR";
"2 1 16071 79 16073 XOR";
"2 1 16072 16071 16074 XOR";
"2 1 16072 16073 16075 AND";
"2 1 16071 16075 16076 XOR";
"2 1 15860 80 16077 XOR";
"2 1 16076 80 16078 XOR";
"2 1 16077 16076 16079 XOR";
"2 1 16077 16078 16080 AND";
"2 1 16076 16080 16081 XOR";
"2 1 15863 81 16082 XOR";
"2 1 16081 81 16083 XOR";
"2 1 16082 16081 16084 XOR";
"2 1 16082 16083 16085 AND";
"2 1 16081 16085 16086 XOR";
"2 1 15866 82 16087 XOR";
"2 1 16086 82 16088 XOR";
"2 1 16087 16086 16089 XOR";
"2 1 16087 16088 16090 AND";
"2 1 16086 16090 16091 XOR";
"2 1 15869 83 16092 XOR";
"2 1 16091 83 16093 XOR";
"2 1 16092 16091 16094 XOR";
"2 1 16092 16093 16095 AND";
"2 1 16091 16095 16096 XOR";
"2 1 15872 84 16097 XOR";
"2 1 16096 84 16098 XOR";
"2 1 16097 16096 16099 XOR";
"2 1 16097 16098 16100 AND";
"2 1 16096 16100 16101 XOR";
"2 1 15875 85 16102 XOR";
"2 1 16101 85 16103 XOR";
"2 1 16102 16101 16104 XOR";
"2 1 16102 16103 16105 AND";
"2 1 16101 16105 16106 XOR";
"2 1 15878 86 16107 XOR";
"2 1 16106 86 16108 XOR";
"2 1 16107 16106 16109 XOR";
"2 1 16107 16108 16110 AND";
"2 1 16106 16110 16111 XOR";
"2 1 15881 87 16112 XOR";
"2 1 16111 87 16113 XOR";
"2 1 16112 16111 16114 XOR";
"2 1 16112 16113 16115 AND";
"2 1 16111 16115 16116 XOR";
"2 1 15884 88 16117 XOR";
"2 1 16116 88 16118 XOR";
"2 1 16117 16116 16119 XOR";
"2 1 16117 16118 16120 AND";
"2 1 16116 16120 16121 XOR";
"2 1 15887 89 16122 XOR";
"2 1 16121 89 16123 XOR";
"2 1 16122 16121 16124 XOR";
"2 1 16122 16123 16125 AND";
"2 1 16121 16125 16126 XOR";
"2 1 15890 90 16127 XOR";
"2 1 16126 90 16128 XOR";
"2 1 16127 16126 16129 XOR";
"2 1 16127 16128 16130 AND";
"2 1 16126 16130 16131 XOR";
"2 1 15893 91 16132 XOR";
"2 1 16131 91 16133 XOR";
"2 1 16132 16131 16134 XOR";
"2 1 16132 16133 16135 AND";
"2 1 16131 16135 16136 XOR";
"2 1 15896 92 16137 XOR";
"2 1 16136 92 16138 XOR";
"2 1 16137 16136 16139 XOR";
"2 1 16137 16138 16140 AND";
"2 1 16136 16140 16141 XOR";
"2 1 15899 93 16142 XOR";
"2 1 16141 93 16143 XOR";
"2 1 16142 16141 16144 XOR";
"2 1 16142 16143 16145 AND";
"2 1 16141 16145 16146 XOR";
"2 1 15902 94 16147 XOR";
"2 1 16146 94 16148 XOR";
"2 1 16147 16146 16149 XOR";
"2 1 16147 16148 16150 AND";
"2 1 16146 16150 16151 XOR";
"2 1 15905 95 16152 XOR";
"2 1 16151 95 16153 XOR";
"2 1 16152 16151 16154 XOR";
"2 1 16152 16153 16155 AND";
"2 1 16151 16155 16156 XOR";
"2 1 15908 96 16157 XOR";
"2 1 16156 96 16158 XOR";
"2 1 16157 16156 16159 XOR";
"2 1 16157 16158 16160 AND";
"2 1 16156 16160 16161 XOR";
"2 1 15911 97 16162 XOR";
"2 1 16161 97 16163 XOR";
"2 1 16162 16161 16164 XOR";
"2 1 16162 16163 16165 AND";
"2 1 16161 16165 16166 XOR";
"2 1 15914 98 16167 XOR";
"2 1 16166 98 16168 XOR";
"2 1 16167 16166 16169 XOR";
"2 1 16167 16168 16170 AND";
"2 1 16166 16170 16171 XOR";
"2 1 15917 99 16172 XOR";
"2 1 16171 99 16173 XOR";
"2 1 16172 16171 16174 XOR";
"2 1 16172 16173 16175 AND";
"2 1 16171 16175 16176 XOR";
"2 1 15920 100 16177 XOR";
"2 1 16176 100 16178 XOR";
"2 1 16177 16176 16179 XOR";
"2 1 16177 16178 16180 AND";
"2 1 16176 16180 16181 XOR";
"2 1 15923 101 16182 XOR";
"2 1 16181 101 16183 XOR";
"2 1 16182 16181 16184 XOR";
"2 1 16182 16183 16185 AND";
"2 1 16181 16185 16186 XOR";
"2 1 15926 102 16187 XOR";
"2 1 16186 102 16188 XOR";
"2 1 16187 16186 16189 XOR";
"2 1 16187 16188 16190 AND";
"2 1 16186 16190 16191 XOR";
"2 1 15929 103 16192 XOR";
"2 1 16191 103 16193 XOR";
"2 1 16192 16191 16194 XOR";
"2 1 16192 16193 16195 AND";
"2 1 16191 16195 16196 XOR";
"2 1 15932 104 16197 XOR";
"2 1 16196 104 16198 XOR";
"2 1 16197 16196 16199 XOR";
"2 1 16197 16198 16200 AND";
"2 1 16196 16200 16201 XOR";
"2 1 15935 105 16202 XOR";
"2 1 16201 105 16203 XOR";
"2 1 16202 16201 16204 XOR";
"2 1 16202 16203 16205 AND";
"2 1 16201 16205 16206 XOR";
"2 1 15938 106 16207 XOR";
"2 1 16206 106 16208 XOR";
"2 1 16207 16206 16209 XOR";
"2 1 16207 16208 16210 AND";
"2 1 16206 16210 16211 XOR";
"2 1 15941 107 16212 XOR";
"2 1 16211 107 16213 XOR";
"2 1 16212 16211 16214 XOR";
"2 1 16212 16213 16215 AND";
"2 1 16211 16215 16216 XOR";
"2 1 15944 108 16217 XOR";
"2 1 16216 108 16218 XOR";
"2 1 16217 16216 16219 XOR";
"2 1 16217 16218 16220 AND";
"2 1 16216 16220 16221 XOR";
"2 1 15947 109 16222 XOR";
"2 1 16221 109 16223 XOR";
"2 1 16222 16221 16224 XOR";
"2 1 16222 16223 16225 AND";
"2 1 16221 16225 16226 XOR";
"2 1 15950 110 16227 XOR";
"2 1 16226 110 16228 XOR";
"2 1 16227 16226 16229 XOR";
"2 1 16227 16228 16230 AND";
"2 1 16226 16230 16231 XOR";
"2 1 15953 111 16232 XOR";
"2 1 16231 111 16233 XOR";
"2 1 16232 16231 16234 XOR";
"2 1 16232 16233 16235 AND";
"2 1 16231 16235 16236 XOR";
"2 1 15956 112 16237 XOR";
"2 1 16236 112 16238 XOR";
"2 1 16237 16236 16239 XOR";
"2 1 16237 16238 16240 AND";
"2 1 16236 16240 16241 XOR";
"2 1 15959 113 16242 XOR";
"2 1 16241 113 16243 XOR";
"2 1 16242 16241 16244 XOR";
"2 1 16242 16243 16245 AND";
"2 1 16241 16245 16246 XOR";
"2 1 15962 114 16247 XOR";
"2 1 16246 114 16248 XOR";
"2 1 16247 16246 16249 XOR";
"2 1 16247 16248 16250 AND";
"2 1 16246 16250 16251 XOR";
"2 1 15965 115 16252 XOR";
"2 1 16251 115 16253 XOR";
"2 1 16252 16251 16254 XOR";
"2 1 16252 16253 16255 AND";
"2 1 16251 16255 16256 XOR";
"2 1 15968 116 16257 XOR";
"2 1 16256 116 16258 XOR";
"2 1 16257 16256 16259 XOR";
"2 1 16257 16258 16260 AND";
"2 1 16256 16260 16261 XOR";
"2 1 15971 117 16262 XOR";
"2 1 16261 117 16263 XOR";
"2 1 16262 16261 16264 XOR";
"2 1 16262 16263 16265 AND";
"2 1 16261 16265 16266 XOR";
"2 1 15974 118 16267 XOR";
"2 1 16266 118 16268 XOR";
"2 1 16267 16266 16269 XOR";
"2 1 16267 16268 16270 AND";
"2 1 16266 16270 16271 XOR";
"2 1 15977 119 16272 XOR";
"2 1 16271 119 16273 XOR";
"2 1 16272 16271 16274 XOR";
"2 1 16272 16273 16275 AND";
"2 1 16271 16275 16276 XOR";
"2 1 15980 120 16277 XOR";
"2 1 16276 120 16278 XOR";
"2 1 16277 16276 16279 XOR";
"2 1 16277 16278 16280 AND";
"2 1 16276 16280 16281 XOR";
"2 1 15983 121 16282 XOR";
"2 1 16281 121 16283 XOR";
"2 1 16282 16281 16284 XOR";
"2 1 16282 16283 16285 AND";
"2 1 16281 16285 16286 XOR";
"2 1 15986 122 16287 XOR";
"2 1 16286 122 16288 XOR";
"2 1 16287 16286 16289 XOR";
"2 1 16287 16288 16290 AND";
"2 1 16286 16290 16291 XOR";
"2 1 15989 123 16292 XOR";
"2 1 16291 123 16293 XOR";
"2 1 16292 16291 16294 XOR";
"2 1 16292 16293 16295 AND";
"2 1 16291 16295 16296 XOR";
"2 1 15992 124 16297 XOR";
"2 1 16296 124 16298 XOR";
"2 1 16297 16296 16299 XOR";
"2 1 16297 16298 16300 AND";
"2 1 16296 16300 16301 XOR";
"2 1 15995 125 16302 XOR";
"2 1 16301 125 16303 XOR";
"2 1 16302 16301 16304 XOR";
"2 1 16302 16303 16305 AND";
"2 1 16301 16305 16306 XOR";
"2 1 15998 126 16307 XOR";
"2 1 16306 126 16308 XOR";
"2 1 16307 16306 16309 XOR";
"2 1 16307 16308 16310 AND";
"2 1 16306 16310 16311 XOR";
"2 1 16311 127 16312 AND";
"2 1 16311 127 16313 XOR";
"2 1 16313 16312 16314 XOR";
"2 1 1 16000 16315 XOR";
"2 1 16314 16315 16316 AND";
"2 1 16316 16000 16317 XOR";
"2 1 15815 16004 16318 XOR";
"2 1 16314 16318 16319 AND";
"2 1 16319 16004 16320 XOR";
"2 1 15818 16009 16321 XOR";
"2 1 16314 16321 16322 AND";
"2 1 16322 16009 16323 XOR";
"2 1 15821 16014 16324 XOR";
"2 1 16314 16324 16325 AND";
"2 1 16325 16014 16326 XOR";
"2 1 15824 16019 16327 XOR";
"2 1 16314 16327 16328 AND";
"2 1 16328 16019 16329 XOR";
"2 1 15827 16024 16330 XOR";
"2 1 16314 16330 16331 AND";
"2 1 16331 16024 16332 XOR";
"2 1 15830 16029 16333 XOR";
"2 1 16314 16333 16334 AND";
"2 1 16334 16029 16335 XOR";
"2 1 15833 16034 16336 XOR";
"2 1 16314 16336 16337 AND";
"2 1 16337 16034 16338 XOR";
"2 1 15836 16039 16339 XOR";
"2 1 16314 16339 16340 AND";
"2 1 16340 16039 16341 XOR";
"2 1 15839 16044 16342 XOR";
"2 1 16314 16342 16343 AND";
"2 1 16343 16044 16344 XOR";
"2 1 15842 16049 16345 XOR";
"2 1 16314 16345 16346 AND";
"2 1 16346 16049 16347 XOR";
"2 1 15845 16054 16348 XOR";
"2 1 16314 16348 16349 AND";
"2 1 16349 16054 16350 XOR";
"2 1 15848 16059 16351 XOR";
"2 1 16314 16351 16352 AND";
"2 1 16352 16059 16353 XOR";
"2 1 15851 16064 16354 XOR";
"2 1 16314 16354 16355 AND";
"2 1 16355 16064 16356 XOR";
"2 1 15854 16069 16357 XOR";
"2 1 16314 16357 16358 AND";
"2 1 16358 16069 16359 XOR";
"2 1 15857 16074 16360 XOR";
"2 1 16314 16360 16361 AND";
"2 1 16361 16074 16362 XOR";
"2 1 15860 16079 16363 XOR";
"2 1 16314 16363 16364 AND";
"2 1 16364 16079 16365 XOR";
"2 1 15863 16084 16366 XOR";
"2 1 16314 16366 16367 AND";
"2 1 16367 16084 16368 XOR";
"2 1 15866 16089 16369 XOR";
"2 1 16314 16369 16370 AND";
"2 1 16370 16089 16371 XOR";
"2 1 15869 16094 16372 XOR";
"2 1 16314 16372 16373 AND";
"2 1 16373 16094 16374 XOR";
"2 1 15872 16099 16375 XOR";
"2 1 16314 16375 16376 AND";
"2 1 16376 16099 16377 XOR";
"2 1 15875 16104 16378 XOR";
"2 1 16314 16378 16379 AND";
"2 1 16379 16104 16380 XOR";
"2 1 15878 16109 16381 XOR";
"2 1 16314 16381 16382 AND";
"2 1 16382 16109 16383 XOR";
"2 1 15881 16114 16384 XOR";
"2 1 16314 16384 16385 AND";
"2 1 16385 16114 16386 XOR";
"2 1 15884 16119 16387 XOR";
"2 1 16314 16387 16388 AND";
"2 1 16388 16119 16389 XOR";
"2 1 15887 16124 16390 XOR";
"2 1 16314 16390 16391 AND";
"2 1 16391 16124 16392 XOR";
"2 1 15890 16129 16393 XOR";
"2 1 16314 16393 16394 AND";
"2 1 16394 16129 16395 XOR";
"2 1 15893 16134 16396 XOR";
"2 1 16314 16396 16397 AND";
"2 1 16397 16134 16398 XOR";
"2 1 15896 16139 16399 XOR";
"2 1 16314 16399 16400 AND";
"2 1 16400 16139 16401 XOR";
"2 1 15899 16144 16402 XOR";
"2 1 16314 16402 16403 AND";
"2 1 16403 16144 16404 XOR";
"2 1 15902 16149 16405 XOR";
"2 1 16314 16405 16406 AND";
"2 1 16406 16149 16407 XOR";
"2 1 15905 16154 16408 XOR";
"2 1 16314 16408 16409 AND";
"2 1 16409 16154 16410 XOR";
"2 1 15908 16159 16411 XOR";
"2 1 16314 16411 16412 AND";
"2 1 16412 16159 16413 XOR";
"2 1 15911 16164 16414 XOR";
"2 1 16314 16414 16415 AND";
"2 1 16415 16164 16416 XOR";
"2 1 15914 16169 16417 XOR";
"2 1 16314 16417 16418 AND";
"2 1 16418 16169 16419 XOR";
"2 1 15917 16174 16420 XOR";
"2 1 16314 16420 16421 AND";
"2 1 16421 16174 16422 XOR";
"2 1 15920 16179 16423 XOR";
"2 1 16314 16423 16424 AND";
"2 1 16424 16179 16425 XOR";
"2 1 15923 16184 16426 XOR";
"2 1 16314 16426 16427 AND";
"2 1 16427 16184 16428 XOR";
"2 1 15926 16189 16429 XOR";
"2 1 16314 16429 16430 AND";
"2 1 16430 16189 16431 XOR";
"2 1 15929 16194 16432 XOR";
"2 1 16314 16432 16433 AND";
"2 1 16433 16194 16434 XOR";
"2 1 15932 16199 16435 XOR";
"2 1 16314 16435 16436 AND";
"2 1 16436 16199 16437 XOR";
"2 1 15935 16204 16438 XOR";
"2 1 16314 16438 16439 AND";
"2 1 16439 16204 16440 XOR";
"2 1 15938 16209 16441 XOR";
"2 1 16314 16441 16442 AND";
"2 1 16442 16209 16443 XOR";
"2 1 15941 16214 16444 XOR";
"2 1 16314 16444 16445 AND";
"2 1 16445 16214 16446 XOR";
"2 1 15944 16219 16447 XOR";
"2 1 16314 16447 16448 AND";
"2 1 16448 16219 16449 XOR";
"2 1 15947 16224 16450 XOR";
"2 1 16314 16450 16451 AND";
"2 1 16451 16224 16452 XOR";
"2 1 15950 16229 16453 XOR";
"2 1 16314 16453 16454 AND";
"2 1 16454 16229 16455 XOR";
"2 1 15953 16234 16456 XOR";
"2 1 16314 16456 16457 AND";
"2 1 16457 16234 16458 XOR";
"2 1 15956 16239 16459 XOR";
"2 1 16314 16459 16460 AND";
"2 1 16460 16239 16461 XOR";
"2 1 15959 16244 16462 XOR";
"2 1 16314 16462 16463 AND";
"2 1 16463 16244 16464 XOR";
"2 1 15962 16249 16465 XOR";
"2 1 16314 16465 16466 AND";
"2 1 16466 16249 16467 XOR";
"2 1 15965 16254 16468 XOR";
"2 1 16314 16468 16469 AND";
"2 1 16469 16254 16470 XOR";
"2 1 15968 16259 16471 XOR";
"2 1 16314 16471 16472 AND";
"2 1 16472 16259 16473 XOR";
"2 1 15971 16264 16474 XOR";
"2 1 16314 16474 16475 AND";
"2 1 16475 16264 16476 XOR";
"2 1 15974 16269 16477 XOR";
"2 1 16314 16477 16478 AND";
"2 1 16478 16269 16479 XOR";
"2 1 15977 16274 16480 XOR";
"2 1 16314 16480 16481 AND";
"2 1 16481 16274 16482 XOR";
"2 1 15980 16279 16483 XOR";
"2 1 16314 16483 16484 AND";
"2 1 16484 16279 16485 XOR";
"2 1 15983 16284 16486 XOR";
"2 1 16314 16486 16487 AND";
"2 1 16487 16284 16488 XOR";
"2 1 15986 16289 16489 XOR";
"2 1 16314 16489 16490 AND";
"2 1 16490 16289 16491 XOR";
"2 1 15989 16294 16492 XOR";
"2 1 16314 16492 16493 AND";
"2 1 16493 16294 16494 XOR";
"2 1 15992 16299 16495 XOR";
"2 1 16314 16495 16496 AND";
"2 1 16496 16299 16497 XOR";
"2 1 15995 16304 16498 XOR";
"2 1 16314 16498 16499 AND";
"2 1 16499 16304 16500 XOR";
"2 1 15998 16309 16501 XOR";
"2 1 16314 16501 16502 AND";
"2 1 16502 16309 16503 XOR";
"1 1 16314 16504 INV";
"2 1 0 64 16505 XOR";
"2 1 16505 64 16506 AND";
"2 1 16317 65 16507 XOR";
"2 1 16506 65 16508 XOR";
"2 1 16507 16506 16509 XOR";
"2 1 16507 16508 16510 AND";
"2 1 16506 16510 16511 XOR";
"2 1 16320 66 16512 XOR";
"2 1 16511 66 16513 XOR";
"2 1 16512 16511 16514 XOR";
"2 1 16512 16513 16515 AND";
"2 1 16511 16515 16516 XOR";
"2 1 16323 67 16517 XOR";
"2 1 16516 67 16518 XOR";
"2 1 16517 16516 16519 XOR";
"2 1 16517 16518 16520 AND";
"2 1 16516 16520 16521 XOR";
"2 1 16326 68 16522 XOR";
"2 1 16521 68 16523 XOR";
"2 1 16522 16521 16524 XOR";
"2 1 16522 16523 16525 AND";
"2 1 16521 16525 16526 XOR";
"2 1 16329 69 16527 XOR";
"2 1 16526 69 16528 XOR";
"2 1 16527 16526 16529 XOR";
"2 1 16527 16528 16530 AND";
"2 1 16526 16530 16531 XOR";
"2 1 16332 70 16532 XOR";
"2 1 16531 70 16533 XOR";
"2 1 16532 16531 16534 XOR";
"2 1 16532 16533 16535 AND";
"2 1 16531 16535 16536 XOR";
"2 1 16335 71 16537 XOR";
"2 1 16536 71 16538 XOR";
"2 1 16537 16536 16539 XOR";
"2 1 16537 16538 16540 AND";
"2 1 16536 16540 16541 XOR";
"2 1 16338 72 16542 XOR";
"2 1 16541 72 16543 XOR";
"2 1 16542 16541 16544 XOR";
"2 1 16542 16543 16545 AND";
"2 1 16541 16545 16546 XOR";
"2 1 16341 73 16547 XOR";
"2 1 16546 73 16548 XOR";
"2 1 16547 16546 16549 XOR";
"2 1 16547 16548 16550 AND";
"2 1 16546 16550 16551 XOR";
"2 1 16344 74 16552 XOR";
"2 1 16551 74 16553 XOR";
"2 1 16552 16551 16554 XOR";
"2 1 16552 16553 16555 AND";
"2 1 16551 16555 16556 XOR";
"2 1 16347 75 16557 XOR";
"2 1 16556 75 16558 XOR";
"2 1 16557 16556 16559 XOR";
"2 1 16557 16558 16560 AND";
"2 1 16556 16560 16561 XOR";
"2 1 16350 76 16562 XOR";
"2 1 16561 76 16563 XOR";
"2 1 16562 16561 16564 XOR";
"2 1 16562 16563 16565 AND";
"2 1 16561 16565 16566 XOR";
"2 1 16353 77 16567 XOR";
"2 1 16566 77 16568 XOR";
"2 1 16567 16566 16569 XOR";
"2 1 16567 16568 16570 AND";
"2 1 16566 16570 16571 XOR";
"2 1 16356 78 16572 XOR";
"2 1 16571 78 16573 XOR";
"2 1 16572 16571 16574 XOR";
"2 1 16572 16573 16575 AND";
"2 1 16571 16575 16576 XOR";
"2 1 16359 79 16577 XOR";
"2 1 16576 79 16578 XOR";
"2 1 16577 16576 16579 XOR";
"2 1 16577 16578 16580 AND";
"2 1 16576 16580 16581 XOR";
"2 1 16362 80 16582 XOR";
"2 1 16581 80 16583 XOR";
"2 1 16582 16581 16584 XOR";
"2 1 16582 16583 16585 AND";
"2 1 16581 16585 16586 XOR";
"2 1 16365 81 16587 XOR";
"2 1 16586 81 16588 XOR";
"2 1 16587 16586 16589 XOR";
"2 1 16587 16588 16590 AND";
"2 1 16586 16590 16591 XOR";
"2 1 16368 82 16592 XOR";
"2 1 16591 82 16593 XOR";
"2 1 16592 16591 16594 XOR";
"2 1 16592 16593 16595 AND";
"2 1 16591 16595 16596 XOR";
"2 1 16371 83 16597 XOR";
"2 1 16596 83 16598 XOR";
"2 1 16597 16596 16599 XOR";
"2 1 16597 16598 16600 AND";
"2 1 16596 16600 16601 XOR";
"2 1 16374 84 16602 XOR";
"2 1 16601 84 16603 XOR";
"2 1 16602 16601 16604 XOR";
"2 1 16602 16603 16605 AND";
"2 1 16601 16605 16606 XOR";
"2 1 16377 85 16607 XOR";
"2 1 16606 85 16608 XOR";
"2 1 16607 16606 16609 XOR";
"2 1 16607 16608 16610 AND";
"2 1 16606 16610 16611 XOR";
"2 1 16380 86 16612 XOR";
"2 1 16611 86 16613 XOR";
"2 1 16612 16611 16614 XOR";
"2 1 16612 16613 16615 AND";
"2 1 16611 16615 16616 XOR";
"2 1 16383 87 16617 XOR";
"2 1 16616 87 16618 XOR";
"2 1 16617 16616 16619 XOR";
"2 1 16617 16618 16620 AND";
"2 1 16616 16620 16621 XOR";
"2 1 16386 88 16622 XOR";
"2 1 16621 88 16623 XOR";
"2 1 16622 16621 16624 XOR";
"2 1 16622 16623 16625 AND";
"2 1 16621 16625 16626 XOR";
"2 1 16389 89 16627 XOR";
"2 1 16626 89 16628 XOR";
"2 1 16627 16626 16629 XOR";
"2 1 16627 16628 16630 AND";
"2 1 16626 16630 16631 XOR";
"2 1 16392 90 16632 XOR";
"2 1 16631 90 16633 XOR";
"2 1 16632 16631 16634 XOR";
"2 1 16632 16633 16635 AND";
"2 1 16631 16635 16636 XOR";
"2 1 16395 91 16637 XOR";
"2 1 16636 91 16638 XOR";
"2 1 16637 16636 16639 XOR";
"2 1 16637 16638 16640 AND";
"2 1 16636 16640 16641 XOR";
"2 1 16398 92 16642 XOR";
"2 1 16641 92 16643 XOR";
"2 1 16642 16641 16644 XOR";
"2 1 16642 16643 16645 AND";
"2 1 16641 16645 16646 XOR";
"2 1 16401 93 16647 XOR";
"2 1 16646 93 16648 XOR";
"2 1 16647 16646 16649 XOR";
"2 1 16647 16648 16650 AND";
"2 1 16646 16650 16651 XOR";
"2 1 16404 94 16652 XOR";
"2 1 16651 94 16653 XOR";
"2 1 16652 16651 16654 XOR";
"2 1 16652 16653 16655 AND";
"2 1 16651 16655 16656 XOR";
"2 1 16407 95 16657 XOR";
"2 1 16656 95 16658 XOR";
"2 1 16657 16656 16659 XOR";
"2 1 16657 16658 16660 AND";
"2 1 16656 16660 16661 XOR";
"2 1 16410 96 16662 XOR";
"2 1 16661 96 16663 XOR";
"2 1 16662 16661 16664 XOR";
"2 1 16662 16663 16665 AND";
"2 1 16661 16665 16666 XOR";
"2 1 16413 97 16667 XOR";
"2 1 16666 97 16668 XOR";
"2 1 16667 16666 16669 XOR";
"2 1 16667 16668 16670 AND";
"2 1 16666 16670 16671 XOR";
"2 1 16416 98 16672 XOR";
"2 1 16671 98 16673 XOR";
"2 1 16672 16671 16674 XOR";
"2 1 16672 16673 16675 AND";
"2 1 16671 16675 16676 XOR";
"2 1 16419 99 16677 XOR";
"2 1 16676 99 16678 XOR";
"2 1 16677 16676 16679 XOR";
"2 1 16677 16678 16680 AND";
"2 1 16676 16680 16681 XOR";
"2 1 16422 100 16682 XOR";
"2 1 16681 100 16683 XOR";
"2 1 16682 16681 16684 XOR";
"2 1 16682 16683 16685 AND";
"2 1 16681 16685 16686 XOR";
"2 1 16425 101 16687 XOR";
"2 1 16686 101 16688 XOR";
"2 1 16687 16686 16689 XOR";
"2 1 16687 16688 16690 AND";
"2 1 16686 16690 16691 XOR";
"2 1 16428 102 16692 XOR";
"2 1 16691 102 16693 XOR";
"2 1 16692 16691 16694 XOR";
"2 1 16692 16693 16695 AND";
"2 1 16691 16695 16696 XOR";
"2 1 16431 103 16697 XOR";
"2 1 16696 103 16698 XOR";
"2 1 16697 16696 16699 XOR";
"2 1 16697 16698 16700 AND";
"2 1 16696 16700 16701 XOR";
"2 1 16434 104 16702 XOR";
"2 1 16701 104 16703 XOR";
"2 1 16702 16701 16704 XOR";
"2 1 16702 16703 16705 AND";
"2 1 16701 16705 16706 XOR";
"2 1 16437 105 16707 XOR";
"2 1 16706 105 16708 XOR";
"2 1 16707 16706 16709 XOR";
"2 1 16707 16708 16710 AND";
"2 1 16706 16710 16711 XOR";
"2 1 16440 106 16712 XOR";
"2 1 16711 106 16713 XOR";
"2 1 16712 16711 16714 XOR";
"2 1 16712 16713 16715 AND";
"2 1 16711 16715 16716 XOR";
"2 1 16443 107 16717 XOR";
"2 1 16716 107 16718 XOR";
"2 1 16717 16716 16719 XOR";
"2 1 16717 16718 16720 AND";
"2 1 16716 16720 16721 XOR";
"2 1 16446 108 16722 XOR";
"2 1 16721 108 16723 XOR";
"2 1 16722 16721 16724 XOR";
"2 1 16722 16723 16725 AND";
"2 1 16721 16725 16726 XOR";
"2 1 16449 109 16727 XOR";
"2 1 16726 109 16728 XOR";
"2 1 16727 16726 16729 XOR";
"2 1 16727 16728 16730 AND";
"2 1 16726 16730 16731 XOR";
"2 1 16452 110 16732 XOR";
"2 1 16731 110 16733 XOR";
"2 1 16732 16731 16734 XOR";
"2 1 16732 16733 16735 AND";
"2 1 16731 16735 16736 XOR";
"2 1 16455 111 16737 XOR";
"2 1 16736 111 16738 XOR";
"2 1 16737 16736 16739 XOR";
"2 1 16737 16738 16740 AND";
"2 1 16736 16740 16741 XOR";
"2 1 16458 112 16742 XOR";
"2 1 16741 112 16743 XOR";
"2 1 16742 16741 16744 XOR";
"2 1 16742 16743 16745 AND";
"2 1 16741 16745 16746 XOR";
"2 1 16461 113 16747 XOR";
"2 1 16746 113 16748 XOR";
"2 1 16747 16746 16749 XOR";
"2 1 16747 16748 16750 AND";
"2 1 16746 16750 16751 XOR";
"2 1 16464 114 16752 XOR";
"2 1 16751 114 16753 XOR";
"2 1 16752 16751 16754 XOR";
"2 1 16752 16753 16755 AND";
"2 1 16751 16755 16756 XOR";
"2 1 16467 115 16757 XOR";
"2 1 16756 115 16758 XOR";
"2 1 16757 16756 16759 XOR";
"2 1 16757 16758 16760 AND";
"2 1 16756 16760 16761 XOR";
"2 1 16470 116 16762 XOR";
"2 1 16761 116 16763 XOR";
"2 1 16762 16761 16764 XOR";
"2 1 16762 16763 16765 AND";
"2 1 16761 16765 16766 XOR";
"2 1 16473 117 16767 XOR";
"2 1 16766 117 16768 XOR";
"2 1 16767 16766 16769 XOR";
"2 1 16767 16768 16770 AND";
"2 1 16766 16770 16771 XOR";
"2 1 16476 118 16772 XOR";
"2 1 16771 118 16773 XOR";
"2 1 16772 16771 16774 XOR";
"2 1 16772 16773 16775 AND";
"2 1 16771 16775 16776 XOR";
"2 1 16479 119 16777 XOR";
"2 1 16776 119 16778 XOR";
"2 1 16777 16776 16779 XOR";
"2 1 16777 16778 16780 AND";
"2 1 16776 16780 16781 XOR";
"2 1 16482 120 16782 XOR";
"2 1 16781 120 16783 XOR";
"2 1 16782 16781 16784 XOR";
"2 1 16782 16783 16785 AND";
"2 1 16781 16785 16786 XOR";
"2 1 16485 121 16787 XOR";
"2 1 16786 121 16788 XOR";
"2 1 16787 16786 16789 XOR";
"2 1 16787 16788 16790 AND";
"2 1 16786 16790 16791 XOR";
"2 1 16488 122 16792 XOR";
"2 1 16791 122 16793 XOR";
"2 1 16792 16791 16794 XOR";
"2 1 16792 16793 16795 AND";
"2 1 16791 16795 16796 XOR";
"2 1 16491 123 16797 XOR";
"2 1 16796 123 16798 XOR";
"2 1 16797 16796 16799 XOR";
"2 1 16797 16798 16800 AND";
"2 1 16796 16800 16801 XOR";
"2 1 16494 124 16802 XOR";
"2 1 16801 124 16803 XOR";
"2 1 16802 16801 16804 XOR";
"2 1 16802 16803 16805 AND";
"2 1 16801 16805 16806 XOR";
"2 1 16497 125 16807 XOR";
"2 1 16806 125 16808 XOR";
"2 1 16807 16806 16809 XOR";
"2 1 16807 16808 16810 AND";
"2 1 16806 16810 16811 XOR";
"2 1 16500 126 16812 XOR";
"2 1 16811 126 16813 XOR";
"2 1 16812 16811 16814 XOR";
"2 1 16812 16813 16815 AND";
"2 1 16811 16815 16816 XOR";
"2 1 16503 127 16817 XOR";
"2 1 16816 127 16818 XOR";
"2 1 16817 16816 16819 XOR";
"2 1 16817 16818 16820 AND";
"2 1 16816 16820 16821 XOR";
"2 1 0 16505 16822 XOR";
"2 1 16821 16822 16823 AND";
"2 1 16823 16505 16824 XOR";
"2 1 16317 16509 16825 XOR";
"2 1 16821 16825 16826 AND";
"2 1 16826 16509 16827 XOR";
"2 1 16320 16514 16828 XOR";
"2 1 16821 16828 16829 AND";
"2 1 16829 16514 16830 XOR";
"2 1 16323 16519 16831 XOR";
"2 1 16821 16831 16832 AND";
"2 1 16832 16519 16833 XOR";
"2 1 16326 16524 16834 XOR";
"2 1 16821 16834 16835 AND";
"2 1 16835 16524 16836 XOR";
"2 1 16329 16529 16837 XOR";
"2 1 16821 16837 16838 AND";
"2 1 16838 16529 16839 XOR";
"2 1 16332 16534 16840 XOR";
"2 1 16821 16840 16841 AND";
"2 1 16841 16534 16842 XOR";
"2 1 16335 16539 16843 XOR";
"2 1 16821 16843 16844 AND";
"2 1 16844 16539 16845 XOR";
"2 1 16338 16544 16846 XOR";
"2 1 16821 16846 16847 AND";
"2 1 16847 16544 16848 XOR";
"2 1 16341 16549 16849 XOR";
"2 1 16821 16849 16850 AND";
"2 1 16850 16549 16851 XOR";
"2 1 16344 16554 16852 XOR";
"2 1 16821 16852 16853 AND";
"2 1 16853 16554 16854 XOR";
"2 1 16347 16559 16855 XOR";
"2 1 16821 16855 16856 AND";
"2 1 16856 16559 16857 XOR";
"2 1 16350 16564 16858 XOR";
"2 1 16821 16858 16859 AND";
"2 1 16859 16564 16860 XOR";
"2 1 16353 16569 16861 XOR";
"2 1 16821 16861 16862 AND";
"2 1 16862 16569 16863 XOR";
"2 1 16356 16574 16864 XOR";
"2 1 16821 16864 16865 AND";
"2 1 16865 16574 16866 XOR";
"2 1 16359 16579 16867 XOR";
"2 1 16821 16867 16868 AND";
"2 1 16868 16579 16869 XOR";
"2 1 16362 16584 16870 XOR";
"2 1 16821 16870 16871 AND";
"2 1 16871 16584 16872 XOR";
"2 1 16365 16589 16873 XOR";
"2 1 16821 16873 16874 AND";
"2 1 16874 16589 16875 XOR";
"2 1 16368 16594 16876 XOR";
"2 1 16821 16876 16877 AND";
"2 1 16877 16594 16878 XOR";
"2 1 16371 16599 16879 XOR";
"2 1 16821 16879 16880 AND";
"2 1 16880 16599 16881 XOR";
"2 1 16374 16604 16882 XOR";
"2 1 16821 16882 16883 AND";
"2 1 16883 16604 16884 XOR";
"2 1 16377 16609 16885 XOR";
"2 1 16821 16885 16886 AND";
"2 1 16886 16609 16887 XOR";
"2 1 16380 16614 16888 XOR";
"2 1 16821 16888 16889 AND";
"2 1 16889 16614 16890 XOR";
"2 1 16383 16619 16891 XOR";
"2 1 16821 16891 16892 AND";
"2 1 16892 16619 16893 XOR";
"2 1 16386 16624 16894 XOR";
"2 1 16821 16894 16895 AND";
"2 1 16895 16624 16896 XOR";
"2 1 16389 16629 16897 XOR";
"2 1 16821 16897 16898 AND";
"2 1 16898 16629 16899 XOR";
"2 1 16392 16634 16900 XOR";
"2 1 16821 16900 16901 AND";
"2 1 16901 16634 16902 XOR";
"2 1 16395 16639 16903 XOR";
"2 1 16821 16903 16904 AND";
"2 1 16904 16639 16905 XOR";
"2 1 16398 16644 16906 XOR";
"2 1 16821 16906 16907 AND";
"2 1 16907 16644 16908 XOR";
"2 1 16401 16649 16909 XOR";
"2 1 16821 16909 16910 AND";
"2 1 16910 16649 16911 XOR";
"2 1 16404 16654 16912 XOR";
"2 1 16821 16912 16913 AND";
"2 1 16913 16654 16914 XOR";
"2 1 16407 16659 16915 XOR";
"2 1 16821 16915 16916 AND";
"2 1 16916 16659 16917 XOR";
"2 1 16410 16664 16918 XOR";
"2 1 16821 16918 16919 AND";
"2 1 16919 16664 16920 XOR";
"2 1 16413 16669 16921 XOR";
"2 1 16821 16921 16922 AND";
"2 1 16922 16669 16923 XOR";
"2 1 16416 16674 16924 XOR";
"2 1 16821 16924 16925 AND";
"2 1 16925 16674 16926 XOR";
"2 1 16419 16679 16927 XOR";
"2 1 16821 16927 16928 AND";
"2 1 16928 16679 16929 XOR";
"2 1 16422 16684 16930 XOR";
"2 1 16821 16930 16931 AND";
"2 1 16931 16684 16932 XOR";
"2 1 16425 16689 16933 XOR";
"2 1 16821 16933 16934 AND";
"2 1 16934 16689 16935 XOR";
"2 1 16428 16694 16936 XOR";
"2 1 16821 16936 16937 AND";
"2 1 16937 16694 16938 XOR";
"2 1 16431 16699 16939 XOR";
"2 1 16821 16939 16940 AND";
"2 1 16940 16699 16941 XOR";
"2 1 16434 16704 16942 XOR";
"2 1 16821 16942 16943 AND";
"2 1 16943 16704 16944 XOR";
"2 1 16437 16709 16945 XOR";
"2 1 16821 16945 16946 AND";
"2 1 16946 16709 16947 XOR";
"2 1 16440 16714 16948 XOR";
"2 1 16821 16948 16949 AND";
"2 1 16949 16714 16950 XOR";
"2 1 16443 16719 16951 XOR";
"2 1 16821 16951 16952 AND";
"2 1 16952 16719 16953 XOR";
"2 1 16446 16724 16954 XOR";
"2 1 16821 16954 16955 AND";
"2 1 16955 16724 16956 XOR";
"2 1 16449 16729 16957 XOR";
"2 1 16821 16957 16958 AND";
"2 1 16958 16729 16959 XOR";
"2 1 16452 16734 16960 XOR";
"2 1 16821 16960 16961 AND";
"2 1 16961 16734 16962 XOR";
"2 1 16455 16739 16963 XOR";
"2 1 16821 16963 16964 AND";
"2 1 16964 16739 16965 XOR";
"2 1 16458 16744 16966 XOR";
"2 1 16821 16966 16967 AND";
"2 1 16967 16744 16968 XOR";
"2 1 16461 16749 16969 XOR";
"2 1 16821 16969 16970 AND";
"2 1 16970 16749 16971 XOR";
"2 1 16464 16754 16972 XOR";
"2 1 16821 16972 16973 AND";
"2 1 16973 16754 16974 XOR";
"2 1 16467 16759 16975 XOR";
"2 1 16821 16975 16976 AND";
"2 1 16976 16759 16977 XOR";
"2 1 16470 16764 16978 XOR";
"2 1 16821 16978 16979 AND";
"2 1 16979 16764 16980 XOR";
"2 1 16473 16769 16981 XOR";
"2 1 16821 16981 16982 AND";
"2 1 16982 16769 16983 XOR";
"2 1 16476 16774 16984 XOR";
"2 1 16821 16984 16985 AND";
"2 1 16985 16774 16986 XOR";
"2 1 16479 16779 16987 XOR";
"2 1 16821 16987 16988 AND";
"2 1 16988 16779 16989 XOR";
"2 1 16482 16784 16990 XOR";
"2 1 16821 16990 16991 AND";
"2 1 16991 16784 16992 XOR";
"2 1 16485 16789 16993 XOR";
"2 1 16821 16993 16994 AND";
"2 1 16994 16789 16995 XOR";
"2 1 16488 16794 16996 XOR";
"2 1 16821 16996 16997 AND";
"2 1 16997 16794 16998 XOR";
"2 1 16491 16799 16999 XOR";
"2 1 16821 16999 17000 AND";
"2 1 17000 16799 17001 XOR";
"2 1 16494 16804 17002 XOR";
"2 1 16821 17002 17003 AND";
"2 1 17003 16804 17004 XOR";
"2 1 16497 16809 17005 XOR";
"2 1 16821 17005 17006 AND";
"2 1 17006 16809 17007 XOR";
"2 1 16500 16814 17008 XOR";
"2 1 16821 17008 17009 AND";
"2 1 17009 16814 17010 XOR";
"2 1 16503 16819 17011 XOR";
"2 1 16821 17011 17012 AND";
"2 1 17012 16819 17013 XOR";
"1 1 16821 17014 INV";
"2 1 0 0 17015 XOR";
"2 1 17015 17014 17016 XOR";
"2 1 17015 16504 17017 XOR";
"2 1 17015 15999 17018 XOR";
"2 1 17015 15502 17019 XOR";
"2 1 17015 15013 17020 XOR";
"2 1 17015 14532 17021 XOR";
"2 1 17015 14059 17022 XOR";
"2 1 17015 13594 17023 XOR";
"2 1 17015 13137 17024 XOR";
"2 1 17015 12688 17025 XOR";
"2 1 17015 12247 17026 XOR";
"2 1 17015 11814 17027 XOR";
"2 1 17015 11389 17028 XOR";
"2 1 17015 10972 17029 XOR";
"2 1 17015 10563 17030 XOR";
"2 1 17015 10162 17031 XOR";
"2 1 17015 9769 17032 XOR";
"2 1 17015 9384 17033 XOR";
"2 1 17015 9007 17034 XOR";
"2 1 17015 8638 17035 XOR";
"2 1 17015 8277 17036 XOR";
"2 1 17015 7924 17037 XOR";
"2 1 17015 7579 17038 XOR";
"2 1 17015 7242 17039 XOR";
"2 1 17015 6913 17040 XOR";
"2 1 17015 6592 17041 XOR";
"2 1 17015 6279 17042 XOR";
"2 1 17015 5974 17043 XOR";
"2 1 17015 5677 17044 XOR";
"2 1 17015 5388 17045 XOR";
"2 1 17015 5107 17046 XOR";
"2 1 17015 4834 17047 XOR";
"2 1 17015 4569 17048 XOR";
"2 1 17015 4312 17049 XOR";
"2 1 17015 4063 17050 XOR";
"2 1 17015 3822 17051 XOR";
"2 1 17015 3589 17052 XOR";
"2 1 17015 3364 17053 XOR";
"2 1 17015 3147 17054 XOR";
"2 1 17015 2938 17055 XOR";
"2 1 17015 2737 17056 XOR";
"2 1 17015 2544 17057 XOR";
"2 1 17015 2359 17058 XOR";
"2 1 17015 2182 17059 XOR";
"2 1 17015 2013 17060 XOR";
"2 1 17015 1852 17061 XOR";
"2 1 17015 1699 17062 XOR";
"2 1 17015 1554 17063 XOR";
"2 1 17015 1417 17064 XOR";
"2 1 17015 1288 17065 XOR";
"2 1 17015 1167 17066 XOR";
"2 1 17015 1054 17067 XOR";
"2 1 17015 949 17068 XOR";
"2 1 17015 852 17069 XOR";
"2 1 17015 763 17070 XOR";
"2 1 17015 682 17071 XOR";
"2 1 17015 609 17072 XOR";
"2 1 17015 544 17073 XOR";
"2 1 17015 487 17074 XOR";
"2 1 17015 438 17075 XOR";
"2 1 17015 397 17076 XOR";
"2 1 17015 364 17077 XOR";
"2 1 17015 339 17078 XOR";
"2 1 17015 322 17079 XOR"].
