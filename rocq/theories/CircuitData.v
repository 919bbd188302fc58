(** Generated: the circuit files of yacl/io/circuit/data/adder64.txt, sub64.txt, neg64.txt, zero_equal.txt, gate by gate
    in the order of the files. *)
From Coq Require Import NArith ZArith List.
From Verif Require Import CircuitModel.
Import ListNotations.
Open Scope N_scope.

Definition adder64_gates : list gate := [
  G2 XOR 63 127 376; G2 XOR 62 126 375; G2 XOR 61 125 374; G2 XOR 60 124 373; G2 XOR 59 123 372;
  G2 XOR 58 122 371; G2 XOR 57 121 370; G2 XOR 56 120 369; G2 XOR 55 119 368; G2 XOR 54 118 367;
  G2 XOR 53 117 366; G2 XOR 52 116 365; G2 XOR 51 115 364; G2 XOR 50 114 363; G2 XOR 49 113 362;
  G2 XOR 48 112 361; G2 XOR 47 111 360; G2 XOR 46 110 359; G2 XOR 45 109 358; G2 XOR 44 108 357;
  G2 XOR 43 107 356; G2 XOR 42 106 355; G2 XOR 41 105 354; G2 XOR 40 104 353; G2 XOR 39 103 352;
  G2 XOR 38 102 351; G2 XOR 37 101 350; G2 XOR 36 100 349; G2 XOR 35 99 348; G2 XOR 34 98 347;
  G2 XOR 33 97 346; G2 XOR 32 96 345; G2 XOR 31 95 344; G2 XOR 30 94 343; G2 XOR 29 93 342; G2 XOR 28 92 341;
  G2 XOR 27 91 340; G2 XOR 26 90 339; G2 XOR 25 89 338; G2 XOR 24 88 337; G2 XOR 23 87 336; G2 XOR 22 86 335;
  G2 XOR 21 85 334; G2 XOR 20 84 333; G2 XOR 19 83 332; G2 XOR 18 82 331; G2 XOR 17 81 330; G2 XOR 16 80 329;
  G2 XOR 15 79 328; G2 XOR 14 78 327; G2 XOR 13 77 326; G2 XOR 12 76 325; G2 XOR 11 75 324; G2 XOR 10 74 323;
  G2 XOR 9 73 322; G2 XOR 8 72 321; G2 XOR 7 71 320; G2 XOR 6 70 319; G2 XOR 5 69 318; G2 XOR 4 68 317;
  G2 XOR 3 67 316; G2 XOR 2 66 315; G2 XOR 1 65 314; G2 XOR 0 64 440; G2 AND 0 64 377; G2 XOR 65 377 129;
  G2 XOR 1 377 128; G2 AND 128 129 130; G2 XOR 130 377 378; G2 XOR 66 378 132; G2 XOR 2 378 131;
  G2 AND 131 132 133; G2 XOR 133 378 379; G2 XOR 67 379 135; G2 XOR 3 379 134; G2 AND 134 135 136;
  G2 XOR 136 379 380; G2 XOR 68 380 138; G2 XOR 4 380 137; G2 AND 137 138 139; G2 XOR 139 380 381;
  G2 XOR 69 381 141; G2 XOR 5 381 140; G2 AND 140 141 142; G2 XOR 142 381 382; G2 XOR 70 382 144;
  G2 XOR 6 382 143; G2 AND 143 144 145; G2 XOR 145 382 383; G2 XOR 71 383 147; G2 XOR 7 383 146;
  G2 AND 146 147 148; G2 XOR 148 383 384; G2 XOR 72 384 150; G2 XOR 8 384 149; G2 AND 149 150 151;
  G2 XOR 151 384 385; G2 XOR 73 385 153; G2 XOR 9 385 152; G2 AND 152 153 154; G2 XOR 154 385 386;
  G2 XOR 74 386 156; G2 XOR 10 386 155; G2 AND 155 156 157; G2 XOR 157 386 387; G2 XOR 75 387 159;
  G2 XOR 11 387 158; G2 AND 158 159 160; G2 XOR 160 387 388; G2 XOR 76 388 162; G2 XOR 12 388 161;
  G2 AND 161 162 163; G2 XOR 163 388 389; G2 XOR 77 389 165; G2 XOR 13 389 164; G2 AND 164 165 166;
  G2 XOR 166 389 390; G2 XOR 78 390 168; G2 XOR 14 390 167; G2 AND 167 168 169; G2 XOR 169 390 391;
  G2 XOR 79 391 171; G2 XOR 15 391 170; G2 AND 170 171 172; G2 XOR 172 391 392; G2 XOR 80 392 174;
  G2 XOR 16 392 173; G2 AND 173 174 175; G2 XOR 175 392 393; G2 XOR 81 393 177; G2 XOR 17 393 176;
  G2 AND 176 177 178; G2 XOR 178 393 394; G2 XOR 82 394 180; G2 XOR 18 394 179; G2 AND 179 180 181;
  G2 XOR 181 394 395; G2 XOR 83 395 183; G2 XOR 19 395 182; G2 AND 182 183 184; G2 XOR 184 395 396;
  G2 XOR 84 396 186; G2 XOR 20 396 185; G2 AND 185 186 187; G2 XOR 187 396 397; G2 XOR 85 397 189;
  G2 XOR 21 397 188; G2 AND 188 189 190; G2 XOR 190 397 398; G2 XOR 86 398 192; G2 XOR 22 398 191;
  G2 AND 191 192 193; G2 XOR 193 398 399; G2 XOR 87 399 195; G2 XOR 23 399 194; G2 AND 194 195 196;
  G2 XOR 196 399 400; G2 XOR 88 400 198; G2 XOR 24 400 197; G2 AND 197 198 199; G2 XOR 199 400 401;
  G2 XOR 89 401 201; G2 XOR 25 401 200; G2 AND 200 201 202; G2 XOR 202 401 402; G2 XOR 90 402 204;
  G2 XOR 26 402 203; G2 AND 203 204 205; G2 XOR 205 402 403; G2 XOR 91 403 207; G2 XOR 27 403 206;
  G2 AND 206 207 208; G2 XOR 208 403 404; G2 XOR 341 404 468; G2 XOR 92 404 210; G2 XOR 28 404 209;
  G2 AND 209 210 211; G2 XOR 211 404 405; G2 XOR 342 405 469; G2 XOR 340 403 467; G2 XOR 93 405 213;
  G2 XOR 29 405 212; G2 AND 212 213 214; G2 XOR 214 405 406; G2 XOR 343 406 470; G2 XOR 339 402 466;
  G2 XOR 94 406 216; G2 XOR 30 406 215; G2 AND 215 216 217; G2 XOR 217 406 407; G2 XOR 338 401 465;
  G2 XOR 31 407 218; G2 XOR 344 407 471; G2 XOR 337 400 464; G2 XOR 95 407 219; G2 AND 218 219 220;
  G2 XOR 220 407 408; G2 XOR 345 408 472; G2 XOR 336 399 463; G2 XOR 96 408 222; G2 XOR 32 408 221;
  G2 AND 221 222 223; G2 XOR 223 408 409; G2 XOR 346 409 473; G2 XOR 335 398 462; G2 XOR 97 409 225;
  G2 XOR 33 409 224; G2 AND 224 225 226; G2 XOR 226 409 410; G2 XOR 347 410 474; G2 XOR 334 397 461;
  G2 XOR 98 410 228; G2 XOR 34 410 227; G2 AND 227 228 229; G2 XOR 229 410 411; G2 XOR 333 396 460;
  G2 XOR 35 411 230; G2 XOR 348 411 475; G2 XOR 332 395 459; G2 XOR 99 411 231; G2 AND 230 231 232;
  G2 XOR 232 411 412; G2 XOR 349 412 476; G2 XOR 331 394 458; G2 XOR 100 412 234; G2 XOR 36 412 233;
  G2 AND 233 234 235; G2 XOR 235 412 413; G2 XOR 350 413 477; G2 XOR 330 393 457; G2 XOR 101 413 237;
  G2 XOR 37 413 236; G2 AND 236 237 238; G2 XOR 238 413 414; G2 XOR 351 414 478; G2 XOR 329 392 456;
  G2 XOR 102 414 240; G2 XOR 38 414 239; G2 AND 239 240 241; G2 XOR 241 414 415; G2 XOR 328 391 455;
  G2 XOR 39 415 242; G2 XOR 352 415 479; G2 XOR 327 390 454; G2 XOR 103 415 243; G2 AND 242 243 244;
  G2 XOR 244 415 416; G2 XOR 353 416 480; G2 XOR 326 389 453; G2 XOR 104 416 246; G2 XOR 40 416 245;
  G2 AND 245 246 247; G2 XOR 247 416 417; G2 XOR 354 417 481; G2 XOR 325 388 452; G2 XOR 105 417 249;
  G2 XOR 41 417 248; G2 AND 248 249 250; G2 XOR 250 417 418; G2 XOR 355 418 482; G2 XOR 324 387 451;
  G2 XOR 106 418 252; G2 XOR 42 418 251; G2 AND 251 252 253; G2 XOR 253 418 419; G2 XOR 323 386 450;
  G2 XOR 43 419 254; G2 XOR 356 419 483; G2 XOR 322 385 449; G2 XOR 107 419 255; G2 AND 254 255 256;
  G2 XOR 256 419 420; G2 XOR 357 420 484; G2 XOR 321 384 448; G2 XOR 108 420 258; G2 XOR 44 420 257;
  G2 AND 257 258 259; G2 XOR 259 420 421; G2 XOR 358 421 485; G2 XOR 320 383 447; G2 XOR 109 421 261;
  G2 XOR 45 421 260; G2 AND 260 261 262; G2 XOR 262 421 422; G2 XOR 359 422 486; G2 XOR 319 382 446;
  G2 XOR 110 422 264; G2 XOR 46 422 263; G2 AND 263 264 265; G2 XOR 265 422 423; G2 XOR 318 381 445;
  G2 XOR 47 423 266; G2 XOR 360 423 487; G2 XOR 317 380 444; G2 XOR 111 423 267; G2 AND 266 267 268;
  G2 XOR 268 423 424; G2 XOR 361 424 488; G2 XOR 316 379 443; G2 XOR 112 424 270; G2 XOR 48 424 269;
  G2 AND 269 270 271; G2 XOR 271 424 425; G2 XOR 362 425 489; G2 XOR 315 378 442; G2 XOR 113 425 273;
  G2 XOR 49 425 272; G2 AND 272 273 274; G2 XOR 274 425 426; G2 XOR 363 426 490; G2 XOR 314 377 441;
  G2 XOR 114 426 276; G2 XOR 50 426 275; G2 AND 275 276 277; G2 XOR 277 426 427; G2 XOR 115 427 279;
  G2 XOR 51 427 278; G2 AND 278 279 280; G2 XOR 280 427 428; G2 XOR 116 428 282; G2 XOR 52 428 281;
  G2 AND 281 282 283; G2 XOR 283 428 429; G2 XOR 117 429 285; G2 XOR 53 429 284; G2 AND 284 285 286;
  G2 XOR 286 429 430; G2 XOR 118 430 288; G2 XOR 54 430 287; G2 AND 287 288 289; G2 XOR 289 430 431;
  G2 XOR 119 431 291; G2 XOR 55 431 290; G2 AND 290 291 292; G2 XOR 292 431 432; G2 XOR 120 432 294;
  G2 XOR 56 432 293; G2 AND 293 294 295; G2 XOR 295 432 433; G2 XOR 370 433 497; G2 XOR 121 433 297;
  G2 XOR 57 433 296; G2 AND 296 297 298; G2 XOR 298 433 434; G2 XOR 371 434 498; G2 XOR 369 432 496;
  G2 XOR 122 434 300; G2 XOR 58 434 299; G2 AND 299 300 301; G2 XOR 301 434 435; G2 XOR 372 435 499;
  G2 XOR 368 431 495; G2 XOR 123 435 303; G2 XOR 59 435 302; G2 AND 302 303 304; G2 XOR 304 435 436;
  G2 XOR 367 430 494; G2 XOR 60 436 305; G2 XOR 373 436 500; G2 XOR 366 429 493; G2 XOR 124 436 306;
  G2 AND 305 306 307; G2 XOR 307 436 437; G2 XOR 374 437 501; G2 XOR 365 428 492; G2 XOR 125 437 309;
  G2 XOR 61 437 308; G2 AND 308 309 310; G2 XOR 310 437 438; G2 XOR 375 438 502; G2 XOR 364 427 491;
  G2 XOR 126 438 312; G2 XOR 62 438 311; G2 AND 311 312 313; G2 XOR 313 438 439; G2 XOR 376 439 503].
Definition adder64 : circuit := mkCircuit 376 504 [64; 64] [64] adder64_gates.

Definition sub64_gates : list gate := [
  G2 XOR 63 127 439; G2 XOR 62 126 438; G2 XOR 61 125 437; G2 XOR 60 124 436; G2 XOR 59 123 435;
  G2 XOR 58 122 434; G2 XOR 57 121 433; G2 XOR 56 120 432; G2 XOR 55 119 431; G2 XOR 54 118 430;
  G2 XOR 53 117 429; G2 XOR 52 116 428; G2 XOR 51 115 427; G2 XOR 50 114 426; G2 XOR 49 113 425;
  G2 XOR 48 112 424; G2 XOR 47 111 423; G2 XOR 46 110 422; G2 XOR 45 109 421; G2 XOR 44 108 420;
  G2 XOR 43 107 419; G2 XOR 42 106 418; G2 XOR 41 105 417; G2 XOR 40 104 416; G2 XOR 39 103 415;
  G2 XOR 38 102 414; G2 XOR 37 101 413; G2 XOR 36 100 412; G2 XOR 35 99 411; G2 XOR 34 98 410;
  G2 XOR 33 97 409; G2 XOR 32 96 408; G2 XOR 31 95 407; G2 XOR 30 94 406; G2 XOR 29 93 405; G2 XOR 28 92 404;
  G2 XOR 27 91 403; G2 XOR 26 90 402; G2 XOR 25 89 401; G2 XOR 24 88 400; G2 XOR 23 87 399; G2 XOR 22 86 398;
  G2 XOR 21 85 397; G2 XOR 20 84 396; G2 XOR 19 83 395; G2 XOR 18 82 394; G2 XOR 17 81 393; G2 XOR 16 80 392;
  G2 XOR 15 79 391; G2 XOR 14 78 390; G2 XOR 13 77 389; G2 XOR 12 76 388; G2 XOR 11 75 387; G2 XOR 10 74 386;
  G2 XOR 9 73 385; G2 XOR 8 72 384; G2 XOR 7 71 383; G2 XOR 6 70 382; G2 XOR 5 69 381; G2 XOR 4 68 380;
  G2 XOR 3 67 379; G2 XOR 2 66 378; G2 XOR 1 65 377; G2 XOR 0 64 503; G1 INV 0 314; G2 AND 314 64 440;
  G2 XOR 65 440 129; G2 XOR 377 440 504; G1 INV 1 315; G2 XOR 315 440 128; G2 AND 128 129 130;
  G2 XOR 130 440 441; G2 XOR 66 441 132; G2 XOR 378 441 505; G1 INV 2 316; G2 XOR 316 441 131;
  G2 AND 131 132 133; G2 XOR 133 441 442; G2 XOR 67 442 135; G2 XOR 379 442 506; G1 INV 3 317;
  G2 XOR 317 442 134; G2 AND 134 135 136; G2 XOR 136 442 443; G2 XOR 68 443 138; G2 XOR 380 443 507;
  G1 INV 4 318; G2 XOR 318 443 137; G2 AND 137 138 139; G2 XOR 139 443 444; G2 XOR 69 444 141;
  G2 XOR 381 444 508; G1 INV 5 319; G2 XOR 319 444 140; G2 AND 140 141 142; G2 XOR 142 444 445;
  G2 XOR 70 445 144; G2 XOR 382 445 509; G1 INV 6 320; G2 XOR 320 445 143; G2 AND 143 144 145;
  G2 XOR 145 445 446; G2 XOR 71 446 147; G2 XOR 383 446 510; G1 INV 7 321; G2 XOR 321 446 146;
  G2 AND 146 147 148; G2 XOR 148 446 447; G2 XOR 72 447 150; G2 XOR 384 447 511; G1 INV 8 322;
  G2 XOR 322 447 149; G2 AND 149 150 151; G2 XOR 151 447 448; G2 XOR 73 448 153; G2 XOR 385 448 512;
  G1 INV 9 323; G2 XOR 323 448 152; G2 AND 152 153 154; G2 XOR 154 448 449; G2 XOR 74 449 156;
  G2 XOR 386 449 513; G1 INV 10 324; G2 XOR 324 449 155; G2 AND 155 156 157; G2 XOR 157 449 450;
  G2 XOR 75 450 159; G2 XOR 387 450 514; G1 INV 11 325; G2 XOR 325 450 158; G2 AND 158 159 160;
  G2 XOR 160 450 451; G2 XOR 76 451 162; G2 XOR 388 451 515; G1 INV 12 326; G2 XOR 326 451 161;
  G2 AND 161 162 163; G2 XOR 163 451 452; G2 XOR 77 452 165; G2 XOR 389 452 516; G1 INV 13 327;
  G2 XOR 327 452 164; G2 AND 164 165 166; G2 XOR 166 452 453; G2 XOR 78 453 168; G2 XOR 390 453 517;
  G1 INV 14 328; G2 XOR 328 453 167; G2 AND 167 168 169; G2 XOR 169 453 454; G2 XOR 79 454 171;
  G2 XOR 391 454 518; G1 INV 15 329; G2 XOR 329 454 170; G2 AND 170 171 172; G2 XOR 172 454 455;
  G2 XOR 80 455 174; G2 XOR 392 455 519; G1 INV 16 330; G2 XOR 330 455 173; G2 AND 173 174 175;
  G2 XOR 175 455 456; G2 XOR 81 456 177; G2 XOR 393 456 520; G1 INV 17 331; G2 XOR 331 456 176;
  G2 AND 176 177 178; G2 XOR 178 456 457; G2 XOR 82 457 180; G2 XOR 394 457 521; G1 INV 18 332;
  G2 XOR 332 457 179; G2 AND 179 180 181; G2 XOR 181 457 458; G2 XOR 83 458 183; G2 XOR 395 458 522;
  G1 INV 19 333; G2 XOR 333 458 182; G2 AND 182 183 184; G2 XOR 184 458 459; G2 XOR 84 459 186;
  G2 XOR 396 459 523; G1 INV 20 334; G2 XOR 334 459 185; G2 AND 185 186 187; G2 XOR 187 459 460;
  G2 XOR 85 460 189; G2 XOR 397 460 524; G1 INV 21 335; G2 XOR 335 460 188; G2 AND 188 189 190;
  G2 XOR 190 460 461; G2 XOR 86 461 192; G2 XOR 398 461 525; G1 INV 22 336; G2 XOR 336 461 191;
  G2 AND 191 192 193; G2 XOR 193 461 462; G2 XOR 399 462 526; G2 XOR 87 462 195; G1 INV 23 337;
  G2 XOR 337 462 194; G2 AND 194 195 196; G2 XOR 196 462 463; G2 XOR 88 463 198; G2 XOR 400 463 527;
  G1 INV 24 338; G2 XOR 338 463 197; G2 AND 197 198 199; G2 XOR 199 463 464; G2 XOR 401 464 528;
  G2 XOR 89 464 201; G1 INV 25 339; G2 XOR 339 464 200; G2 AND 200 201 202; G2 XOR 202 464 465;
  G2 XOR 402 465 529; G2 XOR 90 465 204; G1 INV 26 340; G2 XOR 340 465 203; G2 AND 203 204 205;
  G2 XOR 205 465 466; G2 XOR 91 466 207; G2 XOR 403 466 530; G1 INV 27 341; G2 XOR 341 466 206;
  G2 AND 206 207 208; G2 XOR 208 466 467; G2 XOR 92 467 210; G2 XOR 404 467 531; G1 INV 28 342;
  G2 XOR 342 467 209; G2 AND 209 210 211; G2 XOR 211 467 468; G2 XOR 405 468 532; G2 XOR 93 468 213;
  G1 INV 29 343; G2 XOR 343 468 212; G2 AND 212 213 214; G2 XOR 214 468 469; G2 XOR 94 469 216;
  G2 XOR 406 469 533; G1 INV 30 344; G2 XOR 344 469 215; G2 AND 215 216 217; G2 XOR 217 469 470;
  G2 XOR 407 470 534; G2 XOR 95 470 219; G1 INV 31 345; G2 XOR 345 470 218; G2 AND 218 219 220;
  G2 XOR 220 470 471; G2 XOR 96 471 222; G2 XOR 408 471 535; G1 INV 32 346; G2 XOR 346 471 221;
  G2 AND 221 222 223; G2 XOR 223 471 472; G2 XOR 97 472 225; G2 XOR 409 472 536; G1 INV 33 347;
  G2 XOR 347 472 224; G2 AND 224 225 226; G2 XOR 226 472 473; G2 XOR 410 473 537; G2 XOR 98 473 228;
  G1 INV 34 348; G2 XOR 348 473 227; G2 AND 227 228 229; G2 XOR 229 473 474; G2 XOR 411 474 538;
  G2 XOR 99 474 231; G1 INV 35 349; G2 XOR 349 474 230; G2 AND 230 231 232; G2 XOR 232 474 475;
  G2 XOR 412 475 539; G2 XOR 100 475 234; G1 INV 36 350; G2 XOR 350 475 233; G2 AND 233 234 235;
  G2 XOR 235 475 476; G2 XOR 413 476 540; G2 XOR 101 476 237; G1 INV 37 351; G2 XOR 351 476 236;
  G2 AND 236 237 238; G2 XOR 238 476 477; G2 XOR 414 477 541; G2 XOR 102 477 240; G1 INV 38 352;
  G2 XOR 352 477 239; G2 AND 239 240 241; G2 XOR 241 477 478; G2 XOR 103 478 243; G2 XOR 415 478 542;
  G1 INV 39 353; G2 XOR 353 478 242; G2 AND 242 243 244; G2 XOR 244 478 479; G2 XOR 416 479 543;
  G2 XOR 104 479 246; G1 INV 40 354; G2 XOR 354 479 245; G2 AND 245 246 247; G2 XOR 247 479 480;
  G2 XOR 417 480 544; G2 XOR 105 480 249; G1 INV 41 355; G2 XOR 355 480 248; G2 AND 248 249 250;
  G2 XOR 250 480 481; G2 XOR 418 481 545; G2 XOR 106 481 252; G1 INV 42 356; G2 XOR 356 481 251;
  G2 AND 251 252 253; G2 XOR 253 481 482; G2 XOR 107 482 255; G2 XOR 419 482 546; G1 INV 43 357;
  G2 XOR 357 482 254; G2 AND 254 255 256; G2 XOR 256 482 483; G2 XOR 420 483 547; G2 XOR 108 483 258;
  G1 INV 44 358; G2 XOR 358 483 257; G2 AND 257 258 259; G2 XOR 259 483 484; G2 XOR 109 484 261;
  G2 XOR 421 484 548; G1 INV 45 359; G2 XOR 359 484 260; G2 AND 260 261 262; G2 XOR 262 484 485;
  G2 XOR 422 485 549; G2 XOR 110 485 264; G1 INV 46 360; G2 XOR 360 485 263; G2 AND 263 264 265;
  G2 XOR 265 485 486; G2 XOR 423 486 550; G2 XOR 111 486 267; G1 INV 47 361; G2 XOR 361 486 266;
  G2 AND 266 267 268; G2 XOR 268 486 487; G2 XOR 112 487 270; G2 XOR 424 487 551; G1 INV 48 362;
  G2 XOR 362 487 269; G2 AND 269 270 271; G2 XOR 271 487 488; G2 XOR 113 488 273; G2 XOR 425 488 552;
  G1 INV 49 363; G2 XOR 363 488 272; G2 AND 272 273 274; G2 XOR 274 488 489; G2 XOR 114 489 276;
  G2 XOR 426 489 553; G1 INV 50 364; G2 XOR 364 489 275; G2 AND 275 276 277; G2 XOR 277 489 490;
  G2 XOR 115 490 279; G2 XOR 427 490 554; G1 INV 51 365; G2 XOR 365 490 278; G2 AND 278 279 280;
  G2 XOR 280 490 491; G2 XOR 116 491 282; G2 XOR 428 491 555; G1 INV 52 366; G2 XOR 366 491 281;
  G2 AND 281 282 283; G2 XOR 283 491 492; G2 XOR 117 492 285; G2 XOR 429 492 556; G1 INV 53 367;
  G2 XOR 367 492 284; G2 AND 284 285 286; G2 XOR 286 492 493; G2 XOR 118 493 288; G2 XOR 430 493 557;
  G1 INV 54 368; G2 XOR 368 493 287; G2 AND 287 288 289; G2 XOR 289 493 494; G2 XOR 431 494 558;
  G2 XOR 119 494 291; G1 INV 55 369; G2 XOR 369 494 290; G2 AND 290 291 292; G2 XOR 292 494 495;
  G2 XOR 432 495 559; G2 XOR 120 495 294; G1 INV 56 370; G2 XOR 370 495 293; G2 AND 293 294 295;
  G2 XOR 295 495 496; G2 XOR 121 496 297; G2 XOR 433 496 560; G1 INV 57 371; G2 XOR 371 496 296;
  G2 AND 296 297 298; G2 XOR 298 496 497; G2 XOR 122 497 300; G2 XOR 434 497 561; G1 INV 58 372;
  G2 XOR 372 497 299; G2 AND 299 300 301; G2 XOR 301 497 498; G2 XOR 123 498 303; G2 XOR 435 498 562;
  G1 INV 59 373; G2 XOR 373 498 302; G2 AND 302 303 304; G2 XOR 304 498 499; G2 XOR 436 499 563;
  G2 XOR 124 499 306; G1 INV 60 374; G2 XOR 374 499 305; G2 AND 305 306 307; G2 XOR 307 499 500;
  G2 XOR 125 500 309; G2 XOR 437 500 564; G1 INV 61 375; G2 XOR 375 500 308; G2 AND 308 309 310;
  G2 XOR 310 500 501; G2 XOR 438 501 565; G2 XOR 126 501 312; G1 INV 62 376; G2 XOR 376 501 311;
  G2 AND 311 312 313; G2 XOR 313 501 502; G2 XOR 439 502 566].
Definition sub64 : circuit := mkCircuit 439 567 [64; 64] [64] sub64_gates.

Definition neg64_gates : list gate := [
  G1 EQW 0 190; G1 INV 1 83; G1 INV 0 82; G2 AND 83 82 105; G1 INV 2 104; G2 AND 105 104 127; G1 INV 3 126;
  G2 AND 127 126 149; G1 INV 4 148; G2 AND 149 148 171; G1 INV 5 170; G2 AND 171 170 183; G1 INV 6 182;
  G2 AND 183 182 185; G1 INV 7 184; G2 AND 185 184 187; G1 INV 8 186; G2 AND 187 186 189; G1 INV 9 188;
  G2 AND 189 188 65; G1 INV 10 64; G2 XOR 65 64 200; G2 AND 65 64 67; G1 INV 11 66; G2 XOR 67 66 201;
  G2 AND 67 66 69; G1 INV 12 68; G2 XOR 69 68 202; G2 AND 69 68 71; G1 INV 13 70; G2 XOR 71 70 203;
  G2 AND 71 70 73; G1 INV 14 72; G2 XOR 73 72 204; G2 AND 73 72 75; G1 INV 15 74; G2 XOR 75 74 205;
  G2 AND 75 74 77; G1 INV 16 76; G2 XOR 77 76 206; G2 AND 77 76 79; G1 INV 17 78; G2 XOR 79 78 207;
  G2 AND 79 78 81; G1 INV 18 80; G2 XOR 81 80 208; G2 AND 81 80 85; G1 INV 19 84; G2 XOR 85 84 209;
  G2 XOR 83 82 191; G2 AND 85 84 87; G1 INV 20 86; G2 XOR 87 86 210; G2 AND 87 86 89; G1 INV 21 88;
  G2 XOR 89 88 211; G2 AND 89 88 91; G1 INV 22 90; G2 XOR 91 90 212; G2 AND 91 90 93; G1 INV 23 92;
  G2 XOR 93 92 213; G2 AND 93 92 95; G1 INV 24 94; G2 XOR 95 94 214; G2 AND 95 94 97; G1 INV 25 96;
  G2 XOR 97 96 215; G2 AND 97 96 99; G1 INV 26 98; G2 XOR 99 98 216; G2 AND 99 98 101; G1 INV 27 100;
  G2 XOR 101 100 217; G2 AND 101 100 103; G1 INV 28 102; G2 XOR 103 102 218; G2 AND 103 102 107;
  G1 INV 29 106; G2 XOR 107 106 219; G2 XOR 105 104 192; G2 AND 107 106 109; G1 INV 30 108;
  G2 XOR 109 108 220; G2 AND 109 108 111; G1 INV 31 110; G2 XOR 111 110 221; G2 AND 111 110 113;
  G1 INV 32 112; G2 XOR 113 112 222; G2 AND 113 112 115; G1 INV 33 114; G2 XOR 115 114 223;
  G2 AND 115 114 117; G1 INV 34 116; G2 XOR 117 116 224; G2 AND 117 116 119; G1 INV 35 118;
  G2 XOR 119 118 225; G2 AND 119 118 121; G1 INV 36 120; G2 XOR 121 120 226; G2 AND 121 120 123;
  G1 INV 37 122; G2 XOR 123 122 227; G2 AND 123 122 125; G1 INV 38 124; G2 XOR 125 124 228;
  G2 AND 125 124 129; G1 INV 39 128; G2 XOR 129 128 229; G2 XOR 127 126 193; G2 AND 129 128 131;
  G1 INV 40 130; G2 XOR 131 130 230; G2 AND 131 130 133; G1 INV 41 132; G2 XOR 133 132 231;
  G2 AND 133 132 135; G1 INV 42 134; G2 XOR 135 134 232; G2 AND 135 134 137; G1 INV 43 136;
  G2 XOR 137 136 233; G2 AND 137 136 139; G1 INV 44 138; G2 XOR 139 138 234; G2 AND 139 138 141;
  G1 INV 45 140; G2 XOR 141 140 235; G2 AND 141 140 143; G1 INV 46 142; G2 XOR 143 142 236;
  G2 AND 143 142 145; G1 INV 47 144; G2 XOR 145 144 237; G2 AND 145 144 147; G1 INV 48 146;
  G2 XOR 147 146 238; G2 AND 147 146 151; G1 INV 49 150; G2 XOR 151 150 239; G2 XOR 149 148 194;
  G2 AND 151 150 153; G1 INV 50 152; G2 XOR 153 152 240; G2 AND 153 152 155; G1 INV 51 154;
  G2 XOR 155 154 241; G2 AND 155 154 157; G1 INV 52 156; G2 XOR 157 156 242; G2 AND 157 156 159;
  G1 INV 53 158; G2 XOR 159 158 243; G2 AND 159 158 161; G1 INV 54 160; G2 XOR 161 160 244;
  G2 AND 161 160 163; G1 INV 55 162; G2 XOR 163 162 245; G2 AND 163 162 165; G1 INV 56 164;
  G2 XOR 165 164 246; G2 AND 165 164 167; G1 INV 57 166; G2 XOR 167 166 247; G2 AND 167 166 169;
  G1 INV 58 168; G2 XOR 169 168 248; G2 AND 169 168 173; G1 INV 59 172; G2 XOR 173 172 249;
  G2 XOR 171 170 195; G2 AND 173 172 175; G1 INV 60 174; G2 XOR 175 174 250; G2 AND 175 174 177;
  G1 INV 61 176; G2 XOR 177 176 251; G2 AND 177 176 178; G1 INV 62 179; G2 XOR 178 179 252;
  G2 AND 179 178 180; G2 XOR 63 180 181; G1 INV 181 253; G2 XOR 183 182 196; G2 XOR 185 184 197;
  G2 XOR 187 186 198; G2 XOR 189 188 199].
Definition neg64 : circuit := mkCircuit 190 254 [64] [64] neg64_gates.

Definition zero_equal_gates : list gate := [
  G1 INV 63 65; G1 INV 60 64; G2 AND 65 64 69; G1 INV 62 67; G1 INV 61 66; G2 AND 67 66 68; G2 AND 69 68 77;
  G1 INV 51 71; G1 INV 48 70; G2 AND 71 70 75; G1 INV 50 73; G1 INV 49 72; G2 AND 73 72 74; G2 AND 75 74 76;
  G2 AND 77 76 93; G1 INV 59 79; G1 INV 56 78; G2 AND 79 78 83; G1 INV 58 81; G1 INV 57 80; G2 AND 81 80 82;
  G2 AND 83 82 91; G1 INV 55 85; G1 INV 52 84; G2 AND 85 84 89; G1 INV 54 87; G1 INV 53 86; G2 AND 87 86 88;
  G2 AND 89 88 90; G2 AND 91 90 92; G2 AND 93 92 125; G1 INV 15 95; G1 INV 12 94; G2 AND 95 94 99;
  G1 INV 14 97; G1 INV 13 96; G2 AND 97 96 98; G2 AND 99 98 107; G1 INV 3 101; G1 INV 0 100;
  G2 AND 101 100 105; G1 INV 2 103; G1 INV 1 102; G2 AND 103 102 104; G2 AND 105 104 106; G2 AND 107 106 123;
  G1 INV 11 109; G1 INV 8 108; G2 AND 109 108 113; G1 INV 10 111; G1 INV 9 110; G2 AND 111 110 112;
  G2 AND 113 112 121; G1 INV 7 115; G1 INV 4 114; G2 AND 115 114 119; G1 INV 6 117; G1 INV 5 116;
  G2 AND 117 116 118; G2 AND 119 118 120; G2 AND 121 120 122; G2 AND 123 122 124; G2 AND 125 124 189;
  G1 INV 47 127; G1 INV 44 126; G2 AND 127 126 131; G1 INV 46 129; G1 INV 45 128; G2 AND 129 128 130;
  G2 AND 131 130 139; G1 INV 35 133; G1 INV 32 132; G2 AND 133 132 137; G1 INV 34 135; G1 INV 33 134;
  G2 AND 135 134 136; G2 AND 137 136 138; G2 AND 139 138 155; G1 INV 43 141; G1 INV 40 140;
  G2 AND 141 140 145; G1 INV 42 143; G1 INV 41 142; G2 AND 143 142 144; G2 AND 145 144 153; G1 INV 39 147;
  G1 INV 36 146; G2 AND 147 146 151; G1 INV 38 149; G1 INV 37 148; G2 AND 149 148 150; G2 AND 151 150 152;
  G2 AND 153 152 154; G2 AND 155 154 187; G1 INV 31 157; G1 INV 28 156; G2 AND 157 156 161; G1 INV 30 159;
  G1 INV 29 158; G2 AND 159 158 160; G2 AND 161 160 169; G1 INV 19 163; G1 INV 16 162; G2 AND 163 162 167;
  G1 INV 18 165; G1 INV 17 164; G2 AND 165 164 166; G2 AND 167 166 168; G2 AND 169 168 185; G1 INV 27 171;
  G1 INV 24 170; G2 AND 171 170 175; G1 INV 26 173; G1 INV 25 172; G2 AND 173 172 174; G2 AND 175 174 183;
  G1 INV 23 177; G1 INV 20 176; G2 AND 177 176 181; G1 INV 22 179; G1 INV 21 178; G2 AND 179 178 180;
  G2 AND 181 180 182; G2 AND 183 182 184; G2 AND 185 184 186; G2 AND 187 186 188; G2 AND 189 188 190].
Definition zero_equal : circuit := mkCircuit 127 191 [64] [1] zero_equal_gates.

(** The carries into the bits 1..63 of -a. *)
Definition neg64_carries : list N := [
  82; 105; 127; 149; 171; 183; 185; 187; 189; 65; 67; 69; 71; 73; 75; 77; 79; 81; 85; 87; 89; 91; 93; 95; 97;
  99; 101; 103; 107; 109; 111; 113; 115; 117; 119; 121; 123; 125; 129; 131; 133; 135; 137; 139; 141; 143;
  145; 147; 151; 153; 155; 157; 159; 161; 163; 165; 167; 169; 173; 175; 177; 178; 180].
