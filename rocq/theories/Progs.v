(** GENERATED by tools/gen_progs.py from /repo/ed25519_encode.go: do not edit.
    One instruction per Go assignment; the trailing comment is the source line. *)
From Coq Require Import List ZArith.
From Verif Require Import Slp.
Import ListNotations.
Open Scope Z_scope.

Definition v_f0 : positive := 1.
Definition v_f1 : positive := 2.
Definition v_f2 : positive := 3.
Definition v_f3 : positive := 4.
Definition v_f4 : positive := 5.
Definition v_f5 : positive := 6.
Definition v_f6 : positive := 7.
Definition v_f7 : positive := 8.
Definition v_f8 : positive := 9.
Definition v_f9 : positive := 10.
Definition v_g0 : positive := 11.
Definition v_g1 : positive := 12.
Definition v_g2 : positive := 13.
Definition v_g3 : positive := 14.
Definition v_g4 : positive := 15.
Definition v_g5 : positive := 16.
Definition v_g6 : positive := 17.
Definition v_g7 : positive := 18.
Definition v_g8 : positive := 19.
Definition v_g9 : positive := 20.
Definition v_h0 : positive := 21.
Definition v_h1 : positive := 22.
Definition v_h2 : positive := 23.
Definition v_h3 : positive := 24.
Definition v_h4 : positive := 25.
Definition v_h5 : positive := 26.
Definition v_h6 : positive := 27.
Definition v_h7 : positive := 28.
Definition v_h8 : positive := 29.
Definition v_h9 : positive := 30.
Definition v_g1_19 : positive := 31.
Definition v_g2_19 : positive := 32.
Definition v_g3_19 : positive := 33.
Definition v_g4_19 : positive := 34.
Definition v_g5_19 : positive := 35.
Definition v_g6_19 : positive := 36.
Definition v_g7_19 : positive := 37.
Definition v_g8_19 : positive := 38.
Definition v_g9_19 : positive := 39.
Definition v_f1_2 : positive := 40.
Definition v_f3_2 : positive := 41.
Definition v_f5_2 : positive := 42.
Definition v_f7_2 : positive := 43.
Definition v_f9_2 : positive := 44.
Definition v_f0g0 : positive := 45.
Definition v_f0g1 : positive := 46.
Definition v_f0g2 : positive := 47.
Definition v_f0g3 : positive := 48.
Definition v_f0g4 : positive := 49.
Definition v_f0g5 : positive := 50.
Definition v_f0g6 : positive := 51.
Definition v_f0g7 : positive := 52.
Definition v_f0g8 : positive := 53.
Definition v_f0g9 : positive := 54.
Definition v_f1g0 : positive := 55.
Definition v_f1g1_2 : positive := 56.
Definition v_f1g2 : positive := 57.
Definition v_f1g3_2 : positive := 58.
Definition v_f1g4 : positive := 59.
Definition v_f1g5_2 : positive := 60.
Definition v_f1g6 : positive := 61.
Definition v_f1g7_2 : positive := 62.
Definition v_f1g8 : positive := 63.
Definition v_f1g9_38 : positive := 64.
Definition v_f2g0 : positive := 65.
Definition v_f2g1 : positive := 66.
Definition v_f2g2 : positive := 67.
Definition v_f2g3 : positive := 68.
Definition v_f2g4 : positive := 69.
Definition v_f2g5 : positive := 70.
Definition v_f2g6 : positive := 71.
Definition v_f2g7 : positive := 72.
Definition v_f2g8_19 : positive := 73.
Definition v_f2g9_19 : positive := 74.
Definition v_f3g0 : positive := 75.
Definition v_f3g1_2 : positive := 76.
Definition v_f3g2 : positive := 77.
Definition v_f3g3_2 : positive := 78.
Definition v_f3g4 : positive := 79.
Definition v_f3g5_2 : positive := 80.
Definition v_f3g6 : positive := 81.
Definition v_f3g7_38 : positive := 82.
Definition v_f3g8_19 : positive := 83.
Definition v_f3g9_38 : positive := 84.
Definition v_f4g0 : positive := 85.
Definition v_f4g1 : positive := 86.
Definition v_f4g2 : positive := 87.
Definition v_f4g3 : positive := 88.
Definition v_f4g4 : positive := 89.
Definition v_f4g5 : positive := 90.
Definition v_f4g6_19 : positive := 91.
Definition v_f4g7_19 : positive := 92.
Definition v_f4g8_19 : positive := 93.
Definition v_f4g9_19 : positive := 94.
Definition v_f5g0 : positive := 95.
Definition v_f5g1_2 : positive := 96.
Definition v_f5g2 : positive := 97.
Definition v_f5g3_2 : positive := 98.
Definition v_f5g4 : positive := 99.
Definition v_f5g5_38 : positive := 100.
Definition v_f5g6_19 : positive := 101.
Definition v_f5g7_38 : positive := 102.
Definition v_f5g8_19 : positive := 103.
Definition v_f5g9_38 : positive := 104.
Definition v_f6g0 : positive := 105.
Definition v_f6g1 : positive := 106.
Definition v_f6g2 : positive := 107.
Definition v_f6g3 : positive := 108.
Definition v_f6g4_19 : positive := 109.
Definition v_f6g5_19 : positive := 110.
Definition v_f6g6_19 : positive := 111.
Definition v_f6g7_19 : positive := 112.
Definition v_f6g8_19 : positive := 113.
Definition v_f6g9_19 : positive := 114.
Definition v_f7g0 : positive := 115.
Definition v_f7g1_2 : positive := 116.
Definition v_f7g2 : positive := 117.
Definition v_f7g3_38 : positive := 118.
Definition v_f7g4_19 : positive := 119.
Definition v_f7g5_38 : positive := 120.
Definition v_f7g6_19 : positive := 121.
Definition v_f7g7_38 : positive := 122.
Definition v_f7g8_19 : positive := 123.
Definition v_f7g9_38 : positive := 124.
Definition v_f8g0 : positive := 125.
Definition v_f8g1 : positive := 126.
Definition v_f8g2_19 : positive := 127.
Definition v_f8g3_19 : positive := 128.
Definition v_f8g4_19 : positive := 129.
Definition v_f8g5_19 : positive := 130.
Definition v_f8g6_19 : positive := 131.
Definition v_f8g7_19 : positive := 132.
Definition v_f8g8_19 : positive := 133.
Definition v_f8g9_19 : positive := 134.
Definition v_f9g0 : positive := 135.
Definition v_f9g1_38 : positive := 136.
Definition v_f9g2_19 : positive := 137.
Definition v_f9g3_38 : positive := 138.
Definition v_f9g4_19 : positive := 139.
Definition v_f9g5_38 : positive := 140.
Definition v_f9g6_19 : positive := 141.
Definition v_f9g7_38 : positive := 142.
Definition v_f9g8_19 : positive := 143.
Definition v_f9g9_38 : positive := 144.
Definition v_carry0 : positive := 145.
Definition v_carry4 : positive := 146.
Definition v_carry1 : positive := 147.
Definition v_carry5 : positive := 148.
Definition v_carry2 : positive := 149.
Definition v_carry6 : positive := 150.
Definition v_carry3 : positive := 151.
Definition v_carry7 : positive := 152.
Definition v_carry8 : positive := 153.
Definition v_carry9 : positive := 154.
Definition v_f0_2 : positive := 155.
Definition v_f2_2 : positive := 156.
Definition v_f4_2 : positive := 157.
Definition v_f6_2 : positive := 158.
Definition v_f5_38 : positive := 159.
Definition v_f6_19 : positive := 160.
Definition v_f7_38 : positive := 161.
Definition v_f8_19 : positive := 162.
Definition v_f9_38 : positive := 163.
Definition v_f0f0 : positive := 164.
Definition v_f0f1_2 : positive := 165.
Definition v_f0f2_2 : positive := 166.
Definition v_f0f3_2 : positive := 167.
Definition v_f0f4_2 : positive := 168.
Definition v_f0f5_2 : positive := 169.
Definition v_f0f6_2 : positive := 170.
Definition v_f0f7_2 : positive := 171.
Definition v_f0f8_2 : positive := 172.
Definition v_f0f9_2 : positive := 173.
Definition v_f1f1_2 : positive := 174.
Definition v_f1f2_2 : positive := 175.
Definition v_f1f3_4 : positive := 176.
Definition v_f1f4_2 : positive := 177.
Definition v_f1f5_4 : positive := 178.
Definition v_f1f6_2 : positive := 179.
Definition v_f1f7_4 : positive := 180.
Definition v_f1f8_2 : positive := 181.
Definition v_f1f9_76 : positive := 182.
Definition v_f2f2 : positive := 183.
Definition v_f2f3_2 : positive := 184.
Definition v_f2f4_2 : positive := 185.
Definition v_f2f5_2 : positive := 186.
Definition v_f2f6_2 : positive := 187.
Definition v_f2f7_2 : positive := 188.
Definition v_f2f8_38 : positive := 189.
Definition v_f2f9_38 : positive := 190.
Definition v_f3f3_2 : positive := 191.
Definition v_f3f4_2 : positive := 192.
Definition v_f3f5_4 : positive := 193.
Definition v_f3f6_2 : positive := 194.
Definition v_f3f7_76 : positive := 195.
Definition v_f3f8_38 : positive := 196.
Definition v_f3f9_76 : positive := 197.
Definition v_f4f4 : positive := 198.
Definition v_f4f5_2 : positive := 199.
Definition v_f4f6_38 : positive := 200.
Definition v_f4f7_38 : positive := 201.
Definition v_f4f8_38 : positive := 202.
Definition v_f4f9_38 : positive := 203.
Definition v_f5f5_38 : positive := 204.
Definition v_f5f6_38 : positive := 205.
Definition v_f5f7_76 : positive := 206.
Definition v_f5f8_38 : positive := 207.
Definition v_f5f9_76 : positive := 208.
Definition v_f6f6_19 : positive := 209.
Definition v_f6f7_38 : positive := 210.
Definition v_f6f8_38 : positive := 211.
Definition v_f6f9_38 : positive := 212.
Definition v_f7f7_38 : positive := 213.
Definition v_f7f8_38 : positive := 214.
Definition v_f7f9_76 : positive := 215.
Definition v_f8f8_19 : positive := 216.
Definition v_f8f9_38 : positive := 217.
Definition v_f9f9_38 : positive := 218.
Definition v_q : positive := 219.
Definition v_s0 : positive := 220.
Definition v_s1 : positive := 221.
Definition v_s2 : positive := 222.
Definition v_s3 : positive := 223.
Definition v_s4 : positive := 224.
Definition v_s5 : positive := 225.
Definition v_s6 : positive := 226.
Definition v_s7 : positive := 227.
Definition v_s8 : positive := 228.
Definition v_s9 : positive := 229.
Definition v_s10 : positive := 230.
Definition v_s11 : positive := 231.
Definition v_s12 : positive := 232.
Definition v_s13 : positive := 233.
Definition v_s14 : positive := 234.
Definition v_s15 : positive := 235.
Definition v_s16 : positive := 236.
Definition v_s17 : positive := 237.
Definition v_s18 : positive := 238.
Definition v_s19 : positive := 239.
Definition v_s20 : positive := 240.
Definition v_s21 : positive := 241.
Definition v_s22 : positive := 242.
Definition v_s23 : positive := 243.
Definition v_carry10 : positive := 244.
Definition v_carry12 : positive := 245.
Definition v_carry14 : positive := 246.
Definition v_carry16 : positive := 247.
Definition v_carry11 : positive := 248.
Definition v_carry13 : positive := 249.
Definition v_carry15 : positive := 250.
Definition v_c0 : positive := 251.
Definition v_a0 : positive := 252.
Definition v_b0 : positive := 253.
Definition v_c1 : positive := 254.
Definition v_b1 : positive := 255.
Definition v_a1 : positive := 256.
Definition v_c2 : positive := 257.
Definition v_b2 : positive := 258.
Definition v_a2 : positive := 259.
Definition v_c3 : positive := 260.
Definition v_b3 : positive := 261.
Definition v_a3 : positive := 262.
Definition v_c4 : positive := 263.
Definition v_b4 : positive := 264.
Definition v_a4 : positive := 265.
Definition v_c5 : positive := 266.
Definition v_b5 : positive := 267.
Definition v_a5 : positive := 268.
Definition v_c6 : positive := 269.
Definition v_b6 : positive := 270.
Definition v_a6 : positive := 271.
Definition v_c7 : positive := 272.
Definition v_b7 : positive := 273.
Definition v_a7 : positive := 274.
Definition v_c8 : positive := 275.
Definition v_b8 : positive := 276.
Definition v_a8 : positive := 277.
Definition v_c9 : positive := 278.
Definition v_b9 : positive := 279.
Definition v_a9 : positive := 280.
Definition v_c10 : positive := 281.
Definition v_b10 : positive := 282.
Definition v_a10 : positive := 283.
Definition v_c11 : positive := 284.
Definition v_b11 : positive := 285.
Definition v_a11 : positive := 286.
Definition v_carry18 : positive := 287.
Definition v_carry20 : positive := 288.
Definition v_carry22 : positive := 289.
Definition v_carry17 : positive := 290.
Definition v_carry19 : positive := 291.
Definition v_carry21 : positive := 292.

(** Ed25519FieldElement.multiply, ed25519_encode.go:252-458 *)
Definition mul_prog : prog := [
  Asg v_g1_19 (Mul (C 19) (V v_g1));  (* 253 *)
  Asg v_g2_19 (Mul (C 19) (V v_g2));  (* 254 *)
  Asg v_g3_19 (Mul (C 19) (V v_g3));  (* 255 *)
  Asg v_g4_19 (Mul (C 19) (V v_g4));  (* 256 *)
  Asg v_g5_19 (Mul (C 19) (V v_g5));  (* 257 *)
  Asg v_g6_19 (Mul (C 19) (V v_g6));  (* 258 *)
  Asg v_g7_19 (Mul (C 19) (V v_g7));  (* 259 *)
  Asg v_g8_19 (Mul (C 19) (V v_g8));  (* 260 *)
  Asg v_g9_19 (Mul (C 19) (V v_g9));  (* 261 *)
  Asg v_f1_2 (Mul (C 2) (V v_f1));  (* 262 *)
  Asg v_f3_2 (Mul (C 2) (V v_f3));  (* 263 *)
  Asg v_f5_2 (Mul (C 2) (V v_f5));  (* 264 *)
  Asg v_f7_2 (Mul (C 2) (V v_f7));  (* 265 *)
  Asg v_f9_2 (Mul (C 2) (V v_f9));  (* 266 *)
  Asg v_f0g0 (Mul (V v_f0) (V v_g0));  (* 267 *)
  Asg v_f0g1 (Mul (V v_f0) (V v_g1));  (* 268 *)
  Asg v_f0g2 (Mul (V v_f0) (V v_g2));  (* 269 *)
  Asg v_f0g3 (Mul (V v_f0) (V v_g3));  (* 270 *)
  Asg v_f0g4 (Mul (V v_f0) (V v_g4));  (* 271 *)
  Asg v_f0g5 (Mul (V v_f0) (V v_g5));  (* 272 *)
  Asg v_f0g6 (Mul (V v_f0) (V v_g6));  (* 273 *)
  Asg v_f0g7 (Mul (V v_f0) (V v_g7));  (* 274 *)
  Asg v_f0g8 (Mul (V v_f0) (V v_g8));  (* 275 *)
  Asg v_f0g9 (Mul (V v_f0) (V v_g9));  (* 276 *)
  Asg v_f1g0 (Mul (V v_f1) (V v_g0));  (* 277 *)
  Asg v_f1g1_2 (Mul (V v_f1_2) (V v_g1));  (* 278 *)
  Asg v_f1g2 (Mul (V v_f1) (V v_g2));  (* 279 *)
  Asg v_f1g3_2 (Mul (V v_f1_2) (V v_g3));  (* 280 *)
  Asg v_f1g4 (Mul (V v_f1) (V v_g4));  (* 281 *)
  Asg v_f1g5_2 (Mul (V v_f1_2) (V v_g5));  (* 282 *)
  Asg v_f1g6 (Mul (V v_f1) (V v_g6));  (* 283 *)
  Asg v_f1g7_2 (Mul (V v_f1_2) (V v_g7));  (* 284 *)
  Asg v_f1g8 (Mul (V v_f1) (V v_g8));  (* 285 *)
  Asg v_f1g9_38 (Mul (V v_f1_2) (V v_g9_19));  (* 286 *)
  Asg v_f2g0 (Mul (V v_f2) (V v_g0));  (* 287 *)
  Asg v_f2g1 (Mul (V v_f2) (V v_g1));  (* 288 *)
  Asg v_f2g2 (Mul (V v_f2) (V v_g2));  (* 289 *)
  Asg v_f2g3 (Mul (V v_f2) (V v_g3));  (* 290 *)
  Asg v_f2g4 (Mul (V v_f2) (V v_g4));  (* 291 *)
  Asg v_f2g5 (Mul (V v_f2) (V v_g5));  (* 292 *)
  Asg v_f2g6 (Mul (V v_f2) (V v_g6));  (* 293 *)
  Asg v_f2g7 (Mul (V v_f2) (V v_g7));  (* 294 *)
  Asg v_f2g8_19 (Mul (V v_f2) (V v_g8_19));  (* 295 *)
  Asg v_f2g9_19 (Mul (V v_f2) (V v_g9_19));  (* 296 *)
  Asg v_f3g0 (Mul (V v_f3) (V v_g0));  (* 297 *)
  Asg v_f3g1_2 (Mul (V v_f3_2) (V v_g1));  (* 298 *)
  Asg v_f3g2 (Mul (V v_f3) (V v_g2));  (* 299 *)
  Asg v_f3g3_2 (Mul (V v_f3_2) (V v_g3));  (* 300 *)
  Asg v_f3g4 (Mul (V v_f3) (V v_g4));  (* 301 *)
  Asg v_f3g5_2 (Mul (V v_f3_2) (V v_g5));  (* 302 *)
  Asg v_f3g6 (Mul (V v_f3) (V v_g6));  (* 303 *)
  Asg v_f3g7_38 (Mul (V v_f3_2) (V v_g7_19));  (* 304 *)
  Asg v_f3g8_19 (Mul (V v_f3) (V v_g8_19));  (* 305 *)
  Asg v_f3g9_38 (Mul (V v_f3_2) (V v_g9_19));  (* 306 *)
  Asg v_f4g0 (Mul (V v_f4) (V v_g0));  (* 307 *)
  Asg v_f4g1 (Mul (V v_f4) (V v_g1));  (* 308 *)
  Asg v_f4g2 (Mul (V v_f4) (V v_g2));  (* 309 *)
  Asg v_f4g3 (Mul (V v_f4) (V v_g3));  (* 310 *)
  Asg v_f4g4 (Mul (V v_f4) (V v_g4));  (* 311 *)
  Asg v_f4g5 (Mul (V v_f4) (V v_g5));  (* 312 *)
  Asg v_f4g6_19 (Mul (V v_f4) (V v_g6_19));  (* 313 *)
  Asg v_f4g7_19 (Mul (V v_f4) (V v_g7_19));  (* 314 *)
  Asg v_f4g8_19 (Mul (V v_f4) (V v_g8_19));  (* 315 *)
  Asg v_f4g9_19 (Mul (V v_f4) (V v_g9_19));  (* 316 *)
  Asg v_f5g0 (Mul (V v_f5) (V v_g0));  (* 317 *)
  Asg v_f5g1_2 (Mul (V v_f5_2) (V v_g1));  (* 318 *)
  Asg v_f5g2 (Mul (V v_f5) (V v_g2));  (* 319 *)
  Asg v_f5g3_2 (Mul (V v_f5_2) (V v_g3));  (* 320 *)
  Asg v_f5g4 (Mul (V v_f5) (V v_g4));  (* 321 *)
  Asg v_f5g5_38 (Mul (V v_f5_2) (V v_g5_19));  (* 322 *)
  Asg v_f5g6_19 (Mul (V v_f5) (V v_g6_19));  (* 323 *)
  Asg v_f5g7_38 (Mul (V v_f5_2) (V v_g7_19));  (* 324 *)
  Asg v_f5g8_19 (Mul (V v_f5) (V v_g8_19));  (* 325 *)
  Asg v_f5g9_38 (Mul (V v_f5_2) (V v_g9_19));  (* 326 *)
  Asg v_f6g0 (Mul (V v_f6) (V v_g0));  (* 327 *)
  Asg v_f6g1 (Mul (V v_f6) (V v_g1));  (* 328 *)
  Asg v_f6g2 (Mul (V v_f6) (V v_g2));  (* 329 *)
  Asg v_f6g3 (Mul (V v_f6) (V v_g3));  (* 330 *)
  Asg v_f6g4_19 (Mul (V v_f6) (V v_g4_19));  (* 331 *)
  Asg v_f6g5_19 (Mul (V v_f6) (V v_g5_19));  (* 332 *)
  Asg v_f6g6_19 (Mul (V v_f6) (V v_g6_19));  (* 333 *)
  Asg v_f6g7_19 (Mul (V v_f6) (V v_g7_19));  (* 334 *)
  Asg v_f6g8_19 (Mul (V v_f6) (V v_g8_19));  (* 335 *)
  Asg v_f6g9_19 (Mul (V v_f6) (V v_g9_19));  (* 336 *)
  Asg v_f7g0 (Mul (V v_f7) (V v_g0));  (* 337 *)
  Asg v_f7g1_2 (Mul (V v_f7_2) (V v_g1));  (* 338 *)
  Asg v_f7g2 (Mul (V v_f7) (V v_g2));  (* 339 *)
  Asg v_f7g3_38 (Mul (V v_f7_2) (V v_g3_19));  (* 340 *)
  Asg v_f7g4_19 (Mul (V v_f7) (V v_g4_19));  (* 341 *)
  Asg v_f7g5_38 (Mul (V v_f7_2) (V v_g5_19));  (* 342 *)
  Asg v_f7g6_19 (Mul (V v_f7) (V v_g6_19));  (* 343 *)
  Asg v_f7g7_38 (Mul (V v_f7_2) (V v_g7_19));  (* 344 *)
  Asg v_f7g8_19 (Mul (V v_f7) (V v_g8_19));  (* 345 *)
  Asg v_f7g9_38 (Mul (V v_f7_2) (V v_g9_19));  (* 346 *)
  Asg v_f8g0 (Mul (V v_f8) (V v_g0));  (* 347 *)
  Asg v_f8g1 (Mul (V v_f8) (V v_g1));  (* 348 *)
  Asg v_f8g2_19 (Mul (V v_f8) (V v_g2_19));  (* 349 *)
  Asg v_f8g3_19 (Mul (V v_f8) (V v_g3_19));  (* 350 *)
  Asg v_f8g4_19 (Mul (V v_f8) (V v_g4_19));  (* 351 *)
  Asg v_f8g5_19 (Mul (V v_f8) (V v_g5_19));  (* 352 *)
  Asg v_f8g6_19 (Mul (V v_f8) (V v_g6_19));  (* 353 *)
  Asg v_f8g7_19 (Mul (V v_f8) (V v_g7_19));  (* 354 *)
  Asg v_f8g8_19 (Mul (V v_f8) (V v_g8_19));  (* 355 *)
  Asg v_f8g9_19 (Mul (V v_f8) (V v_g9_19));  (* 356 *)
  Asg v_f9g0 (Mul (V v_f9) (V v_g0));  (* 357 *)
  Asg v_f9g1_38 (Mul (V v_f9_2) (V v_g1_19));  (* 358 *)
  Asg v_f9g2_19 (Mul (V v_f9) (V v_g2_19));  (* 359 *)
  Asg v_f9g3_38 (Mul (V v_f9_2) (V v_g3_19));  (* 360 *)
  Asg v_f9g4_19 (Mul (V v_f9) (V v_g4_19));  (* 361 *)
  Asg v_f9g5_38 (Mul (V v_f9_2) (V v_g5_19));  (* 362 *)
  Asg v_f9g6_19 (Mul (V v_f9) (V v_g6_19));  (* 363 *)
  Asg v_f9g7_38 (Mul (V v_f9_2) (V v_g7_19));  (* 364 *)
  Asg v_f9g8_19 (Mul (V v_f9) (V v_g8_19));  (* 365 *)
  Asg v_f9g9_38 (Mul (V v_f9_2) (V v_g9_19));  (* 366 *)
  Asg v_h0 (Add (Add (Add (Add (Add (Add (Add (Add (Add (V v_f0g0) (V v_f1g9_38)) (V v_f2g8_19)) (V v_f3g7_38)) (V v_f4g6_19)) (V v_f5g5_38)) (V v_f6g4_19)) (V v_f7g3_38)) (V v_f8g2_19)) (V v_f9g1_38));  (* 379 *)
  Asg v_h1 (Add (Add (Add (Add (Add (Add (Add (Add (Add (V v_f0g1) (V v_f1g0)) (V v_f2g9_19)) (V v_f3g8_19)) (V v_f4g7_19)) (V v_f5g6_19)) (V v_f6g5_19)) (V v_f7g4_19)) (V v_f8g3_19)) (V v_f9g2_19));  (* 380 *)
  Asg v_h2 (Add (Add (Add (Add (Add (Add (Add (Add (Add (V v_f0g2) (V v_f1g1_2)) (V v_f2g0)) (V v_f3g9_38)) (V v_f4g8_19)) (V v_f5g7_38)) (V v_f6g6_19)) (V v_f7g5_38)) (V v_f8g4_19)) (V v_f9g3_38));  (* 381 *)
  Asg v_h3 (Add (Add (Add (Add (Add (Add (Add (Add (Add (V v_f0g3) (V v_f1g2)) (V v_f2g1)) (V v_f3g0)) (V v_f4g9_19)) (V v_f5g8_19)) (V v_f6g7_19)) (V v_f7g6_19)) (V v_f8g5_19)) (V v_f9g4_19));  (* 382 *)
  Asg v_h4 (Add (Add (Add (Add (Add (Add (Add (Add (Add (V v_f0g4) (V v_f1g3_2)) (V v_f2g2)) (V v_f3g1_2)) (V v_f4g0)) (V v_f5g9_38)) (V v_f6g8_19)) (V v_f7g7_38)) (V v_f8g6_19)) (V v_f9g5_38));  (* 383 *)
  Asg v_h5 (Add (Add (Add (Add (Add (Add (Add (Add (Add (V v_f0g5) (V v_f1g4)) (V v_f2g3)) (V v_f3g2)) (V v_f4g1)) (V v_f5g0)) (V v_f6g9_19)) (V v_f7g8_19)) (V v_f8g7_19)) (V v_f9g6_19));  (* 384 *)
  Asg v_h6 (Add (Add (Add (Add (Add (Add (Add (Add (Add (V v_f0g6) (V v_f1g5_2)) (V v_f2g4)) (V v_f3g3_2)) (V v_f4g2)) (V v_f5g1_2)) (V v_f6g0)) (V v_f7g9_38)) (V v_f8g8_19)) (V v_f9g7_38));  (* 385 *)
  Asg v_h7 (Add (Add (Add (Add (Add (Add (Add (Add (Add (V v_f0g7) (V v_f1g6)) (V v_f2g5)) (V v_f3g4)) (V v_f4g3)) (V v_f5g2)) (V v_f6g1)) (V v_f7g0)) (V v_f8g9_19)) (V v_f9g8_19));  (* 386 *)
  Asg v_h8 (Add (Add (Add (Add (Add (Add (Add (Add (Add (V v_f0g8) (V v_f1g7_2)) (V v_f2g6)) (V v_f3g5_2)) (V v_f4g4)) (V v_f5g3_2)) (V v_f6g2)) (V v_f7g1_2)) (V v_f8g0)) (V v_f9g9_38));  (* 387 *)
  Asg v_h9 (Add (Add (Add (Add (Add (Add (Add (Add (Add (V v_f0g9) (V v_f1g8)) (V v_f2g7)) (V v_f3g6)) (V v_f4g5)) (V v_f5g4)) (V v_f6g3)) (V v_f7g2)) (V v_f8g1)) (V v_f9g0));  (* 388 *)
  Asg v_carry0 (Shr (Add (V v_h0) (C 33554432)) 26);  (* 396 *)
  Asg v_h1 (Add (V v_h1) (V v_carry0));  (* 397 *)
  Asg v_h0 (Sub (V v_h0) (Shl (V v_carry0) 26));  (* 398 *)
  Asg v_carry4 (Shr (Add (V v_h4) (C 33554432)) 26);  (* 399 *)
  Asg v_h5 (Add (V v_h5) (V v_carry4));  (* 400 *)
  Asg v_h4 (Sub (V v_h4) (Shl (V v_carry4) 26));  (* 401 *)
  Asg v_carry1 (Shr (Add (V v_h1) (C 16777216)) 25);  (* 406 *)
  Asg v_h2 (Add (V v_h2) (V v_carry1));  (* 407 *)
  Asg v_h1 (Sub (V v_h1) (Shl (V v_carry1) 25));  (* 408 *)
  Asg v_carry5 (Shr (Add (V v_h5) (C 16777216)) 25);  (* 409 *)
  Asg v_h6 (Add (V v_h6) (V v_carry5));  (* 410 *)
  Asg v_h5 (Sub (V v_h5) (Shl (V v_carry5) 25));  (* 411 *)
  Asg v_carry2 (Shr (Add (V v_h2) (C 33554432)) 26);  (* 416 *)
  Asg v_h3 (Add (V v_h3) (V v_carry2));  (* 417 *)
  Asg v_h2 (Sub (V v_h2) (Shl (V v_carry2) 26));  (* 418 *)
  Asg v_carry6 (Shr (Add (V v_h6) (C 33554432)) 26);  (* 419 *)
  Asg v_h7 (Add (V v_h7) (V v_carry6));  (* 420 *)
  Asg v_h6 (Sub (V v_h6) (Shl (V v_carry6) 26));  (* 421 *)
  Asg v_carry3 (Shr (Add (V v_h3) (C 16777216)) 25);  (* 426 *)
  Asg v_h4 (Add (V v_h4) (V v_carry3));  (* 427 *)
  Asg v_h3 (Sub (V v_h3) (Shl (V v_carry3) 25));  (* 428 *)
  Asg v_carry7 (Shr (Add (V v_h7) (C 16777216)) 25);  (* 429 *)
  Asg v_h8 (Add (V v_h8) (V v_carry7));  (* 430 *)
  Asg v_h7 (Sub (V v_h7) (Shl (V v_carry7) 25));  (* 431 *)
  Asg v_carry4 (Shr (Add (V v_h4) (C 33554432)) 26);  (* 436 *)
  Asg v_h5 (Add (V v_h5) (V v_carry4));  (* 437 *)
  Asg v_h4 (Sub (V v_h4) (Shl (V v_carry4) 26));  (* 438 *)
  Asg v_carry8 (Shr (Add (V v_h8) (C 33554432)) 26);  (* 439 *)
  Asg v_h9 (Add (V v_h9) (V v_carry8));  (* 440 *)
  Asg v_h8 (Sub (V v_h8) (Shl (V v_carry8) 26));  (* 441 *)
  Asg v_carry9 (Shr (Add (V v_h9) (C 16777216)) 25);  (* 446 *)
  Asg v_h0 (Add (V v_h0) (Mul (V v_carry9) (C 19)));  (* 447 *)
  Asg v_h9 (Sub (V v_h9) (Shl (V v_carry9) 25));  (* 448 *)
  Asg v_carry0 (Shr (Add (V v_h0) (C 33554432)) 26);  (* 451 *)
  Asg v_h1 (Add (V v_h1) (V v_carry0));  (* 452 *)
  Asg v_h0 (Sub (V v_h0) (Shl (V v_carry0) 26))  (* 453 *)
].

(** Ed25519FieldElement.squareAndOptionalDouble, ed25519_encode.go:508-597 (products) *)
Definition sq_pre_prog : prog := [
  Asg v_f0_2 (Mul (C 2) (V v_f0));  (* 510 *)
  Asg v_f1_2 (Mul (C 2) (V v_f1));  (* 511 *)
  Asg v_f2_2 (Mul (C 2) (V v_f2));  (* 512 *)
  Asg v_f3_2 (Mul (C 2) (V v_f3));  (* 513 *)
  Asg v_f4_2 (Mul (C 2) (V v_f4));  (* 514 *)
  Asg v_f5_2 (Mul (C 2) (V v_f5));  (* 515 *)
  Asg v_f6_2 (Mul (C 2) (V v_f6));  (* 516 *)
  Asg v_f7_2 (Mul (C 2) (V v_f7));  (* 517 *)
  Asg v_f5_38 (Mul (C 38) (V v_f5));  (* 518 *)
  Asg v_f6_19 (Mul (C 19) (V v_f6));  (* 519 *)
  Asg v_f7_38 (Mul (C 38) (V v_f7));  (* 520 *)
  Asg v_f8_19 (Mul (C 19) (V v_f8));  (* 521 *)
  Asg v_f9_38 (Mul (C 38) (V v_f9));  (* 522 *)
  Asg v_f0f0 (Mul (V v_f0) (V v_f0));  (* 524 *)
  Asg v_f0f1_2 (Mul (V v_f0_2) (V v_f1));  (* 525 *)
  Asg v_f0f2_2 (Mul (V v_f0_2) (V v_f2));  (* 526 *)
  Asg v_f0f3_2 (Mul (V v_f0_2) (V v_f3));  (* 527 *)
  Asg v_f0f4_2 (Mul (V v_f0_2) (V v_f4));  (* 528 *)
  Asg v_f0f5_2 (Mul (V v_f0_2) (V v_f5));  (* 529 *)
  Asg v_f0f6_2 (Mul (V v_f0_2) (V v_f6));  (* 530 *)
  Asg v_f0f7_2 (Mul (V v_f0_2) (V v_f7));  (* 531 *)
  Asg v_f0f8_2 (Mul (V v_f0_2) (V v_f8));  (* 532 *)
  Asg v_f0f9_2 (Mul (V v_f0_2) (V v_f9));  (* 533 *)
  Asg v_f1f1_2 (Mul (V v_f1_2) (V v_f1));  (* 535 *)
  Asg v_f1f2_2 (Mul (V v_f1_2) (V v_f2));  (* 536 *)
  Asg v_f1f3_4 (Mul (V v_f1_2) (V v_f3_2));  (* 537 *)
  Asg v_f1f4_2 (Mul (V v_f1_2) (V v_f4));  (* 538 *)
  Asg v_f1f5_4 (Mul (V v_f1_2) (V v_f5_2));  (* 539 *)
  Asg v_f1f6_2 (Mul (V v_f1_2) (V v_f6));  (* 540 *)
  Asg v_f1f7_4 (Mul (V v_f1_2) (V v_f7_2));  (* 541 *)
  Asg v_f1f8_2 (Mul (V v_f1_2) (V v_f8));  (* 542 *)
  Asg v_f1f9_76 (Mul (V v_f1_2) (V v_f9_38));  (* 543 *)
  Asg v_f2f2 (Mul (V v_f2) (V v_f2));  (* 545 *)
  Asg v_f2f3_2 (Mul (V v_f2_2) (V v_f3));  (* 546 *)
  Asg v_f2f4_2 (Mul (V v_f2_2) (V v_f4));  (* 547 *)
  Asg v_f2f5_2 (Mul (V v_f2_2) (V v_f5));  (* 548 *)
  Asg v_f2f6_2 (Mul (V v_f2_2) (V v_f6));  (* 549 *)
  Asg v_f2f7_2 (Mul (V v_f2_2) (V v_f7));  (* 550 *)
  Asg v_f2f8_38 (Mul (V v_f2_2) (V v_f8_19));  (* 551 *)
  Asg v_f2f9_38 (Mul (V v_f2) (V v_f9_38));  (* 552 *)
  Asg v_f3f3_2 (Mul (V v_f3_2) (V v_f3));  (* 554 *)
  Asg v_f3f4_2 (Mul (V v_f3_2) (V v_f4));  (* 555 *)
  Asg v_f3f5_4 (Mul (V v_f3_2) (V v_f5_2));  (* 556 *)
  Asg v_f3f6_2 (Mul (V v_f3_2) (V v_f6));  (* 557 *)
  Asg v_f3f7_76 (Mul (V v_f3_2) (V v_f7_38));  (* 558 *)
  Asg v_f3f8_38 (Mul (V v_f3_2) (V v_f8_19));  (* 559 *)
  Asg v_f3f9_76 (Mul (V v_f3_2) (V v_f9_38));  (* 560 *)
  Asg v_f4f4 (Mul (V v_f4) (V v_f4));  (* 562 *)
  Asg v_f4f5_2 (Mul (V v_f4_2) (V v_f5));  (* 563 *)
  Asg v_f4f6_38 (Mul (V v_f4_2) (V v_f6_19));  (* 564 *)
  Asg v_f4f7_38 (Mul (V v_f4) (V v_f7_38));  (* 565 *)
  Asg v_f4f8_38 (Mul (V v_f4_2) (V v_f8_19));  (* 566 *)
  Asg v_f4f9_38 (Mul (V v_f4) (V v_f9_38));  (* 567 *)
  Asg v_f5f5_38 (Mul (V v_f5) (V v_f5_38));  (* 569 *)
  Asg v_f5f6_38 (Mul (V v_f5_2) (V v_f6_19));  (* 570 *)
  Asg v_f5f7_76 (Mul (V v_f5_2) (V v_f7_38));  (* 571 *)
  Asg v_f5f8_38 (Mul (V v_f5_2) (V v_f8_19));  (* 572 *)
  Asg v_f5f9_76 (Mul (V v_f5_2) (V v_f9_38));  (* 573 *)
  Asg v_f6f6_19 (Mul (V v_f6) (V v_f6_19));  (* 575 *)
  Asg v_f6f7_38 (Mul (V v_f6) (V v_f7_38));  (* 576 *)
  Asg v_f6f8_38 (Mul (V v_f6_2) (V v_f8_19));  (* 577 *)
  Asg v_f6f9_38 (Mul (V v_f6) (V v_f9_38));  (* 578 *)
  Asg v_f7f7_38 (Mul (V v_f7) (V v_f7_38));  (* 580 *)
  Asg v_f7f8_38 (Mul (V v_f7_2) (V v_f8_19));  (* 581 *)
  Asg v_f7f9_76 (Mul (V v_f7_2) (V v_f9_38));  (* 582 *)
  Asg v_f8f8_19 (Mul (V v_f8) (V v_f8_19));  (* 583 *)
  Asg v_f8f9_38 (Mul (V v_f8) (V v_f9_38));  (* 584 *)
  Asg v_f9f9_38 (Mul (V v_f9) (V v_f9_38));  (* 585 *)
  Asg v_h0 (Add (Add (Add (Add (Add (V v_f0f0) (V v_f1f9_76)) (V v_f2f8_38)) (V v_f3f7_76)) (V v_f4f6_38)) (V v_f5f5_38));  (* 588 *)
  Asg v_h1 (Add (Add (Add (Add (V v_f0f1_2) (V v_f2f9_38)) (V v_f3f8_38)) (V v_f4f7_38)) (V v_f5f6_38));  (* 589 *)
  Asg v_h2 (Add (Add (Add (Add (Add (V v_f0f2_2) (V v_f1f1_2)) (V v_f3f9_76)) (V v_f4f8_38)) (V v_f5f7_76)) (V v_f6f6_19));  (* 590 *)
  Asg v_h3 (Add (Add (Add (Add (V v_f0f3_2) (V v_f1f2_2)) (V v_f4f9_38)) (V v_f5f8_38)) (V v_f6f7_38));  (* 591 *)
  Asg v_h4 (Add (Add (Add (Add (Add (V v_f0f4_2) (V v_f1f3_4)) (V v_f2f2)) (V v_f5f9_76)) (V v_f6f8_38)) (V v_f7f7_38));  (* 592 *)
  Asg v_h5 (Add (Add (Add (Add (V v_f0f5_2) (V v_f1f4_2)) (V v_f2f3_2)) (V v_f6f9_38)) (V v_f7f8_38));  (* 593 *)
  Asg v_h6 (Add (Add (Add (Add (Add (V v_f0f6_2) (V v_f1f5_4)) (V v_f2f4_2)) (V v_f3f3_2)) (V v_f7f9_76)) (V v_f8f8_19));  (* 594 *)
  Asg v_h7 (Add (Add (Add (Add (V v_f0f7_2) (V v_f1f6_2)) (V v_f2f5_2)) (V v_f3f4_2)) (V v_f8f9_38));  (* 595 *)
  Asg v_h8 (Add (Add (Add (Add (Add (V v_f0f8_2) (V v_f1f7_4)) (V v_f2f6_2)) (V v_f3f5_4)) (V v_f4f4)) (V v_f9f9_38));  (* 596 *)
  Asg v_h9 (Add (Add (Add (Add (V v_f0f9_2) (V v_f1f8_2)) (V v_f2f7_2)) (V v_f3f6_2)) (V v_f4f5_2))  (* 597 *)
].

(** the loop of squareAndOptionalDouble, ed25519_encode.go:598-602, taken when dbl is true *)
Definition sq_dbl_prog : prog := [
  Asg v_h0 (Add (V v_h0) (V v_h0));  (* 600 *)
  Asg v_h1 (Add (V v_h1) (V v_h1));  (* 600 *)
  Asg v_h2 (Add (V v_h2) (V v_h2));  (* 600 *)
  Asg v_h3 (Add (V v_h3) (V v_h3));  (* 600 *)
  Asg v_h4 (Add (V v_h4) (V v_h4));  (* 600 *)
  Asg v_h5 (Add (V v_h5) (V v_h5));  (* 600 *)
  Asg v_h6 (Add (V v_h6) (V v_h6));  (* 600 *)
  Asg v_h7 (Add (V v_h7) (V v_h7));  (* 600 *)
  Asg v_h8 (Add (V v_h8) (V v_h8));  (* 600 *)
  Asg v_h9 (Add (V v_h9) (V v_h9))  (* 600 *)
].

(** squareAndOptionalDouble, ed25519_encode.go:604-641 (carries) *)
Definition sq_post_prog : prog := [
  Asg v_carry0 (Shr (Add (V v_h0) (C 33554432)) 26);  (* 604 *)
  Asg v_h1 (Add (V v_h1) (V v_carry0));  (* 605 *)
  Asg v_h0 (Sub (V v_h0) (Shl (V v_carry0) 26));  (* 606 *)
  Asg v_carry4 (Shr (Add (V v_h4) (C 33554432)) 26);  (* 607 *)
  Asg v_h5 (Add (V v_h5) (V v_carry4));  (* 608 *)
  Asg v_h4 (Sub (V v_h4) (Shl (V v_carry4) 26));  (* 609 *)
  Asg v_carry1 (Shr (Add (V v_h1) (C 16777216)) 25);  (* 610 *)
  Asg v_h2 (Add (V v_h2) (V v_carry1));  (* 611 *)
  Asg v_h1 (Sub (V v_h1) (Shl (V v_carry1) 25));  (* 612 *)
  Asg v_carry5 (Shr (Add (V v_h5) (C 16777216)) 25);  (* 613 *)
  Asg v_h6 (Add (V v_h6) (V v_carry5));  (* 614 *)
  Asg v_h5 (Sub (V v_h5) (Shl (V v_carry5) 25));  (* 615 *)
  Asg v_carry2 (Shr (Add (V v_h2) (C 33554432)) 26);  (* 616 *)
  Asg v_h3 (Add (V v_h3) (V v_carry2));  (* 617 *)
  Asg v_h2 (Sub (V v_h2) (Shl (V v_carry2) 26));  (* 618 *)
  Asg v_carry6 (Shr (Add (V v_h6) (C 33554432)) 26);  (* 619 *)
  Asg v_h7 (Add (V v_h7) (V v_carry6));  (* 620 *)
  Asg v_h6 (Sub (V v_h6) (Shl (V v_carry6) 26));  (* 621 *)
  Asg v_carry3 (Shr (Add (V v_h3) (C 16777216)) 25);  (* 622 *)
  Asg v_h4 (Add (V v_h4) (V v_carry3));  (* 623 *)
  Asg v_h3 (Sub (V v_h3) (Shl (V v_carry3) 25));  (* 624 *)
  Asg v_carry7 (Shr (Add (V v_h7) (C 16777216)) 25);  (* 625 *)
  Asg v_h8 (Add (V v_h8) (V v_carry7));  (* 626 *)
  Asg v_h7 (Sub (V v_h7) (Shl (V v_carry7) 25));  (* 627 *)
  Asg v_carry4 (Shr (Add (V v_h4) (C 33554432)) 26);  (* 628 *)
  Asg v_h5 (Add (V v_h5) (V v_carry4));  (* 629 *)
  Asg v_h4 (Sub (V v_h4) (Shl (V v_carry4) 26));  (* 630 *)
  Asg v_carry8 (Shr (Add (V v_h8) (C 33554432)) 26);  (* 631 *)
  Asg v_h9 (Add (V v_h9) (V v_carry8));  (* 632 *)
  Asg v_h8 (Sub (V v_h8) (Shl (V v_carry8) 26));  (* 633 *)
  Asg v_carry9 (Shr (Add (V v_h9) (C 16777216)) 25);  (* 634 *)
  Asg v_h0 (Add (V v_h0) (Mul (V v_carry9) (C 19)));  (* 635 *)
  Asg v_h9 (Sub (V v_h9) (Shl (V v_carry9) 25));  (* 636 *)
  Asg v_carry0 (Shr (Add (V v_h0) (C 33554432)) 26);  (* 637 *)
  Asg v_h1 (Add (V v_h1) (V v_carry0));  (* 638 *)
  Asg v_h0 (Sub (V v_h0) (Shl (V v_carry0) 26))  (* 639 *)
].

(** Ed25519FieldElement.modP, ed25519_encode.go:796-812 (quotient) *)
Definition modP_q_prog : prog := [
  Asg v_h0 (V v_f0);  (* 798 *)
  Asg v_h1 (V v_f1);  (* 798 *)
  Asg v_h2 (V v_f2);  (* 798 *)
  Asg v_h3 (V v_f3);  (* 798 *)
  Asg v_h4 (V v_f4);  (* 798 *)
  Asg v_h5 (V v_f5);  (* 798 *)
  Asg v_h6 (V v_f6);  (* 798 *)
  Asg v_h7 (V v_f7);  (* 798 *)
  Asg v_h8 (V v_f8);  (* 798 *)
  Asg v_h9 (V v_f9);  (* 798 *)
  Asg v_q (Shr (Add (Mul (C 19) (V v_h9)) (C 16777216)) 25);  (* 800 *)
  Asg v_q (Shr (Add (V v_h0) (V v_q)) 26);  (* 801 *)
  Asg v_q (Shr (Add (V v_h1) (V v_q)) 25);  (* 802 *)
  Asg v_q (Shr (Add (V v_h2) (V v_q)) 26);  (* 803 *)
  Asg v_q (Shr (Add (V v_h3) (V v_q)) 25);  (* 804 *)
  Asg v_q (Shr (Add (V v_h4) (V v_q)) 26);  (* 805 *)
  Asg v_q (Shr (Add (V v_h5) (V v_q)) 25);  (* 806 *)
  Asg v_q (Shr (Add (V v_h6) (V v_q)) 26);  (* 807 *)
  Asg v_q (Shr (Add (V v_h7) (V v_q)) 25);  (* 808 *)
  Asg v_q (Shr (Add (V v_h8) (V v_q)) 26);  (* 809 *)
  Asg v_q (Shr (Add (V v_h9) (V v_q)) 25)  (* 810 *)
].

(** Ed25519FieldElement.modP, ed25519_encode.go:813-844 (remainder) *)
Definition modP_r_prog : prog := [
  Asg v_h0 (Add (V v_h0) (Mul (C 19) (V v_q)));  (* 813 *)
  Asg v_carry0 (Shr (V v_h0) 26);  (* 814 *)
  Asg v_h1 (Add (V v_h1) (V v_carry0));  (* 815 *)
  Asg v_h0 (Sub (V v_h0) (Shl (V v_carry0) 26));  (* 816 *)
  Asg v_carry1 (Shr (V v_h1) 25);  (* 817 *)
  Asg v_h2 (Add (V v_h2) (V v_carry1));  (* 818 *)
  Asg v_h1 (Sub (V v_h1) (Shl (V v_carry1) 25));  (* 819 *)
  Asg v_carry2 (Shr (V v_h2) 26);  (* 820 *)
  Asg v_h3 (Add (V v_h3) (V v_carry2));  (* 821 *)
  Asg v_h2 (Sub (V v_h2) (Shl (V v_carry2) 26));  (* 822 *)
  Asg v_carry3 (Shr (V v_h3) 25);  (* 823 *)
  Asg v_h4 (Add (V v_h4) (V v_carry3));  (* 824 *)
  Asg v_h3 (Sub (V v_h3) (Shl (V v_carry3) 25));  (* 825 *)
  Asg v_carry4 (Shr (V v_h4) 26);  (* 826 *)
  Asg v_h5 (Add (V v_h5) (V v_carry4));  (* 827 *)
  Asg v_h4 (Sub (V v_h4) (Shl (V v_carry4) 26));  (* 828 *)
  Asg v_carry5 (Shr (V v_h5) 25);  (* 829 *)
  Asg v_h6 (Add (V v_h6) (V v_carry5));  (* 830 *)
  Asg v_h5 (Sub (V v_h5) (Shl (V v_carry5) 25));  (* 831 *)
  Asg v_carry6 (Shr (V v_h6) 26);  (* 832 *)
  Asg v_h7 (Add (V v_h7) (V v_carry6));  (* 833 *)
  Asg v_h6 (Sub (V v_h6) (Shl (V v_carry6) 26));  (* 834 *)
  Asg v_carry7 (Shr (V v_h7) 25);  (* 835 *)
  Asg v_h8 (Add (V v_h8) (V v_carry7));  (* 836 *)
  Asg v_h7 (Sub (V v_h7) (Shl (V v_carry7) 25));  (* 837 *)
  Asg v_carry8 (Shr (V v_h8) 26);  (* 838 *)
  Asg v_h9 (Add (V v_h9) (V v_carry8));  (* 839 *)
  Asg v_h8 (Sub (V v_h8) (Shl (V v_carry8) 26));  (* 840 *)
  Asg v_carry9 (Shr (V v_h9) 25);  (* 841 *)
  Asg v_h9 (Sub (V v_h9) (Shl (V v_carry9) 25))  (* 842 *)
].

(** Ed25519EncodedFieldElement.Decode, ed25519_encode.go:1005-1036 (carries) *)
Definition decode_prog : prog := [
  Asg v_carry9 (Shr (Add (V v_h9) (C 16777216)) 25);  (* 1005 *)
  Asg v_h0 (Add (V v_h0) (Mul (V v_carry9) (C 19)));  (* 1006 *)
  Asg v_h9 (Sub (V v_h9) (Shl (V v_carry9) 25));  (* 1007 *)
  Asg v_carry1 (Shr (Add (V v_h1) (C 16777216)) 25);  (* 1008 *)
  Asg v_h2 (Add (V v_h2) (V v_carry1));  (* 1009 *)
  Asg v_h1 (Sub (V v_h1) (Shl (V v_carry1) 25));  (* 1010 *)
  Asg v_carry3 (Shr (Add (V v_h3) (C 16777216)) 25);  (* 1011 *)
  Asg v_h4 (Add (V v_h4) (V v_carry3));  (* 1012 *)
  Asg v_h3 (Sub (V v_h3) (Shl (V v_carry3) 25));  (* 1013 *)
  Asg v_carry5 (Shr (Add (V v_h5) (C 16777216)) 25);  (* 1014 *)
  Asg v_h6 (Add (V v_h6) (V v_carry5));  (* 1015 *)
  Asg v_h5 (Sub (V v_h5) (Shl (V v_carry5) 25));  (* 1016 *)
  Asg v_carry7 (Shr (Add (V v_h7) (C 16777216)) 25);  (* 1017 *)
  Asg v_h8 (Add (V v_h8) (V v_carry7));  (* 1018 *)
  Asg v_h7 (Sub (V v_h7) (Shl (V v_carry7) 25));  (* 1019 *)
  Asg v_carry0 (Shr (Add (V v_h0) (C 33554432)) 26);  (* 1020 *)
  Asg v_h1 (Add (V v_h1) (V v_carry0));  (* 1021 *)
  Asg v_h0 (Sub (V v_h0) (Shl (V v_carry0) 26));  (* 1022 *)
  Asg v_carry2 (Shr (Add (V v_h2) (C 33554432)) 26);  (* 1023 *)
  Asg v_h3 (Add (V v_h3) (V v_carry2));  (* 1024 *)
  Asg v_h2 (Sub (V v_h2) (Shl (V v_carry2) 26));  (* 1025 *)
  Asg v_carry4 (Shr (Add (V v_h4) (C 33554432)) 26);  (* 1026 *)
  Asg v_h5 (Add (V v_h5) (V v_carry4));  (* 1027 *)
  Asg v_h4 (Sub (V v_h4) (Shl (V v_carry4) 26));  (* 1028 *)
  Asg v_carry6 (Shr (Add (V v_h6) (C 33554432)) 26);  (* 1029 *)
  Asg v_h7 (Add (V v_h7) (V v_carry6));  (* 1030 *)
  Asg v_h6 (Sub (V v_h6) (Shl (V v_carry6) 26));  (* 1031 *)
  Asg v_carry8 (Shr (Add (V v_h8) (C 33554432)) 26);  (* 1032 *)
  Asg v_h9 (Add (V v_h9) (V v_carry8));  (* 1033 *)
  Asg v_h8 (Sub (V v_h8) (Shl (V v_carry8) 26))  (* 1034 *)
].

(** Ed25519EncodedFieldElement.modQ, ed25519_encode.go:1090-1247 *)
Definition modQ_1_prog : prog := [
  Asg v_s11 (Add (V v_s11) (Mul (V v_s23) (C 666643)));  (* 1090 *)
  Asg v_s12 (Add (V v_s12) (Mul (V v_s23) (C 470296)));  (* 1091 *)
  Asg v_s13 (Add (V v_s13) (Mul (V v_s23) (C 654183)));  (* 1092 *)
  Asg v_s14 (Sub (V v_s14) (Mul (V v_s23) (C 997805)));  (* 1093 *)
  Asg v_s15 (Add (V v_s15) (Mul (V v_s23) (C 136657)));  (* 1094 *)
  Asg v_s16 (Sub (V v_s16) (Mul (V v_s23) (C 683901)));  (* 1095 *)
  Asg v_s10 (Add (V v_s10) (Mul (V v_s22) (C 666643)));  (* 1096 *)
  Asg v_s11 (Add (V v_s11) (Mul (V v_s22) (C 470296)));  (* 1097 *)
  Asg v_s12 (Add (V v_s12) (Mul (V v_s22) (C 654183)));  (* 1098 *)
  Asg v_s13 (Sub (V v_s13) (Mul (V v_s22) (C 997805)));  (* 1099 *)
  Asg v_s14 (Add (V v_s14) (Mul (V v_s22) (C 136657)));  (* 1100 *)
  Asg v_s15 (Sub (V v_s15) (Mul (V v_s22) (C 683901)));  (* 1101 *)
  Asg v_s9 (Add (V v_s9) (Mul (V v_s21) (C 666643)));  (* 1102 *)
  Asg v_s10 (Add (V v_s10) (Mul (V v_s21) (C 470296)));  (* 1103 *)
  Asg v_s11 (Add (V v_s11) (Mul (V v_s21) (C 654183)));  (* 1104 *)
  Asg v_s12 (Sub (V v_s12) (Mul (V v_s21) (C 997805)));  (* 1105 *)
  Asg v_s13 (Add (V v_s13) (Mul (V v_s21) (C 136657)));  (* 1106 *)
  Asg v_s14 (Sub (V v_s14) (Mul (V v_s21) (C 683901)));  (* 1107 *)
  Asg v_s8 (Add (V v_s8) (Mul (V v_s20) (C 666643)));  (* 1108 *)
  Asg v_s9 (Add (V v_s9) (Mul (V v_s20) (C 470296)));  (* 1109 *)
  Asg v_s10 (Add (V v_s10) (Mul (V v_s20) (C 654183)));  (* 1110 *)
  Asg v_s11 (Sub (V v_s11) (Mul (V v_s20) (C 997805)));  (* 1111 *)
  Asg v_s12 (Add (V v_s12) (Mul (V v_s20) (C 136657)));  (* 1112 *)
  Asg v_s13 (Sub (V v_s13) (Mul (V v_s20) (C 683901)));  (* 1113 *)
  Asg v_s7 (Add (V v_s7) (Mul (V v_s19) (C 666643)));  (* 1114 *)
  Asg v_s8 (Add (V v_s8) (Mul (V v_s19) (C 470296)));  (* 1115 *)
  Asg v_s9 (Add (V v_s9) (Mul (V v_s19) (C 654183)));  (* 1116 *)
  Asg v_s10 (Sub (V v_s10) (Mul (V v_s19) (C 997805)));  (* 1117 *)
  Asg v_s11 (Add (V v_s11) (Mul (V v_s19) (C 136657)));  (* 1118 *)
  Asg v_s12 (Sub (V v_s12) (Mul (V v_s19) (C 683901)));  (* 1119 *)
  Asg v_s6 (Add (V v_s6) (Mul (V v_s18) (C 666643)));  (* 1120 *)
  Asg v_s7 (Add (V v_s7) (Mul (V v_s18) (C 470296)));  (* 1121 *)
  Asg v_s8 (Add (V v_s8) (Mul (V v_s18) (C 654183)));  (* 1122 *)
  Asg v_s9 (Sub (V v_s9) (Mul (V v_s18) (C 997805)));  (* 1123 *)
  Asg v_s10 (Add (V v_s10) (Mul (V v_s18) (C 136657)));  (* 1124 *)
  Asg v_s11 (Sub (V v_s11) (Mul (V v_s18) (C 683901)));  (* 1125 *)
  Asg v_carry6 (Shr (Add (V v_s6) (C 1048576)) 21);  (* 1129 *)
  Asg v_s7 (Add (V v_s7) (V v_carry6));  (* 1130 *)
  Asg v_s6 (Sub (V v_s6) (Shl (V v_carry6) 21));  (* 1131 *)
  Asg v_carry8 (Shr (Add (V v_s8) (C 1048576)) 21);  (* 1132 *)
  Asg v_s9 (Add (V v_s9) (V v_carry8));  (* 1133 *)
  Asg v_s8 (Sub (V v_s8) (Shl (V v_carry8) 21));  (* 1134 *)
  Asg v_carry10 (Shr (Add (V v_s10) (C 1048576)) 21);  (* 1135 *)
  Asg v_s11 (Add (V v_s11) (V v_carry10));  (* 1136 *)
  Asg v_s10 (Sub (V v_s10) (Shl (V v_carry10) 21));  (* 1137 *)
  Asg v_carry12 (Shr (Add (V v_s12) (C 1048576)) 21);  (* 1138 *)
  Asg v_s13 (Add (V v_s13) (V v_carry12));  (* 1139 *)
  Asg v_s12 (Sub (V v_s12) (Shl (V v_carry12) 21));  (* 1140 *)
  Asg v_carry14 (Shr (Add (V v_s14) (C 1048576)) 21);  (* 1141 *)
  Asg v_s15 (Add (V v_s15) (V v_carry14));  (* 1142 *)
  Asg v_s14 (Sub (V v_s14) (Shl (V v_carry14) 21));  (* 1143 *)
  Asg v_carry16 (Shr (Add (V v_s16) (C 1048576)) 21);  (* 1144 *)
  Asg v_s17 (Add (V v_s17) (V v_carry16));  (* 1145 *)
  Asg v_s16 (Sub (V v_s16) (Shl (V v_carry16) 21));  (* 1146 *)
  Asg v_carry7 (Shr (Add (V v_s7) (C 1048576)) 21);  (* 1147 *)
  Asg v_s8 (Add (V v_s8) (V v_carry7));  (* 1148 *)
  Asg v_s7 (Sub (V v_s7) (Shl (V v_carry7) 21));  (* 1149 *)
  Asg v_carry9 (Shr (Add (V v_s9) (C 1048576)) 21);  (* 1150 *)
  Asg v_s10 (Add (V v_s10) (V v_carry9));  (* 1151 *)
  Asg v_s9 (Sub (V v_s9) (Shl (V v_carry9) 21));  (* 1152 *)
  Asg v_carry11 (Shr (Add (V v_s11) (C 1048576)) 21);  (* 1153 *)
  Asg v_s12 (Add (V v_s12) (V v_carry11));  (* 1154 *)
  Asg v_s11 (Sub (V v_s11) (Shl (V v_carry11) 21));  (* 1155 *)
  Asg v_carry13 (Shr (Add (V v_s13) (C 1048576)) 21);  (* 1156 *)
  Asg v_s14 (Add (V v_s14) (V v_carry13));  (* 1157 *)
  Asg v_s13 (Sub (V v_s13) (Shl (V v_carry13) 21));  (* 1158 *)
  Asg v_carry15 (Shr (Add (V v_s15) (C 1048576)) 21);  (* 1159 *)
  Asg v_s16 (Add (V v_s16) (V v_carry15));  (* 1160 *)
  Asg v_s15 (Sub (V v_s15) (Shl (V v_carry15) 21));  (* 1161 *)
  Asg v_s5 (Add (V v_s5) (Mul (V v_s17) (C 666643)));  (* 1165 *)
  Asg v_s6 (Add (V v_s6) (Mul (V v_s17) (C 470296)));  (* 1166 *)
  Asg v_s7 (Add (V v_s7) (Mul (V v_s17) (C 654183)));  (* 1167 *)
  Asg v_s8 (Sub (V v_s8) (Mul (V v_s17) (C 997805)));  (* 1168 *)
  Asg v_s9 (Add (V v_s9) (Mul (V v_s17) (C 136657)));  (* 1169 *)
  Asg v_s10 (Sub (V v_s10) (Mul (V v_s17) (C 683901)));  (* 1170 *)
  Asg v_s4 (Add (V v_s4) (Mul (V v_s16) (C 666643)));  (* 1171 *)
  Asg v_s5 (Add (V v_s5) (Mul (V v_s16) (C 470296)));  (* 1172 *)
  Asg v_s6 (Add (V v_s6) (Mul (V v_s16) (C 654183)));  (* 1173 *)
  Asg v_s7 (Sub (V v_s7) (Mul (V v_s16) (C 997805)));  (* 1174 *)
  Asg v_s8 (Add (V v_s8) (Mul (V v_s16) (C 136657)));  (* 1175 *)
  Asg v_s9 (Sub (V v_s9) (Mul (V v_s16) (C 683901)));  (* 1176 *)
  Asg v_s3 (Add (V v_s3) (Mul (V v_s15) (C 666643)));  (* 1177 *)
  Asg v_s4 (Add (V v_s4) (Mul (V v_s15) (C 470296)));  (* 1178 *)
  Asg v_s5 (Add (V v_s5) (Mul (V v_s15) (C 654183)));  (* 1179 *)
  Asg v_s6 (Sub (V v_s6) (Mul (V v_s15) (C 997805)));  (* 1180 *)
  Asg v_s7 (Add (V v_s7) (Mul (V v_s15) (C 136657)));  (* 1181 *)
  Asg v_s8 (Sub (V v_s8) (Mul (V v_s15) (C 683901)));  (* 1182 *)
  Asg v_s2 (Add (V v_s2) (Mul (V v_s14) (C 666643)));  (* 1183 *)
  Asg v_s3 (Add (V v_s3) (Mul (V v_s14) (C 470296)));  (* 1184 *)
  Asg v_s4 (Add (V v_s4) (Mul (V v_s14) (C 654183)));  (* 1185 *)
  Asg v_s5 (Sub (V v_s5) (Mul (V v_s14) (C 997805)));  (* 1186 *)
  Asg v_s6 (Add (V v_s6) (Mul (V v_s14) (C 136657)));  (* 1187 *)
  Asg v_s7 (Sub (V v_s7) (Mul (V v_s14) (C 683901)));  (* 1188 *)
  Asg v_s1 (Add (V v_s1) (Mul (V v_s13) (C 666643)));  (* 1189 *)
  Asg v_s2 (Add (V v_s2) (Mul (V v_s13) (C 470296)));  (* 1190 *)
  Asg v_s3 (Add (V v_s3) (Mul (V v_s13) (C 654183)));  (* 1191 *)
  Asg v_s4 (Sub (V v_s4) (Mul (V v_s13) (C 997805)));  (* 1192 *)
  Asg v_s5 (Add (V v_s5) (Mul (V v_s13) (C 136657)));  (* 1193 *)
  Asg v_s6 (Sub (V v_s6) (Mul (V v_s13) (C 683901)));  (* 1194 *)
  Asg v_s0 (Add (V v_s0) (Mul (V v_s12) (C 666643)));  (* 1195 *)
  Asg v_s1 (Add (V v_s1) (Mul (V v_s12) (C 470296)));  (* 1196 *)
  Asg v_s2 (Add (V v_s2) (Mul (V v_s12) (C 654183)));  (* 1197 *)
  Asg v_s3 (Sub (V v_s3) (Mul (V v_s12) (C 997805)));  (* 1198 *)
  Asg v_s4 (Add (V v_s4) (Mul (V v_s12) (C 136657)));  (* 1199 *)
  Asg v_s5 (Sub (V v_s5) (Mul (V v_s12) (C 683901)));  (* 1200 *)
  Asg v_s12 (C 0);  (* 1201 *)
  Asg v_carry0 (Shr (Add (V v_s0) (C 1048576)) 21);  (* 1205 *)
  Asg v_s1 (Add (V v_s1) (V v_carry0));  (* 1206 *)
  Asg v_s0 (Sub (V v_s0) (Shl (V v_carry0) 21));  (* 1207 *)
  Asg v_carry2 (Shr (Add (V v_s2) (C 1048576)) 21);  (* 1208 *)
  Asg v_s3 (Add (V v_s3) (V v_carry2));  (* 1209 *)
  Asg v_s2 (Sub (V v_s2) (Shl (V v_carry2) 21));  (* 1210 *)
  Asg v_carry4 (Shr (Add (V v_s4) (C 1048576)) 21);  (* 1211 *)
  Asg v_s5 (Add (V v_s5) (V v_carry4));  (* 1212 *)
  Asg v_s4 (Sub (V v_s4) (Shl (V v_carry4) 21));  (* 1213 *)
  Asg v_carry6 (Shr (Add (V v_s6) (C 1048576)) 21);  (* 1214 *)
  Asg v_s7 (Add (V v_s7) (V v_carry6));  (* 1215 *)
  Asg v_s6 (Sub (V v_s6) (Shl (V v_carry6) 21));  (* 1216 *)
  Asg v_carry8 (Shr (Add (V v_s8) (C 1048576)) 21);  (* 1217 *)
  Asg v_s9 (Add (V v_s9) (V v_carry8));  (* 1218 *)
  Asg v_s8 (Sub (V v_s8) (Shl (V v_carry8) 21));  (* 1219 *)
  Asg v_carry10 (Shr (Add (V v_s10) (C 1048576)) 21);  (* 1220 *)
  Asg v_s11 (Add (V v_s11) (V v_carry10));  (* 1221 *)
  Asg v_s10 (Sub (V v_s10) (Shl (V v_carry10) 21));  (* 1222 *)
  Asg v_carry1 (Shr (Add (V v_s1) (C 1048576)) 21);  (* 1223 *)
  Asg v_s2 (Add (V v_s2) (V v_carry1));  (* 1224 *)
  Asg v_s1 (Sub (V v_s1) (Shl (V v_carry1) 21));  (* 1225 *)
  Asg v_carry3 (Shr (Add (V v_s3) (C 1048576)) 21);  (* 1226 *)
  Asg v_s4 (Add (V v_s4) (V v_carry3));  (* 1227 *)
  Asg v_s3 (Sub (V v_s3) (Shl (V v_carry3) 21));  (* 1228 *)
  Asg v_carry5 (Shr (Add (V v_s5) (C 1048576)) 21);  (* 1229 *)
  Asg v_s6 (Add (V v_s6) (V v_carry5));  (* 1230 *)
  Asg v_s5 (Sub (V v_s5) (Shl (V v_carry5) 21));  (* 1231 *)
  Asg v_carry7 (Shr (Add (V v_s7) (C 1048576)) 21);  (* 1232 *)
  Asg v_s8 (Add (V v_s8) (V v_carry7));  (* 1233 *)
  Asg v_s7 (Sub (V v_s7) (Shl (V v_carry7) 21));  (* 1234 *)
  Asg v_carry9 (Shr (Add (V v_s9) (C 1048576)) 21);  (* 1235 *)
  Asg v_s10 (Add (V v_s10) (V v_carry9));  (* 1236 *)
  Asg v_s9 (Sub (V v_s9) (Shl (V v_carry9) 21));  (* 1237 *)
  Asg v_carry11 (Shr (Add (V v_s11) (C 1048576)) 21);  (* 1238 *)
  Asg v_s12 (Add (V v_s12) (V v_carry11));  (* 1239 *)
  Asg v_s11 (Sub (V v_s11) (Shl (V v_carry11) 21));  (* 1240 *)
  Asg v_s0 (Add (V v_s0) (Mul (V v_s12) (C 666643)));  (* 1241 *)
  Asg v_s1 (Add (V v_s1) (Mul (V v_s12) (C 470296)));  (* 1242 *)
  Asg v_s2 (Add (V v_s2) (Mul (V v_s12) (C 654183)));  (* 1243 *)
  Asg v_s3 (Sub (V v_s3) (Mul (V v_s12) (C 997805)));  (* 1244 *)
  Asg v_s4 (Add (V v_s4) (Mul (V v_s12) (C 136657)));  (* 1245 *)
  Asg v_s5 (Sub (V v_s5) (Mul (V v_s12) (C 683901)));  (* 1246 *)
  Asg v_s12 (C 0)  (* 1247 *)
].

(** Ed25519EncodedFieldElement.modQ, ed25519_encode.go:1248-1283 *)
Definition modQ_2_prog : prog := [
  Asg v_carry0 (Shr (V v_s0) 21);  (* 1248 *)
  Asg v_s1 (Add (V v_s1) (V v_carry0));  (* 1249 *)
  Asg v_s0 (Sub (V v_s0) (Shl (V v_carry0) 21));  (* 1250 *)
  Asg v_carry1 (Shr (V v_s1) 21);  (* 1251 *)
  Asg v_s2 (Add (V v_s2) (V v_carry1));  (* 1252 *)
  Asg v_s1 (Sub (V v_s1) (Shl (V v_carry1) 21));  (* 1253 *)
  Asg v_carry2 (Shr (V v_s2) 21);  (* 1254 *)
  Asg v_s3 (Add (V v_s3) (V v_carry2));  (* 1255 *)
  Asg v_s2 (Sub (V v_s2) (Shl (V v_carry2) 21));  (* 1256 *)
  Asg v_carry3 (Shr (V v_s3) 21);  (* 1257 *)
  Asg v_s4 (Add (V v_s4) (V v_carry3));  (* 1258 *)
  Asg v_s3 (Sub (V v_s3) (Shl (V v_carry3) 21));  (* 1259 *)
  Asg v_carry4 (Shr (V v_s4) 21);  (* 1260 *)
  Asg v_s5 (Add (V v_s5) (V v_carry4));  (* 1261 *)
  Asg v_s4 (Sub (V v_s4) (Shl (V v_carry4) 21));  (* 1262 *)
  Asg v_carry5 (Shr (V v_s5) 21);  (* 1263 *)
  Asg v_s6 (Add (V v_s6) (V v_carry5));  (* 1264 *)
  Asg v_s5 (Sub (V v_s5) (Shl (V v_carry5) 21));  (* 1265 *)
  Asg v_carry6 (Shr (V v_s6) 21);  (* 1266 *)
  Asg v_s7 (Add (V v_s7) (V v_carry6));  (* 1267 *)
  Asg v_s6 (Sub (V v_s6) (Shl (V v_carry6) 21));  (* 1268 *)
  Asg v_carry7 (Shr (V v_s7) 21);  (* 1269 *)
  Asg v_s8 (Add (V v_s8) (V v_carry7));  (* 1270 *)
  Asg v_s7 (Sub (V v_s7) (Shl (V v_carry7) 21));  (* 1271 *)
  Asg v_carry8 (Shr (V v_s8) 21);  (* 1272 *)
  Asg v_s9 (Add (V v_s9) (V v_carry8));  (* 1273 *)
  Asg v_s8 (Sub (V v_s8) (Shl (V v_carry8) 21));  (* 1274 *)
  Asg v_carry9 (Shr (V v_s9) 21);  (* 1275 *)
  Asg v_s10 (Add (V v_s10) (V v_carry9));  (* 1276 *)
  Asg v_s9 (Sub (V v_s9) (Shl (V v_carry9) 21));  (* 1277 *)
  Asg v_carry10 (Shr (V v_s10) 21);  (* 1278 *)
  Asg v_s11 (Add (V v_s11) (V v_carry10));  (* 1279 *)
  Asg v_s10 (Sub (V v_s10) (Shl (V v_carry10) 21));  (* 1280 *)
  Asg v_carry11 (Shr (V v_s11) 21);  (* 1281 *)
  Asg v_s12 (Add (V v_s12) (V v_carry11));  (* 1282 *)
  Asg v_s11 (Sub (V v_s11) (Shl (V v_carry11) 21))  (* 1283 *)
].

(** Ed25519EncodedFieldElement.modQ, ed25519_encode.go:1284-1322 *)
Definition modQ_3_prog : prog := [
  Asg v_s0 (Add (V v_s0) (Mul (V v_s12) (C 666643)));  (* 1284 *)
  Asg v_s1 (Add (V v_s1) (Mul (V v_s12) (C 470296)));  (* 1285 *)
  Asg v_s2 (Add (V v_s2) (Mul (V v_s12) (C 654183)));  (* 1286 *)
  Asg v_s3 (Sub (V v_s3) (Mul (V v_s12) (C 997805)));  (* 1287 *)
  Asg v_s4 (Add (V v_s4) (Mul (V v_s12) (C 136657)));  (* 1288 *)
  Asg v_s5 (Sub (V v_s5) (Mul (V v_s12) (C 683901)));  (* 1289 *)
  Asg v_carry0 (Shr (V v_s0) 21);  (* 1290 *)
  Asg v_s1 (Add (V v_s1) (V v_carry0));  (* 1291 *)
  Asg v_s0 (Sub (V v_s0) (Shl (V v_carry0) 21));  (* 1292 *)
  Asg v_carry1 (Shr (V v_s1) 21);  (* 1293 *)
  Asg v_s2 (Add (V v_s2) (V v_carry1));  (* 1294 *)
  Asg v_s1 (Sub (V v_s1) (Shl (V v_carry1) 21));  (* 1295 *)
  Asg v_carry2 (Shr (V v_s2) 21);  (* 1296 *)
  Asg v_s3 (Add (V v_s3) (V v_carry2));  (* 1297 *)
  Asg v_s2 (Sub (V v_s2) (Shl (V v_carry2) 21));  (* 1298 *)
  Asg v_carry3 (Shr (V v_s3) 21);  (* 1299 *)
  Asg v_s4 (Add (V v_s4) (V v_carry3));  (* 1300 *)
  Asg v_s3 (Sub (V v_s3) (Shl (V v_carry3) 21));  (* 1301 *)
  Asg v_carry4 (Shr (V v_s4) 21);  (* 1302 *)
  Asg v_s5 (Add (V v_s5) (V v_carry4));  (* 1303 *)
  Asg v_s4 (Sub (V v_s4) (Shl (V v_carry4) 21));  (* 1304 *)
  Asg v_carry5 (Shr (V v_s5) 21);  (* 1305 *)
  Asg v_s6 (Add (V v_s6) (V v_carry5));  (* 1306 *)
  Asg v_s5 (Sub (V v_s5) (Shl (V v_carry5) 21));  (* 1307 *)
  Asg v_carry6 (Shr (V v_s6) 21);  (* 1308 *)
  Asg v_s7 (Add (V v_s7) (V v_carry6));  (* 1309 *)
  Asg v_s6 (Sub (V v_s6) (Shl (V v_carry6) 21));  (* 1310 *)
  Asg v_carry7 (Shr (V v_s7) 21);  (* 1311 *)
  Asg v_s8 (Add (V v_s8) (V v_carry7));  (* 1312 *)
  Asg v_s7 (Sub (V v_s7) (Shl (V v_carry7) 21));  (* 1313 *)
  Asg v_carry8 (Shr (V v_s8) 21);  (* 1314 *)
  Asg v_s9 (Add (V v_s9) (V v_carry8));  (* 1315 *)
  Asg v_s8 (Sub (V v_s8) (Shl (V v_carry8) 21));  (* 1316 *)
  Asg v_carry9 (Shr (V v_s9) 21);  (* 1317 *)
  Asg v_s10 (Add (V v_s10) (V v_carry9));  (* 1318 *)
  Asg v_s9 (Sub (V v_s9) (Shl (V v_carry9) 21));  (* 1319 *)
  Asg v_carry10 (Shr (V v_s10) 21);  (* 1320 *)
  Asg v_s11 (Add (V v_s11) (V v_carry10));  (* 1321 *)
  Asg v_s10 (Sub (V v_s10) (Shl (V v_carry10) 21))  (* 1322 *)
].

(** Ed25519EncodedFieldElement.multiplyAndAddModQ, ed25519_encode.go:1445-1686 *)
Definition mulAdd_1_prog : prog := [
  Asg v_s0 (Add (V v_c0) (Mul (V v_a0) (V v_b0)));  (* 1445 *)
  Asg v_s1 (Add (Add (V v_c1) (Mul (V v_a0) (V v_b1))) (Mul (V v_a1) (V v_b0)));  (* 1446 *)
  Asg v_s2 (Add (Add (Add (V v_c2) (Mul (V v_a0) (V v_b2))) (Mul (V v_a1) (V v_b1))) (Mul (V v_a2) (V v_b0)));  (* 1447 *)
  Asg v_s3 (Add (Add (Add (Add (V v_c3) (Mul (V v_a0) (V v_b3))) (Mul (V v_a1) (V v_b2))) (Mul (V v_a2) (V v_b1))) (Mul (V v_a3) (V v_b0)));  (* 1448 *)
  Asg v_s4 (Add (Add (Add (Add (Add (V v_c4) (Mul (V v_a0) (V v_b4))) (Mul (V v_a1) (V v_b3))) (Mul (V v_a2) (V v_b2))) (Mul (V v_a3) (V v_b1))) (Mul (V v_a4) (V v_b0)));  (* 1449 *)
  Asg v_s5 (Add (Add (Add (Add (Add (Add (V v_c5) (Mul (V v_a0) (V v_b5))) (Mul (V v_a1) (V v_b4))) (Mul (V v_a2) (V v_b3))) (Mul (V v_a3) (V v_b2))) (Mul (V v_a4) (V v_b1))) (Mul (V v_a5) (V v_b0)));  (* 1450 *)
  Asg v_s6 (Add (Add (Add (Add (Add (Add (Add (V v_c6) (Mul (V v_a0) (V v_b6))) (Mul (V v_a1) (V v_b5))) (Mul (V v_a2) (V v_b4))) (Mul (V v_a3) (V v_b3))) (Mul (V v_a4) (V v_b2))) (Mul (V v_a5) (V v_b1))) (Mul (V v_a6) (V v_b0)));  (* 1451 *)
  Asg v_s7 (Add (Add (Add (Add (Add (Add (Add (Add (V v_c7) (Mul (V v_a0) (V v_b7))) (Mul (V v_a1) (V v_b6))) (Mul (V v_a2) (V v_b5))) (Mul (V v_a3) (V v_b4))) (Mul (V v_a4) (V v_b3))) (Mul (V v_a5) (V v_b2))) (Mul (V v_a6) (V v_b1))) (Mul (V v_a7) (V v_b0)));  (* 1452 *)
  Asg v_s8 (Add (Add (Add (Add (Add (Add (Add (Add (Add (V v_c8) (Mul (V v_a0) (V v_b8))) (Mul (V v_a1) (V v_b7))) (Mul (V v_a2) (V v_b6))) (Mul (V v_a3) (V v_b5))) (Mul (V v_a4) (V v_b4))) (Mul (V v_a5) (V v_b3))) (Mul (V v_a6) (V v_b2))) (Mul (V v_a7) (V v_b1))) (Mul (V v_a8) (V v_b0)));  (* 1453 *)
  Asg v_s9 (Add (Add (Add (Add (Add (Add (Add (Add (Add (Add (V v_c9) (Mul (V v_a0) (V v_b9))) (Mul (V v_a1) (V v_b8))) (Mul (V v_a2) (V v_b7))) (Mul (V v_a3) (V v_b6))) (Mul (V v_a4) (V v_b5))) (Mul (V v_a5) (V v_b4))) (Mul (V v_a6) (V v_b3))) (Mul (V v_a7) (V v_b2))) (Mul (V v_a8) (V v_b1))) (Mul (V v_a9) (V v_b0)));  (* 1454 *)
  Asg v_s10 (Add (Add (Add (Add (Add (Add (Add (Add (Add (Add (Add (V v_c10) (Mul (V v_a0) (V v_b10))) (Mul (V v_a1) (V v_b9))) (Mul (V v_a2) (V v_b8))) (Mul (V v_a3) (V v_b7))) (Mul (V v_a4) (V v_b6))) (Mul (V v_a5) (V v_b5))) (Mul (V v_a6) (V v_b4))) (Mul (V v_a7) (V v_b3))) (Mul (V v_a8) (V v_b2))) (Mul (V v_a9) (V v_b1))) (Mul (V v_a10) (V v_b0)));  (* 1455 *)
  Asg v_s11 (Add (Add (Add (Add (Add (Add (Add (Add (Add (Add (Add (Add (V v_c11) (Mul (V v_a0) (V v_b11))) (Mul (V v_a1) (V v_b10))) (Mul (V v_a2) (V v_b9))) (Mul (V v_a3) (V v_b8))) (Mul (V v_a4) (V v_b7))) (Mul (V v_a5) (V v_b6))) (Mul (V v_a6) (V v_b5))) (Mul (V v_a7) (V v_b4))) (Mul (V v_a8) (V v_b3))) (Mul (V v_a9) (V v_b2))) (Mul (V v_a10) (V v_b1))) (Mul (V v_a11) (V v_b0)));  (* 1456 *)
  Asg v_s12 (Add (Add (Add (Add (Add (Add (Add (Add (Add (Add (Mul (V v_a1) (V v_b11)) (Mul (V v_a2) (V v_b10))) (Mul (V v_a3) (V v_b9))) (Mul (V v_a4) (V v_b8))) (Mul (V v_a5) (V v_b7))) (Mul (V v_a6) (V v_b6))) (Mul (V v_a7) (V v_b5))) (Mul (V v_a8) (V v_b4))) (Mul (V v_a9) (V v_b3))) (Mul (V v_a10) (V v_b2))) (Mul (V v_a11) (V v_b1)));  (* 1457 *)
  Asg v_s13 (Add (Add (Add (Add (Add (Add (Add (Add (Add (Mul (V v_a2) (V v_b11)) (Mul (V v_a3) (V v_b10))) (Mul (V v_a4) (V v_b9))) (Mul (V v_a5) (V v_b8))) (Mul (V v_a6) (V v_b7))) (Mul (V v_a7) (V v_b6))) (Mul (V v_a8) (V v_b5))) (Mul (V v_a9) (V v_b4))) (Mul (V v_a10) (V v_b3))) (Mul (V v_a11) (V v_b2)));  (* 1458 *)
  Asg v_s14 (Add (Add (Add (Add (Add (Add (Add (Add (Mul (V v_a3) (V v_b11)) (Mul (V v_a4) (V v_b10))) (Mul (V v_a5) (V v_b9))) (Mul (V v_a6) (V v_b8))) (Mul (V v_a7) (V v_b7))) (Mul (V v_a8) (V v_b6))) (Mul (V v_a9) (V v_b5))) (Mul (V v_a10) (V v_b4))) (Mul (V v_a11) (V v_b3)));  (* 1459 *)
  Asg v_s15 (Add (Add (Add (Add (Add (Add (Add (Mul (V v_a4) (V v_b11)) (Mul (V v_a5) (V v_b10))) (Mul (V v_a6) (V v_b9))) (Mul (V v_a7) (V v_b8))) (Mul (V v_a8) (V v_b7))) (Mul (V v_a9) (V v_b6))) (Mul (V v_a10) (V v_b5))) (Mul (V v_a11) (V v_b4)));  (* 1460 *)
  Asg v_s16 (Add (Add (Add (Add (Add (Add (Mul (V v_a5) (V v_b11)) (Mul (V v_a6) (V v_b10))) (Mul (V v_a7) (V v_b9))) (Mul (V v_a8) (V v_b8))) (Mul (V v_a9) (V v_b7))) (Mul (V v_a10) (V v_b6))) (Mul (V v_a11) (V v_b5)));  (* 1461 *)
  Asg v_s17 (Add (Add (Add (Add (Add (Mul (V v_a6) (V v_b11)) (Mul (V v_a7) (V v_b10))) (Mul (V v_a8) (V v_b9))) (Mul (V v_a9) (V v_b8))) (Mul (V v_a10) (V v_b7))) (Mul (V v_a11) (V v_b6)));  (* 1462 *)
  Asg v_s18 (Add (Add (Add (Add (Mul (V v_a7) (V v_b11)) (Mul (V v_a8) (V v_b10))) (Mul (V v_a9) (V v_b9))) (Mul (V v_a10) (V v_b8))) (Mul (V v_a11) (V v_b7)));  (* 1463 *)
  Asg v_s19 (Add (Add (Add (Mul (V v_a8) (V v_b11)) (Mul (V v_a9) (V v_b10))) (Mul (V v_a10) (V v_b9))) (Mul (V v_a11) (V v_b8)));  (* 1464 *)
  Asg v_s20 (Add (Add (Mul (V v_a9) (V v_b11)) (Mul (V v_a10) (V v_b10))) (Mul (V v_a11) (V v_b9)));  (* 1465 *)
  Asg v_s21 (Add (Mul (V v_a10) (V v_b11)) (Mul (V v_a11) (V v_b10)));  (* 1466 *)
  Asg v_s22 (Mul (V v_a11) (V v_b11));  (* 1467 *)
  Asg v_s23 (C 0);  (* 1468 *)
  Asg v_carry0 (Shr (Add (V v_s0) (C 1048576)) 21);  (* 1469 *)
  Asg v_s1 (Add (V v_s1) (V v_carry0));  (* 1470 *)
  Asg v_s0 (Sub (V v_s0) (Shl (V v_carry0) 21));  (* 1471 *)
  Asg v_carry2 (Shr (Add (V v_s2) (C 1048576)) 21);  (* 1472 *)
  Asg v_s3 (Add (V v_s3) (V v_carry2));  (* 1473 *)
  Asg v_s2 (Sub (V v_s2) (Shl (V v_carry2) 21));  (* 1474 *)
  Asg v_carry4 (Shr (Add (V v_s4) (C 1048576)) 21);  (* 1475 *)
  Asg v_s5 (Add (V v_s5) (V v_carry4));  (* 1476 *)
  Asg v_s4 (Sub (V v_s4) (Shl (V v_carry4) 21));  (* 1477 *)
  Asg v_carry6 (Shr (Add (V v_s6) (C 1048576)) 21);  (* 1478 *)
  Asg v_s7 (Add (V v_s7) (V v_carry6));  (* 1479 *)
  Asg v_s6 (Sub (V v_s6) (Shl (V v_carry6) 21));  (* 1480 *)
  Asg v_carry8 (Shr (Add (V v_s8) (C 1048576)) 21);  (* 1481 *)
  Asg v_s9 (Add (V v_s9) (V v_carry8));  (* 1482 *)
  Asg v_s8 (Sub (V v_s8) (Shl (V v_carry8) 21));  (* 1483 *)
  Asg v_carry10 (Shr (Add (V v_s10) (C 1048576)) 21);  (* 1484 *)
  Asg v_s11 (Add (V v_s11) (V v_carry10));  (* 1485 *)
  Asg v_s10 (Sub (V v_s10) (Shl (V v_carry10) 21));  (* 1486 *)
  Asg v_carry12 (Shr (Add (V v_s12) (C 1048576)) 21);  (* 1487 *)
  Asg v_s13 (Add (V v_s13) (V v_carry12));  (* 1488 *)
  Asg v_s12 (Sub (V v_s12) (Shl (V v_carry12) 21));  (* 1489 *)
  Asg v_carry14 (Shr (Add (V v_s14) (C 1048576)) 21);  (* 1490 *)
  Asg v_s15 (Add (V v_s15) (V v_carry14));  (* 1491 *)
  Asg v_s14 (Sub (V v_s14) (Shl (V v_carry14) 21));  (* 1492 *)
  Asg v_carry16 (Shr (Add (V v_s16) (C 1048576)) 21);  (* 1493 *)
  Asg v_s17 (Add (V v_s17) (V v_carry16));  (* 1494 *)
  Asg v_s16 (Sub (V v_s16) (Shl (V v_carry16) 21));  (* 1495 *)
  Asg v_carry18 (Shr (Add (V v_s18) (C 1048576)) 21);  (* 1496 *)
  Asg v_s19 (Add (V v_s19) (V v_carry18));  (* 1497 *)
  Asg v_s18 (Sub (V v_s18) (Shl (V v_carry18) 21));  (* 1498 *)
  Asg v_carry20 (Shr (Add (V v_s20) (C 1048576)) 21);  (* 1499 *)
  Asg v_s21 (Add (V v_s21) (V v_carry20));  (* 1500 *)
  Asg v_s20 (Sub (V v_s20) (Shl (V v_carry20) 21));  (* 1501 *)
  Asg v_carry22 (Shr (Add (V v_s22) (C 1048576)) 21);  (* 1502 *)
  Asg v_s23 (Add (V v_s23) (V v_carry22));  (* 1503 *)
  Asg v_s22 (Sub (V v_s22) (Shl (V v_carry22) 21));  (* 1504 *)
  Asg v_carry1 (Shr (Add (V v_s1) (C 1048576)) 21);  (* 1505 *)
  Asg v_s2 (Add (V v_s2) (V v_carry1));  (* 1506 *)
  Asg v_s1 (Sub (V v_s1) (Shl (V v_carry1) 21));  (* 1507 *)
  Asg v_carry3 (Shr (Add (V v_s3) (C 1048576)) 21);  (* 1508 *)
  Asg v_s4 (Add (V v_s4) (V v_carry3));  (* 1509 *)
  Asg v_s3 (Sub (V v_s3) (Shl (V v_carry3) 21));  (* 1510 *)
  Asg v_carry5 (Shr (Add (V v_s5) (C 1048576)) 21);  (* 1511 *)
  Asg v_s6 (Add (V v_s6) (V v_carry5));  (* 1512 *)
  Asg v_s5 (Sub (V v_s5) (Shl (V v_carry5) 21));  (* 1513 *)
  Asg v_carry7 (Shr (Add (V v_s7) (C 1048576)) 21);  (* 1514 *)
  Asg v_s8 (Add (V v_s8) (V v_carry7));  (* 1515 *)
  Asg v_s7 (Sub (V v_s7) (Shl (V v_carry7) 21));  (* 1516 *)
  Asg v_carry9 (Shr (Add (V v_s9) (C 1048576)) 21);  (* 1517 *)
  Asg v_s10 (Add (V v_s10) (V v_carry9));  (* 1518 *)
  Asg v_s9 (Sub (V v_s9) (Shl (V v_carry9) 21));  (* 1519 *)
  Asg v_carry11 (Shr (Add (V v_s11) (C 1048576)) 21);  (* 1520 *)
  Asg v_s12 (Add (V v_s12) (V v_carry11));  (* 1521 *)
  Asg v_s11 (Sub (V v_s11) (Shl (V v_carry11) 21));  (* 1522 *)
  Asg v_carry13 (Shr (Add (V v_s13) (C 1048576)) 21);  (* 1523 *)
  Asg v_s14 (Add (V v_s14) (V v_carry13));  (* 1524 *)
  Asg v_s13 (Sub (V v_s13) (Shl (V v_carry13) 21));  (* 1525 *)
  Asg v_carry15 (Shr (Add (V v_s15) (C 1048576)) 21);  (* 1526 *)
  Asg v_s16 (Add (V v_s16) (V v_carry15));  (* 1527 *)
  Asg v_s15 (Sub (V v_s15) (Shl (V v_carry15) 21));  (* 1528 *)
  Asg v_carry17 (Shr (Add (V v_s17) (C 1048576)) 21);  (* 1529 *)
  Asg v_s18 (Add (V v_s18) (V v_carry17));  (* 1530 *)
  Asg v_s17 (Sub (V v_s17) (Shl (V v_carry17) 21));  (* 1531 *)
  Asg v_carry19 (Shr (Add (V v_s19) (C 1048576)) 21);  (* 1532 *)
  Asg v_s20 (Add (V v_s20) (V v_carry19));  (* 1533 *)
  Asg v_s19 (Sub (V v_s19) (Shl (V v_carry19) 21));  (* 1534 *)
  Asg v_carry21 (Shr (Add (V v_s21) (C 1048576)) 21);  (* 1535 *)
  Asg v_s22 (Add (V v_s22) (V v_carry21));  (* 1536 *)
  Asg v_s21 (Sub (V v_s21) (Shl (V v_carry21) 21));  (* 1537 *)
  Asg v_s11 (Add (V v_s11) (Mul (V v_s23) (C 666643)));  (* 1538 *)
  Asg v_s12 (Add (V v_s12) (Mul (V v_s23) (C 470296)));  (* 1539 *)
  Asg v_s13 (Add (V v_s13) (Mul (V v_s23) (C 654183)));  (* 1540 *)
  Asg v_s14 (Sub (V v_s14) (Mul (V v_s23) (C 997805)));  (* 1541 *)
  Asg v_s15 (Add (V v_s15) (Mul (V v_s23) (C 136657)));  (* 1542 *)
  Asg v_s16 (Sub (V v_s16) (Mul (V v_s23) (C 683901)));  (* 1543 *)
  Asg v_s10 (Add (V v_s10) (Mul (V v_s22) (C 666643)));  (* 1544 *)
  Asg v_s11 (Add (V v_s11) (Mul (V v_s22) (C 470296)));  (* 1545 *)
  Asg v_s12 (Add (V v_s12) (Mul (V v_s22) (C 654183)));  (* 1546 *)
  Asg v_s13 (Sub (V v_s13) (Mul (V v_s22) (C 997805)));  (* 1547 *)
  Asg v_s14 (Add (V v_s14) (Mul (V v_s22) (C 136657)));  (* 1548 *)
  Asg v_s15 (Sub (V v_s15) (Mul (V v_s22) (C 683901)));  (* 1549 *)
  Asg v_s9 (Add (V v_s9) (Mul (V v_s21) (C 666643)));  (* 1550 *)
  Asg v_s10 (Add (V v_s10) (Mul (V v_s21) (C 470296)));  (* 1551 *)
  Asg v_s11 (Add (V v_s11) (Mul (V v_s21) (C 654183)));  (* 1552 *)
  Asg v_s12 (Sub (V v_s12) (Mul (V v_s21) (C 997805)));  (* 1553 *)
  Asg v_s13 (Add (V v_s13) (Mul (V v_s21) (C 136657)));  (* 1554 *)
  Asg v_s14 (Sub (V v_s14) (Mul (V v_s21) (C 683901)));  (* 1555 *)
  Asg v_s8 (Add (V v_s8) (Mul (V v_s20) (C 666643)));  (* 1556 *)
  Asg v_s9 (Add (V v_s9) (Mul (V v_s20) (C 470296)));  (* 1557 *)
  Asg v_s10 (Add (V v_s10) (Mul (V v_s20) (C 654183)));  (* 1558 *)
  Asg v_s11 (Sub (V v_s11) (Mul (V v_s20) (C 997805)));  (* 1559 *)
  Asg v_s12 (Add (V v_s12) (Mul (V v_s20) (C 136657)));  (* 1560 *)
  Asg v_s13 (Sub (V v_s13) (Mul (V v_s20) (C 683901)));  (* 1561 *)
  Asg v_s7 (Add (V v_s7) (Mul (V v_s19) (C 666643)));  (* 1562 *)
  Asg v_s8 (Add (V v_s8) (Mul (V v_s19) (C 470296)));  (* 1563 *)
  Asg v_s9 (Add (V v_s9) (Mul (V v_s19) (C 654183)));  (* 1564 *)
  Asg v_s10 (Sub (V v_s10) (Mul (V v_s19) (C 997805)));  (* 1565 *)
  Asg v_s11 (Add (V v_s11) (Mul (V v_s19) (C 136657)));  (* 1566 *)
  Asg v_s12 (Sub (V v_s12) (Mul (V v_s19) (C 683901)));  (* 1567 *)
  Asg v_s6 (Add (V v_s6) (Mul (V v_s18) (C 666643)));  (* 1568 *)
  Asg v_s7 (Add (V v_s7) (Mul (V v_s18) (C 470296)));  (* 1569 *)
  Asg v_s8 (Add (V v_s8) (Mul (V v_s18) (C 654183)));  (* 1570 *)
  Asg v_s9 (Sub (V v_s9) (Mul (V v_s18) (C 997805)));  (* 1571 *)
  Asg v_s10 (Add (V v_s10) (Mul (V v_s18) (C 136657)));  (* 1572 *)
  Asg v_s11 (Sub (V v_s11) (Mul (V v_s18) (C 683901)));  (* 1573 *)
  Asg v_carry6 (Shr (Add (V v_s6) (C 1048576)) 21);  (* 1574 *)
  Asg v_s7 (Add (V v_s7) (V v_carry6));  (* 1575 *)
  Asg v_s6 (Sub (V v_s6) (Shl (V v_carry6) 21));  (* 1576 *)
  Asg v_carry8 (Shr (Add (V v_s8) (C 1048576)) 21);  (* 1577 *)
  Asg v_s9 (Add (V v_s9) (V v_carry8));  (* 1578 *)
  Asg v_s8 (Sub (V v_s8) (Shl (V v_carry8) 21));  (* 1579 *)
  Asg v_carry10 (Shr (Add (V v_s10) (C 1048576)) 21);  (* 1580 *)
  Asg v_s11 (Add (V v_s11) (V v_carry10));  (* 1581 *)
  Asg v_s10 (Sub (V v_s10) (Shl (V v_carry10) 21));  (* 1582 *)
  Asg v_carry12 (Shr (Add (V v_s12) (C 1048576)) 21);  (* 1583 *)
  Asg v_s13 (Add (V v_s13) (V v_carry12));  (* 1584 *)
  Asg v_s12 (Sub (V v_s12) (Shl (V v_carry12) 21));  (* 1585 *)
  Asg v_carry14 (Shr (Add (V v_s14) (C 1048576)) 21);  (* 1586 *)
  Asg v_s15 (Add (V v_s15) (V v_carry14));  (* 1587 *)
  Asg v_s14 (Sub (V v_s14) (Shl (V v_carry14) 21));  (* 1588 *)
  Asg v_carry16 (Shr (Add (V v_s16) (C 1048576)) 21);  (* 1589 *)
  Asg v_s17 (Add (V v_s17) (V v_carry16));  (* 1590 *)
  Asg v_s16 (Sub (V v_s16) (Shl (V v_carry16) 21));  (* 1591 *)
  Asg v_carry7 (Shr (Add (V v_s7) (C 1048576)) 21);  (* 1592 *)
  Asg v_s8 (Add (V v_s8) (V v_carry7));  (* 1593 *)
  Asg v_s7 (Sub (V v_s7) (Shl (V v_carry7) 21));  (* 1594 *)
  Asg v_carry9 (Shr (Add (V v_s9) (C 1048576)) 21);  (* 1595 *)
  Asg v_s10 (Add (V v_s10) (V v_carry9));  (* 1596 *)
  Asg v_s9 (Sub (V v_s9) (Shl (V v_carry9) 21));  (* 1597 *)
  Asg v_carry11 (Shr (Add (V v_s11) (C 1048576)) 21);  (* 1598 *)
  Asg v_s12 (Add (V v_s12) (V v_carry11));  (* 1599 *)
  Asg v_s11 (Sub (V v_s11) (Shl (V v_carry11) 21));  (* 1600 *)
  Asg v_carry13 (Shr (Add (V v_s13) (C 1048576)) 21);  (* 1601 *)
  Asg v_s14 (Add (V v_s14) (V v_carry13));  (* 1602 *)
  Asg v_s13 (Sub (V v_s13) (Shl (V v_carry13) 21));  (* 1603 *)
  Asg v_carry15 (Shr (Add (V v_s15) (C 1048576)) 21);  (* 1604 *)
  Asg v_s16 (Add (V v_s16) (V v_carry15));  (* 1605 *)
  Asg v_s15 (Sub (V v_s15) (Shl (V v_carry15) 21));  (* 1606 *)
  Asg v_s5 (Add (V v_s5) (Mul (V v_s17) (C 666643)));  (* 1607 *)
  Asg v_s6 (Add (V v_s6) (Mul (V v_s17) (C 470296)));  (* 1608 *)
  Asg v_s7 (Add (V v_s7) (Mul (V v_s17) (C 654183)));  (* 1609 *)
  Asg v_s8 (Sub (V v_s8) (Mul (V v_s17) (C 997805)));  (* 1610 *)
  Asg v_s9 (Add (V v_s9) (Mul (V v_s17) (C 136657)));  (* 1611 *)
  Asg v_s10 (Sub (V v_s10) (Mul (V v_s17) (C 683901)));  (* 1612 *)
  Asg v_s4 (Add (V v_s4) (Mul (V v_s16) (C 666643)));  (* 1613 *)
  Asg v_s5 (Add (V v_s5) (Mul (V v_s16) (C 470296)));  (* 1614 *)
  Asg v_s6 (Add (V v_s6) (Mul (V v_s16) (C 654183)));  (* 1615 *)
  Asg v_s7 (Sub (V v_s7) (Mul (V v_s16) (C 997805)));  (* 1616 *)
  Asg v_s8 (Add (V v_s8) (Mul (V v_s16) (C 136657)));  (* 1617 *)
  Asg v_s9 (Sub (V v_s9) (Mul (V v_s16) (C 683901)));  (* 1618 *)
  Asg v_s3 (Add (V v_s3) (Mul (V v_s15) (C 666643)));  (* 1619 *)
  Asg v_s4 (Add (V v_s4) (Mul (V v_s15) (C 470296)));  (* 1620 *)
  Asg v_s5 (Add (V v_s5) (Mul (V v_s15) (C 654183)));  (* 1621 *)
  Asg v_s6 (Sub (V v_s6) (Mul (V v_s15) (C 997805)));  (* 1622 *)
  Asg v_s7 (Add (V v_s7) (Mul (V v_s15) (C 136657)));  (* 1623 *)
  Asg v_s8 (Sub (V v_s8) (Mul (V v_s15) (C 683901)));  (* 1624 *)
  Asg v_s2 (Add (V v_s2) (Mul (V v_s14) (C 666643)));  (* 1625 *)
  Asg v_s3 (Add (V v_s3) (Mul (V v_s14) (C 470296)));  (* 1626 *)
  Asg v_s4 (Add (V v_s4) (Mul (V v_s14) (C 654183)));  (* 1627 *)
  Asg v_s5 (Sub (V v_s5) (Mul (V v_s14) (C 997805)));  (* 1628 *)
  Asg v_s6 (Add (V v_s6) (Mul (V v_s14) (C 136657)));  (* 1629 *)
  Asg v_s7 (Sub (V v_s7) (Mul (V v_s14) (C 683901)));  (* 1630 *)
  Asg v_s1 (Add (V v_s1) (Mul (V v_s13) (C 666643)));  (* 1631 *)
  Asg v_s2 (Add (V v_s2) (Mul (V v_s13) (C 470296)));  (* 1632 *)
  Asg v_s3 (Add (V v_s3) (Mul (V v_s13) (C 654183)));  (* 1633 *)
  Asg v_s4 (Sub (V v_s4) (Mul (V v_s13) (C 997805)));  (* 1634 *)
  Asg v_s5 (Add (V v_s5) (Mul (V v_s13) (C 136657)));  (* 1635 *)
  Asg v_s6 (Sub (V v_s6) (Mul (V v_s13) (C 683901)));  (* 1636 *)
  Asg v_s0 (Add (V v_s0) (Mul (V v_s12) (C 666643)));  (* 1637 *)
  Asg v_s1 (Add (V v_s1) (Mul (V v_s12) (C 470296)));  (* 1638 *)
  Asg v_s2 (Add (V v_s2) (Mul (V v_s12) (C 654183)));  (* 1639 *)
  Asg v_s3 (Sub (V v_s3) (Mul (V v_s12) (C 997805)));  (* 1640 *)
  Asg v_s4 (Add (V v_s4) (Mul (V v_s12) (C 136657)));  (* 1641 *)
  Asg v_s5 (Sub (V v_s5) (Mul (V v_s12) (C 683901)));  (* 1642 *)
  Asg v_s12 (C 0);  (* 1643 *)
  Asg v_carry0 (Shr (Add (V v_s0) (C 1048576)) 21);  (* 1644 *)
  Asg v_s1 (Add (V v_s1) (V v_carry0));  (* 1645 *)
  Asg v_s0 (Sub (V v_s0) (Shl (V v_carry0) 21));  (* 1646 *)
  Asg v_carry2 (Shr (Add (V v_s2) (C 1048576)) 21);  (* 1647 *)
  Asg v_s3 (Add (V v_s3) (V v_carry2));  (* 1648 *)
  Asg v_s2 (Sub (V v_s2) (Shl (V v_carry2) 21));  (* 1649 *)
  Asg v_carry4 (Shr (Add (V v_s4) (C 1048576)) 21);  (* 1650 *)
  Asg v_s5 (Add (V v_s5) (V v_carry4));  (* 1651 *)
  Asg v_s4 (Sub (V v_s4) (Shl (V v_carry4) 21));  (* 1652 *)
  Asg v_carry6 (Shr (Add (V v_s6) (C 1048576)) 21);  (* 1653 *)
  Asg v_s7 (Add (V v_s7) (V v_carry6));  (* 1654 *)
  Asg v_s6 (Sub (V v_s6) (Shl (V v_carry6) 21));  (* 1655 *)
  Asg v_carry8 (Shr (Add (V v_s8) (C 1048576)) 21);  (* 1656 *)
  Asg v_s9 (Add (V v_s9) (V v_carry8));  (* 1657 *)
  Asg v_s8 (Sub (V v_s8) (Shl (V v_carry8) 21));  (* 1658 *)
  Asg v_carry10 (Shr (Add (V v_s10) (C 1048576)) 21);  (* 1659 *)
  Asg v_s11 (Add (V v_s11) (V v_carry10));  (* 1660 *)
  Asg v_s10 (Sub (V v_s10) (Shl (V v_carry10) 21));  (* 1661 *)
  Asg v_carry1 (Shr (Add (V v_s1) (C 1048576)) 21);  (* 1662 *)
  Asg v_s2 (Add (V v_s2) (V v_carry1));  (* 1663 *)
  Asg v_s1 (Sub (V v_s1) (Shl (V v_carry1) 21));  (* 1664 *)
  Asg v_carry3 (Shr (Add (V v_s3) (C 1048576)) 21);  (* 1665 *)
  Asg v_s4 (Add (V v_s4) (V v_carry3));  (* 1666 *)
  Asg v_s3 (Sub (V v_s3) (Shl (V v_carry3) 21));  (* 1667 *)
  Asg v_carry5 (Shr (Add (V v_s5) (C 1048576)) 21);  (* 1668 *)
  Asg v_s6 (Add (V v_s6) (V v_carry5));  (* 1669 *)
  Asg v_s5 (Sub (V v_s5) (Shl (V v_carry5) 21));  (* 1670 *)
  Asg v_carry7 (Shr (Add (V v_s7) (C 1048576)) 21);  (* 1671 *)
  Asg v_s8 (Add (V v_s8) (V v_carry7));  (* 1672 *)
  Asg v_s7 (Sub (V v_s7) (Shl (V v_carry7) 21));  (* 1673 *)
  Asg v_carry9 (Shr (Add (V v_s9) (C 1048576)) 21);  (* 1674 *)
  Asg v_s10 (Add (V v_s10) (V v_carry9));  (* 1675 *)
  Asg v_s9 (Sub (V v_s9) (Shl (V v_carry9) 21));  (* 1676 *)
  Asg v_carry11 (Shr (Add (V v_s11) (C 1048576)) 21);  (* 1677 *)
  Asg v_s12 (Add (V v_s12) (V v_carry11));  (* 1678 *)
  Asg v_s11 (Sub (V v_s11) (Shl (V v_carry11) 21));  (* 1679 *)
  Asg v_s0 (Add (V v_s0) (Mul (V v_s12) (C 666643)));  (* 1680 *)
  Asg v_s1 (Add (V v_s1) (Mul (V v_s12) (C 470296)));  (* 1681 *)
  Asg v_s2 (Add (V v_s2) (Mul (V v_s12) (C 654183)));  (* 1682 *)
  Asg v_s3 (Sub (V v_s3) (Mul (V v_s12) (C 997805)));  (* 1683 *)
  Asg v_s4 (Add (V v_s4) (Mul (V v_s12) (C 136657)));  (* 1684 *)
  Asg v_s5 (Sub (V v_s5) (Mul (V v_s12) (C 683901)));  (* 1685 *)
  Asg v_s12 (C 0)  (* 1686 *)
].

(** Ed25519EncodedFieldElement.multiplyAndAddModQ, ed25519_encode.go:1687-1722 *)
Definition mulAdd_2_prog : prog := [
  Asg v_carry0 (Shr (V v_s0) 21);  (* 1687 *)
  Asg v_s1 (Add (V v_s1) (V v_carry0));  (* 1688 *)
  Asg v_s0 (Sub (V v_s0) (Shl (V v_carry0) 21));  (* 1689 *)
  Asg v_carry1 (Shr (V v_s1) 21);  (* 1690 *)
  Asg v_s2 (Add (V v_s2) (V v_carry1));  (* 1691 *)
  Asg v_s1 (Sub (V v_s1) (Shl (V v_carry1) 21));  (* 1692 *)
  Asg v_carry2 (Shr (V v_s2) 21);  (* 1693 *)
  Asg v_s3 (Add (V v_s3) (V v_carry2));  (* 1694 *)
  Asg v_s2 (Sub (V v_s2) (Shl (V v_carry2) 21));  (* 1695 *)
  Asg v_carry3 (Shr (V v_s3) 21);  (* 1696 *)
  Asg v_s4 (Add (V v_s4) (V v_carry3));  (* 1697 *)
  Asg v_s3 (Sub (V v_s3) (Shl (V v_carry3) 21));  (* 1698 *)
  Asg v_carry4 (Shr (V v_s4) 21);  (* 1699 *)
  Asg v_s5 (Add (V v_s5) (V v_carry4));  (* 1700 *)
  Asg v_s4 (Sub (V v_s4) (Shl (V v_carry4) 21));  (* 1701 *)
  Asg v_carry5 (Shr (V v_s5) 21);  (* 1702 *)
  Asg v_s6 (Add (V v_s6) (V v_carry5));  (* 1703 *)
  Asg v_s5 (Sub (V v_s5) (Shl (V v_carry5) 21));  (* 1704 *)
  Asg v_carry6 (Shr (V v_s6) 21);  (* 1705 *)
  Asg v_s7 (Add (V v_s7) (V v_carry6));  (* 1706 *)
  Asg v_s6 (Sub (V v_s6) (Shl (V v_carry6) 21));  (* 1707 *)
  Asg v_carry7 (Shr (V v_s7) 21);  (* 1708 *)
  Asg v_s8 (Add (V v_s8) (V v_carry7));  (* 1709 *)
  Asg v_s7 (Sub (V v_s7) (Shl (V v_carry7) 21));  (* 1710 *)
  Asg v_carry8 (Shr (V v_s8) 21);  (* 1711 *)
  Asg v_s9 (Add (V v_s9) (V v_carry8));  (* 1712 *)
  Asg v_s8 (Sub (V v_s8) (Shl (V v_carry8) 21));  (* 1713 *)
  Asg v_carry9 (Shr (V v_s9) 21);  (* 1714 *)
  Asg v_s10 (Add (V v_s10) (V v_carry9));  (* 1715 *)
  Asg v_s9 (Sub (V v_s9) (Shl (V v_carry9) 21));  (* 1716 *)
  Asg v_carry10 (Shr (V v_s10) 21);  (* 1717 *)
  Asg v_s11 (Add (V v_s11) (V v_carry10));  (* 1718 *)
  Asg v_s10 (Sub (V v_s10) (Shl (V v_carry10) 21));  (* 1719 *)
  Asg v_carry11 (Shr (V v_s11) 21);  (* 1720 *)
  Asg v_s12 (Add (V v_s12) (V v_carry11));  (* 1721 *)
  Asg v_s11 (Sub (V v_s11) (Shl (V v_carry11) 21))  (* 1722 *)
].

(** Ed25519EncodedFieldElement.multiplyAndAddModQ, ed25519_encode.go:1723-1761 *)
Definition mulAdd_3_prog : prog := [
  Asg v_s0 (Add (V v_s0) (Mul (V v_s12) (C 666643)));  (* 1723 *)
  Asg v_s1 (Add (V v_s1) (Mul (V v_s12) (C 470296)));  (* 1724 *)
  Asg v_s2 (Add (V v_s2) (Mul (V v_s12) (C 654183)));  (* 1725 *)
  Asg v_s3 (Sub (V v_s3) (Mul (V v_s12) (C 997805)));  (* 1726 *)
  Asg v_s4 (Add (V v_s4) (Mul (V v_s12) (C 136657)));  (* 1727 *)
  Asg v_s5 (Sub (V v_s5) (Mul (V v_s12) (C 683901)));  (* 1728 *)
  Asg v_carry0 (Shr (V v_s0) 21);  (* 1729 *)
  Asg v_s1 (Add (V v_s1) (V v_carry0));  (* 1730 *)
  Asg v_s0 (Sub (V v_s0) (Shl (V v_carry0) 21));  (* 1731 *)
  Asg v_carry1 (Shr (V v_s1) 21);  (* 1732 *)
  Asg v_s2 (Add (V v_s2) (V v_carry1));  (* 1733 *)
  Asg v_s1 (Sub (V v_s1) (Shl (V v_carry1) 21));  (* 1734 *)
  Asg v_carry2 (Shr (V v_s2) 21);  (* 1735 *)
  Asg v_s3 (Add (V v_s3) (V v_carry2));  (* 1736 *)
  Asg v_s2 (Sub (V v_s2) (Shl (V v_carry2) 21));  (* 1737 *)
  Asg v_carry3 (Shr (V v_s3) 21);  (* 1738 *)
  Asg v_s4 (Add (V v_s4) (V v_carry3));  (* 1739 *)
  Asg v_s3 (Sub (V v_s3) (Shl (V v_carry3) 21));  (* 1740 *)
  Asg v_carry4 (Shr (V v_s4) 21);  (* 1741 *)
  Asg v_s5 (Add (V v_s5) (V v_carry4));  (* 1742 *)
  Asg v_s4 (Sub (V v_s4) (Shl (V v_carry4) 21));  (* 1743 *)
  Asg v_carry5 (Shr (V v_s5) 21);  (* 1744 *)
  Asg v_s6 (Add (V v_s6) (V v_carry5));  (* 1745 *)
  Asg v_s5 (Sub (V v_s5) (Shl (V v_carry5) 21));  (* 1746 *)
  Asg v_carry6 (Shr (V v_s6) 21);  (* 1747 *)
  Asg v_s7 (Add (V v_s7) (V v_carry6));  (* 1748 *)
  Asg v_s6 (Sub (V v_s6) (Shl (V v_carry6) 21));  (* 1749 *)
  Asg v_carry7 (Shr (V v_s7) 21);  (* 1750 *)
  Asg v_s8 (Add (V v_s8) (V v_carry7));  (* 1751 *)
  Asg v_s7 (Sub (V v_s7) (Shl (V v_carry7) 21));  (* 1752 *)
  Asg v_carry8 (Shr (V v_s8) 21);  (* 1753 *)
  Asg v_s9 (Add (V v_s9) (V v_carry8));  (* 1754 *)
  Asg v_s8 (Sub (V v_s8) (Shl (V v_carry8) 21));  (* 1755 *)
  Asg v_carry9 (Shr (V v_s9) 21);  (* 1756 *)
  Asg v_s10 (Add (V v_s10) (V v_carry9));  (* 1757 *)
  Asg v_s9 (Sub (V v_s9) (Shl (V v_carry9) 21));  (* 1758 *)
  Asg v_carry10 (Shr (V v_s10) 21);  (* 1759 *)
  Asg v_s11 (Add (V v_s11) (V v_carry10));  (* 1760 *)
  Asg v_s10 (Sub (V v_s10) (Shl (V v_carry10) 21))  (* 1761 *)
].
