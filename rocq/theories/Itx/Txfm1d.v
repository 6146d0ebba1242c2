(** The one-dimensional inverse transforms of /repo/src/itx_1d.c, statement by
    statement. *)
From Coq Require Import ZArith List Bool.
From Verif.Itx Require Import Lang.
Import ListNotations.
Open Scope Z_scope.

(** The C local variables. *)
Definition in0 : positive := 1. Definition in1 : positive := 2. Definition in2 : positive := 3.
Definition in3 : positive := 4. Definition in4 : positive := 5. Definition in5 : positive := 6.
Definition in6 : positive := 7. Definition in7 : positive := 8. Definition in8 : positive := 9.
Definition in9 : positive := 10. Definition in10 : positive := 11. Definition in11 : positive := 12.
Definition in12 : positive := 13. Definition in13 : positive := 14. Definition in14 : positive := 15.
Definition in15 : positive := 16. Definition in17 : positive := 17. Definition in19 : positive := 18.
Definition in21 : positive := 19. Definition in23 : positive := 20. Definition in25 : positive := 21.
Definition in27 : positive := 22. Definition in29 : positive := 23. Definition in31 : positive := 24.
Definition t0 : positive := 25. Definition t1 : positive := 26. Definition t2 : positive := 27.
Definition t3 : positive := 28. Definition t4 : positive := 29. Definition t5 : positive := 30.
Definition t6 : positive := 31. Definition t7 : positive := 32. Definition t8 : positive := 33.
Definition t9 : positive := 34. Definition t10 : positive := 35. Definition t11 : positive := 36.
Definition t12 : positive := 37. Definition t13 : positive := 38. Definition t14 : positive := 39.
Definition t15 : positive := 40. Definition t16 : positive := 41. Definition t17 : positive := 42.
Definition t18 : positive := 43. Definition t19 : positive := 44. Definition t20 : positive := 45.
Definition t21 : positive := 46. Definition t22 : positive := 47. Definition t23 : positive := 48.
Definition t24 : positive := 49. Definition t25 : positive := 50. Definition t26 : positive := 51.
Definition t27 : positive := 52. Definition t28 : positive := 53. Definition t29 : positive := 54.
Definition t30 : positive := 55. Definition t31 : positive := 56. Definition t32 : positive := 57.
Definition t33 : positive := 58. Definition t34 : positive := 59. Definition t35 : positive := 60.
Definition t36 : positive := 61. Definition t37 : positive := 62. Definition t38 : positive := 63.
Definition t39 : positive := 64. Definition t40 : positive := 65. Definition t41 : positive := 66.
Definition t42 : positive := 67. Definition t43 : positive := 68. Definition t44 : positive := 69.
Definition t45 : positive := 70. Definition t46 : positive := 71. Definition t47 : positive := 72.
Definition t48 : positive := 73. Definition t49 : positive := 74. Definition t50 : positive := 75.
Definition t51 : positive := 76. Definition t52 : positive := 77. Definition t53 : positive := 78.
Definition t54 : positive := 79. Definition t55 : positive := 80. Definition t56 : positive := 81.
Definition t57 : positive := 82. Definition t58 : positive := 83. Definition t59 : positive := 84.
Definition t60 : positive := 85. Definition t61 : positive := 86. Definition t62 : positive := 87.
Definition t63 : positive := 88. Definition t0a : positive := 89. Definition t1a : positive := 90.
Definition t2a : positive := 91. Definition t3a : positive := 92. Definition t4a : positive := 93.
Definition t5a : positive := 94. Definition t6a : positive := 95. Definition t7a : positive := 96.
Definition t8a : positive := 97. Definition t9a : positive := 98. Definition t10a : positive := 99.
Definition t11a : positive := 100. Definition t12a : positive := 101. Definition t13a : positive := 102.
Definition t14a : positive := 103. Definition t15a : positive := 104. Definition t16a : positive := 105.
Definition t17a : positive := 106. Definition t18a : positive := 107. Definition t19a : positive := 108.
Definition t20a : positive := 109. Definition t21a : positive := 110. Definition t22a : positive := 111.
Definition t23a : positive := 112. Definition t24a : positive := 113. Definition t25a : positive := 114.
Definition t26a : positive := 115. Definition t27a : positive := 116. Definition t28a : positive := 117.
Definition t29a : positive := 118. Definition t30a : positive := 119. Definition t31a : positive := 120.
Definition t32a : positive := 121. Definition t33a : positive := 122. Definition t34a : positive := 123.
Definition t35a : positive := 124. Definition t36a : positive := 125. Definition t37a : positive := 126.
Definition t38a : positive := 127. Definition t39a : positive := 128. Definition t40a : positive := 129.
Definition t41a : positive := 130. Definition t42a : positive := 131. Definition t43a : positive := 132.
Definition t44a : positive := 133. Definition t45a : positive := 134. Definition t46a : positive := 135.
Definition t47a : positive := 136. Definition t48a : positive := 137. Definition t49a : positive := 138.
Definition t50a : positive := 139. Definition t51a : positive := 140. Definition t52a : positive := 141.
Definition t53a : positive := 142. Definition t54a : positive := 143. Definition t55a : positive := 144.
Definition t56a : positive := 145. Definition t57a : positive := 146. Definition t58a : positive := 147.
Definition t59a : positive := 148. Definition t60a : positive := 149. Definition t61a : positive := 150.
Definition t62a : positive := 151. Definition t63a : positive := 152.
Definition in_ : positive := 153.

(** itx_1d.c:66-90 inv_dct4_1d_internal_c. *)
Definition dct4_body (tx64 : bool) : list stmt :=
  [ in0 <- c[ 0 ];
    in1 <- c[ 1 ] ] ++
  (if tx64 then
  [ t1 <- (in0 * 181 + 128) >> 8;
    t0 <- (in0 * 181 + 128) >> 8;
    t2 <- (in1 * 1567 + 2048) >> 12;
    t3 <- (in1 * 3784 + 2048) >> 12 ]
  else
  [ in2 <- c[ 2 ];
    in3 <- c[ 3 ];
    t0 <- ((in0 + in2) * 181 + 128) >> 8;
    t1 <- ((in0 - in2) * 181 + 128) >> 8;
    t2 <- ((in1 * 1567 - in3 * (3784 - 4096) + 2048) >> 12) - in3;
    t3 <- ((in1 * (3784 - 4096) + in3 * 1567 + 2048) >> 12) + in1 ]) ++
  [ c[ 0 ]' <- CLIP (t0 + t3);
    c[ 1 ]' <- CLIP (t1 + t2);
    c[ 2 ]' <- CLIP (t1 - t2);
    c[ 3 ]' <- CLIP (t0 - t3) ].
Definition inv_dct4_internal (tx64 : bool) : list block :=
  [body (dct4_body tx64)].

(** itx_1d.c:99-143 inv_dct8_1d_internal_c. *)
Definition dct8_body (tx64 : bool) : list stmt :=
  [ in1 <- c[ 1 ];
    in3 <- c[ 3 ] ] ++
  (if tx64 then
  [ t4a <- (in1 * 799 + 2048) >> 12;
    t5a <- (in3 * -2276 + 2048) >> 12;
    t6a <- (in3 * 3406 + 2048) >> 12;
    t7a <- (in1 * 4017 + 2048) >> 12 ]
  else
  [ in5 <- c[ 5 ];
    in7 <- c[ 7 ];
    t4a <- ((in1 * 799 - in7 * (4017 - 4096) + 2048) >> 12) - in7;
    t5a <- (in5 * 1703 - in3 * 1138 + 1024) >> 11;
    t6a <- (in5 * 1138 + in3 * 1703 + 1024) >> 11;
    t7a <- ((in1 * (4017 - 4096) + in7 * 799 + 2048) >> 12) + in1 ]) ++
  [ t4 <- CLIP (t4a + t5a);
    t5a <- CLIP (t4a - t5a);
    t7 <- CLIP (t7a + t6a);
    t6a <- CLIP (t7a - t6a);
    t5 <- ((t6a - t5a) * 181 + 128) >> 8;
    t6 <- ((t6a + t5a) * 181 + 128) >> 8;
    t0 <- c[ 0 ];
    t1 <- c[ 2 ];
    t2 <- c[ 4 ];
    t3 <- c[ 6 ];
    c[ 0 ]' <- CLIP (t0 + t7);
    c[ 1 ]' <- CLIP (t1 + t6);
    c[ 2 ]' <- CLIP (t2 + t5);
    c[ 3 ]' <- CLIP (t3 + t4);
    c[ 4 ]' <- CLIP (t3 - t4);
    c[ 5 ]' <- CLIP (t2 - t5);
    c[ 6 ]' <- CLIP (t1 - t6);
    c[ 7 ]' <- CLIP (t0 - t7) ].
Definition inv_dct8_internal (tx64 : bool) : list block :=
  call2 (inv_dct4_internal tx64) ++ [body (dct8_body tx64)].

(** itx_1d.c:152-238 inv_dct16_1d_internal_c. *)
Definition dct16_body (tx64 : bool) : list stmt :=
  [ in1 <- c[ 1 ];
    in3 <- c[ 3 ];
    in5 <- c[ 5 ];
    in7 <- c[ 7 ] ] ++
  (if tx64 then
  [ t8a <- (in1 * 401 + 2048) >> 12;
    t9a <- (in7 * -2598 + 2048) >> 12;
    t10a <- (in5 * 1931 + 2048) >> 12;
    t11a <- (in3 * -1189 + 2048) >> 12;
    t12a <- (in3 * 3920 + 2048) >> 12;
    t13a <- (in5 * 3612 + 2048) >> 12;
    t14a <- (in7 * 3166 + 2048) >> 12;
    t15a <- (in1 * 4076 + 2048) >> 12 ]
  else
  [ in9 <- c[ 9 ];
    in11 <- c[ 11 ];
    in13 <- c[ 13 ];
    in15 <- c[ 15 ];
    t8a <- ((in1 * 401 - in15 * (4076 - 4096) + 2048) >> 12) - in15;
    t9a <- (in9 * 1583 - in7 * 1299 + 1024) >> 11;
    t10a <- ((in5 * 1931 - in11 * (3612 - 4096) + 2048) >> 12) - in11;
    t11a <- ((in13 * (3920 - 4096) - in3 * 1189 + 2048) >> 12) + in13;
    t12a <- ((in13 * 1189 + in3 * (3920 - 4096) + 2048) >> 12) + in3;
    t13a <- ((in5 * (3612 - 4096) + in11 * 1931 + 2048) >> 12) + in5;
    t14a <- (in9 * 1299 + in7 * 1583 + 1024) >> 11;
    t15a <- ((in1 * (4076 - 4096) + in15 * 401 + 2048) >> 12) + in1 ]) ++
  [ t8 <- CLIP (t8a + t9a);
    t9 <- CLIP (t8a - t9a);
    t10 <- CLIP (t11a - t10a);
    t11 <- CLIP (t11a + t10a);
    t12 <- CLIP (t12a + t13a);
    t13 <- CLIP (t12a - t13a);
    t14 <- CLIP (t15a - t14a);
    t15 <- CLIP (t15a + t14a);
    t9a <- (( t14 * 1567 - t9 * (3784 - 4096) + 2048) >> 12) - t9;
    t14a <- (( t14 * (3784 - 4096) + t9 * 1567 + 2048) >> 12) + t14;
    t10a <- ((-(t13 * (3784 - 4096) + t10 * 1567) + 2048) >> 12) - t13;
    t13a <- (( t13 * 1567 - t10 * (3784 - 4096) + 2048) >> 12) - t10;
    t8a <- CLIP (t8 + t11);
    t9 <- CLIP (t9a + t10a);
    t10 <- CLIP (t9a - t10a);
    t11a <- CLIP (t8 - t11);
    t12a <- CLIP (t15 - t12);
    t13 <- CLIP (t14a - t13a);
    t14 <- CLIP (t14a + t13a);
    t15a <- CLIP (t15 + t12);
    t10a <- ((t13 - t10) * 181 + 128) >> 8;
    t13a <- ((t13 + t10) * 181 + 128) >> 8;
    t11 <- ((t12a - t11a) * 181 + 128) >> 8;
    t12 <- ((t12a + t11a) * 181 + 128) >> 8;
    t0 <- c[ 0 ];
    t1 <- c[ 2 ];
    t2 <- c[ 4 ];
    t3 <- c[ 6 ];
    t4 <- c[ 8 ];
    t5 <- c[ 10 ];
    t6 <- c[ 12 ];
    t7 <- c[ 14 ];
    c[ 0 ]' <- CLIP (t0 + t15a);
    c[ 1 ]' <- CLIP (t1 + t14);
    c[ 2 ]' <- CLIP (t2 + t13a);
    c[ 3 ]' <- CLIP (t3 + t12);
    c[ 4 ]' <- CLIP (t4 + t11);
    c[ 5 ]' <- CLIP (t5 + t10a);
    c[ 6 ]' <- CLIP (t6 + t9);
    c[ 7 ]' <- CLIP (t7 + t8a);
    c[ 8 ]' <- CLIP (t7 - t8a);
    c[ 9 ]' <- CLIP (t6 - t9);
    c[ 10 ]' <- CLIP (t5 - t10a);
    c[ 11 ]' <- CLIP (t4 - t11);
    c[ 12 ]' <- CLIP (t3 - t12);
    c[ 13 ]' <- CLIP (t2 - t13a);
    c[ 14 ]' <- CLIP (t1 - t14);
    c[ 15 ]' <- CLIP (t0 - t15a) ].
Definition inv_dct16_internal (tx64 : bool) : list block :=
  call2 (inv_dct8_internal tx64) ++ [body (dct16_body tx64)].

(** itx_1d.c:247-428 inv_dct32_1d_internal_c. *)
Definition dct32_body (tx64 : bool) : list stmt :=
  [ in1 <- c[ 1 ];
    in3 <- c[ 3 ];
    in5 <- c[ 5 ];
    in7 <- c[ 7 ];
    in9 <- c[ 9 ];
    in11 <- c[ 11 ];
    in13 <- c[ 13 ];
    in15 <- c[ 15 ] ] ++
  (if tx64 then
  [ t16a <- (in1 * 201 + 2048) >> 12;
    t17a <- (in15 * -2751 + 2048) >> 12;
    t18a <- (in9 * 1751 + 2048) >> 12;
    t19a <- (in7 * -1380 + 2048) >> 12;
    t20a <- (in5 * 995 + 2048) >> 12;
    t21a <- (in11 * -2106 + 2048) >> 12;
    t22a <- (in13 * 2440 + 2048) >> 12;
    t23a <- (in3 * -601 + 2048) >> 12;
    t24a <- (in3 * 4052 + 2048) >> 12;
    t25a <- (in13 * 3290 + 2048) >> 12;
    t26a <- (in11 * 3513 + 2048) >> 12;
    t27a <- (in5 * 3973 + 2048) >> 12;
    t28a <- (in7 * 3857 + 2048) >> 12;
    t29a <- (in9 * 3703 + 2048) >> 12;
    t30a <- (in15 * 3035 + 2048) >> 12;
    t31a <- (in1 * 4091 + 2048) >> 12 ]
  else
  [ in17 <- c[ 17 ];
    in19 <- c[ 19 ];
    in21 <- c[ 21 ];
    in23 <- c[ 23 ];
    in25 <- c[ 25 ];
    in27 <- c[ 27 ];
    in29 <- c[ 29 ];
    in31 <- c[ 31 ];
    t16a <- ((in1 * 201 - in31 * (4091 - 4096) + 2048) >> 12) - in31;
    t17a <- ((in17 * (3035 - 4096) - in15 * 2751 + 2048) >> 12) + in17;
    t18a <- ((in9 * 1751 - in23 * (3703 - 4096) + 2048) >> 12) - in23;
    t19a <- ((in25 * (3857 - 4096) - in7 * 1380 + 2048) >> 12) + in25;
    t20a <- ((in5 * 995 - in27 * (3973 - 4096) + 2048) >> 12) - in27;
    t21a <- ((in21 * (3513 - 4096) - in11 * 2106 + 2048) >> 12) + in21;
    t22a <- (in13 * 1220 - in19 * 1645 + 1024) >> 11;
    t23a <- ((in29 * (4052 - 4096) - in3 * 601 + 2048) >> 12) + in29;
    t24a <- ((in29 * 601 + in3 * (4052 - 4096) + 2048) >> 12) + in3;
    t25a <- (in13 * 1645 + in19 * 1220 + 1024) >> 11;
    t26a <- ((in21 * 2106 + in11 * (3513 - 4096) + 2048) >> 12) + in11;
    t27a <- ((in5 * (3973 - 4096) + in27 * 995 + 2048) >> 12) + in5;
    t28a <- ((in25 * 1380 + in7 * (3857 - 4096) + 2048) >> 12) + in7;
    t29a <- ((in9 * (3703 - 4096) + in23 * 1751 + 2048) >> 12) + in9;
    t30a <- ((in17 * 2751 + in15 * (3035 - 4096) + 2048) >> 12) + in15;
    t31a <- ((in1 * (4091 - 4096) + in31 * 201 + 2048) >> 12) + in1 ]) ++
  [ t16 <- CLIP (t16a + t17a);
    t17 <- CLIP (t16a - t17a);
    t18 <- CLIP (t19a - t18a);
    t19 <- CLIP (t19a + t18a);
    t20 <- CLIP (t20a + t21a);
    t21 <- CLIP (t20a - t21a);
    t22 <- CLIP (t23a - t22a);
    t23 <- CLIP (t23a + t22a);
    t24 <- CLIP (t24a + t25a);
    t25 <- CLIP (t24a - t25a);
    t26 <- CLIP (t27a - t26a);
    t27 <- CLIP (t27a + t26a);
    t28 <- CLIP (t28a + t29a);
    t29 <- CLIP (t28a - t29a);
    t30 <- CLIP (t31a - t30a);
    t31 <- CLIP (t31a + t30a);
    t17a <- (( t30 * 799 - t17 * (4017 - 4096) + 2048) >> 12) - t17;
    t30a <- (( t30 * (4017 - 4096) + t17 * 799 + 2048) >> 12) + t30;
    t18a <- ((-(t29 * (4017 - 4096) + t18 * 799) + 2048) >> 12) - t29;
    t29a <- (( t29 * 799 - t18 * (4017 - 4096) + 2048) >> 12) - t18;
    t21a <- ( t26 * 1703 - t21 * 1138 + 1024) >> 11;
    t26a <- ( t26 * 1138 + t21 * 1703 + 1024) >> 11;
    t22a <- (-(t25 * 1138 + t22 * 1703 ) + 1024) >> 11;
    t25a <- ( t25 * 1703 - t22 * 1138 + 1024) >> 11;
    t16a <- CLIP (t16 + t19);
    t17 <- CLIP (t17a + t18a);
    t18 <- CLIP (t17a - t18a);
    t19a <- CLIP (t16 - t19);
    t20a <- CLIP (t23 - t20);
    t21 <- CLIP (t22a - t21a);
    t22 <- CLIP (t22a + t21a);
    t23a <- CLIP (t23 + t20);
    t24a <- CLIP (t24 + t27);
    t25 <- CLIP (t25a + t26a);
    t26 <- CLIP (t25a - t26a);
    t27a <- CLIP (t24 - t27);
    t28a <- CLIP (t31 - t28);
    t29 <- CLIP (t30a - t29a);
    t30 <- CLIP (t30a + t29a);
    t31a <- CLIP (t31 + t28);
    t18a <- (( t29 * 1567 - t18 * (3784 - 4096) + 2048) >> 12) - t18;
    t29a <- (( t29 * (3784 - 4096) + t18 * 1567 + 2048) >> 12) + t29;
    t19 <- (( t28a * 1567 - t19a * (3784 - 4096) + 2048) >> 12) - t19a;
    t28 <- (( t28a * (3784 - 4096) + t19a * 1567 + 2048) >> 12) + t28a;
    t20 <- ((-(t27a * (3784 - 4096) + t20a * 1567) + 2048) >> 12) - t27a;
    t27 <- (( t27a * 1567 - t20a * (3784 - 4096) + 2048) >> 12) - t20a;
    t21a <- ((-(t26 * (3784 - 4096) + t21 * 1567) + 2048) >> 12) - t26;
    t26a <- (( t26 * 1567 - t21 * (3784 - 4096) + 2048) >> 12) - t21;
    t16 <- CLIP (t16a + t23a);
    t17a <- CLIP (t17 + t22);
    t18 <- CLIP (t18a + t21a);
    t19a <- CLIP (t19 + t20);
    t20a <- CLIP (t19 - t20);
    t21 <- CLIP (t18a - t21a);
    t22a <- CLIP (t17 - t22);
    t23 <- CLIP (t16a - t23a);
    t24 <- CLIP (t31a - t24a);
    t25a <- CLIP (t30 - t25);
    t26 <- CLIP (t29a - t26a);
    t27a <- CLIP (t28 - t27);
    t28a <- CLIP (t28 + t27);
    t29 <- CLIP (t29a + t26a);
    t30a <- CLIP (t30 + t25);
    t31 <- CLIP (t31a + t24a);
    t20 <- ((t27a - t20a) * 181 + 128) >> 8;
    t27 <- ((t27a + t20a) * 181 + 128) >> 8;
    t21a <- ((t26 - t21 ) * 181 + 128) >> 8;
    t26a <- ((t26 + t21 ) * 181 + 128) >> 8;
    t22 <- ((t25a - t22a) * 181 + 128) >> 8;
    t25 <- ((t25a + t22a) * 181 + 128) >> 8;
    t23a <- ((t24 - t23 ) * 181 + 128) >> 8;
    t24a <- ((t24 + t23 ) * 181 + 128) >> 8;
    t0 <- c[ 0 ];
    t1 <- c[ 2 ];
    t2 <- c[ 4 ];
    t3 <- c[ 6 ];
    t4 <- c[ 8 ];
    t5 <- c[ 10 ];
    t6 <- c[ 12 ];
    t7 <- c[ 14 ];
    t8 <- c[ 16 ];
    t9 <- c[ 18 ];
    t10 <- c[ 20 ];
    t11 <- c[ 22 ];
    t12 <- c[ 24 ];
    t13 <- c[ 26 ];
    t14 <- c[ 28 ];
    t15 <- c[ 30 ];
    c[ 0 ]' <- CLIP (t0 + t31);
    c[ 1 ]' <- CLIP (t1 + t30a);
    c[ 2 ]' <- CLIP (t2 + t29);
    c[ 3 ]' <- CLIP (t3 + t28a);
    c[ 4 ]' <- CLIP (t4 + t27);
    c[ 5 ]' <- CLIP (t5 + t26a);
    c[ 6 ]' <- CLIP (t6 + t25);
    c[ 7 ]' <- CLIP (t7 + t24a);
    c[ 8 ]' <- CLIP (t8 + t23a);
    c[ 9 ]' <- CLIP (t9 + t22);
    c[ 10 ]' <- CLIP (t10 + t21a);
    c[ 11 ]' <- CLIP (t11 + t20);
    c[ 12 ]' <- CLIP (t12 + t19a);
    c[ 13 ]' <- CLIP (t13 + t18);
    c[ 14 ]' <- CLIP (t14 + t17a);
    c[ 15 ]' <- CLIP (t15 + t16);
    c[ 16 ]' <- CLIP (t15 - t16);
    c[ 17 ]' <- CLIP (t14 - t17a);
    c[ 18 ]' <- CLIP (t13 - t18);
    c[ 19 ]' <- CLIP (t12 - t19a);
    c[ 20 ]' <- CLIP (t11 - t20);
    c[ 21 ]' <- CLIP (t10 - t21a);
    c[ 22 ]' <- CLIP (t9 - t22);
    c[ 23 ]' <- CLIP (t8 - t23a);
    c[ 24 ]' <- CLIP (t7 - t24a);
    c[ 25 ]' <- CLIP (t6 - t25);
    c[ 26 ]' <- CLIP (t5 - t26a);
    c[ 27 ]' <- CLIP (t4 - t27);
    c[ 28 ]' <- CLIP (t3 - t28a);
    c[ 29 ]' <- CLIP (t2 - t29);
    c[ 30 ]' <- CLIP (t1 - t30a);
    c[ 31 ]' <- CLIP (t0 - t31) ].
Definition inv_dct32_internal (tx64 : bool) : list block :=
  call2 (inv_dct16_internal tx64) ++ [body (dct32_body tx64)].

(** itx_1d.c:436-781 inv_dct64_1d_c. *)
Definition dct64_body : list stmt :=
  [ in1 <- c[ 1 ];
    in3 <- c[ 3 ];
    in5 <- c[ 5 ];
    in7 <- c[ 7 ];
    in9 <- c[ 9 ];
    in11 <- c[ 11 ];
    in13 <- c[ 13 ];
    in15 <- c[ 15 ];
    in17 <- c[ 17 ];
    in19 <- c[ 19 ];
    in21 <- c[ 21 ];
    in23 <- c[ 23 ];
    in25 <- c[ 25 ];
    in27 <- c[ 27 ];
    in29 <- c[ 29 ];
    in31 <- c[ 31 ];
    t32a <- (in1 * 101 + 2048) >> 12;
    t33a <- (in31 * -2824 + 2048) >> 12;
    t34a <- (in17 * 1660 + 2048) >> 12;
    t35a <- (in15 * -1474 + 2048) >> 12;
    t36a <- (in9 * 897 + 2048) >> 12;
    t37a <- (in23 * -2191 + 2048) >> 12;
    t38a <- (in25 * 2359 + 2048) >> 12;
    t39a <- (in7 * -700 + 2048) >> 12;
    t40a <- (in5 * 501 + 2048) >> 12;
    t41a <- (in27 * -2520 + 2048) >> 12;
    t42a <- (in21 * 2019 + 2048) >> 12;
    t43a <- (in11 * -1092 + 2048) >> 12;
    t44a <- (in13 * 1285 + 2048) >> 12;
    t45a <- (in19 * -1842 + 2048) >> 12;
    t46a <- (in29 * 2675 + 2048) >> 12;
    t47a <- (in3 * -301 + 2048) >> 12;
    t48a <- (in3 * 4085 + 2048) >> 12;
    t49a <- (in29 * 3102 + 2048) >> 12;
    t50a <- (in19 * 3659 + 2048) >> 12;
    t51a <- (in13 * 3889 + 2048) >> 12;
    t52a <- (in11 * 3948 + 2048) >> 12;
    t53a <- (in21 * 3564 + 2048) >> 12;
    t54a <- (in27 * 3229 + 2048) >> 12;
    t55a <- (in5 * 4065 + 2048) >> 12;
    t56a <- (in7 * 4036 + 2048) >> 12;
    t57a <- (in25 * 3349 + 2048) >> 12;
    t58a <- (in23 * 3461 + 2048) >> 12;
    t59a <- (in9 * 3996 + 2048) >> 12;
    t60a <- (in15 * 3822 + 2048) >> 12;
    t61a <- (in17 * 3745 + 2048) >> 12;
    t62a <- (in31 * 2967 + 2048) >> 12;
    t63a <- (in1 * 4095 + 2048) >> 12;
    t32 <- CLIP (t32a + t33a);
    t33 <- CLIP (t32a - t33a);
    t34 <- CLIP (t35a - t34a);
    t35 <- CLIP (t35a + t34a);
    t36 <- CLIP (t36a + t37a);
    t37 <- CLIP (t36a - t37a);
    t38 <- CLIP (t39a - t38a);
    t39 <- CLIP (t39a + t38a);
    t40 <- CLIP (t40a + t41a);
    t41 <- CLIP (t40a - t41a);
    t42 <- CLIP (t43a - t42a);
    t43 <- CLIP (t43a + t42a);
    t44 <- CLIP (t44a + t45a);
    t45 <- CLIP (t44a - t45a);
    t46 <- CLIP (t47a - t46a);
    t47 <- CLIP (t47a + t46a);
    t48 <- CLIP (t48a + t49a);
    t49 <- CLIP (t48a - t49a);
    t50 <- CLIP (t51a - t50a);
    t51 <- CLIP (t51a + t50a);
    t52 <- CLIP (t52a + t53a);
    t53 <- CLIP (t52a - t53a);
    t54 <- CLIP (t55a - t54a);
    t55 <- CLIP (t55a + t54a);
    t56 <- CLIP (t56a + t57a);
    t57 <- CLIP (t56a - t57a);
    t58 <- CLIP (t59a - t58a);
    t59 <- CLIP (t59a + t58a);
    t60 <- CLIP (t60a + t61a);
    t61 <- CLIP (t60a - t61a);
    t62 <- CLIP (t63a - t62a);
    t63 <- CLIP (t63a + t62a);
    t33a <- ((t33 * (4096 - 4076) + t62 * 401 + 2048) >> 12) - t33;
    t34a <- ((t34 * -401 + t61 * (4096 - 4076) + 2048) >> 12) - t61;
    t37a <- (t37 * -1299 + t58 * 1583 + 1024) >> 11;
    t38a <- (t38 * -1583 + t57 * -1299 + 1024) >> 11;
    t41a <- ((t41 * (4096 - 3612) + t54 * 1931 + 2048) >> 12) - t41;
    t42a <- ((t42 * -1931 + t53 * (4096 - 3612) + 2048) >> 12) - t53;
    t45a <- ((t45 * -1189 + t50 * (3920 - 4096) + 2048) >> 12) + t50;
    t46a <- ((t46 * (4096 - 3920) + t49 * -1189 + 2048) >> 12) - t46;
    t49a <- ((t46 * -1189 + t49 * (3920 - 4096) + 2048) >> 12) + t49;
    t50a <- ((t45 * (3920 - 4096) + t50 * 1189 + 2048) >> 12) + t45;
    t53a <- ((t42 * (4096 - 3612) + t53 * 1931 + 2048) >> 12) - t42;
    t54a <- ((t41 * 1931 + t54 * (3612 - 4096) + 2048) >> 12) + t54;
    t57a <- (t38 * -1299 + t57 * 1583 + 1024) >> 11;
    t58a <- (t37 * 1583 + t58 * 1299 + 1024) >> 11;
    t61a <- ((t34 * (4096 - 4076) + t61 * 401 + 2048) >> 12) - t34;
    t62a <- ((t33 * 401 + t62 * (4076 - 4096) + 2048) >> 12) + t62;
    t32a <- CLIP (t32 + t35);
    t33 <- CLIP (t33a + t34a);
    t34 <- CLIP (t33a - t34a);
    t35a <- CLIP (t32 - t35);
    t36a <- CLIP (t39 - t36);
    t37 <- CLIP (t38a - t37a);
    t38 <- CLIP (t38a + t37a);
    t39a <- CLIP (t39 + t36);
    t40a <- CLIP (t40 + t43);
    t41 <- CLIP (t41a + t42a);
    t42 <- CLIP (t41a - t42a);
    t43a <- CLIP (t40 - t43);
    t44a <- CLIP (t47 - t44);
    t45 <- CLIP (t46a - t45a);
    t46 <- CLIP (t46a + t45a);
    t47a <- CLIP (t47 + t44);
    t48a <- CLIP (t48 + t51);
    t49 <- CLIP (t49a + t50a);
    t50 <- CLIP (t49a - t50a);
    t51a <- CLIP (t48 - t51);
    t52a <- CLIP (t55 - t52);
    t53 <- CLIP (t54a - t53a);
    t54 <- CLIP (t54a + t53a);
    t55a <- CLIP (t55 + t52);
    t56a <- CLIP (t56 + t59);
    t57 <- CLIP (t57a + t58a);
    t58 <- CLIP (t57a - t58a);
    t59a <- CLIP (t56 - t59);
    t60a <- CLIP (t63 - t60);
    t61 <- CLIP (t62a - t61a);
    t62 <- CLIP (t62a + t61a);
    t63a <- CLIP (t63 + t60);
    t34a <- ((t34 * (4096 - 4017) + t61 * 799 + 2048) >> 12) - t34;
    t35 <- ((t35a * (4096 - 4017) + t60a * 799 + 2048) >> 12) - t35a;
    t36 <- ((t36a * -799 + t59a * (4096 - 4017) + 2048) >> 12) - t59a;
    t37a <- ((t37 * -799 + t58 * (4096 - 4017) + 2048) >> 12) - t58;
    t42a <- (t42 * -1138 + t53 * 1703 + 1024) >> 11;
    t43 <- (t43a * -1138 + t52a * 1703 + 1024) >> 11;
    t44 <- (t44a * -1703 + t51a * -1138 + 1024) >> 11;
    t45a <- (t45 * -1703 + t50 * -1138 + 1024) >> 11;
    t50a <- (t45 * -1138 + t50 * 1703 + 1024) >> 11;
    t51 <- (t44a * -1138 + t51a * 1703 + 1024) >> 11;
    t52 <- (t43a * 1703 + t52a * 1138 + 1024) >> 11;
    t53a <- (t42 * 1703 + t53 * 1138 + 1024) >> 11;
    t58a <- ((t37 * (4096 - 4017) + t58 * 799 + 2048) >> 12) - t37;
    t59 <- ((t36a * (4096 - 4017) + t59a * 799 + 2048) >> 12) - t36a;
    t60 <- ((t35a * 799 + t60a * (4017 - 4096) + 2048) >> 12) + t60a;
    t61a <- ((t34 * 799 + t61 * (4017 - 4096) + 2048) >> 12) + t61;
    t32 <- CLIP (t32a + t39a);
    t33a <- CLIP (t33 + t38);
    t34 <- CLIP (t34a + t37a);
    t35a <- CLIP (t35 + t36);
    t36a <- CLIP (t35 - t36);
    t37 <- CLIP (t34a - t37a);
    t38a <- CLIP (t33 - t38);
    t39 <- CLIP (t32a - t39a);
    t40 <- CLIP (t47a - t40a);
    t41a <- CLIP (t46 - t41);
    t42 <- CLIP (t45a - t42a);
    t43a <- CLIP (t44 - t43);
    t44a <- CLIP (t44 + t43);
    t45 <- CLIP (t45a + t42a);
    t46a <- CLIP (t46 + t41);
    t47 <- CLIP (t47a + t40a);
    t48 <- CLIP (t48a + t55a);
    t49a <- CLIP (t49 + t54);
    t50 <- CLIP (t50a + t53a);
    t51a <- CLIP (t51 + t52);
    t52a <- CLIP (t51 - t52);
    t53 <- CLIP (t50a - t53a);
    t54a <- CLIP (t49 - t54);
    t55 <- CLIP (t48a - t55a);
    t56 <- CLIP (t63a - t56a);
    t57a <- CLIP (t62 - t57);
    t58 <- CLIP (t61a - t58a);
    t59a <- CLIP (t60 - t59);
    t60a <- CLIP (t60 + t59);
    t61 <- CLIP (t61a + t58a);
    t62a <- CLIP (t62 + t57);
    t63 <- CLIP (t63a + t56a);
    t36 <- ((t36a * (4096 - 3784) + t59a * 1567 + 2048) >> 12) - t36a;
    t37a <- ((t37 * (4096 - 3784) + t58 * 1567 + 2048) >> 12) - t37;
    t38 <- ((t38a * (4096 - 3784) + t57a * 1567 + 2048) >> 12) - t38a;
    t39a <- ((t39 * (4096 - 3784) + t56 * 1567 + 2048) >> 12) - t39;
    t40a <- ((t40 * -1567 + t55 * (4096 - 3784) + 2048) >> 12) - t55;
    t41 <- ((t41a * -1567 + t54a * (4096 - 3784) + 2048) >> 12) - t54a;
    t42a <- ((t42 * -1567 + t53 * (4096 - 3784) + 2048) >> 12) - t53;
    t43 <- ((t43a * -1567 + t52a * (4096 - 3784) + 2048) >> 12) - t52a;
    t52 <- ((t43a * (4096 - 3784) + t52a * 1567 + 2048) >> 12) - t43a;
    t53a <- ((t42 * (4096 - 3784) + t53 * 1567 + 2048) >> 12) - t42;
    t54 <- ((t41a * (4096 - 3784) + t54a * 1567 + 2048) >> 12) - t41a;
    t55a <- ((t40 * (4096 - 3784) + t55 * 1567 + 2048) >> 12) - t40;
    t56a <- ((t39 * 1567 + t56 * (3784 - 4096) + 2048) >> 12) + t56;
    t57 <- ((t38a * 1567 + t57a * (3784 - 4096) + 2048) >> 12) + t57a;
    t58a <- ((t37 * 1567 + t58 * (3784 - 4096) + 2048) >> 12) + t58;
    t59 <- ((t36a * 1567 + t59a * (3784 - 4096) + 2048) >> 12) + t59a;
    t32a <- CLIP (t32 + t47);
    t33 <- CLIP (t33a + t46a);
    t34a <- CLIP (t34 + t45);
    t35 <- CLIP (t35a + t44a);
    t36a <- CLIP (t36 + t43);
    t37 <- CLIP (t37a + t42a);
    t38a <- CLIP (t38 + t41);
    t39 <- CLIP (t39a + t40a);
    t40 <- CLIP (t39a - t40a);
    t41a <- CLIP (t38 - t41);
    t42 <- CLIP (t37a - t42a);
    t43a <- CLIP (t36 - t43);
    t44 <- CLIP (t35a - t44a);
    t45a <- CLIP (t34 - t45);
    t46 <- CLIP (t33a - t46a);
    t47a <- CLIP (t32 - t47);
    t48a <- CLIP (t63 - t48);
    t49 <- CLIP (t62a - t49a);
    t50a <- CLIP (t61 - t50);
    t51 <- CLIP (t60a - t51a);
    t52a <- CLIP (t59 - t52);
    t53 <- CLIP (t58a - t53a);
    t54a <- CLIP (t57 - t54);
    t55 <- CLIP (t56a - t55a);
    t56 <- CLIP (t56a + t55a);
    t57a <- CLIP (t57 + t54);
    t58 <- CLIP (t58a + t53a);
    t59a <- CLIP (t59 + t52);
    t60 <- CLIP (t60a + t51a);
    t61a <- CLIP (t61 + t50);
    t62 <- CLIP (t62a + t49a);
    t63a <- CLIP (t63 + t48);
    t40a <- ((t55 - t40 ) * 181 + 128) >> 8;
    t41 <- ((t54a - t41a) * 181 + 128) >> 8;
    t42a <- ((t53 - t42 ) * 181 + 128) >> 8;
    t43 <- ((t52a - t43a) * 181 + 128) >> 8;
    t44a <- ((t51 - t44 ) * 181 + 128) >> 8;
    t45 <- ((t50a - t45a) * 181 + 128) >> 8;
    t46a <- ((t49 - t46 ) * 181 + 128) >> 8;
    t47 <- ((t48a - t47a) * 181 + 128) >> 8;
    t48 <- ((t47a + t48a) * 181 + 128) >> 8;
    t49a <- ((t46 + t49 ) * 181 + 128) >> 8;
    t50 <- ((t45a + t50a) * 181 + 128) >> 8;
    t51a <- ((t44 + t51 ) * 181 + 128) >> 8;
    t52 <- ((t43a + t52a) * 181 + 128) >> 8;
    t53a <- ((t42 + t53 ) * 181 + 128) >> 8;
    t54 <- ((t41a + t54a) * 181 + 128) >> 8;
    t55a <- ((t40 + t55 ) * 181 + 128) >> 8;
    t0 <- c[ 0 ];
    t1 <- c[ 2 ];
    t2 <- c[ 4 ];
    t3 <- c[ 6 ];
    t4 <- c[ 8 ];
    t5 <- c[ 10 ];
    t6 <- c[ 12 ];
    t7 <- c[ 14 ];
    t8 <- c[ 16 ];
    t9 <- c[ 18 ];
    t10 <- c[ 20 ];
    t11 <- c[ 22 ];
    t12 <- c[ 24 ];
    t13 <- c[ 26 ];
    t14 <- c[ 28 ];
    t15 <- c[ 30 ];
    t16 <- c[ 32 ];
    t17 <- c[ 34 ];
    t18 <- c[ 36 ];
    t19 <- c[ 38 ];
    t20 <- c[ 40 ];
    t21 <- c[ 42 ];
    t22 <- c[ 44 ];
    t23 <- c[ 46 ];
    t24 <- c[ 48 ];
    t25 <- c[ 50 ];
    t26 <- c[ 52 ];
    t27 <- c[ 54 ];
    t28 <- c[ 56 ];
    t29 <- c[ 58 ];
    t30 <- c[ 60 ];
    t31 <- c[ 62 ];
    c[ 0 ]' <- CLIP (t0 + t63a);
    c[ 1 ]' <- CLIP (t1 + t62);
    c[ 2 ]' <- CLIP (t2 + t61a);
    c[ 3 ]' <- CLIP (t3 + t60);
    c[ 4 ]' <- CLIP (t4 + t59a);
    c[ 5 ]' <- CLIP (t5 + t58);
    c[ 6 ]' <- CLIP (t6 + t57a);
    c[ 7 ]' <- CLIP (t7 + t56);
    c[ 8 ]' <- CLIP (t8 + t55a);
    c[ 9 ]' <- CLIP (t9 + t54);
    c[ 10 ]' <- CLIP (t10 + t53a);
    c[ 11 ]' <- CLIP (t11 + t52);
    c[ 12 ]' <- CLIP (t12 + t51a);
    c[ 13 ]' <- CLIP (t13 + t50);
    c[ 14 ]' <- CLIP (t14 + t49a);
    c[ 15 ]' <- CLIP (t15 + t48);
    c[ 16 ]' <- CLIP (t16 + t47);
    c[ 17 ]' <- CLIP (t17 + t46a);
    c[ 18 ]' <- CLIP (t18 + t45);
    c[ 19 ]' <- CLIP (t19 + t44a);
    c[ 20 ]' <- CLIP (t20 + t43);
    c[ 21 ]' <- CLIP (t21 + t42a);
    c[ 22 ]' <- CLIP (t22 + t41);
    c[ 23 ]' <- CLIP (t23 + t40a);
    c[ 24 ]' <- CLIP (t24 + t39);
    c[ 25 ]' <- CLIP (t25 + t38a);
    c[ 26 ]' <- CLIP (t26 + t37);
    c[ 27 ]' <- CLIP (t27 + t36a);
    c[ 28 ]' <- CLIP (t28 + t35);
    c[ 29 ]' <- CLIP (t29 + t34a);
    c[ 30 ]' <- CLIP (t30 + t33);
    c[ 31 ]' <- CLIP (t31 + t32a);
    c[ 32 ]' <- CLIP (t31 - t32a);
    c[ 33 ]' <- CLIP (t30 - t33);
    c[ 34 ]' <- CLIP (t29 - t34a);
    c[ 35 ]' <- CLIP (t28 - t35);
    c[ 36 ]' <- CLIP (t27 - t36a);
    c[ 37 ]' <- CLIP (t26 - t37);
    c[ 38 ]' <- CLIP (t25 - t38a);
    c[ 39 ]' <- CLIP (t24 - t39);
    c[ 40 ]' <- CLIP (t23 - t40a);
    c[ 41 ]' <- CLIP (t22 - t41);
    c[ 42 ]' <- CLIP (t21 - t42a);
    c[ 43 ]' <- CLIP (t20 - t43);
    c[ 44 ]' <- CLIP (t19 - t44a);
    c[ 45 ]' <- CLIP (t18 - t45);
    c[ 46 ]' <- CLIP (t17 - t46a);
    c[ 47 ]' <- CLIP (t16 - t47);
    c[ 48 ]' <- CLIP (t15 - t48);
    c[ 49 ]' <- CLIP (t14 - t49a);
    c[ 50 ]' <- CLIP (t13 - t50);
    c[ 51 ]' <- CLIP (t12 - t51a);
    c[ 52 ]' <- CLIP (t11 - t52);
    c[ 53 ]' <- CLIP (t10 - t53a);
    c[ 54 ]' <- CLIP (t9 - t54);
    c[ 55 ]' <- CLIP (t8 - t55a);
    c[ 56 ]' <- CLIP (t7 - t56);
    c[ 57 ]' <- CLIP (t6 - t57a);
    c[ 58 ]' <- CLIP (t5 - t58);
    c[ 59 ]' <- CLIP (t4 - t59a);
    c[ 60 ]' <- CLIP (t3 - t60);
    c[ 61 ]' <- CLIP (t2 - t61a);
    c[ 62 ]' <- CLIP (t1 - t62);
    c[ 63 ]' <- CLIP (t0 - t63a) ].
Definition inv_dct64 : list block :=
  call2 (inv_dct32_internal true) ++ [body dct64_body].

(** itx_1d.c:92-96, 145-149, 240-244, 430-434: the transforms of 4 to 32
    points pass [tx64 = 0]. *)
Definition inv_dct4 : list block := inv_dct4_internal false.
Definition inv_dct8 : list block := inv_dct8_internal false.
Definition inv_dct16 : list block := inv_dct16_internal false.
Definition inv_dct32 : list block := inv_dct32_internal false.

(** itx_1d.c:784-802 inv_adst4_1d_internal_c. *)
Definition adst4_body : list stmt :=
  [ in0 <- c[ 0 ];
    in1 <- c[ 1 ];
    in2 <- c[ 2 ];
    in3 <- c[ 3 ];
    c[ 0 ]' <- (( 1321 * in0 + (3803 - 4096) * in2 + (2482 - 4096) * in3 + (3344 - 4096) * in1 + 2048) >> 12) + in2 + in3 + in1;
    c[ 1 ]' <- (((2482 - 4096) * in0 - 1321 * in2 - (3803 - 4096) * in3 + (3344 - 4096) * in1 + 2048) >> 12) + in0 - in3 + in1;
    c[ 2 ]' <- (209 * (in0 - in2 + in3) + 128) >> 8;
    c[ 3 ]' <- (((3803 - 4096) * in0 + (2482 - 4096) * in2 - 1321 * in3 - (3344 - 4096) * in1 + 2048) >> 12) + in0 + in2 - in1 ].

(** itx_1d.c:805-851 inv_adst8_1d_internal_c. *)
Definition adst8_body : list stmt :=
  [ in0 <- c[ 0 ];
    in1 <- c[ 1 ];
    in2 <- c[ 2 ];
    in3 <- c[ 3 ];
    in4 <- c[ 4 ];
    in5 <- c[ 5 ];
    in6 <- c[ 6 ];
    in7 <- c[ 7 ];
    t0a <- (((4076 - 4096) * in7 + 401 * in0 + 2048) >> 12) + in7;
    t1a <- (( 401 * in7 - (4076 - 4096) * in0 + 2048) >> 12) - in0;
    t2a <- (((3612 - 4096) * in5 + 1931 * in2 + 2048) >> 12) + in5;
    t3a <- (( 1931 * in5 - (3612 - 4096) * in2 + 2048) >> 12) - in2;
    t4a <- ( 1299 * in3 + 1583 * in4 + 1024) >> 11;
    t5a <- ( 1583 * in3 - 1299 * in4 + 1024) >> 11;
    t6a <- (( 1189 * in1 + (3920 - 4096) * in6 + 2048) >> 12) + in6;
    t7a <- (((3920 - 4096) * in1 - 1189 * in6 + 2048) >> 12) + in1;
    t0 <- CLIP (t0a + t4a);
    t1 <- CLIP (t1a + t5a);
    t2 <- CLIP (t2a + t6a);
    t3 <- CLIP (t3a + t7a);
    t4 <- CLIP (t0a - t4a);
    t5 <- CLIP (t1a - t5a);
    t6 <- CLIP (t2a - t6a);
    t7 <- CLIP (t3a - t7a);
    t4a <- (((3784 - 4096) * t4 + 1567 * t5 + 2048) >> 12) + t4;
    t5a <- (( 1567 * t4 - (3784 - 4096) * t5 + 2048) >> 12) - t5;
    t6a <- (((3784 - 4096) * t7 - 1567 * t6 + 2048) >> 12) + t7;
    t7a <- (( 1567 * t7 + (3784 - 4096) * t6 + 2048) >> 12) + t6;
    c[ 0 ]' <- CLIP (t0 + t2 );
    c[ 7 ]' <- -CLIP (t1 + t3 );
    t2 <- CLIP (t0 - t2 );
    t3 <- CLIP (t1 - t3 );
    c[ 1 ]' <- -CLIP (t4a + t6a);
    c[ 6 ]' <- CLIP (t5a + t7a);
    t6 <- CLIP (t4a - t6a);
    t7 <- CLIP (t5a - t7a);
    c[ 3 ]' <- -(((t2 + t3) * 181 + 128) >> 8);
    c[ 4 ]' <- ((t2 - t3) * 181 + 128) >> 8;
    c[ 2 ]' <- ((t6 + t7) * 181 + 128) >> 8;
    c[ 5 ]' <- -(((t6 - t7) * 181 + 128) >> 8) ].

(** itx_1d.c:854-962 inv_adst16_1d_internal_c. *)
Definition adst16_body : list stmt :=
  [ in0 <- c[ 0 ];
    in1 <- c[ 1 ];
    in2 <- c[ 2 ];
    in3 <- c[ 3 ];
    in4 <- c[ 4 ];
    in5 <- c[ 5 ];
    in6 <- c[ 6 ];
    in7 <- c[ 7 ];
    in8 <- c[ 8 ];
    in9 <- c[ 9 ];
    in10 <- c[ 10 ];
    in11 <- c[ 11 ];
    in12 <- c[ 12 ];
    in13 <- c[ 13 ];
    in14 <- c[ 14 ];
    in15 <- c[ 15 ];
    t0 <- ((in15 * (4091 - 4096) + in0 * 201 + 2048) >> 12) + in15;
    t1 <- ((in15 * 201 - in0 * (4091 - 4096) + 2048) >> 12) - in0;
    t2 <- ((in13 * (3973 - 4096) + in2 * 995 + 2048) >> 12) + in13;
    t3 <- ((in13 * 995 - in2 * (3973 - 4096) + 2048) >> 12) - in2;
    t4 <- ((in11 * (3703 - 4096) + in4 * 1751 + 2048) >> 12) + in11;
    t5 <- ((in11 * 1751 - in4 * (3703 - 4096) + 2048) >> 12) - in4;
    t6 <- (in9 * 1645 + in6 * 1220 + 1024) >> 11;
    t7 <- (in9 * 1220 - in6 * 1645 + 1024) >> 11;
    t8 <- ((in7 * 2751 + in8 * (3035 - 4096) + 2048) >> 12) + in8;
    t9 <- ((in7 * (3035 - 4096) - in8 * 2751 + 2048) >> 12) + in7;
    t10 <- ((in5 * 2106 + in10 * (3513 - 4096) + 2048) >> 12) + in10;
    t11 <- ((in5 * (3513 - 4096) - in10 * 2106 + 2048) >> 12) + in5;
    t12 <- ((in3 * 1380 + in12 * (3857 - 4096) + 2048) >> 12) + in12;
    t13 <- ((in3 * (3857 - 4096) - in12 * 1380 + 2048) >> 12) + in3;
    t14 <- ((in1 * 601 + in14 * (4052 - 4096) + 2048) >> 12) + in14;
    t15 <- ((in1 * (4052 - 4096) - in14 * 601 + 2048) >> 12) + in1;
    t0a <- CLIP (t0 + t8 );
    t1a <- CLIP (t1 + t9 );
    t2a <- CLIP (t2 + t10);
    t3a <- CLIP (t3 + t11);
    t4a <- CLIP (t4 + t12);
    t5a <- CLIP (t5 + t13);
    t6a <- CLIP (t6 + t14);
    t7a <- CLIP (t7 + t15);
    t8a <- CLIP (t0 - t8 );
    t9a <- CLIP (t1 - t9 );
    t10a <- CLIP (t2 - t10);
    t11a <- CLIP (t3 - t11);
    t12a <- CLIP (t4 - t12);
    t13a <- CLIP (t5 - t13);
    t14a <- CLIP (t6 - t14);
    t15a <- CLIP (t7 - t15);
    t8 <- ((t8a * (4017 - 4096) + t9a * 799 + 2048) >> 12) + t8a;
    t9 <- ((t8a * 799 - t9a * (4017 - 4096) + 2048) >> 12) - t9a;
    t10 <- ((t10a * 2276 + t11a * (3406 - 4096) + 2048) >> 12) + t11a;
    t11 <- ((t10a * (3406 - 4096) - t11a * 2276 + 2048) >> 12) + t10a;
    t12 <- ((t13a * (4017 - 4096) - t12a * 799 + 2048) >> 12) + t13a;
    t13 <- ((t13a * 799 + t12a * (4017 - 4096) + 2048) >> 12) + t12a;
    t14 <- ((t15a * 2276 - t14a * (3406 - 4096) + 2048) >> 12) - t14a;
    t15 <- ((t15a * (3406 - 4096) + t14a * 2276 + 2048) >> 12) + t15a;
    t0 <- CLIP (t0a + t4a);
    t1 <- CLIP (t1a + t5a);
    t2 <- CLIP (t2a + t6a);
    t3 <- CLIP (t3a + t7a);
    t4 <- CLIP (t0a - t4a);
    t5 <- CLIP (t1a - t5a);
    t6 <- CLIP (t2a - t6a);
    t7 <- CLIP (t3a - t7a);
    t8a <- CLIP (t8 + t12);
    t9a <- CLIP (t9 + t13);
    t10a <- CLIP (t10 + t14);
    t11a <- CLIP (t11 + t15);
    t12a <- CLIP (t8 - t12);
    t13a <- CLIP (t9 - t13);
    t14a <- CLIP (t10 - t14);
    t15a <- CLIP (t11 - t15);
    t4a <- ((t4 * (3784 - 4096) + t5 * 1567 + 2048) >> 12) + t4;
    t5a <- ((t4 * 1567 - t5 * (3784 - 4096) + 2048) >> 12) - t5;
    t6a <- ((t7 * (3784 - 4096) - t6 * 1567 + 2048) >> 12) + t7;
    t7a <- ((t7 * 1567 + t6 * (3784 - 4096) + 2048) >> 12) + t6;
    t12 <- ((t12a * (3784 - 4096) + t13a * 1567 + 2048) >> 12) + t12a;
    t13 <- ((t12a * 1567 - t13a * (3784 - 4096) + 2048) >> 12) - t13a;
    t14 <- ((t15a * (3784 - 4096) - t14a * 1567 + 2048) >> 12) + t15a;
    t15 <- ((t15a * 1567 + t14a * (3784 - 4096) + 2048) >> 12) + t14a;
    c[ 0 ]' <- CLIP (t0 + t2 );
    c[ 15 ]' <- -CLIP (t1 + t3 );
    t2a <- CLIP (t0 - t2 );
    t3a <- CLIP (t1 - t3 );
    c[ 3 ]' <- -CLIP (t4a + t6a );
    c[ 12 ]' <- CLIP (t5a + t7a );
    t6 <- CLIP (t4a - t6a );
    t7 <- CLIP (t5a - t7a );
    c[ 1 ]' <- -CLIP (t8a + t10a);
    c[ 14 ]' <- CLIP (t9a + t11a);
    t10 <- CLIP (t8a - t10a);
    t11 <- CLIP (t9a - t11a);
    c[ 2 ]' <- CLIP (t12 + t14 );
    c[ 13 ]' <- -CLIP (t13 + t15 );
    t14a <- CLIP (t12 - t14 );
    t15a <- CLIP (t13 - t15 );
    c[ 7 ]' <- -(((t2a + t3a) * 181 + 128) >> 8);
    c[ 8 ]' <- ((t2a - t3a) * 181 + 128) >> 8;
    c[ 4 ]' <- ((t6 + t7) * 181 + 128) >> 8;
    c[ 11 ]' <- -(((t6 - t7) * 181 + 128) >> 8);
    c[ 6 ]' <- ((t10 + t11) * 181 + 128) >> 8;
    c[ 9 ]' <- -(((t10 - t11) * 181 + 128) >> 8);
    c[ 5 ]' <- -(((t14a + t15a) * 181 + 128) >> 8);
    c[ 10 ]' <- ((t14a - t15a) * 181 + 128) >> 8 ].

(** itx_1d.c:964-981 inv_adst_1d(sz): the plain transform writes its output
    over its input, the flipped one starts at the last element and goes
    backwards. *)
Definition inv_adst (b : list stmt) : list block := [body b].
Definition inv_flipadst (sz : Z) (b : list stmt) : list block :=
  [{| b_rbase := 0; b_rmul := 1; b_wbase := sz - 1; b_wmul := -1; b_body := b |}].

(** itx_1d.c:1066-1081 dav1d_inv_wht4_1d_c. *)
Definition wht4_body : list stmt :=
  [ in0 <- c[ 0 ];
    in1 <- c[ 1 ];
    in2 <- c[ 2 ];
    in3 <- c[ 3 ];
    t0 <- in0 + in1;
    t2 <- in2 - in3;
    t4 <- (t0 - t2) >> 1;
    t3 <- t4 - in3;
    t1 <- t4 - in1;
    c[ 0 ]' <- t0 - t3;
    c[ 1 ]' <- t3;
    c[ 2 ]' <- t1;
    c[ 3 ]' <- t2 + t1 ].
Definition inv_wht4 : list block := [body wht4_body].

(** itx_1d.c:983-1017 the identity transforms. *)
Definition each (n : nat) (f : Z -> list stmt) : list block :=
  [body (flat_map f (map Z.of_nat (seq 0 n)))].
Definition inv_identity4 : list block :=
  each 4 (fun i => [ in_ <- c[ i ]; c[ i ]' <- in_ + ((in_ * 1697 + 2048) >> 12) ]).
Definition inv_identity8 : list block :=
  each 8 (fun i => [ c[ i ]' <- c[ i ] * 2 ]).
Definition inv_identity16 : list block :=
  each 16 (fun i => [ in_ <- c[ i ]; c[ i ]' <- 2 * in_ + ((in_ * 1697 + 1024) >> 11) ]).
Definition inv_identity32 : list block :=
  each 32 (fun i => [ c[ i ]' <- c[ i ] * 4 ]).
