(* Generated by tools/gen_tables.py from /repo/src/tables/spectral_data_tables.rs. Do not edit. *)
From Coq Require Import ZArith List.
Import ListNotations.
Local Open Scope Z_scope.

(* /repo/src/tables/spectral_data_tables.rs:4 *)
Definition AC_SPEC_LOOKUP : list Z := [
  1; 39; 7; 25; 22; 22; 28; 22; 22; 22; 22; 28; 28; 28; 34; 31; 31; 40; 43; 46; 49; 52; 14; 17; 36; 36; 36; 38; 0; 57; 38; 22;
  0; 8; 9; 11; 47; 14; 14; 17; 36; 36; 36; 38; 59; 59; 38; 22; 22; 26; 46; 29; 30; 32; 33; 35; 36; 36; 36; 38; 0; 59; 23; 22;
  46; 46; 45; 47; 48; 50; 50; 18; 54; 54; 54; 38; 59; 59; 59; 22; 0; 62; 63; 3; 33; 2; 2; 61; 20; 20; 20; 21; 59; 59; 39; 28;
  28; 63; 63; 3; 33; 2; 2; 61; 38; 38; 38; 21; 59; 59; 39; 28; 28; 6; 6; 6; 2; 18; 61; 20; 21; 21; 21; 59; 39; 39; 7; 34;
  34; 34; 34; 34; 34; 34; 34; 34; 34; 34; 34; 34; 34; 34; 34; 34; 34; 51; 51; 51; 53; 54; 20; 38; 38; 57; 39; 39; 39; 7; 24; 34;
  4; 4; 4; 4; 4; 4; 4; 4; 4; 4; 4; 4; 4; 4; 4; 4; 4; 4; 4; 4; 4; 56; 38; 57; 57; 59; 7; 7; 7; 42; 42; 34;
  0; 0; 0; 0; 0; 0; 0; 0; 0; 0; 0; 0; 0; 0; 0; 0; 0; 5; 4; 4; 5; 21; 21; 59; 7; 7; 7; 7; 25; 25; 25; 34;
  4; 4; 4; 4; 5; 23; 23; 39; 7; 7; 7; 42; 25; 25; 22; 31; 31; 39; 39; 39; 39; 7; 7; 42; 0; 25; 22; 22; 22; 28; 34; 31;
  55; 55; 55; 55; 55; 55; 55; 55; 55; 55; 55; 55; 55; 55; 55; 55; 55; 55; 40; 8; 9; 49; 49; 52; 17; 17; 17; 4; 0; 20; 17; 60;
  40; 40; 8; 43; 27; 49; 49; 14; 17; 17; 17; 36; 42; 42; 17; 57; 57; 40; 8; 26; 27; 49; 12; 14; 17; 17; 17; 36; 0; 38; 36; 1;
  8; 8; 43; 9; 11; 49; 12; 14; 14; 33; 50; 50; 50; 61; 36; 39; 8; 8; 43; 46; 49; 52; 30; 14; 14; 33; 50; 50; 50; 50; 18; 25;
  8; 8; 43; 46; 49; 52; 30; 14; 14; 18; 5; 5; 5; 61; 18; 23; 43; 43; 43; 9; 49; 52; 3; 14; 14; 50; 50; 50; 50; 61; 17; 24;
  43; 43; 43; 43; 43; 43; 43; 43; 43; 43; 43; 43; 43; 43; 43; 43; 43; 43; 43; 9; 11; 52; 52; 14; 14; 17; 61; 61; 61; 54; 17; 39;
  45; 45; 45; 45; 45; 45; 45; 45; 45; 45; 45; 45; 45; 45; 45; 45; 45; 45; 44; 27; 29; 52; 48; 52; 52; 17; 17; 17; 17; 2; 17; 7;
  27; 27; 27; 27; 27; 27; 27; 27; 27; 27; 27; 27; 27; 27; 27; 27; 27; 27; 9; 27; 27; 12; 52; 14; 14; 58; 41; 41; 41; 6; 17; 37;
  9; 9; 9; 27; 11; 49; 12; 52; 14; 14; 14; 50; 0; 53; 17; 28; 52; 52; 49; 52; 12; 52; 30; 14; 14; 17; 2; 2; 2; 38; 38; 34;
  31; 34; 34; 31; 31; 31; 31; 19; 19; 19; 19; 19; 19; 19; 31; 19; 44; 44; 62; 30; 32; 58; 35; 36; 36; 38; 0; 59; 7; 7; 39; 34;
  34; 45; 47; 48; 33; 35; 35; 36; 38; 38; 38; 59; 7; 7; 39; 34; 34; 62; 30; 15; 50; 53; 53; 54; 21; 21; 21; 59; 7; 7; 7; 34;
  30; 30; 48; 33; 58; 18; 18; 56; 23; 23; 23; 59; 7; 7; 24; 34; 34; 6; 6; 58; 53; 54; 54; 21; 59; 59; 59; 39; 7; 7; 42; 34;
  6; 6; 33; 58; 53; 54; 61; 21; 59; 59; 59; 39; 7; 7; 42; 34; 34; 51; 51; 53; 54; 56; 56; 57; 39; 39; 39; 7; 42; 42; 25; 31;
  31; 31; 31; 31; 31; 31; 31; 31; 31; 31; 31; 31; 31; 31; 31; 31; 31; 4; 4; 4; 5; 23; 23; 39; 7; 7; 7; 42; 25; 25; 22; 31;
  31; 31; 31; 31; 31; 31; 31; 31; 31; 31; 31; 31; 31; 31; 31; 31; 31; 5; 5; 5; 5; 57; 57; 39; 24; 24; 24; 42; 22; 22; 28; 31;
  31; 31; 31; 31; 31; 31; 31; 31; 31; 31; 31; 31; 31; 31; 31; 31; 31; 41; 41; 41; 41; 39; 39; 7; 42; 42; 42; 25; 28; 28; 28; 31;
  31; 41; 41; 41; 41; 39; 39; 24; 25; 25; 25; 22; 28; 28; 34; 31; 31; 10; 10; 10; 10; 10; 10; 28; 34; 34; 34; 34; 34; 34; 31; 19;
  8; 8; 8; 8; 8; 8; 8; 8; 8; 8; 8; 8; 8; 8; 8; 8; 8; 8; 9; 11; 47; 32; 50; 18; 18; 20; 21; 21; 21; 39; 59; 34;
  26; 26; 27; 29; 30; 33; 50; 18; 18; 20; 57; 57; 57; 59; 59; 34; 27; 27; 11; 12; 48; 50; 58; 61; 61; 56; 57; 57; 57; 59; 39; 34;
  45; 45; 12; 30; 32; 2; 2; 61; 38; 38; 38; 57; 0; 59; 39; 34; 63; 63; 3; 32; 58; 18; 18; 20; 21; 21; 21; 59; 39; 39; 7; 31;
  31; 3; 3; 33; 58; 18; 18; 20; 21; 21; 21; 59; 7; 7; 7; 31; 6; 6; 51; 51; 53; 54; 54; 38; 57; 57; 57; 39; 7; 7; 42; 31;
  31; 31; 31; 31; 31; 31; 31; 31; 31; 31; 31; 31; 31; 31; 31; 31; 31; 51; 53; 53; 54; 56; 56; 57; 59; 59; 59; 7; 24; 24; 25; 31;
  31; 31; 31; 31; 31; 31; 31; 31; 31; 31; 31; 31; 31; 31; 31; 31; 31; 4; 4; 4; 54; 21; 21; 57; 39; 39; 39; 7; 42; 42; 22; 31;
  31; 31; 31; 31; 31; 31; 31; 31; 31; 31; 31; 31; 31; 31; 31; 31; 31; 5; 5; 5; 5; 23; 23; 59; 7; 7; 7; 42; 22; 22; 28; 31;
  31; 4; 4; 4; 5; 23; 23; 39; 24; 24; 24; 25; 28; 28; 34; 31; 31; 10; 10; 10; 10; 10; 10; 28; 34; 34; 34; 31; 31; 31; 31; 19;
  13; 13; 13; 13; 13; 13; 13; 13; 60; 60; 60; 60; 60; 60; 60; 16; 16; 0; 0; 0; 0; 0; 0; 0; 0; 0; 0; 0; 0; 0; 13; 60;
  0; 0; 0; 0; 0; 0; 0; 0; 0; 0; 0; 0; 0; 0; 13; 60; 60; 0; 0; 0; 0; 0; 0; 0; 0; 0; 0; 0; 13; 13; 13; 60;
  60; 0; 0; 0; 0; 0; 0; 0; 0; 0; 0; 0; 13; 13; 13; 60; 60; 0; 0; 0; 0; 0; 0; 0; 0; 0; 13; 13; 13; 13; 13; 60;
  60; 0; 0; 0; 0; 0; 0; 0; 0; 0; 13; 13; 13; 13; 13; 60; 60; 0; 0; 0; 0; 0; 0; 0; 0; 0; 13; 13; 13; 13; 13; 60;
  60; 60; 60; 60; 60; 60; 60; 60; 60; 60; 60; 60; 60; 60; 60; 60; 60; 0; 0; 0; 0; 0; 0; 0; 0; 0; 13; 13; 13; 13; 13; 60;
  60; 60; 60; 60; 60; 60; 60; 60; 60; 60; 60; 60; 60; 60; 60; 60; 60; 0; 0; 0; 0; 0; 0; 0; 13; 13; 13; 13; 13; 13; 13; 60;
  60; 60; 60; 60; 60; 60; 60; 60; 60; 60; 60; 60; 60; 60; 60; 60; 60; 0; 0; 0; 0; 0; 0; 13; 13; 13; 13; 13; 13; 13; 13; 60;
  13; 13; 13; 13; 13; 13; 13; 13; 13; 13; 13; 13; 13; 13; 13; 60; 60; 60; 60; 60; 60; 60; 60; 60; 60; 60; 60; 60; 60; 60; 60; 16;
  0; 0; 0; 0; 0; 0; 0; 0; 0; 0; 0; 0; 0; 0; 0; 0; 0; 0; 0; 0; 0; 0; 0; 0; 0; 0; 0; 13; 13; 13; 0; 13;
  0; 0; 0; 0; 0; 0; 0; 0; 0; 0; 0; 0; 13; 13; 0; 60; 0; 0; 0; 0; 0; 0; 0; 0; 0; 0; 0; 0; 0; 0; 13; 60;
  60; 0; 0; 0; 0; 0; 0; 0; 0; 0; 0; 0; 0; 0; 13; 60; 60; 0; 0; 0; 0; 0; 0; 0; 0; 0; 0; 0; 13; 13; 13; 60;
  60; 0; 0; 0; 0; 0; 0; 0; 0; 0; 0; 0; 0; 13; 13; 13; 13; 0; 0; 0; 0; 0; 0; 0; 0; 0; 13; 13; 13; 0; 13; 60;
  60; 60; 60; 60; 60; 60; 60; 60; 60; 60; 60; 60; 60; 60; 60; 60; 60; 0; 0; 0; 0; 0; 0; 0; 0; 0; 13; 13; 13; 0; 0; 13;
  13; 13; 13; 13; 13; 13; 13; 13; 13; 13; 13; 13; 13; 13; 13; 13; 13; 0; 0; 0; 0; 0; 0; 0; 0; 0; 0; 0; 0; 0; 0; 13;
  0; 0; 0; 0; 0; 0; 0; 0; 0; 0; 0; 0; 0; 0; 0; 0; 0; 0; 0; 0; 0; 0; 0; 0; 0; 0; 0; 0; 0; 0; 60; 0;
  0; 16; 0; 0; 0; 0; 0; 0; 0; 0; 0; 0; 0; 0; 0; 0; 0; 0; 0; 0; 0; 0; 0; 0; 0; 0; 0; 0; 0; 0; 0; 0;
  16; 16; 16; 16; 16; 16; 16; 16; 16; 16; 16; 16; 16; 16; 16; 37; 0; 0; 0; 0; 0; 0; 0; 0; 0; 13; 13; 13; 13; 13; 13; 60;
  0; 0; 0; 0; 0; 0; 0; 0; 13; 13; 13; 13; 13; 13; 13; 60; 0; 0; 0; 0; 0; 0; 0; 13; 13; 13; 13; 13; 13; 13; 13; 60;
  0; 0; 0; 0; 0; 0; 0; 13; 13; 13; 13; 13; 13; 13; 13; 60; 0; 0; 0; 0; 0; 0; 0; 13; 13; 13; 13; 13; 13; 13; 60; 16;
  0; 0; 0; 0; 0; 0; 0; 13; 13; 13; 13; 13; 13; 13; 60; 16; 0; 0; 0; 0; 0; 13; 13; 13; 13; 13; 13; 13; 13; 13; 60; 16;
  0; 0; 0; 0; 0; 0; 0; 0; 0; 0; 0; 0; 0; 0; 0; 0; 0; 0; 0; 0; 13; 13; 13; 13; 13; 13; 13; 13; 13; 13; 60; 16;
  13; 13; 13; 13; 13; 13; 13; 13; 13; 13; 13; 13; 13; 13; 13; 13; 13; 13; 13; 13; 13; 13; 13; 13; 13; 13; 13; 13; 13; 60; 60; 16;
  13; 13; 13; 13; 13; 13; 13; 13; 13; 13; 13; 13; 13; 13; 13; 13; 13; 13; 13; 13; 13; 13; 13; 13; 13; 13; 13; 13; 13; 60; 60; 16;
  13; 13; 13; 13; 13; 13; 13; 13; 60; 60; 60; 60; 60; 60; 60; 16; 60; 60; 60; 60; 60; 60; 60; 60; 60; 60; 16; 16; 16; 16; 16; 37;
  0; 0; 0; 0; 0; 0; 0; 0; 0; 0; 0; 0; 0; 0; 0; 0; 0; 0; 0; 0; 0; 0; 0; 0; 0; 0; 0; 0; 13; 13; 13; 16;
  0; 0; 0; 0; 0; 0; 0; 0; 0; 0; 0; 13; 13; 13; 13; 16; 0; 0; 0; 0; 0; 0; 0; 0; 0; 0; 13; 13; 13; 13; 13; 16;
  0; 0; 0; 0; 0; 0; 0; 0; 0; 0; 13; 13; 13; 13; 13; 16; 0; 0; 0; 0; 0; 0; 0; 0; 0; 0; 13; 13; 13; 13; 13; 16;
  0; 0; 0; 0; 0; 0; 0; 0; 0; 0; 13; 13; 13; 13; 13; 16; 0; 0; 0; 0; 0; 0; 0; 0; 13; 13; 13; 13; 13; 13; 60; 16;
  0; 0; 0; 0; 0; 0; 0; 0; 0; 0; 0; 0; 0; 0; 0; 0; 0; 0; 0; 0; 0; 0; 0; 13; 13; 13; 13; 13; 13; 13; 60; 16;
  0; 0; 0; 0; 0; 0; 0; 0; 0; 0; 0; 0; 0; 0; 0; 0; 0; 0; 0; 0; 0; 13; 0; 13; 13; 13; 13; 13; 13; 13; 60; 16;
  16; 16; 16; 16; 16; 16; 16; 16; 16; 16; 16; 16; 16; 16; 16; 16; 16; 0; 0; 0; 13; 13; 13; 13; 13; 13; 13; 13; 60; 60; 60; 16;
  13; 13; 13; 13; 13; 13; 13; 13; 60; 60; 60; 60; 60; 60; 16; 16; 16; 16; 16; 16; 16; 16; 16; 16; 16; 16; 16; 16; 16; 16; 16; 37;
  0; 0; 0; 0; 0; 0; 0; 0; 0; 0; 0; 0; 0; 13; 13; 13; 13; 0; 0; 0; 0; 0; 0; 0; 0; 0; 0; 0; 0; 0; 0; 0;
  0; 0; 0; 0; 0; 0; 0; 0; 0; 0; 0; 0; 0; 0; 0; 0; 0; 0; 0; 0; 0; 0; 0; 0; 0; 0; 0; 0; 0; 0; 0; 0;
  0; 0; 0; 0; 0; 0; 0; 0; 0; 0; 0; 0; 0; 0; 0; 0; 0; 0; 0; 0; 0; 0; 0; 0; 0; 0; 0; 0; 0; 0; 0; 0;
  0; 0; 0; 0; 0; 0; 0; 0; 0; 0; 0; 0; 0; 0; 0; 0; 0; 0; 0; 0; 0; 0; 0; 0; 0; 0; 0; 0; 0; 0; 0; 13;
  13; 13; 13; 13; 13; 13; 13; 13; 13; 13; 13; 13; 13; 13; 13; 13; 13; 0; 0; 0; 0; 0; 0; 0; 0; 0; 0; 0; 0; 0; 0; 13;
  0; 0; 0; 0; 0; 0; 0; 0; 0; 0; 0; 0; 0; 0; 0; 0; 0; 0; 0; 0; 0; 0; 0; 0; 0; 0; 0; 0; 0; 0; 0; 13;
  13; 13; 13; 13; 13; 13; 13; 13; 13; 13; 13; 13; 13; 13; 13; 13; 13; 0; 0; 0; 0; 0; 0; 0; 0; 0; 0; 0; 0; 0; 0; 13;
  0; 0; 0; 0; 0; 0; 0; 0; 0; 0; 0; 0; 0; 0; 0; 13; 13; 0; 0; 0; 0; 0; 0; 0; 0; 0; 0; 0; 0; 0; 0; 13;
  13; 13; 13; 13; 13; 13; 13; 13; 13; 13; 13; 13; 13; 13; 13; 13; 13; 0; 0; 0; 0; 0; 0; 0; 0; 0; 0; 0; 0; 0; 0; 60;
  0; 0; 0; 0; 0; 0; 0; 0; 0; 0; 0; 0; 0; 0; 0; 13; 13; 0; 0; 0; 0; 0; 0; 0; 0; 0; 0; 0; 13; 13; 0; 0;
  0; 0; 0; 0; 0; 0; 0; 0; 13; 13; 13; 0; 13; 13; 0; 0; 0; 0; 0; 0; 0; 0; 0; 0; 13; 13; 13; 13; 13; 0; 13; 13;
  13; 0; 0; 0; 0; 0; 0; 0; 0; 60; 0; 0; 0; 0; 13; 60; 0; 0; 0; 0; 0; 0; 0; 0; 0; 0; 13; 13; 13; 0; 13; 13;
  13; 13; 13; 13; 13; 13; 13; 13; 13; 13; 13; 13; 13; 13; 13; 13; 13; 0; 19; 0; 0; 0; 0; 0; 0; 0; 0; 0; 0; 0; 13; 13;
  13; 13; 13; 13; 13; 13; 13; 13; 13; 13; 13; 13; 13; 13; 13; 13; 13; 13; 13; 0; 0; 0; 0; 0; 0; 0; 0; 19; 13; 13; 13; 0;
  0; 0; 0; 0; 0; 0; 0; 0; 0; 0; 0; 0; 0; 0; 0; 0; 0; 0; 0; 0; 0; 0; 0; 0; 0; 0; 0; 0; 0; 0; 0; 19;
  0; 0; 0; 0; 0; 0; 0; 0; 0; 0; 0; 0; 0; 0; 0; 13; 13; 13; 13; 0; 0; 0; 0; 0; 0; 0; 0; 0; 0; 0; 0; 0;
  60; 13; 13; 13; 13; 13; 13; 60; 60; 60; 60; 60; 60; 60; 60; 16; 0; 0; 0; 0; 0; 0; 0; 0; 0; 0; 0; 0; 0; 0; 0; 13;
  13; 0; 0; 0; 0; 0; 0; 0; 0; 0; 0; 0; 0; 0; 0; 13; 13; 0; 0; 0; 0; 0; 0; 0; 0; 0; 0; 0; 0; 0; 0; 13;
  13; 0; 0; 0; 0; 0; 0; 0; 0; 0; 0; 0; 0; 0; 0; 13; 13; 0; 0; 0; 0; 0; 0; 0; 0; 0; 0; 0; 0; 0; 0; 13;
  13; 0; 0; 0; 0; 0; 0; 0; 0; 0; 0; 0; 0; 0; 0; 13; 13; 0; 0; 0; 0; 0; 0; 0; 0; 0; 0; 0; 0; 0; 0; 13;
  13; 13; 13; 13; 13; 13; 13; 13; 13; 13; 13; 13; 13; 13; 13; 13; 13; 0; 0; 0; 0; 0; 0; 0; 0; 0; 0; 0; 0; 0; 0; 60;
  0; 0; 0; 0; 0; 0; 0; 0; 0; 0; 0; 0; 0; 0; 0; 0; 0; 0; 0; 0; 0; 0; 0; 0; 0; 0; 0; 0; 0; 0; 13; 60;
  0; 0; 0; 0; 0; 0; 0; 0; 0; 0; 0; 0; 0; 0; 0; 0; 0; 0; 0; 0; 0; 0; 0; 0; 0; 0; 0; 0; 0; 0; 13; 60;
  0; 0; 0; 0; 0; 0; 0; 0; 0; 0; 0; 0; 0; 0; 13; 60; 13; 13; 13; 13; 13; 13; 13; 13; 13; 13; 13; 13; 60; 60; 60; 16;
  16; 16; 16; 16; 16; 16; 16; 16; 16; 16; 16; 16; 16; 16; 16; 16; 16; 0; 0; 0; 0; 0; 0; 0; 0; 0; 0; 0; 0; 0; 0; 60;
  0; 0; 0; 0; 0; 0; 0; 0; 0; 0; 0; 0; 0; 0; 0; 60; 0; 0; 0; 0; 0; 0; 0; 0; 0; 0; 0; 0; 0; 0; 0; 60;
  0; 0; 0; 0; 0; 0; 0; 0; 0; 0; 0; 0; 0; 0; 0; 60; 0; 0; 0; 0; 0; 0; 0; 0; 0; 0; 0; 0; 0; 0; 13; 60;
  0; 0; 0; 0; 0; 0; 0; 0; 0; 0; 0; 0; 0; 0; 13; 60; 0; 0; 0; 0; 0; 0; 0; 0; 0; 0; 0; 0; 0; 0; 13; 60;
  0; 0; 0; 0; 0; 0; 0; 0; 0; 0; 0; 0; 0; 0; 0; 0; 0; 0; 0; 0; 0; 0; 0; 0; 0; 0; 0; 0; 0; 0; 13; 60;
  0; 0; 0; 0; 0; 0; 0; 0; 0; 0; 0; 0; 0; 0; 0; 0; 0; 0; 0; 0; 0; 0; 0; 0; 0; 0; 0; 0; 13; 13; 13; 60;
  0; 0; 0; 0; 0; 0; 0; 0; 0; 0; 0; 0; 0; 0; 0; 0; 0; 0; 0; 0; 0; 0; 0; 0; 0; 0; 13; 13; 13; 13; 13; 60;
  0; 0; 0; 0; 0; 0; 0; 13; 13; 13; 13; 13; 13; 13; 13; 60; 13; 13; 13; 13; 13; 60; 60; 60; 60; 60; 60; 60; 60; 60; 60; 60;
  0; 0; 0; 0; 0; 0; 0; 0; 0; 0; 0; 0; 0; 0; 0; 0; 0; 0; 0; 0; 0; 0; 0; 0; 0; 0; 0; 0; 0; 0; 0; 0;
  0; 0; 0; 0; 0; 0; 0; 0; 0; 0; 0; 0; 0; 0; 0; 0; 0; 0; 0; 0; 0; 0; 0; 0; 0; 0; 0; 0; 0; 0; 0; 0;
  0; 0; 0; 0; 0; 0; 0; 0; 0; 0; 0; 0; 0; 0; 0; 0; 0; 0; 0; 0; 0; 0; 0; 0; 0; 0; 0; 0; 0; 0; 0; 0;
  0; 0; 0; 0; 0; 0; 0; 0; 0; 0; 0; 0; 0; 0; 0; 0; 0; 0; 0; 0; 0; 0; 0; 0; 0; 0; 0; 0; 0; 0; 0; 0;
  0; 0; 0; 0; 0; 0; 0; 0; 0; 0; 0; 0; 0; 0; 0; 0; 0; 0; 0; 0; 0; 0; 0; 0; 0; 0; 0; 0; 0; 0; 0; 0;
  0; 0; 0; 0; 0; 0; 0; 0; 0; 0; 0; 0; 0; 0; 0; 0; 0; 0; 0; 0; 0; 0; 0; 0; 0; 0; 0; 0; 0; 0; 0; 0;
  0; 0; 0; 0; 0; 0; 0; 0; 0; 0; 0; 0; 0; 0; 0; 0; 0; 0; 0; 0; 0; 0; 0; 0; 0; 0; 0; 0; 0; 0; 0; 0;
  0; 0; 0; 0; 0; 0; 0; 0; 0; 0; 0; 0; 0; 0; 0; 0; 0; 0; 0; 0; 0; 0; 0; 0; 0; 0; 0; 0; 0; 0; 0; 0;
  0; 0; 0; 0; 0; 0; 0; 0; 0; 0; 0; 0; 0; 0; 0; 0; 0; 0; 0; 0; 0; 0; 0; 0; 0; 0; 0; 0; 0; 0; 0; 13;
  13; 0; 0; 0; 0; 0; 0; 0; 0; 0; 0; 0; 0; 0; 0; 0; 0; 0; 0; 0; 0; 0; 0; 0; 0; 0; 0; 0; 0; 0; 0; 0;
  0; 0; 0; 0; 0; 0; 0; 0; 0; 0; 0; 0; 0; 0; 0; 0; 0; 0; 0; 0; 0; 0; 0; 0; 0; 0; 0; 0; 0; 0; 0; 0;
  13; 13; 13; 13; 13; 0; 0; 0; 0; 0; 13; 13; 13; 13; 0; 0; 13; 13; 13; 13; 13; 0; 0; 0; 0; 0; 0; 0; 0; 0; 0; 0;
  0; 0; 0; 0; 0; 0; 0; 0; 0; 0; 0; 0; 0; 0; 0; 0; 0; 0; 0; 0; 0; 0; 0; 0; 0; 0; 0; 0; 0; 0; 13; 0;
  0; 0; 0; 0; 0; 0; 0; 0; 0; 0; 0; 0; 0; 0; 0; 0; 0; 0; 0; 0; 0; 0; 0; 0; 0; 0; 0; 0; 0; 0; 0; 0;
  13; 13; 13; 13; 13; 13; 13; 13; 13; 13; 13; 13; 13; 13; 13; 13; 13; 13; 13; 13; 13; 13; 13; 13; 13; 13; 13; 13; 13; 13; 13; 13;
  13; 13; 13; 13; 13; 0; 0; 0; 0; 0; 0; 0; 13; 13; 13; 0; 0; 0; 0; 0; 0; 0; 0; 0; 0; 0; 0; 0; 0; 0; 0; 0;
  13; 0; 0; 0; 0; 0; 0; 0; 0; 0; 0; 0; 0; 0; 13; 60; 60; 0; 0; 0; 0; 0; 0; 0; 0; 0; 0; 0; 0; 0; 0; 0;
  0; 0; 0; 0; 0; 0; 0; 0; 0; 0; 0; 0; 0; 0; 0; 0; 0; 0; 0; 0; 0; 0; 0; 0; 0; 0; 0; 0; 0; 0; 0; 0;
  0; 0; 0; 0; 0; 0; 0; 0; 0; 0; 0; 0; 0; 0; 0; 0; 0; 0; 0; 0; 0; 0; 0; 0; 0; 0; 0; 0; 0; 0; 0; 0;
  0; 0; 0; 0; 0; 0; 0; 0; 0; 0; 0; 0; 0; 0; 0; 0; 0; 0; 0; 0; 0; 0; 0; 0; 0; 0; 0; 0; 0; 0; 0; 0;
  0; 0; 0; 0; 0; 0; 0; 0; 0; 0; 0; 0; 0; 0; 0; 0; 0; 0; 0; 0; 0; 0; 0; 0; 0; 0; 0; 0; 0; 0; 0; 0;
  0; 0; 0; 0; 0; 0; 0; 0; 0; 0; 0; 0; 0; 0; 0; 0; 0; 0; 0; 0; 0; 0; 0; 0; 0; 0; 0; 0; 0; 0; 0; 0;
  0; 0; 0; 0; 0; 0; 0; 0; 0; 0; 0; 0; 0; 0; 0; 0; 0; 0; 0; 0; 0; 0; 0; 0; 0; 0; 0; 0; 0; 0; 0; 13;
  0; 0; 0; 0; 0; 0; 0; 0; 0; 0; 0; 0; 0; 0; 0; 13; 13; 0; 0; 0; 0; 0; 0; 0; 0; 0; 0; 0; 0; 0; 0; 13;
  0; 0; 0; 0; 0; 0; 0; 0; 0; 0; 0; 0; 0; 0; 0; 0; 0; 0; 0; 0; 0; 0; 0; 0; 0; 0; 0; 0; 0; 0; 0; 0;
  0; 0; 0; 0; 0; 0; 0; 0; 0; 0; 0; 0; 0; 0; 0; 0; 0; 0; 0; 0; 0; 0; 0; 0; 0; 0; 0; 0; 0; 0; 0; 0;
  0; 0; 0; 0; 0; 0; 0; 0; 0; 0; 0; 0; 0; 0; 0; 0; 0; 0; 0; 0; 0; 0; 0; 0; 0; 0; 0; 0; 0; 0; 0; 0;
  0; 0; 0; 0; 0; 0; 0; 0; 0; 0; 0; 0; 0; 0; 0; 0; 0; 0; 0; 0; 0; 0; 0; 0; 0; 0; 0; 0; 0; 0; 0; 0;
  0; 0; 0; 0; 0; 0; 0; 0; 0; 0; 0; 0; 0; 0; 0; 0; 0; 0; 0; 0; 0; 0; 0; 0; 0; 0; 0; 0; 0; 0; 0; 0;
  0; 0; 0; 0; 0; 0; 0; 0; 0; 0; 0; 0; 0; 0; 0; 0; 0; 0; 0; 0; 0; 0; 0; 0; 0; 0; 0; 0; 0; 0; 0; 0;
  0; 0; 0; 0; 0; 0; 0; 0; 0; 0; 0; 0; 0; 0; 0; 0; 0; 0; 0; 0; 0; 0; 0; 0; 0; 0; 0; 0; 0; 0; 0; 0;
  0; 0; 0; 0; 0; 0; 0; 0; 0; 0; 0; 0; 0; 0; 0; 0; 0; 0; 0; 0; 0; 0; 0; 0; 0; 0; 0; 0; 0; 0; 0; 0].

(* /repo/src/tables/spectral_data_tables.rs:224 *)
Definition AC_SPEC_CUMFREQ : list (list Z) := [
  [0; 1; 2; 177; 225; 226; 227; 336; 372; 543; 652; 699; 719; 768; 804; 824; 834];
  [0; 18; 44; 61; 71; 98; 135; 159; 175; 197; 229; 251; 265; 282; 308; 328; 341];
  [0; 71; 163; 212; 237; 318; 420; 481; 514; 556; 613; 652; 675; 697; 727; 749; 764];
  [0; 160; 290; 336; 354; 475; 598; 653; 677; 722; 777; 808; 823; 842; 866; 881; 890];
  [0; 71; 144; 177; 195; 266; 342; 385; 411; 445; 489; 519; 539; 559; 586; 607; 622];
  [0; 48; 108; 140; 159; 217; 285; 327; 354; 385; 427; 457; 478; 497; 524; 545; 561];
  [0; 138; 247; 290; 308; 419; 531; 584; 609; 655; 710; 742; 759; 780; 807; 825; 836];
  [0; 16; 40; 62; 79; 103; 139; 170; 195; 215; 245; 270; 290; 305; 327; 346; 362];
  [0; 579; 729; 741; 743; 897; 970; 980; 982; 996; 1007; 1010; 1011; 1014; 1017; 1018; 1019];
  [0; 398; 582; 607; 612; 788; 902; 925; 931; 956; 979; 987; 990; 996; 1002; 1005; 1007];
  [0; 13; 34; 52; 63; 83; 112; 134; 149; 163; 183; 199; 211; 221; 235; 247; 257];
  [0; 281; 464; 501; 510; 681; 820; 857; 867; 902; 938; 953; 959; 968; 978; 984; 987];
  [0; 198; 362; 408; 421; 575; 722; 773; 789; 832; 881; 905; 915; 928; 944; 954; 959];
  [0; 1; 2; 95; 139; 140; 141; 213; 251; 337; 407; 450; 475; 515; 551; 576; 592];
  [0; 133; 274; 338; 366; 483; 605; 664; 691; 730; 778; 807; 822; 837; 857; 870; 878];
  [0; 128; 253; 302; 320; 443; 577; 636; 659; 708; 767; 799; 814; 833; 857; 872; 881];
  [0; 1; 2; 25; 42; 43; 44; 67; 85; 105; 126; 144; 159; 174; 191; 205; 217];
  [0; 70; 166; 229; 267; 356; 468; 533; 569; 606; 653; 685; 705; 722; 745; 762; 774];
  [0; 55; 130; 175; 200; 268; 358; 416; 449; 488; 542; 581; 606; 628; 659; 683; 699];
  [0; 1; 3; 5; 7; 9; 11; 13; 15; 17; 19; 21; 23; 25; 27; 29; 31];
  [0; 34; 85; 123; 147; 196; 265; 317; 352; 386; 433; 470; 497; 518; 549; 574; 593];
  [0; 30; 73; 105; 127; 170; 229; 274; 305; 335; 377; 411; 436; 455; 483; 506; 524];
  [0; 9; 24; 38; 51; 65; 87; 108; 126; 139; 159; 177; 193; 204; 221; 236; 250];
  [0; 30; 74; 105; 125; 166; 224; 266; 294; 322; 361; 391; 413; 431; 457; 478; 494];
  [0; 15; 38; 58; 73; 95; 128; 156; 178; 196; 222; 245; 263; 276; 296; 314; 329];
  [0; 11; 28; 44; 57; 74; 100; 123; 142; 157; 179; 199; 216; 228; 246; 262; 276];
  [0; 448; 619; 639; 643; 821; 926; 944; 948; 971; 991; 998; 1000; 1005; 1010; 1012; 1013];
  [0; 332; 520; 549; 555; 741; 874; 903; 910; 940; 970; 981; 985; 991; 998; 1002; 1004];
  [0; 8; 21; 34; 45; 58; 78; 96; 112; 124; 141; 157; 170; 180; 194; 207; 219];
  [0; 239; 415; 457; 468; 631; 776; 820; 833; 872; 914; 933; 940; 951; 964; 971; 975];
  [0; 165; 310; 359; 375; 513; 652; 707; 727; 774; 828; 856; 868; 884; 904; 916; 923];
  [0; 3; 8; 13; 18; 23; 30; 37; 44; 48; 55; 62; 68; 72; 78; 84; 90];
  [0; 115; 237; 289; 311; 422; 547; 608; 635; 680; 737; 771; 788; 807; 832; 849; 859];
  [0; 107; 221; 272; 293; 399; 521; 582; 610; 656; 714; 749; 767; 787; 813; 831; 842];
  [0; 6; 16; 26; 35; 45; 60; 75; 89; 98; 112; 125; 137; 145; 157; 168; 178];
  [0; 72; 160; 210; 236; 320; 422; 482; 514; 555; 608; 644; 665; 685; 712; 732; 745];
  [0; 45; 108; 153; 183; 244; 327; 385; 421; 455; 502; 536; 559; 578; 605; 626; 641];
  [0; 1; 2; 9; 16; 17; 18; 26; 34; 40; 48; 55; 62; 68; 75; 82; 88];
  [0; 29; 73; 108; 132; 174; 236; 284; 318; 348; 391; 426; 452; 471; 500; 524; 543];
  [0; 20; 51; 76; 93; 123; 166; 200; 225; 247; 279; 305; 326; 342; 365; 385; 401];
  [0; 742; 845; 850; 851; 959; 997; 1001; 1002; 1009; 1014; 1016; 1017; 1019; 1020; 1021; 1022];
  [0; 42; 94; 121; 137; 186; 244; 280; 303; 330; 366; 392; 410; 427; 451; 470; 484];
  [0; 13; 33; 51; 66; 85; 114; 140; 161; 178; 203; 225; 243; 256; 275; 292; 307];
  [0; 501; 670; 689; 693; 848; 936; 952; 956; 975; 991; 997; 999; 1004; 1008; 1010; 1011];
  [0; 445; 581; 603; 609; 767; 865; 888; 895; 926; 954; 964; 968; 977; 986; 991; 993];
  [0; 285; 442; 479; 489; 650; 779; 818; 830; 870; 912; 930; 937; 949; 963; 971; 975];
  [0; 349; 528; 561; 569; 731; 852; 883; 892; 923; 953; 965; 970; 978; 987; 992; 994];
  [0; 199; 355; 402; 417; 563; 700; 750; 767; 811; 860; 884; 894; 909; 926; 936; 942];
  [0; 141; 275; 325; 343; 471; 606; 664; 686; 734; 791; 822; 836; 854; 877; 891; 899];
  [0; 243; 437; 493; 510; 649; 775; 820; 836; 869; 905; 923; 931; 941; 953; 960; 964];
  [0; 91; 197; 248; 271; 370; 487; 550; 580; 625; 684; 721; 741; 761; 788; 807; 819];
  [0; 107; 201; 242; 262; 354; 451; 503; 531; 573; 626; 660; 680; 701; 730; 751; 765];
  [0; 168; 339; 407; 432; 553; 676; 731; 755; 789; 830; 854; 866; 879; 895; 906; 912];
  [0; 67; 147; 191; 214; 290; 384; 441; 472; 513; 567; 604; 627; 648; 678; 700; 715];
  [0; 46; 109; 148; 171; 229; 307; 359; 391; 427; 476; 513; 537; 558; 588; 612; 629];
  [0; 848; 918; 920; 921; 996; 1012; 1013; 1014; 1016; 1017; 1018; 1019; 1020; 1021; 1022; 1023];
  [0; 36; 88; 123; 145; 193; 260; 308; 340; 372; 417; 452; 476; 496; 525; 548; 565];
  [0; 24; 61; 90; 110; 145; 196; 237; 266; 292; 330; 361; 385; 403; 430; 453; 471];
  [0; 85; 182; 230; 253; 344; 454; 515; 545; 590; 648; 685; 706; 727; 756; 776; 789];
  [0; 22; 55; 82; 102; 135; 183; 222; 252; 278; 315; 345; 368; 385; 410; 431; 448];
  [0; 1; 2; 56; 89; 90; 91; 140; 172; 221; 268; 303; 328; 358; 388; 412; 430];
  [0; 45; 109; 152; 177; 239; 320; 376; 411; 448; 499; 537; 563; 585; 616; 640; 658];
  [0; 247; 395; 433; 445; 599; 729; 771; 785; 829; 875; 896; 905; 920; 937; 946; 951];
  [0; 231; 367; 408; 423; 557; 676; 723; 742; 786; 835; 860; 872; 889; 909; 921; 928]].

(* /repo/src/tables/spectral_data_tables.rs:292 *)
Definition AC_SPEC_FREQ : list (list Z) := [
  [1; 1; 175; 48; 1; 1; 109; 36; 171; 109; 47; 20; 49; 36; 20; 10; 190];
  [18; 26; 17; 10; 27; 37; 24; 16; 22; 32; 22; 14; 17; 26; 20; 13; 683];
  [71; 92; 49; 25; 81; 102; 61; 33; 42; 57; 39; 23; 22; 30; 22; 15; 260];
  [160; 130; 46; 18; 121; 123; 55; 24; 45; 55; 31; 15; 19; 24; 15; 9; 134];
  [71; 73; 33; 18; 71; 76; 43; 26; 34; 44; 30; 20; 20; 27; 21; 15; 402];
  [48; 60; 32; 19; 58; 68; 42; 27; 31; 42; 30; 21; 19; 27; 21; 16; 463];
  [138; 109; 43; 18; 111; 112; 53; 25; 46; 55; 32; 17; 21; 27; 18; 11; 188];
  [16; 24; 22; 17; 24; 36; 31; 25; 20; 30; 25; 20; 15; 22; 19; 16; 662];
  [579; 150; 12; 2; 154; 73; 10; 2; 14; 11; 3; 1; 3; 3; 1; 1; 5];
  [398; 184; 25; 5; 176; 114; 23; 6; 25; 23; 8; 3; 6; 6; 3; 2; 17];
  [13; 21; 18; 11; 20; 29; 22; 15; 14; 20; 16; 12; 10; 14; 12; 10; 767];
  [281; 183; 37; 9; 171; 139; 37; 10; 35; 36; 15; 6; 9; 10; 6; 3; 37];
  [198; 164; 46; 13; 154; 147; 51; 16; 43; 49; 24; 10; 13; 16; 10; 5; 65];
  [1; 1; 93; 44; 1; 1; 72; 38; 86; 70; 43; 25; 40; 36; 25; 16; 432];
  [133; 141; 64; 28; 117; 122; 59; 27; 39; 48; 29; 15; 15; 20; 13; 8; 146];
  [128; 125; 49; 18; 123; 134; 59; 23; 49; 59; 32; 15; 19; 24; 15; 9; 143];
  [1; 1; 23; 17; 1; 1; 23; 18; 20; 21; 18; 15; 15; 17; 14; 12; 807];
  [70; 96; 63; 38; 89; 112; 65; 36; 37; 47; 32; 20; 17; 23; 17; 12; 250];
  [55; 75; 45; 25; 68; 90; 58; 33; 39; 54; 39; 25; 22; 31; 24; 16; 325];
  [1; 2; 2; 2; 2; 2; 2; 2; 2; 2; 2; 2; 2; 2; 2; 2; 993];
  [34; 51; 38; 24; 49; 69; 52; 35; 34; 47; 37; 27; 21; 31; 25; 19; 431];
  [30; 43; 32; 22; 43; 59; 45; 31; 30; 42; 34; 25; 19; 28; 23; 18; 500];
  [9; 15; 14; 13; 14; 22; 21; 18; 13; 20; 18; 16; 11; 17; 15; 14; 774];
  [30; 44; 31; 20; 41; 58; 42; 28; 28; 39; 30; 22; 18; 26; 21; 16; 530];
  [15; 23; 20; 15; 22; 33; 28; 22; 18; 26; 23; 18; 13; 20; 18; 15; 695];
  [11; 17; 16; 13; 17; 26; 23; 19; 15; 22; 20; 17; 12; 18; 16; 14; 748];
  [448; 171; 20; 4; 178; 105; 18; 4; 23; 20; 7; 2; 5; 5; 2; 1; 11];
  [332; 188; 29; 6; 186; 133; 29; 7; 30; 30; 11; 4; 6; 7; 4; 2; 20];
  [8; 13; 13; 11; 13; 20; 18; 16; 12; 17; 16; 13; 10; 14; 13; 12; 805];
  [239; 176; 42; 11; 163; 145; 44; 13; 39; 42; 19; 7; 11; 13; 7; 4; 49];
  [165; 145; 49; 16; 138; 139; 55; 20; 47; 54; 28; 12; 16; 20; 12; 7; 101];
  [3; 5; 5; 5; 5; 7; 7; 7; 4; 7; 7; 6; 4; 6; 6; 6; 934];
  [115; 122; 52; 22; 111; 125; 61; 27; 45; 57; 34; 17; 19; 25; 17; 10; 165];
  [107; 114; 51; 21; 106; 122; 61; 28; 46; 58; 35; 18; 20; 26; 18; 11; 182];
  [6; 10; 10; 9; 10; 15; 15; 14; 9; 14; 13; 12; 8; 12; 11; 10; 846];
  [72; 88; 50; 26; 84; 102; 60; 32; 41; 53; 36; 21; 20; 27; 20; 13; 279];
  [45; 63; 45; 30; 61; 83; 58; 36; 34; 47; 34; 23; 19; 27; 21; 15; 383];
  [1; 1; 7; 7; 1; 1; 8; 8; 6; 8; 7; 7; 6; 7; 7; 6; 936];
  [29; 44; 35; 24; 42; 62; 48; 34; 30; 43; 35; 26; 19; 29; 24; 19; 481];
  [20; 31; 25; 17; 30; 43; 34; 25; 22; 32; 26; 21; 16; 23; 20; 16; 623];
  [742; 103; 5; 1; 108; 38; 4; 1; 7; 5; 2; 1; 2; 1; 1; 1; 2];
  [42; 52; 27; 16; 49; 58; 36; 23; 27; 36; 26; 18; 17; 24; 19; 14; 540];
  [13; 20; 18; 15; 19; 29; 26; 21; 17; 25; 22; 18; 13; 19; 17; 15; 717];
  [501; 169; 19; 4; 155; 88; 16; 4; 19; 16; 6; 2; 5; 4; 2; 1; 13];
  [445; 136; 22; 6; 158; 98; 23; 7; 31; 28; 10; 4; 9; 9; 5; 2; 31];
  [285; 157; 37; 10; 161; 129; 39; 12; 40; 42; 18; 7; 12; 14; 8; 4; 49];
  [349; 179; 33; 8; 162; 121; 31; 9; 31; 30; 12; 5; 8; 9; 5; 2; 30];
  [199; 156; 47; 15; 146; 137; 50; 17; 44; 49; 24; 10; 15; 17; 10; 6; 82];
  [141; 134; 50; 18; 128; 135; 58; 22; 48; 57; 31; 14; 18; 23; 14; 8; 125];
  [243; 194; 56; 17; 139; 126; 45; 16; 33; 36; 18; 8; 10; 12; 7; 4; 60];
  [91; 106; 51; 23; 99; 117; 63; 30; 45; 59; 37; 20; 20; 27; 19; 12; 205];
  [107; 94; 41; 20; 92; 97; 52; 28; 42; 53; 34; 20; 21; 29; 21; 14; 259];
  [168; 171; 68; 25; 121; 123; 55; 24; 34; 41; 24; 12; 13; 16; 11; 6; 112];
  [67; 80; 44; 23; 76; 94; 57; 31; 41; 54; 37; 23; 21; 30; 22; 15; 309];
  [46; 63; 39; 23; 58; 78; 52; 32; 36; 49; 37; 24; 21; 30; 24; 17; 395];
  [848; 70; 2; 1; 75; 16; 1; 1; 2; 1; 1; 1; 1; 1; 1; 1; 1];
  [36; 52; 35; 22; 48; 67; 48; 32; 32; 45; 35; 24; 20; 29; 23; 17; 459];
  [24; 37; 29; 20; 35; 51; 41; 29; 26; 38; 31; 24; 18; 27; 23; 18; 553];
  [85; 97; 48; 23; 91; 110; 61; 30; 45; 58; 37; 21; 21; 29; 20; 13; 235];
  [22; 33; 27; 20; 33; 48; 39; 30; 26; 37; 30; 23; 17; 25; 21; 17; 576];
  [1; 1; 54; 33; 1; 1; 49; 32; 49; 47; 35; 25; 30; 30; 24; 18; 594];
  [45; 64; 43; 25; 62; 81; 56; 35; 37; 51; 38; 26; 22; 31; 24; 18; 366];
  [247; 148; 38; 12; 154; 130; 42; 14; 44; 46; 21; 9; 15; 17; 9; 5; 73];
  [231; 136; 41; 15; 134; 119; 47; 19; 44; 49; 25; 12; 17; 20; 12; 7; 96]].

(* /repo/src/tables/spectral_data_tables.rs:360 *)
Definition AC_SPEC_BITS : list (list Z) := [
  [20480; 20480; 5220; 9042; 20480; 20480; 6619; 9892; 5289; 6619; 9105; 11629; 8982; 9892; 11629; 13677; 4977];
  [11940; 10854; 12109; 13677; 10742; 9812; 11090; 12288; 11348; 10240; 11348; 12683; 12109; 10854; 11629; 12902; 1197];
  [7886; 7120; 8982; 10970; 7496; 6815; 8334; 10150; 9437; 8535; 9656; 11216; 11348; 10431; 11348; 12479; 4051];
  [5485; 6099; 9168; 11940; 6311; 6262; 8640; 11090; 9233; 8640; 10334; 12479; 11781; 11090; 12479; 13988; 6009];
  [7886; 7804; 10150; 11940; 7886; 7685; 9368; 10854; 10061; 9300; 10431; 11629; 11629; 10742; 11485; 12479; 2763];
  [9042; 8383; 10240; 11781; 8483; 8013; 9437; 10742; 10334; 9437; 10431; 11485; 11781; 10742; 11485; 12288; 2346];
  [5922; 6619; 9368; 11940; 6566; 6539; 8750; 10970; 9168; 8640; 10240; 12109; 11485; 10742; 11940; 13396; 5009];
  [12288; 11090; 11348; 12109; 11090; 9892; 10334; 10970; 11629; 10431; 10970; 11629; 12479; 11348; 11781; 12288; 1289];
  [1685; 5676; 13138; 18432; 5598; 7804; 13677; 18432; 12683; 13396; 17234; 20480; 17234; 17234; 20480; 20480; 15725];
  [2793; 5072; 10970; 15725; 5204; 6487; 11216; 15186; 10970; 11216; 14336; 17234; 15186; 15186; 17234; 18432; 12109];
  [12902; 11485; 11940; 13396; 11629; 10531; 11348; 12479; 12683; 11629; 12288; 13138; 13677; 12683; 13138; 13677; 854];
  [3821; 5088; 9812; 13988; 5289; 5901; 9812; 13677; 9976; 9892; 12479; 15186; 13988; 13677; 15186; 17234; 9812];
  [4856; 5412; 9168; 12902; 5598; 5736; 8863; 12288; 9368; 8982; 11090; 13677; 12902; 12288; 13677; 15725; 8147];
  [20480; 20480; 7088; 9300; 20480; 20480; 7844; 9733; 7320; 7928; 9368; 10970; 9581; 9892; 10970; 12288; 2550];
  [6031; 5859; 8192; 10635; 6410; 6286; 8433; 10742; 9656; 9042; 10531; 12479; 12479; 11629; 12902; 14336; 5756];
  [6144; 6215; 8982; 11940; 6262; 6009; 8433; 11216; 8982; 8433; 10240; 12479; 11781; 11090; 12479; 13988; 5817];
  [20480; 20480; 11216; 12109; 20480; 20480; 11216; 11940; 11629; 11485; 11940; 12479; 12479; 12109; 12683; 13138; 704];
  [7928; 6994; 8239; 9733; 7218; 6539; 8147; 9892; 9812; 9105; 10240; 11629; 12109; 11216; 12109; 13138; 4167];
  [8640; 7724; 9233; 10970; 8013; 7185; 8483; 10150; 9656; 8694; 9656; 10970; 11348; 10334; 11090; 12288; 3391];
  [20480; 18432; 18432; 18432; 18432; 18432; 18432; 18432; 18432; 18432; 18432; 18432; 18432; 18432; 18432; 18432; 91];
  [10061; 8863; 9733; 11090; 8982; 7970; 8806; 9976; 10061; 9105; 9812; 10742; 11485; 10334; 10970; 11781; 2557];
  [10431; 9368; 10240; 11348; 9368; 8433; 9233; 10334; 10431; 9437; 10061; 10970; 11781; 10635; 11216; 11940; 2119];
  [13988; 12479; 12683; 12902; 12683; 11348; 11485; 11940; 12902; 11629; 11940; 12288; 13396; 12109; 12479; 12683; 828];
  [10431; 9300; 10334; 11629; 9508; 8483; 9437; 10635; 10635; 9656; 10431; 11348; 11940; 10854; 11485; 12288; 1946];
  [12479; 11216; 11629; 12479; 11348; 10150; 10635; 11348; 11940; 10854; 11216; 11940; 12902; 11629; 11940; 12479; 1146];
  [13396; 12109; 12288; 12902; 12109; 10854; 11216; 11781; 12479; 11348; 11629; 12109; 13138; 11940; 12288; 12683; 928];
  [2443; 5289; 11629; 16384; 5170; 6730; 11940; 16384; 11216; 11629; 14731; 18432; 15725; 15725; 18432; 20480; 13396];
  [3328; 5009; 10531; 15186; 5040; 6031; 10531; 14731; 10431; 10431; 13396; 16384; 15186; 14731; 16384; 18432; 11629];
  [14336; 12902; 12902; 13396; 12902; 11629; 11940; 12288; 13138; 12109; 12288; 12902; 13677; 12683; 12902; 13138; 711];
  [4300; 5204; 9437; 13396; 5430; 5776; 9300; 12902; 9656; 9437; 11781; 14731; 13396; 12902; 14731; 16384; 8982];
  [5394; 5776; 8982; 12288; 5922; 5901; 8640; 11629; 9105; 8694; 10635; 13138; 12288; 11629; 13138; 14731; 6844];
  [17234; 15725; 15725; 15725; 15725; 14731; 14731; 14731; 16384; 14731; 14731; 15186; 16384; 15186; 15186; 15186; 272];
  [6461; 6286; 8806; 11348; 6566; 6215; 8334; 10742; 9233; 8535; 10061; 12109; 11781; 10970; 12109; 13677; 5394];
  [6674; 6487; 8863; 11485; 6702; 6286; 8334; 10635; 9168; 8483; 9976; 11940; 11629; 10854; 11940; 13396; 5105];
  [15186; 13677; 13677; 13988; 13677; 12479; 12479; 12683; 13988; 12683; 12902; 13138; 14336; 13138; 13396; 13677; 565];
  [7844; 7252; 8922; 10854; 7389; 6815; 8383; 10240; 9508; 8750; 9892; 11485; 11629; 10742; 11629; 12902; 3842];
  [9233; 8239; 9233; 10431; 8334; 7424; 8483; 9892; 10061; 9105; 10061; 11216; 11781; 10742; 11485; 12479; 2906];
  [20480; 20480; 14731; 14731; 20480; 20480; 14336; 14336; 15186; 14336; 14731; 14731; 15186; 14731; 14731; 15186; 266];
  [10531; 9300; 9976; 11090; 9437; 8286; 9042; 10061; 10431; 9368; 9976; 10854; 11781; 10531; 11090; 11781; 2233];
  [11629; 10334; 10970; 12109; 10431; 9368; 10061; 10970; 11348; 10240; 10854; 11485; 12288; 11216; 11629; 12288; 1469];
  [952; 6787; 15725; 20480; 6646; 9733; 16384; 20480; 14731; 15725; 18432; 20480; 18432; 20480; 20480; 20480; 18432];
  [9437; 8806; 10742; 12288; 8982; 8483; 9892; 11216; 10742; 9892; 10854; 11940; 12109; 11090; 11781; 12683; 1891];
  [12902; 11629; 11940; 12479; 11781; 10531; 10854; 11485; 12109; 10970; 11348; 11940; 12902; 11781; 12109; 12479; 1054];
  [2113; 5323; 11781; 16384; 5579; 7252; 12288; 16384; 11781; 12288; 15186; 18432; 15725; 16384; 18432; 20480; 12902];
  [2463; 5965; 11348; 15186; 5522; 6934; 11216; 14731; 10334; 10635; 13677; 16384; 13988; 13988; 15725; 18432; 10334];
  [3779; 5541; 9812; 13677; 5467; 6122; 9656; 13138; 9581; 9437; 11940; 14731; 13138; 12683; 14336; 16384; 8982];
  [3181; 5154; 10150; 14336; 5448; 6311; 10334; 13988; 10334; 10431; 13138; 15725; 14336; 13988; 15725; 18432; 10431];
  [4841; 5560; 9105; 12479; 5756; 5944; 8922; 12109; 9300; 8982; 11090; 13677; 12479; 12109; 13677; 15186; 7460];
  [5859; 6009; 8922; 11940; 6144; 5987; 8483; 11348; 9042; 8535; 10334; 12683; 11940; 11216; 12683; 14336; 6215];
  [4250; 4916; 8587; 12109; 5901; 6191; 9233; 12288; 10150; 9892; 11940; 14336; 13677; 13138; 14731; 16384; 8383];
  [7153; 6702; 8863; 11216; 6904; 6410; 8239; 10431; 9233; 8433; 9812; 11629; 11629; 10742; 11781; 13138; 4753];
  [6674; 7057; 9508; 11629; 7120; 6964; 8806; 10635; 9437; 8750; 10061; 11629; 11485; 10531; 11485; 12683; 4062];
  [5341; 5289; 8013; 10970; 6311; 6262; 8640; 11090; 10061; 9508; 11090; 13138; 12902; 12288; 13396; 15186; 6539];
  [8057; 7533; 9300; 11216; 7685; 7057; 8535; 10334; 9508; 8694; 9812; 11216; 11485; 10431; 11348; 12479; 3541];
  [9168; 8239; 9656; 11216; 8483; 7608; 8806; 10240; 9892; 8982; 9812; 11090; 11485; 10431; 11090; 12109; 2815];
  [558; 7928; 18432; 20480; 7724; 12288; 20480; 20480; 18432; 20480; 20480; 20480; 20480; 20480; 20480; 20480; 20480];
  [9892; 8806; 9976; 11348; 9042; 8057; 9042; 10240; 10240; 9233; 9976; 11090; 11629; 10531; 11216; 12109; 2371];
  [11090; 9812; 10531; 11629; 9976; 8863; 9508; 10531; 10854; 9733; 10334; 11090; 11940; 10742; 11216; 11940; 1821];
  [7354; 6964; 9042; 11216; 7153; 6592; 8334; 10431; 9233; 8483; 9812; 11485; 11485; 10531; 11629; 12902; 4349];
  [11348; 10150; 10742; 11629; 10150; 9042; 9656; 10431; 10854; 9812; 10431; 11216; 12109; 10970; 11485; 12109; 1700];
  [20480; 20480; 8694; 10150; 20480; 20480; 8982; 10240; 8982; 9105; 9976; 10970; 10431; 10431; 11090; 11940; 1610];
  [9233; 8192; 9368; 10970; 8286; 7496; 8587; 9976; 9812; 8863; 9733; 10854; 11348; 10334; 11090; 11940; 3040];
  [4202; 5716; 9733; 13138; 5598; 6099; 9437; 12683; 9300; 9168; 11485; 13988; 12479; 12109; 13988; 15725; 7804];
  [4400; 5965; 9508; 12479; 6009; 6360; 9105; 11781; 9300; 8982; 10970; 13138; 12109; 11629; 13138; 14731; 6994]].

