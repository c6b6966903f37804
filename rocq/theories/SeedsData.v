(** The built-in seeds, src/seeds.h, as bytes: generated from the text of that file. *)
From Verif Require Import Common AddrModel.

(** seeds.h:9-79 *)
Definition seeds_main : list (list Z) :=
  [[97; 111; 110; 101; 116; 115; 101; 122; 113; 112; 52; 109; 53; 50; 119; 52; 106; 112; 102; 113; 50; 103; 118; 51; 100; 103; 103; 121; 50; 119; 113; 102; 119; 113; 116; 107; 102; 106; 121; 116; 116; 103; 100; 105; 100; 98; 118; 104; 103; 112; 53; 97; 115; 64; 49; 54; 53; 46; 50; 50; 46; 49; 53; 49; 46; 50; 52; 50];
   [97; 106; 112; 98; 117; 120; 107; 119; 116; 102; 55; 104; 107; 119; 98; 112; 119; 50; 55; 115; 105; 119; 103; 54; 100; 121; 108; 115; 108; 121; 52; 55; 52; 51; 114; 98; 104; 121; 50; 106; 115; 115; 98; 51; 114; 120; 109; 105; 114; 99; 98; 114; 115; 64; 53; 48; 46; 49; 49; 54; 46; 51; 53; 46; 49; 55; 56];
   [97; 107; 115; 121; 103; 103; 104; 107; 103; 109; 99; 105; 111; 109; 101; 108; 100; 106; 102; 53; 115; 99; 54; 114; 115; 50; 115; 103; 110; 50; 109; 51; 52; 122; 102; 100; 122; 52; 120; 114; 55; 122; 53; 118; 103; 117; 113; 118; 106; 105; 115; 52; 101; 64; 49; 50; 57; 46; 49; 53; 51; 46; 49; 55; 55; 46; 50; 50; 48];
   [97; 105; 50; 119; 120; 110; 106; 52; 109; 97; 103; 122; 114; 104; 116; 108; 102; 118; 113; 110; 122; 117; 122; 103; 51; 118; 107; 111; 50; 53; 118; 114; 121; 108; 101; 53; 118; 100; 50; 98; 122; 105; 50; 51; 106; 118; 99; 121; 107; 98; 106; 53; 113; 64; 49; 48; 55; 46; 49; 53; 50; 46; 51; 51; 46; 55; 49];
   [97; 112; 116; 52; 114; 102; 50; 100; 102; 121; 101; 108; 98; 105; 118; 103; 54; 51; 117; 52; 55; 119; 121; 107; 118; 100; 106; 116; 115; 108; 52; 107; 120; 122; 102; 100; 121; 108; 107; 97; 97; 101; 53; 115; 53; 121; 100; 108; 100; 108; 110; 119; 117; 64; 49; 53; 57; 46; 54; 57; 46; 52; 54; 46; 50; 51];
   [97; 106; 100; 122; 114; 112; 111; 120; 115; 117; 115; 97; 119; 52; 105; 120; 113; 52; 116; 116; 105; 98; 120; 120; 115; 117; 104; 53; 102; 107; 107; 100; 117; 99; 53; 113; 115; 122; 121; 98; 111; 105; 100; 105; 102; 50; 122; 50; 53; 105; 51; 54; 50; 64; 49; 55; 51; 46; 50; 53; 53; 46; 50; 48; 57; 46; 49; 50; 54];
   [97; 107; 105; 109; 99; 104; 97; 53; 98; 99; 107; 55; 115; 51; 52; 52; 100; 109; 103; 101; 54; 107; 51; 97; 103; 116; 120; 100; 50; 116; 120; 105; 54; 120; 52; 113; 122; 103; 51; 109; 111; 50; 54; 115; 112; 118; 102; 53; 98; 106; 111; 108; 50; 64; 55; 52; 46; 50; 48; 55; 46; 50; 52; 55; 46; 49; 50; 48];
   [97; 111; 105; 104; 113; 113; 97; 103; 98; 104; 122; 122; 54; 119; 120; 103; 52; 51; 105; 116; 101; 102; 113; 118; 109; 103; 100; 97; 52; 117; 119; 116; 107; 121; 51; 54; 50; 112; 50; 50; 107; 98; 105; 109; 99; 121; 103; 53; 102; 100; 112; 53; 52; 64; 49; 55; 50; 46; 49; 48; 52; 46; 50; 49; 52; 46; 49; 56; 57];
   [97; 106; 107; 53; 55; 119; 117; 116; 110; 104; 102; 100; 122; 118; 113; 119; 113; 114; 103; 97; 98; 51; 119; 119; 104; 52; 119; 120; 111; 113; 103; 110; 107; 122; 52; 97; 118; 98; 108; 110; 53; 52; 112; 103; 106; 53; 106; 119; 101; 102; 99; 116; 115; 64; 49; 55; 50; 46; 49; 48; 52; 46; 49; 55; 55; 46; 49; 55; 55];
   [97; 109; 50; 108; 115; 109; 98; 122; 122; 120; 110; 99; 97; 112; 116; 113; 106; 111; 50; 50; 106; 97; 121; 51; 109; 122; 116; 102; 119; 108; 51; 51; 98; 120; 104; 107; 112; 55; 105; 99; 102; 120; 55; 107; 109; 105; 53; 114; 118; 106; 97; 105; 99; 64; 49; 51; 57; 46; 49; 54; 50; 46; 49; 56; 51; 46; 49; 54; 56];
   [97; 112; 53; 118; 117; 119; 97; 98; 122; 119; 121; 122; 54; 97; 107; 104; 101; 115; 97; 110; 97; 100; 97; 52; 115; 107; 104; 101; 116; 100; 50; 106; 115; 118; 112; 107; 119; 117; 113; 120; 122; 117; 97; 111; 111; 118; 110; 53; 101; 122; 52; 120; 103; 64; 52; 53; 46; 55; 57; 46; 49; 51; 52; 46; 50; 50; 53];
   [49; 48; 52; 46; 50; 53; 52; 46; 50; 52; 54; 46; 49; 53; 51];
   [54; 54; 46; 57; 52; 46; 49; 49; 56; 46; 49; 50; 55];
   [49; 54; 53; 46; 50; 50; 55; 46; 57; 51; 46; 49; 49; 55];
   [57; 56; 46; 52; 55; 46; 57; 48; 46; 49; 49; 49];
   [56; 53; 46; 50; 49; 52; 46; 51; 51; 46; 50; 48; 48];
   [49; 55; 56; 46; 49; 56; 46; 50; 53; 52; 46; 57; 50];
   [49; 53; 50; 46; 54; 57; 46; 49; 56; 54; 46; 49; 49; 57];
   [56; 57; 46; 53; 56; 46; 49; 55; 46; 56; 54];
   [55; 54; 46; 50; 49; 55; 46; 49; 53; 56; 46; 49; 53];
   [49; 52; 57; 46; 49; 48; 50; 46; 49; 53; 50; 46; 49; 57; 51];
   [49; 51; 57; 46; 53; 57; 46; 50; 49; 49; 46; 49; 56; 55];
   [49; 52; 55; 46; 49; 50; 52; 46; 50; 50; 56; 46; 49; 57; 56];
   [49; 48; 56; 46; 49; 55; 53; 46; 52; 46; 50; 54];
   [54; 54; 46; 50; 57; 46; 49; 53; 49; 46; 52; 50];
   [50; 48; 53; 46; 50; 53; 48; 46; 49; 49; 50; 46; 49; 51; 51];
   [52; 52; 46; 50; 50; 57; 46; 49; 51; 56; 46; 50; 48; 54];
   [56; 49; 46; 54; 46; 53; 56; 46; 49; 50; 49];
   [49; 53; 52; 46; 50; 54; 46; 49; 51; 51; 46; 49; 48; 57];
   [49; 52; 48; 46; 50; 51; 56; 46; 49; 54; 52; 46; 49; 53; 53];
   [56; 49; 46; 49; 54; 57; 46; 49; 53; 57; 46; 51; 48];
   [53; 48; 46; 49; 49; 50; 46; 49; 50; 51; 46; 49; 56; 52];
   [49; 56; 53; 46; 50; 51; 50; 46; 55; 49; 46; 49; 48; 56];
   [50; 48; 55; 46; 50; 52; 52; 46; 50; 51; 51; 46; 55; 54];
   [49; 52; 48; 46; 50; 51; 56; 46; 49; 57; 54; 46; 49; 51; 54];
   [49; 57; 51; 46; 52; 49; 46; 50; 51; 55; 46; 49; 53; 51];
   [56; 50; 46; 50; 50; 51; 46; 49; 54; 53; 46; 50; 49; 53];
   [50; 49; 50; 46; 50; 50; 55; 46; 54; 56; 46; 49; 50; 51];
   [50; 48; 50; 46; 54; 49; 46; 50; 48; 49; 46; 49; 53];
   [49; 54; 56; 46; 49; 51; 56; 46; 51; 49; 46; 49; 51; 54];
   [49; 48; 55; 46; 49; 53; 50; 46; 51; 50; 46; 50; 53; 48];
   [49; 48; 56; 46; 54; 49; 46; 50; 48; 54; 46; 51; 56];
   [50; 48; 52; 46; 57; 57; 46; 49; 50; 57; 46; 56];
   [55; 51; 46; 49; 56; 53; 46; 52; 48; 46; 54; 54];
   [49; 50; 57; 46; 49; 53; 51; 46; 49; 54; 54; 46; 50; 52; 52];
   [49; 51; 55; 46; 49; 56; 52; 46; 49; 53; 54; 46; 50; 50; 50];
   [53; 46; 49; 54; 49; 46; 54; 52; 46; 52; 57];
   [49; 55; 54; 46; 57; 54; 46; 49; 51; 54; 46; 49; 52; 51];
   [49; 53; 48; 46; 49; 51; 54; 46; 50; 51; 49; 46; 49; 50; 48];
   [53; 52; 46; 49; 56; 52; 46; 49; 48; 52; 46; 57; 52];
   [52; 55; 46; 49; 48; 56; 46; 49; 57; 52; 46; 56; 52];
   [52; 53; 46; 55; 57; 46; 57; 53; 46; 50; 50; 56];
   [56; 57; 46; 49; 54; 51; 46; 49; 53; 52; 46; 50; 49; 55];
   [49; 51; 57; 46; 49; 55; 56; 46; 54; 55; 46; 50; 50; 54];
   [52; 55; 46; 50; 52; 50; 46; 56; 54; 46; 50; 57];
   [57; 57; 46; 57; 50; 46; 50; 48; 52; 46; 51]].
(** constants.h:52-53 *)
Definition ports_main : ports := {| pt_plain := 12038; pt_brontide := 44806 |}.

(** seeds.h:87-93 *)
Definition seeds_testnet : list (list Z) :=
  [[97; 111; 105; 104; 113; 113; 97; 103; 98; 104; 122; 122; 54; 119; 120; 103; 52; 51; 105; 116; 101; 102; 113; 118; 109; 103; 100; 97; 52; 117; 119; 116; 107; 121; 51; 54; 50; 112; 50; 50; 107; 98; 105; 109; 99; 121; 103; 53; 102; 100; 112; 53; 52; 64; 49; 55; 50; 46; 49; 48; 52; 46; 50; 49; 52; 46; 49; 56; 57];
   [97; 106; 100; 122; 114; 112; 111; 120; 115; 117; 115; 97; 119; 52; 105; 120; 113; 52; 116; 116; 105; 98; 120; 120; 115; 117; 104; 53; 102; 107; 107; 100; 117; 99; 53; 113; 115; 122; 121; 98; 111; 105; 100; 105; 102; 50; 122; 50; 53; 105; 51; 54; 50; 64; 49; 55; 51; 46; 50; 53; 53; 46; 50; 48; 57; 46; 49; 50; 54];
   [97; 106; 107; 53; 55; 119; 117; 116; 110; 104; 102; 100; 122; 118; 113; 119; 113; 114; 103; 97; 98; 51; 119; 119; 104; 52; 119; 120; 111; 113; 103; 110; 107; 122; 52; 97; 118; 98; 108; 110; 53; 52; 112; 103; 106; 53; 106; 119; 101; 102; 99; 116; 115; 64; 49; 55; 50; 46; 49; 48; 52; 46; 49; 55; 55; 46; 49; 55; 55];
   [97; 109; 50; 108; 115; 109; 98; 122; 122; 120; 110; 99; 97; 112; 116; 113; 106; 111; 50; 50; 106; 97; 121; 51; 109; 122; 116; 102; 119; 108; 51; 51; 98; 120; 104; 107; 112; 55; 105; 99; 102; 120; 55; 107; 109; 105; 53; 114; 118; 106; 97; 105; 99; 64; 49; 51; 57; 46; 49; 54; 50; 46; 49; 56; 51; 46; 49; 54; 56]].
(** constants.h:96-97 *)
Definition ports_testnet : ports := {| pt_plain := 13038; pt_brontide := 45806 |}.

(** seeds.h:101-104 *)
Definition seeds_regtest : list (list Z) :=
  [[97; 111; 114; 115; 120; 97; 52; 121; 108; 97; 97; 99; 115; 104; 105; 112; 121; 106; 107; 102; 98; 118; 122; 102; 107; 104; 51; 106; 104; 104; 52; 121; 111; 119; 116; 111; 113; 100; 116; 54; 52; 110; 122; 101; 109; 113; 116; 105; 119; 50; 119; 104; 107; 64; 49; 50; 55; 46; 48; 46; 48; 46; 49]].
(** constants.h:151-152 *)
Definition ports_regtest : ports := {| pt_plain := 14038; pt_brontide := 46806 |}.

(** seeds.h:112-115 *)
Definition seeds_simnet : list (list Z) :=
  [[97; 111; 114; 115; 120; 97; 52; 121; 108; 97; 97; 99; 115; 104; 105; 112; 121; 106; 107; 102; 98; 118; 122; 102; 107; 104; 51; 106; 104; 104; 52; 121; 111; 119; 116; 111; 113; 100; 116; 54; 52; 110; 122; 101; 109; 113; 116; 105; 119; 50; 119; 104; 107; 64; 49; 50; 55; 46; 48; 46; 48; 46; 49]].
(** constants.h:195-196 *)
Definition ports_simnet : ports := {| pt_plain := 15038; pt_brontide := 47806 |}.
