(** The ODB-2 files shipped in /repo/docs/_static, as byte lists. *)
From Verif Require Import Base.

(** docs/_static/data-1.odb *)
Definition data1 : list Z :=
  [255; 255; 79; 68; 65; 1; 0; 0; 0; 0; 0; 0; 0; 5; 0; 0; 0; 32; 0; 0; 0; 51; 99; 100; 98; 48; 50; 101; 51; 53;
   57; 49; 50; 53; 48; 49; 98; 98; 55; 49; 53; 101; 98; 102; 98; 97; 55; 100; 102; 48; 56; 52; 55; 0; 4; 0; 0;
   160; 0; 0; 0; 0; 0; 0; 0; 0; 0; 0; 0; 0; 0; 0; 0; 10; 0; 0; 0; 0; 0; 0; 0; 0; 0; 0; 0; 0; 0; 0; 0; 8; 0; 0;
   0; 6; 0; 0; 0; 101; 120; 112; 118; 101; 114; 1; 0; 0; 0; 8; 0; 0; 0; 99; 111; 110; 115; 116; 97; 110; 116; 0;
   0; 0; 0; 0; 0; 0; 0; 0; 0; 240; 63; 0; 0; 0; 0; 0; 0; 240; 63; 0; 0; 192; 255; 255; 255; 223; 65; 8; 0; 0; 0;
   100; 97; 116; 101; 64; 104; 100; 114; 1; 0; 0; 0; 8; 0; 0; 0; 99; 111; 110; 115; 116; 97; 110; 116; 0; 0; 0;
   0; 0; 0; 0; 64; 47; 70; 115; 65; 0; 0; 0; 64; 47; 70; 115; 65; 0; 0; 192; 255; 255; 255; 223; 65; 10; 0; 0;
   0; 115; 116; 97; 116; 105; 100; 64; 104; 100; 114; 3; 0; 0; 0; 11; 0; 0; 0; 105; 110; 116; 56; 95; 115; 116;
   114; 105; 110; 103; 0; 0; 0; 0; 115; 116; 97; 116; 48; 57; 0; 0; 0; 0; 192; 255; 255; 255; 223; 193; 0; 0;
   192; 255; 255; 255; 223; 193; 10; 0; 0; 0; 6; 0; 0; 0; 115; 116; 97; 116; 48; 48; 0; 0; 0; 0; 0; 0; 0; 0; 6;
   0; 0; 0; 115; 116; 97; 116; 48; 49; 0; 0; 0; 0; 1; 0; 0; 0; 6; 0; 0; 0; 115; 116; 97; 116; 48; 50; 0; 0; 0;
   0; 2; 0; 0; 0; 6; 0; 0; 0; 115; 116; 97; 116; 48; 51; 0; 0; 0; 0; 3; 0; 0; 0; 6; 0; 0; 0; 115; 116; 97; 116;
   48; 52; 0; 0; 0; 0; 4; 0; 0; 0; 6; 0; 0; 0; 115; 116; 97; 116; 48; 53; 0; 0; 0; 0; 5; 0; 0; 0; 6; 0; 0; 0;
   115; 116; 97; 116; 48; 54; 0; 0; 0; 0; 6; 0; 0; 0; 6; 0; 0; 0; 115; 116; 97; 116; 48; 55; 0; 0; 0; 0; 7; 0;
   0; 0; 6; 0; 0; 0; 115; 116; 97; 116; 48; 56; 0; 0; 0; 0; 8; 0; 0; 0; 6; 0; 0; 0; 115; 116; 97; 116; 48; 57;
   0; 0; 0; 0; 9; 0; 0; 0; 9; 0; 0; 0; 119; 105; 103; 111; 115; 64; 104; 100; 114; 3; 0; 0; 0; 11; 0; 0; 0; 105;
   110; 116; 56; 95; 115; 116; 114; 105; 110; 103; 0; 0; 0; 0; 48; 45; 49; 50; 51; 52; 53; 45; 0; 0; 192; 255;
   255; 255; 223; 193; 0; 0; 192; 255; 255; 255; 223; 193; 10; 0; 0; 0; 15; 0; 0; 0; 48; 45; 49; 50; 51; 52; 53;
   45; 48; 45; 54; 55; 56; 57; 48; 0; 0; 0; 0; 0; 0; 0; 0; 15; 0; 0; 0; 48; 45; 49; 50; 51; 52; 53; 45; 48; 45;
   54; 55; 56; 57; 49; 0; 0; 0; 0; 1; 0; 0; 0; 15; 0; 0; 0; 48; 45; 49; 50; 51; 52; 53; 45; 48; 45; 54; 55; 56;
   57; 50; 0; 0; 0; 0; 2; 0; 0; 0; 15; 0; 0; 0; 48; 45; 49; 50; 51; 52; 53; 45; 48; 45; 54; 55; 56; 57; 51; 0;
   0; 0; 0; 3; 0; 0; 0; 15; 0; 0; 0; 48; 45; 49; 50; 51; 52; 53; 45; 48; 45; 54; 55; 56; 57; 52; 0; 0; 0; 0; 4;
   0; 0; 0; 15; 0; 0; 0; 48; 45; 49; 50; 51; 52; 53; 45; 48; 45; 54; 55; 56; 57; 53; 0; 0; 0; 0; 5; 0; 0; 0; 15;
   0; 0; 0; 48; 45; 49; 50; 51; 52; 53; 45; 48; 45; 54; 55; 56; 57; 54; 0; 0; 0; 0; 6; 0; 0; 0; 15; 0; 0; 0; 48;
   45; 49; 50; 51; 52; 53; 45; 48; 45; 54; 55; 56; 57; 55; 0; 0; 0; 0; 7; 0; 0; 0; 15; 0; 0; 0; 48; 45; 49; 50;
   51; 52; 53; 45; 48; 45; 54; 55; 56; 57; 56; 0; 0; 0; 0; 8; 0; 0; 0; 15; 0; 0; 0; 48; 45; 49; 50; 51; 52; 53;
   45; 48; 45; 54; 55; 56; 57; 57; 0; 0; 0; 0; 9; 0; 0; 0; 13; 0; 0; 0; 111; 98; 115; 118; 97; 108; 117; 101;
   64; 98; 111; 100; 121; 2; 0; 0; 0; 11; 0; 0; 0; 115; 104; 111; 114; 116; 95; 114; 101; 97; 108; 50; 0; 0; 0;
   0; 0; 0; 0; 0; 0; 0; 0; 0; 0; 0; 0; 192; 16; 199; 91; 64; 0; 0; 192; 255; 255; 255; 223; 193; 15; 0; 0; 0;
   105; 110; 116; 101; 103; 101; 114; 95; 109; 105; 115; 115; 105; 110; 103; 1; 0; 0; 0; 5; 0; 0; 0; 105; 110;
   116; 49; 54; 0; 0; 0; 0; 0; 0; 0; 0; 0; 0; 0; 0; 0; 0; 0; 0; 0; 225; 176; 64; 0; 0; 192; 255; 255; 255; 223;
   65; 14; 0; 0; 0; 100; 111; 117; 98; 108; 101; 95; 109; 105; 115; 115; 105; 110; 103; 2; 0; 0; 0; 11; 0; 0; 0;
   115; 104; 111; 114; 116; 95; 114; 101; 97; 108; 50; 0; 0; 0; 0; 0; 0; 0; 128; 20; 174; 40; 64; 0; 0; 0; 64;
   225; 154; 69; 64; 0; 0; 192; 255; 255; 255; 223; 193; 15; 0; 0; 0; 98; 105; 116; 102; 105; 101; 108; 100; 95;
   99; 111; 108; 117; 109; 110; 4; 0; 0; 0; 3; 0; 0; 0; 6; 0; 0; 0; 102; 108; 97; 103; 95; 97; 6; 0; 0; 0; 102;
   108; 97; 103; 95; 98; 6; 0; 0; 0; 102; 108; 97; 103; 95; 99; 3; 0; 0; 0; 1; 0; 0; 0; 2; 0; 0; 0; 5; 0; 0; 0;
   5; 0; 0; 0; 105; 110; 116; 49; 54; 0; 0; 0; 0; 0; 0; 0; 0; 0; 0; 0; 0; 0; 0; 0; 0; 0; 56; 143; 64; 0; 0; 192;
   255; 255; 255; 223; 65; 0; 0; 0; 0; 0; 0; 0; 0; 210; 4; 164; 112; 69; 65; 231; 3; 0; 2; 1; 1; 148; 135; 69;
   65; 225; 16; 10; 215; 44; 66; 120; 3; 0; 2; 2; 2; 148; 135; 197; 65; 0; 0; 0; 0; 192; 127; 9; 3; 0; 2; 3; 3;
   175; 37; 20; 66; 210; 4; 164; 112; 69; 65; 154; 2; 0; 2; 4; 4; 148; 135; 69; 66; 225; 16; 10; 215; 44; 66;
   43; 2; 0; 2; 5; 5; 121; 233; 118; 66; 0; 0; 0; 0; 192; 127; 188; 1; 0; 2; 6; 6; 175; 37; 148; 66; 210; 4;
   164; 112; 69; 65; 77; 1; 0; 2; 7; 7; 161; 214; 172; 66; 225; 16; 10; 215; 44; 66; 222; 0; 0; 2; 8; 8; 148;
   135; 197; 66; 0; 0; 0; 0; 192; 127; 111; 0; 0; 2; 9; 9; 134; 56; 222; 66; 210; 4; 164; 112; 69; 65; 0; 0].

(** docs/_static/data-2.odb *)
Definition data2 : list Z :=
  [255; 255; 79; 68; 65; 1; 0; 0; 0; 0; 0; 0; 0; 5; 0; 0; 0; 32; 0; 0; 0; 101; 101; 54; 53; 56; 100; 48; 51; 98;
   97; 48; 50; 57; 49; 56; 55; 99; 54; 48; 53; 57; 51; 97; 98; 99; 57; 53; 56; 51; 98; 48; 51; 105; 0; 0; 0; 60;
   0; 0; 0; 0; 0; 0; 0; 0; 0; 0; 0; 0; 0; 0; 0; 10; 0; 0; 0; 0; 0; 0; 0; 0; 0; 0; 0; 0; 0; 0; 0; 1; 0; 0; 0; 18;
   0; 0; 0; 111; 98; 115; 118; 97; 108; 117; 101; 64; 100; 117; 112; 108; 105; 99; 97; 116; 101; 2; 0; 0; 0; 11;
   0; 0; 0; 115; 104; 111; 114; 116; 95; 114; 101; 97; 108; 50; 0; 0; 0; 0; 0; 0; 0; 0; 0; 0; 0; 0; 0; 0; 0;
   192; 16; 199; 91; 64; 0; 0; 192; 255; 255; 255; 223; 193; 0; 0; 0; 0; 0; 0; 0; 0; 148; 135; 69; 65; 0; 0;
   148; 135; 197; 65; 0; 0; 175; 37; 20; 66; 0; 0; 148; 135; 69; 66; 0; 0; 121; 233; 118; 66; 0; 0; 175; 37;
   148; 66; 0; 0; 161; 214; 172; 66; 0; 0; 148; 135; 197; 66; 0; 0; 134; 56; 222; 66].

(** docs/_static/data-3.odb *)
Definition data3 : list Z :=
  [255; 255; 79; 68; 65; 1; 0; 0; 0; 0; 0; 0; 0; 5; 0; 0; 0; 32; 0; 0; 0; 49; 48; 57; 56; 57; 48; 102; 54; 54;
   51; 49; 57; 53; 55; 99; 48; 55; 51; 50; 97; 51; 52; 50; 51; 49; 56; 101; 48; 102; 52; 51; 102; 0; 4; 0; 0;
   160; 0; 0; 0; 0; 0; 0; 0; 0; 0; 0; 0; 0; 0; 0; 0; 10; 0; 0; 0; 0; 0; 0; 0; 0; 0; 0; 0; 0; 0; 0; 0; 8; 0; 0;
   0; 6; 0; 0; 0; 101; 120; 112; 118; 101; 114; 1; 0; 0; 0; 8; 0; 0; 0; 99; 111; 110; 115; 116; 97; 110; 116; 0;
   0; 0; 0; 0; 0; 0; 0; 0; 0; 0; 64; 0; 0; 0; 0; 0; 0; 0; 64; 0; 0; 192; 255; 255; 255; 223; 65; 8; 0; 0; 0;
   100; 97; 116; 101; 64; 104; 100; 114; 1; 0; 0; 0; 8; 0; 0; 0; 99; 111; 110; 115; 116; 97; 110; 116; 0; 0; 0;
   0; 0; 0; 0; 64; 47; 70; 115; 65; 0; 0; 0; 64; 47; 70; 115; 65; 0; 0; 192; 255; 255; 255; 223; 65; 10; 0; 0;
   0; 115; 116; 97; 116; 105; 100; 64; 104; 100; 114; 3; 0; 0; 0; 11; 0; 0; 0; 105; 110; 116; 56; 95; 115; 116;
   114; 105; 110; 103; 0; 0; 0; 0; 115; 116; 97; 116; 48; 57; 0; 0; 0; 0; 192; 255; 255; 255; 223; 193; 0; 0;
   192; 255; 255; 255; 223; 193; 10; 0; 0; 0; 6; 0; 0; 0; 115; 116; 97; 116; 48; 48; 0; 0; 0; 0; 0; 0; 0; 0; 6;
   0; 0; 0; 115; 116; 97; 116; 48; 49; 0; 0; 0; 0; 1; 0; 0; 0; 6; 0; 0; 0; 115; 116; 97; 116; 48; 50; 0; 0; 0;
   0; 2; 0; 0; 0; 6; 0; 0; 0; 115; 116; 97; 116; 48; 51; 0; 0; 0; 0; 3; 0; 0; 0; 6; 0; 0; 0; 115; 116; 97; 116;
   48; 52; 0; 0; 0; 0; 4; 0; 0; 0; 6; 0; 0; 0; 115; 116; 97; 116; 48; 53; 0; 0; 0; 0; 5; 0; 0; 0; 6; 0; 0; 0;
   115; 116; 97; 116; 48; 54; 0; 0; 0; 0; 6; 0; 0; 0; 6; 0; 0; 0; 115; 116; 97; 116; 48; 55; 0; 0; 0; 0; 7; 0;
   0; 0; 6; 0; 0; 0; 115; 116; 97; 116; 48; 56; 0; 0; 0; 0; 8; 0; 0; 0; 6; 0; 0; 0; 115; 116; 97; 116; 48; 57;
   0; 0; 0; 0; 9; 0; 0; 0; 9; 0; 0; 0; 119; 105; 103; 111; 115; 64; 104; 100; 114; 3; 0; 0; 0; 11; 0; 0; 0; 105;
   110; 116; 56; 95; 115; 116; 114; 105; 110; 103; 0; 0; 0; 0; 48; 45; 49; 50; 51; 52; 53; 45; 0; 0; 192; 255;
   255; 255; 223; 193; 0; 0; 192; 255; 255; 255; 223; 193; 10; 0; 0; 0; 15; 0; 0; 0; 48; 45; 49; 50; 51; 52; 53;
   45; 48; 45; 54; 55; 56; 57; 48; 0; 0; 0; 0; 0; 0; 0; 0; 15; 0; 0; 0; 48; 45; 49; 50; 51; 52; 53; 45; 48; 45;
   54; 55; 56; 57; 49; 0; 0; 0; 0; 1; 0; 0; 0; 15; 0; 0; 0; 48; 45; 49; 50; 51; 52; 53; 45; 48; 45; 54; 55; 56;
   57; 50; 0; 0; 0; 0; 2; 0; 0; 0; 15; 0; 0; 0; 48; 45; 49; 50; 51; 52; 53; 45; 48; 45; 54; 55; 56; 57; 51; 0;
   0; 0; 0; 3; 0; 0; 0; 15; 0; 0; 0; 48; 45; 49; 50; 51; 52; 53; 45; 48; 45; 54; 55; 56; 57; 52; 0; 0; 0; 0; 4;
   0; 0; 0; 15; 0; 0; 0; 48; 45; 49; 50; 51; 52; 53; 45; 48; 45; 54; 55; 56; 57; 53; 0; 0; 0; 0; 5; 0; 0; 0; 15;
   0; 0; 0; 48; 45; 49; 50; 51; 52; 53; 45; 48; 45; 54; 55; 56; 57; 54; 0; 0; 0; 0; 6; 0; 0; 0; 15; 0; 0; 0; 48;
   45; 49; 50; 51; 52; 53; 45; 48; 45; 54; 55; 56; 57; 55; 0; 0; 0; 0; 7; 0; 0; 0; 15; 0; 0; 0; 48; 45; 49; 50;
   51; 52; 53; 45; 48; 45; 54; 55; 56; 57; 56; 0; 0; 0; 0; 8; 0; 0; 0; 15; 0; 0; 0; 48; 45; 49; 50; 51; 52; 53;
   45; 48; 45; 54; 55; 56; 57; 57; 0; 0; 0; 0; 9; 0; 0; 0; 13; 0; 0; 0; 111; 98; 115; 118; 97; 108; 117; 101;
   64; 98; 111; 100; 121; 2; 0; 0; 0; 11; 0; 0; 0; 115; 104; 111; 114; 116; 95; 114; 101; 97; 108; 50; 0; 0; 0;
   0; 0; 0; 0; 0; 0; 0; 0; 0; 0; 0; 0; 192; 16; 199; 91; 64; 0; 0; 192; 255; 255; 255; 223; 193; 15; 0; 0; 0;
   105; 110; 116; 101; 103; 101; 114; 95; 109; 105; 115; 115; 105; 110; 103; 1; 0; 0; 0; 5; 0; 0; 0; 105; 110;
   116; 49; 54; 0; 0; 0; 0; 0; 0; 0; 0; 0; 0; 0; 0; 0; 0; 0; 0; 0; 225; 176; 64; 0; 0; 192; 255; 255; 255; 223;
   65; 14; 0; 0; 0; 100; 111; 117; 98; 108; 101; 95; 109; 105; 115; 115; 105; 110; 103; 2; 0; 0; 0; 11; 0; 0; 0;
   115; 104; 111; 114; 116; 95; 114; 101; 97; 108; 50; 0; 0; 0; 0; 0; 0; 0; 128; 20; 174; 40; 64; 0; 0; 0; 64;
   225; 154; 69; 64; 0; 0; 192; 255; 255; 255; 223; 193; 15; 0; 0; 0; 98; 105; 116; 102; 105; 101; 108; 100; 95;
   99; 111; 108; 117; 109; 110; 4; 0; 0; 0; 3; 0; 0; 0; 6; 0; 0; 0; 102; 108; 97; 103; 95; 97; 6; 0; 0; 0; 102;
   108; 97; 103; 95; 98; 6; 0; 0; 0; 102; 108; 97; 103; 95; 99; 3; 0; 0; 0; 1; 0; 0; 0; 2; 0; 0; 0; 5; 0; 0; 0;
   5; 0; 0; 0; 105; 110; 116; 49; 54; 0; 0; 0; 0; 0; 0; 0; 0; 0; 0; 0; 0; 0; 0; 0; 0; 0; 56; 143; 64; 0; 0; 192;
   255; 255; 255; 223; 65; 0; 0; 0; 0; 0; 0; 0; 0; 210; 4; 164; 112; 69; 65; 231; 3; 0; 2; 1; 1; 148; 135; 69;
   65; 225; 16; 10; 215; 44; 66; 120; 3; 0; 2; 2; 2; 148; 135; 197; 65; 0; 0; 0; 0; 192; 127; 9; 3; 0; 2; 3; 3;
   175; 37; 20; 66; 210; 4; 164; 112; 69; 65; 154; 2; 0; 2; 4; 4; 148; 135; 69; 66; 225; 16; 10; 215; 44; 66;
   43; 2; 0; 2; 5; 5; 121; 233; 118; 66; 0; 0; 0; 0; 192; 127; 188; 1; 0; 2; 6; 6; 175; 37; 148; 66; 210; 4;
   164; 112; 69; 65; 77; 1; 0; 2; 7; 7; 161; 214; 172; 66; 225; 16; 10; 215; 44; 66; 222; 0; 0; 2; 8; 8; 148;
   135; 197; 66; 0; 0; 0; 0; 192; 127; 111; 0; 0; 2; 9; 9; 134; 56; 222; 66; 210; 4; 164; 112; 69; 65; 0; 0].
