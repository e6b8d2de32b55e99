(* RepoTests.v -- the repository's own unit tests (/repo/test) replayed on the model.
   These are tests, not proofs: they check that the model was read off the code correctly.
   Every [Example] is closed by computation. *)
From Verif Require Import World.

(** test/data/ConfigData.cpp *)
Definition testData1 : list (list Z) :=
  map (fun s => s ++ repeat 0 (9 - List.length s)) [ zs "[lokname"; zs "n]" ++ nl ++ zs "  .we"; zs "rt=BR 96"; zs " 1234" ++ nl ++ zs "  "; zs ".wert=ET";
    zs " 515" ++ nl ++ zs "[nu"; zs "mloks]" ++ nl ++ zs " "; zs " .wert=1"; zs "2" ++ nl ].
Definition testData2 : list (list Z) :=
[ [91; 108; 111; 107; 111; 109; 111; 116];
  [105; 118; 101; 93; 10; 32; 32; 32];
  [108; 111; 107; 10; 32; 32; 32; 32];
  [32; 46; 117; 105; 100; 61; 48; 120];
  [99; 48; 48; 97; 10; 32; 32; 32];
  [32; 46; 110; 97; 109; 101; 61; 57];
  [56; 32; 49; 48; 48; 49; 10; 32];
  [32; 46; 97; 100; 114; 101; 115; 115];
  [101; 61; 48; 120; 97; 10; 32; 32];
  [32; 46; 116; 121; 112; 61; 100; 99];
  [99; 10; 32; 32; 32; 32; 32; 32];
  [32; 46; 109; 102; 120; 117; 105; 100];
  [61; 48; 120; 49; 10; 32; 32; 32];
  [32; 46; 115; 121; 109; 98; 111; 108];
  [61; 50; 50; 10; 32; 32; 32; 32];
  [32; 46; 115; 121; 109; 98; 111; 108];
  [61; 50; 50; 10; 32; 32; 32; 32];
  [32; 46; 97; 118; 61; 54; 48; 10];
  [32; 46; 98; 118; 61; 52; 48; 10];
  [32; 46; 118; 111; 108; 117; 109; 101];
  [61; 49; 48; 48; 10; 32; 32; 32];
  [32; 46; 118; 101; 108; 111; 99; 105];
  [116; 121; 61; 48; 10; 32; 32; 32];
  [32; 46; 114; 105; 99; 104; 116; 117];
  [110; 103; 61; 48; 10; 32; 32; 32];
  [32; 46; 118; 109; 97; 120; 61; 50];
  [53; 53; 10; 32; 32; 32; 32; 32];
  [32; 46; 118; 109; 105; 110; 61; 49];
  [51; 10; 32; 32; 32; 32; 32; 32];
  [32; 46; 102; 107; 116; 10; 32; 32];
  [32; 46; 46; 116; 121; 112; 61; 52];
  [10; 32; 32; 32; 32; 32; 32; 32];
  [32; 46; 46; 100; 97; 117; 101; 114];
  [61; 48; 10; 32; 32; 32; 32; 32];
  [32; 46; 46; 119; 101; 114; 116; 61];
  [48; 10; 32; 32; 32; 32; 32; 32];
  [32; 46; 102; 107; 116; 10; 32; 32];
  [32; 46; 46; 116; 121; 112; 61; 53];
  [49; 10; 32; 32; 32; 32; 32; 32];
  [32; 46; 46; 100; 97; 117; 101; 114];
  [61; 48; 10; 32; 32; 32; 32; 32];
  [32; 46; 46; 119; 101; 114; 116; 61];
  [48; 10; 32; 32; 32; 32; 32; 32];
  [32; 46; 102; 107; 116; 10; 32; 32];
  [32; 46; 46; 116; 121; 112; 61; 53];
  [50; 10; 32; 32; 32; 32; 32; 32];
  [32; 46; 46; 100; 97; 117; 101; 114];
  [61; 48; 10; 32; 32; 32; 32; 32];
  [32; 46; 46; 119; 101; 114; 116; 61];
  [48; 10; 32; 32; 32; 32; 32; 32];
  [32; 46; 102; 107; 116; 10; 32; 32];
  [32; 46; 46; 116; 121; 112; 61; 53];
  [51; 10; 32; 32; 32; 32; 32; 32];
  [32; 46; 46; 100; 97; 117; 101; 114];
  [61; 48; 10; 32; 32; 32; 32; 32];
  [32; 46; 46; 119; 101; 114; 116; 61];
  [48; 10; 32; 32; 32; 32; 32; 32];
  [32; 46; 102; 107; 116; 10; 32; 32];
  [32; 46; 46; 116; 121; 112; 61; 56];
  [10; 32; 32; 32; 32; 32; 32; 32];
  [32; 46; 46; 100; 97; 117; 101; 114];
  [61; 48; 10; 32; 32; 32; 32; 32];
  [32; 46; 46; 119; 101; 114; 116; 61];
  [48; 10; 32; 32; 32; 32; 32; 32];
  [32; 46; 102; 107; 116; 10; 32; 32];
  [32; 46; 46; 116; 121; 112; 61; 48];
  [10; 32; 32; 32; 32; 32; 32; 32];
  [32; 46; 46; 100; 97; 117; 101; 114];
  [61; 48; 10; 32; 32; 32; 32; 32];
  [32; 46; 46; 119; 101; 114; 116; 61];
  [48; 10; 32; 32; 32; 32; 32; 32];
  [32; 46; 102; 107; 116; 10; 32; 32];
  [32; 46; 46; 116; 121; 112; 61; 48];
  [10; 32; 32; 32; 32; 32; 32; 32];
  [32; 46; 46; 100; 97; 117; 101; 114];
  [61; 48; 10; 32; 32; 32; 32; 32];
  [32; 46; 46; 119; 101; 114; 116; 61];
  [48; 10; 32; 32; 32; 32; 32; 32];
  [32; 46; 102; 107; 116; 10; 32; 32];
  [32; 46; 46; 116; 121; 112; 61; 48];
  [10; 32; 32; 32; 32; 32; 32; 32];
  [32; 46; 46; 100; 97; 117; 101; 114];
  [61; 48; 10; 32; 32; 32; 32; 32];
  [32; 46; 46; 119; 101; 114; 116; 61];
  [48; 10; 32; 32; 32; 32; 32; 32];
  [32; 46; 102; 107; 116; 10; 32; 32];
  [32; 46; 46; 116; 121; 112; 61; 48];
  [10; 32; 32; 32; 32; 32; 32; 32];
  [32; 46; 46; 100; 97; 117; 101; 114];
  [61; 48; 10; 32; 32; 32; 32; 32];
  [32; 46; 46; 119; 101; 114; 116; 61];
  [48; 10; 32; 32; 32; 32; 32; 32];
  [32; 46; 102; 107; 116; 10; 32; 32];
  [32; 46; 46; 116; 121; 112; 61; 48];
  [10; 32; 32; 32; 32; 32; 32; 32];
  [32; 46; 46; 100; 97; 117; 101; 114];
  [61; 48; 10; 32; 32; 32; 32; 32];
  [32; 46; 46; 119; 101; 114; 116; 61];
  [48; 10; 32; 32; 32; 32; 32; 32];
  [32; 46; 102; 107; 116; 10; 32; 32];
  [32; 46; 46; 116; 121; 112; 61; 48];
  [10; 32; 32; 32; 32; 32; 32; 32];
  [32; 46; 46; 100; 97; 117; 101; 114];
  [61; 48; 10; 32; 32; 32; 32; 32];
  [32; 46; 46; 119; 101; 114; 116; 61];
  [48; 10; 32; 32; 32; 32; 32; 32];
  [32; 46; 102; 107; 116; 10; 32; 32];
  [32; 46; 46; 116; 121; 112; 61; 48];
  [10; 32; 32; 32; 32; 32; 32; 32];
  [32; 46; 46; 100; 97; 117; 101; 114];
  [61; 48; 10; 32; 32; 32; 32; 32];
  [32; 46; 46; 119; 101; 114; 116; 61];
  [48; 10; 32; 32; 32; 32; 32; 32];
  [32; 46; 102; 107; 116; 10; 32; 32];
  [32; 46; 46; 116; 121; 112; 61; 48];
  [10; 32; 32; 32; 32; 32; 32; 32];
  [32; 46; 46; 100; 97; 117; 101; 114];
  [61; 48; 10; 32; 32; 32; 32; 32];
  [32; 46; 46; 119; 101; 114; 116; 61];
  [48; 10; 32; 32; 32; 32; 32; 32];
  [32; 46; 102; 107; 116; 10; 32; 32];
  [32; 46; 46; 116; 121; 112; 61; 48];
  [10; 32; 32; 32; 32; 32; 32; 32];
  [32; 46; 46; 100; 97; 117; 101; 114];
  [61; 48; 10; 32; 32; 32; 32; 32];
  [32; 46; 46; 119; 101; 114; 116; 61];
  [48; 10; 32; 32; 32; 32; 32; 32];
  [32; 46; 102; 107; 116; 10; 32; 32];
  [32; 46; 46; 116; 121; 112; 61; 48];
  [10; 32; 32; 32; 32; 32; 32; 32];
  [32; 46; 46; 100; 97; 117; 101; 114];
  [61; 48; 10; 32; 32; 32; 32; 32];
  [32; 46; 46; 119; 101; 114; 116; 61];
  [48; 10; 32; 32; 32; 32; 32; 32];
  [32; 46; 102; 107; 116; 10; 32; 32];
  [32; 46; 46; 116; 121; 112; 61; 48];
  [10; 32; 32; 32; 32; 32; 32; 32];
  [32; 46; 46; 100; 97; 117; 101; 114];
  [61; 48; 10; 32; 32; 32; 32; 32];
  [32; 46; 46; 119; 101; 114; 116; 61];
  [48; 10; 32; 32; 32; 32; 32; 32] ].
Definition testData3 : list (list Z) :=
[ [91; 108; 111; 107; 111; 109; 111; 116];
  [105; 118; 101; 93; 10; 32; 32; 32];
  [108; 111; 107; 10; 32; 32; 32; 32];
  [32; 46; 117; 105; 100; 61; 48; 120];
  [99; 48; 51; 50; 10; 32; 32; 32];
  [32; 46; 110; 97; 109; 101; 61; 68];
  [72; 71; 32; 53; 48; 48; 10; 32];
  [32; 46; 97; 100; 114; 101; 115; 115];
  [101; 61; 48; 120; 51; 50; 10; 32];
  [32; 46; 116; 121; 112; 61; 100; 99];
  [99; 10; 32; 32; 32; 32; 32; 32];
  [32; 46; 109; 102; 120; 117; 105; 100];
  [61; 48; 120; 49; 10; 32; 32; 32];
  [32; 46; 115; 121; 109; 98; 111; 108];
  [61; 49; 10; 32; 32; 32; 32; 32];
  [32; 46; 115; 121; 109; 98; 111; 108];
  [61; 49; 10; 32; 32; 32; 32; 32];
  [32; 46; 97; 118; 61; 54; 48; 10];
  [32; 46; 98; 118; 61; 52; 48; 10];
  [32; 46; 118; 111; 108; 117; 109; 101];
  [61; 49; 48; 48; 10; 32; 32; 32];
  [32; 46; 118; 101; 108; 111; 99; 105];
  [116; 121; 61; 48; 10; 32; 32; 32];
  [32; 46; 114; 105; 99; 104; 116; 117];
  [110; 103; 61; 48; 10; 32; 32; 32];
  [32; 46; 118; 109; 97; 120; 61; 50];
  [53; 53; 10; 32; 32; 32; 32; 32];
  [32; 46; 118; 109; 105; 110; 61; 49];
  [51; 10; 32; 32; 32; 32; 32; 32];
  [32; 46; 102; 107; 116; 10; 32; 32];
  [32; 46; 46; 116; 121; 112; 61; 52];
  [10; 32; 32; 32; 32; 32; 32; 32];
  [32; 46; 46; 100; 97; 117; 101; 114];
  [61; 48; 10; 32; 32; 32; 32; 32];
  [32; 46; 46; 119; 101; 114; 116; 61];
  [48; 10; 32; 32; 32; 32; 32; 32];
  [32; 46; 102; 107; 116; 10; 32; 32];
  [32; 46; 46; 116; 121; 112; 61; 53];
  [49; 10; 32; 32; 32; 32; 32; 32];
  [32; 46; 46; 100; 97; 117; 101; 114];
  [61; 48; 10; 32; 32; 32; 32; 32];
  [32; 46; 46; 119; 101; 114; 116; 61];
  [48; 10; 32; 32; 32; 32; 32; 32];
  [32; 46; 102; 107; 116; 10; 32; 32];
  [32; 46; 46; 116; 121; 112; 61; 53];
  [50; 10; 32; 32; 32; 32; 32; 32];
  [32; 46; 46; 100; 97; 117; 101; 114];
  [61; 48; 10; 32; 32; 32; 32; 32];
  [32; 46; 46; 119; 101; 114; 116; 61];
  [48; 10; 32; 32; 32; 32; 32; 32];
  [32; 46; 102; 107; 116; 10; 32; 32];
  [32; 46; 46; 116; 121; 112; 61; 53];
  [51; 10; 32; 32; 32; 32; 32; 32];
  [32; 46; 46; 100; 97; 117; 101; 114];
  [61; 48; 10; 32; 32; 32; 32; 32];
  [32; 46; 46; 119; 101; 114; 116; 61];
  [48; 10; 32; 32; 32; 32; 32; 32];
  [32; 46; 102; 107; 116; 10; 32; 32];
  [32; 46; 46; 116; 121; 112; 61; 56];
  [10; 32; 32; 32; 32; 32; 32; 32];
  [32; 46; 46; 100; 97; 117; 101; 114];
  [61; 48; 10; 32; 32; 32; 32; 32];
  [32; 46; 46; 119; 101; 114; 116; 61];
  [48; 10; 32; 32; 32; 32; 32; 32];
  [32; 46; 102; 107; 116; 10; 32; 32];
  [32; 46; 46; 116; 121; 112; 61; 48];
  [10; 32; 32; 32; 32; 32; 32; 32];
  [32; 46; 46; 100; 97; 117; 101; 114];
  [61; 48; 10; 32; 32; 32; 32; 32];
  [32; 46; 46; 119; 101; 114; 116; 61];
  [48; 10; 32; 32; 32; 32; 32; 32];
  [32; 46; 102; 107; 116; 10; 32; 32];
  [32; 46; 46; 116; 121; 112; 61; 48];
  [10; 32; 32; 32; 32; 32; 32; 32];
  [32; 46; 46; 100; 97; 117; 101; 114];
  [61; 48; 10; 32; 32; 32; 32; 32];
  [32; 46; 46; 119; 101; 114; 116; 61];
  [48; 10; 32; 32; 32; 32; 32; 32];
  [32; 46; 102; 107; 116; 10; 32; 32];
  [32; 46; 46; 116; 121; 112; 61; 48];
  [10; 32; 32; 32; 32; 32; 32; 32];
  [32; 46; 46; 100; 97; 117; 101; 114];
  [61; 48; 10; 32; 32; 32; 32; 32];
  [32; 46; 46; 119; 101; 114; 116; 61];
  [48; 10; 32; 32; 32; 32; 32; 32];
  [32; 46; 102; 107; 116; 10; 32; 32];
  [32; 46; 46; 116; 121; 112; 61; 48];
  [10; 32; 32; 32; 32; 32; 32; 32];
  [32; 46; 46; 100; 97; 117; 101; 114];
  [61; 48; 10; 32; 32; 32; 32; 32];
  [32; 46; 46; 119; 101; 114; 116; 61];
  [48; 10; 32; 32; 32; 32; 32; 32];
  [32; 46; 102; 107; 116; 10; 32; 32];
  [32; 46; 46; 116; 121; 112; 61; 48];
  [10; 32; 32; 32; 32; 32; 32; 32];
  [32; 46; 46; 100; 97; 117; 101; 114];
  [61; 48; 10; 32; 32; 32; 32; 32];
  [32; 46; 46; 119; 101; 114; 116; 61];
  [48; 10; 32; 32; 32; 32; 32; 32];
  [32; 46; 102; 107; 116; 10; 32; 32];
  [32; 46; 46; 116; 121; 112; 61; 48];
  [10; 32; 32; 32; 32; 32; 32; 32];
  [32; 46; 46; 100; 97; 117; 101; 114];
  [61; 48; 10; 32; 32; 32; 32; 32];
  [32; 46; 46; 119; 101; 114; 116; 61];
  [48; 10; 32; 32; 32; 32; 32; 32];
  [32; 46; 102; 107; 116; 10; 32; 32];
  [32; 46; 46; 116; 121; 112; 61; 48];
  [10; 32; 32; 32; 32; 32; 32; 32];
  [32; 46; 46; 100; 97; 117; 101; 114];
  [61; 48; 10; 32; 32; 32; 32; 32];
  [32; 46; 46; 119; 101; 114; 116; 61];
  [48; 10; 32; 32; 32; 32; 32; 32];
  [32; 46; 102; 107; 116; 10; 32; 32];
  [32; 46; 46; 116; 121; 112; 61; 48];
  [10; 32; 32; 32; 32; 32; 32; 32];
  [32; 46; 46; 100; 97; 117; 101; 114];
  [61; 48; 10; 32; 32; 32; 32; 32];
  [32; 46; 46; 119; 101; 114; 116; 61];
  [48; 10; 32; 32; 32; 32; 32; 32];
  [32; 46; 102; 107; 116; 10; 32; 32];
  [32; 46; 46; 116; 121; 112; 61; 48];
  [10; 32; 32; 32; 32; 32; 32; 32];
  [32; 46; 46; 100; 97; 117; 101; 114];
  [61; 48; 10; 32; 32; 32; 32; 32];
  [32; 46; 46; 119; 101; 114; 116; 61];
  [48; 10; 32; 32; 32; 32; 32; 32];
  [32; 46; 102; 107; 116; 10; 32; 32];
  [32; 46; 46; 116; 121; 112; 61; 48];
  [10; 32; 32; 32; 32; 32; 32; 32];
  [32; 46; 46; 100; 97; 117; 101; 114];
  [61; 48; 10; 32; 32; 32; 32; 32];
  [32; 46; 46; 119; 101; 114; 116; 61];
  [48; 10; 32; 32; 32; 32; 32; 32];
  [32; 46; 102; 107; 116; 10; 32; 32];
  [32; 46; 46; 116; 121; 112; 61; 48];
  [10; 32; 32; 32; 32; 32; 32; 32];
  [32; 46; 46; 100; 97; 117; 101; 114];
  [61; 48; 10; 32; 32; 32; 32; 32];
  [32; 46; 46; 119; 101; 114; 116; 61];
  [48; 10; 32; 32; 32; 32; 32; 32] ].

Definition lw := 64.
Definition bytes_eqb (a b : list Z) : bool := if list_eq_dec Z.eq_dec a b then true else false.

(** test/RR32Can/CrcTest.cpp data1: valid exactly after the last byte *)
Definition crcData : list Z := [
      0x5B; 0x6C; 0x6F; 0x6B; 0x5D; 0x0A; 0x20; 0x20;
      0x20; 0x2E; 0x6E; 0x61; 0x6D; 0x65; 0x3D; 0x39;
      0x38; 0x20; 0x31; 0x30; 0x30; 0x31; 0x0A; 0x20;
      0x5B; 0x6C; 0x6F; 0x6B; 0x5D; 0x0A; 0x20; 0x20;
      0x20; 0x2E; 0x6E; 0x61; 0x6D; 0x65; 0x3D; 0x42;
      0x52; 0x20; 0x38; 0x36; 0x20; 0x35; 0x38; 0x32;
      0x0A; 0x20; 0x20; 0x20; 0x20; 0x20; 0x20; 0x20;
      0x5B; 0x6E; 0x75; 0x6D; 0x6C; 0x6F; 0x6B; 0x73;
      0x5D; 0x0A; 0x20; 0x20; 0x20; 0x20; 0x20; 0x20;
      0x20; 0x2E; 0x77; 0x65; 0x72; 0x74; 0x3D; 0x31;
      0x32; 0x0A; 0x20; 0x20; 0x20; 0x20; 0x20; 0x20].
Example crc_data1 :
  forallb (fun n => match crc_feed (crc_loadReference crc_reset 0xDEC2) (firstn n crcData) with
                    | Ok c => match crc_isValid c with Ok v => Bool.eqb v (Nat.eqb n 88) | _ => false end
                    | _ => false end) (List.seq 1 88) = true.
Proof. vm_compute. reflexivity. Qed.

(** test/RR32Can/MessagesTest.cpp *)
Example identifier_accessory_request :
  (id_getPriority 0x00163F15, id_getCommand 0x00163F15, id_isResponse 0x00163F15, id_getHash 0x00163F15)
  = (0, kAccessorySwitch, false, 16149).
Proof. vm_compute. reflexivity. Qed.
Example identifier_accessory_response :
  (id_getPriority 0x0017271C, id_getCommand 0x0017271C, id_isResponse 0x0017271C, id_getHash 0x0017271C)
  = (0, kAccessorySwitch, true, 10012).
Proof. vm_compute. reflexivity. Qed.
Example turnoutPacket :
  to_setPower (to_setDirection (to_setLocid (to_initData data0) (MachineTurnoutAddress_of_human 11)) TD_GREEN) true
  = mkData 6 [0; 0; 0; 10; 1; 1; 0; 0; 0].
Proof. vm_compute. reflexivity. Qed.
Example turnoutPacket_addrProto :
  map (fun a => let d := to_setLocid (to_initData data0) (MachineTurnoutAddress_of_human a) in
                (to_getRailProtocol d, turnout_getNumericAddress (to_getLocid d))) [0x3012; 0x3812; 0x2812]
  = [(P_MM1, 0x11); (P_DCC, 0x11); (P_SX1, 0x11)].
Proof. vm_compute. reflexivity. Qed.
Example turnoutPacket_serialize :
  to_setDirection (to_setPower (to_setLocid (to_initData data0)
     (turnout_or (MachineTurnoutAddress_of_human 320) kMMAccessoryAddrStart)) true) TD_GREEN
  = mkData 6 [0; 0; 0x31; 0x3F; 1; 1; 0; 0; 0].
Proof. vm_compute. reflexivity. Qed.
(** test/RR32Can/TypesTest.cpp *)
Example types_addProtocol :
  (turnout_setProtocol 66 P_MM2, turnout_setProtocol 66 P_DCC, loco_setProtocol 66 P_MM2,
   loco_setProtocol 66 P_DCC, loco_getNumericAddress 0xC042)
  = (0x3042, 0x3842, 66, 0xC042, 66).
Proof. vm_compute. reflexivity. Qed.

(** test/RR32Can/BufferManagerTest.cpp *)
Definition buf16 : bufm := mkBuf (repeat 0 16) 0 16.
Definition with_data (s : string) : res bufm := bset buf16 (lit s).
Definition shows (r : res bufm) (s : string) (len : Z) : bool :=
  match r with
  | Ok b => match c_str (mem b) with Ok t => bytes_eqb t (zs s) && (blen b =? len) && (bcap b =? 16) | _ => false end
  | _ => false
  end.
Example buf_set : shows (with_data "Testdaten") "Testdaten" 9 && shows (with_data "TestdatenTestda") "TestdatenTestda" 15
  && shows (with_data "TestdatenTestdat") "TestdatenTestda" 15 && shows (with_data "TestdatenTestdate") "TestdatenTestda" 15 = true.
Proof. vm_compute. reflexivity. Qed.
Example buf_pop_front :
  shows (b <- with_data "0123456789" ;; bpop_front b 3) "3456789" 7 &&
  shows (b <- with_data "0123456789" ;; bpop_front b 10) "" 0 &&
  shows (b <- with_data "0123456789" ;; bpop_front b 11) "" 0 &&
  shows (b <- with_data "0123456789" ;; bpop_front b 20) "" 0 = true.
Proof. vm_compute. reflexivity. Qed.
Example buf_at_write :
  shows (b <- with_data "0123456789" ;; b <- bput b 0 97 ;; b <- bput b 5 102 ;; b <- bput b 9 106 ;; bput b 10 107)
        "a1234f678k" 10 = true.
Proof. vm_compute. reflexivity. Qed.
Example buf_push_back :
  (a <- with_data "0123456789" ;; b <- with_data "abcdefghij" ;; '(c, n) <- bpush a b ;; Ok (mem c, blen c, bfull c, n))
  = Ok (zs "0123456789abcdef", 16, true, 6).
Proof. vm_compute. reflexivity. Qed.
Example buf_push_back_self :
  (a <- with_data "0123456789" ;; '(c, n) <- bpush a a ;; Ok (mem c, blen c, n)) = Ok (zs "0123456789012345", 16, 6).
Proof. vm_compute. reflexivity. Qed.
Example buf_move_back :
  (a <- with_data "0123456789" ;; b <- with_data "abcdefghij" ;; '(c, d, n) <- bmove a b ;;
   t <- c_str (mem d) ;; Ok (mem c, t, blen d)) = Ok (zs "0123456789abcdef", zs "ghij", 4).
Proof. vm_compute. reflexivity. Qed.
Example buf_find :
  (b <- with_data "0123456789" ;; Ok (
    map (fun i => bfind_char b (48 + i) 0) [0;1;2;3;4;5;6;7;8;9],
    map (fun i => bfind_char b (48 + i) 5) [0;4;5;9],
    map (fun i => bfind_char b (48 + i) 10) [0;4;5;9],
    map (fun s => bfind_chars b (lit s) 0) ["0123"; "123"; "3210"; "4"; "4567"; "567"; "7645"]%string,
    map (fun s => bfind_chars b (lit s) 4) ["0123"; "123"; "3210"; "4"]%string))
  = Ok (map Ok [0;1;2;3;4;5;6;7;8;9], map Ok [255;255;5;9], map Ok [255;255;255;255],
        map Ok [0;1;0;4;4;5;4], map Ok [255;255;255;4]).
Proof. vm_compute. reflexivity. Qed.
Example buf_sub :
  (b <- with_data "0123456789" ;; Ok (
    map (fun o => v <- bsub1 b o ;; Ok (16 - zlen (mem v), blen v, bcap v)) [0; 1; 5; 9; 10; 11; 15; 16; 17],
    map (fun e => v <- bsub b 5 e ;; Ok (16 - zlen (mem v), blen v, bcap v)) [8; 10; 3]))
  = Ok (map Ok [(0,10,16); (1,9,15); (5,5,11); (9,1,7); (10,0,6); (11,0,5); (15,0,1); (16,0,0); (16,0,0)],
        map Ok [(5,3,11); (5,5,11); (5,0,11)]).
Proof. vm_compute. reflexivity. Qed.

(** test/RR32Can/TextParserTest.cpp *)
Definition tp0 : TP := tp_setConsumer tp_new (Some 0%nat).
Definition inp (s : list Z) (len : Z) : bufm := mkBuf s len len.
Fixpoint feed (t : TP) (l : list bufm) : res (TP * list triple) :=
  match l with
  | [] => Ok (t, [])
  | i :: r => '(t, e) <- tp_addText t i ;; '(t, e2) <- feed t r ;; Ok (t, e ++ e2)
  end.
Definition txt (b : bufm) : list Z := match c_str (mem b) with Ok s => s | _ => [-1] end.
Definition texts (r : res (TP * list triple)) : res (PState * list (list Z * list Z * list Z)) :=
  '(t, e) <- r ;; Ok (tp_state t, map (fun '(s, k, v) => (txt s, txt k, txt v)) e).
Definition T (a b c : string) := (zs a, zs b, zs c).
Example tp_oversized :
  texts (feed tp0 [inp (zs "This data is muuuuuuch too long to fit into the input buffer.") 61])
  = Ok (ERROR, [T "ERROR" "ERROR" "ERROR"]).
Proof. vm_compute. reflexivity. Qed.
Example tp_oversized_exact : texts (feed tp0 [inp (zs "This data is muuuuuuch too lon") 30]) = Ok (LOOKING, []).
Proof. vm_compute. reflexivity. Qed.
Example tp_oversized_plusone :
  texts (feed tp0 [inp (zs "This data is muuuuuuch too long") 31]) = Ok (ERROR, [T "ERROR" "ERROR" "ERROR"]).
Proof. vm_compute. reflexivity. Qed.
Definition strlen0 (s : list Z) : Z := match c_strlen s with Ok n => n | _ => -1 end.
Example tp_testData1 :
  texts (feed tp0 (map (fun s => inp s (strlen0 s)) testData1))
  = Ok (LOOKING, [T "loknamen" "wert" "BR 96 1234"; T "loknamen" "wert" "ET 515"; T "numloks" "wert" "12"]).
Proof. vm_compute. reflexivity. Qed.
Definition count (x : list Z * list Z * list Z) (l : list (list Z * list Z * list Z)) : nat :=
  List.length (filter (fun y => let '(a, b, c) := x in let '(a', b', c') := y in
    bytes_eqb a a' && bytes_eqb b b' && bytes_eqb c c') l).
Example tp_testData2 :
  match texts (feed tp0 (map (fun s => inp s 8) testData2)) with
  | Ok (s, l) => (s, List.length l,
      map (fun x => count (T "lokomotive" (fst x) (snd x)) l)
        [("uid","0xc00a"); ("name","98 1001"); ("typ","dcc"); ("adresse","0xa"); ("mfxuid","0x1"); ("symbol","22");
         ("av","60"); ("bv","40"); ("volume","100"); ("velocity","0"); ("richtung","0"); ("vmax","255"); ("vmin","13");
         ("fkt",""); (".wert","0"); (".typ","4"); (".typ","51"); (".typ","52"); (".typ","53"); (".typ","8"); (".typ","0");
         (".dauer","0")]%string)
  | _ => (ERROR, 0%nat, [])
  end = (LOOKING, 78%nat, [1;1;1;1;1;2;1;1;1;1;1;1;1;16;16;1;1;1;1;1;11;16]%nat).
Proof. vm_compute. reflexivity. Qed.

(** test/integration/EngineLibraryTest.cpp: station 0 with tx callback 7, parser 0, consumers
    0 = list, 1 = engine (end callback 9), engine 0 = destination, 1 = the requested one *)
Definition w0 : world :=
  mkW [mkStation 0 (mkCbs None None None None None)] [LibP sp_new]
      [ListC Undef [si_reset; si_reset] Undef Undef Undef; LocoC Undef Undef] [lo_reset; lo_reset].
Definition setup : list op :=
  [ConsumerSetEndCallback 1 (Some 9%nat); ConsumerSetEndCallback 0 (Some 9%nat);
   OnStation 0 (Begin 0 (mkCbs (Some 7%nat) None None None None))].
Definition data_frames (l : list (list Z)) : list op :=
  map (fun b => match fr_Config_Data b with Ok f => OnStation 0 (HandlePacket f) | _ => OnStation 0 Loop end) l.
Definition outcome (l : list op) : res (list event * list CObj * list Loco) :=
  '(w, t) <- run lw l w0 ;; Ok (calls t, w_conss w, w_engines w).
Definition ends (t : list event) : list event :=
  filter (fun e => match e with EvEndComplete _ _ | EvEndAborted _ _ => true | _ => false end) t.
Definition reqs (l : list (string * Z)) : res (list CanFrame) :=
  fold_right (fun '(s, n) r => f <- fr_Request_Config_Data_n (lit s) n ;; r <- r ;; Ok (f :: r)) (Ok []) l.

Definition list_download : list op :=
  setup ++ [ParserSetConsumer 0 (Some 0%nat); OnStation 0 (RequestEngineList 0 (Some 0%nat));
            OnStation 0 (HandlePacket (fr_Config_Data_Header 72 0x34e1))] ++ data_frames testData1.
Example download_enginelist :
  ('(t, c, _) <- outcome list_download ;; Ok (sent t, ends t,
     match c with ListC co [a; b] n _ _ :: _ => Some (co, txt (mkBuf (si_name a) 0 0), txt (mkBuf (si_name b) 0 0), n) | _ => None end))
  = (fr <- reqs [("loknamen", 8); ("0 2", 3)]%string ;;
     Ok (fr, [EvEndComplete 9 0], Some (Def true, zs "BR 96 1234", zs "ET 515", Def 12))).
Proof. vm_compute. reflexivity. Qed.

Definition engine_download (len crc : Z) (data : list (list Z)) : list op :=
  setup ++ [ParserSetConsumer 0 (Some 1%nat); OnEngine 1 (ESetName (lit "98 1001"));
            OnStation 0 (RequestEngine (RefEngine 1) (Some 0%nat)); LocoSetEngine 1 (Some 0%nat);
            OnStation 0 (HandlePacket (fr_Config_Data_Header len crc))] ++ data_frames data.
Definition engine_outcome (l : list op) :=
  '(t, _, e) <- outcome l ;; Ok (sent t, ends t,
     match e with l :: _ => Some (ld_uid (lo_data l), txt (mkBuf (lo_proto l) 0 0), ld_addr (lo_data l), si_avail (lo_info l)) | _ => None end).
Example download_engine_1 :
  engine_outcome (engine_download (141 * 8) 0xdecc testData2)
  = (fr <- reqs [("lokinfo", 8); ("98 1001", 8); ("", 8)]%string ;;
     Ok (fr, [EvEndComplete 9 1], Some (0xc00a, zs "dcc", 0xa, FULL_DETAILS))).
Proof. vm_compute. reflexivity. Qed.
Example download_engine_2 :
  engine_outcome (engine_download (141 * 8) 0x9B2F testData3)
  = (fr <- reqs [("lokinfo", 8); ("98 1001", 8); ("", 8)]%string ;;
     Ok (fr, [EvEndComplete 9 1], Some (0xc032, zs "dcc", 0x32, FULL_DETAILS))).
Proof. vm_compute. reflexivity. Qed.

(** test/integration/StationTest.cpp: tx 1, system 2, engine 3, accessory 4 *)
Definition w1 : world :=
  mkW [mkStation 0 (mkCbs (Some 1%nat) (Some 2%nat) (Some 3%nat) (Some 4%nat) None)]
      [UserP (fun h => match h with [] => SS_IDLE | _ => SS_FIRST end) []] [] [].
Definition ev (o : sop) : res (list event) := '(_, t) <- step lw (OnStation 0 o) w1 ;; Ok (calls t).
Example station_receive :
  map ev [HandlePacket (fr_System_Stop false); HandlePacket (fr_System_Go false); HandlePacket (fr_System_Stop true);
          HandlePacket (fr_System_Go true); HandlePacket (fr_System_LocoEmStop false (MFX_loco 0x803));
          HandlePacket (fr_Turnout false (MM2_turnout 41) TD_GREEN true);
          HandlePacket (fr_Turnout true (MM2_turnout 41) TD_GREEN true)]
  = map Ok [[EvSystem 2 false false]; [EvSystem 2 true false]; [EvSystem 2 false true]; [EvSystem 2 true true];
            [EvVelocity 3 0x4803 0];
            [EvAccessory 4 (mkData 6 [0; 0; 0x30; 0x29; 1; 1; 0; 0; 0]) false];
            [EvAccessory 4 (mkData 6 [0; 0; 0x30; 0x29; 1; 1; 0; 0; 0]) true]].
Proof. vm_compute. reflexivity. Qed.
Example station_send :
  map ev [SendSystemGo; SendSystemStop;
          SendAccessoryPacket (MachineTurnoutAddress_of_human 42) P_MM2 TD_GREEN 1;
          SendAccessoryPacket (MachineTurnoutAddress_of_human 42) P_DCC TD_GREEN 1]
  = map (fun f => Ok [EvTx 1 f]) [fr_System_Go false; fr_System_Stop false;
          fr_Turnout false (MM2_turnout 41) TD_GREEN true; fr_Turnout false (DCC_turnout 41) TD_GREEN true].
Proof. vm_compute. reflexivity. Qed.
Example station_debug_text :
  ('(_, t) <- step lw (OnStation 0 (HandlePacket (mkFrame 0x00846B5B (mkData 8 (zs "Ende Sen" ++ [0]))))) w1 ;; Ok (console t))
  = Ok (zs "Debug Text: 'Ende Sen'" ++ nl).
Proof. vm_compute. reflexivity. Qed.
Example station_config_with_parser :
  ('(_, t) <- run lw (OnStation 0 (RequestEngineList 0 (Some 0%nat)) :: data_frames testData1) w1 ;;
   Ok (map (fun e => match e with EvCfg _ CStart => 1 | EvCfg _ (CAdd _) => 2 | EvTx _ _ => 3 | _ => 0 end) (calls t)))
  = Ok ([1; 3; 3] ++ repeat 2 9).
Proof. vm_compute. reflexivity. Qed.
