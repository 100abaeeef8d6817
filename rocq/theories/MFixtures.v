(** The constant waveform served for every track. *)

From Verif Require Import Base.

(** src/rekordbox/library/fixtures.rs:1-116, [PREVIEW_WAVEFORM_RESPONSE]; the
    904 bytes are copied in order, written in decimal. *)
Definition preview_waveform_response : bytes :=
  [24; 0; 21; 0; 22; 0; 24; 0; 20; 0; 13; 0; 24; 0; 21; 0;
   23; 0; 23; 0; 21; 0; 23; 0; 24; 0; 23; 0; 24; 0; 23; 0;
   21; 1; 13; 1; 23; 0; 23; 0; 23; 0; 23; 0; 23; 0; 21; 0;
   24; 0; 21; 0; 22; 0; 24; 0; 17; 1; 17; 1; 23; 0; 23; 0;
   21; 0; 23; 0; 24; 0; 22; 0; 21; 0; 21; 0; 22; 3; 21; 3;
   18; 3; 19; 3; 11; 5; 15; 5; 20; 3; 18; 3; 18; 3; 18; 3;
   19; 2; 19; 2; 19; 3; 21; 3; 22; 3; 18; 3; 15; 5; 8; 5;
   21; 3; 20; 3; 18; 3; 18; 3; 19; 0; 22; 0; 18; 3; 19; 3;
   21; 3; 19; 3; 18; 3; 19; 3; 8; 5; 14; 5; 22; 3; 18; 3;
   18; 2; 19; 2; 22; 3; 13; 3; 19; 3; 21; 3; 14; 5; 16; 5;
   18; 3; 19; 3; 19; 3; 19; 3; 18; 3; 18; 3; 19; 0; 22; 0;
   18; 3; 19; 3; 18; 5; 8; 5; 19; 3; 18; 3; 19; 3; 20; 3;
   22; 3; 13; 3; 19; 2; 21; 2; 16; 3; 21; 3; 19; 3; 21; 3;
   9; 5; 18; 5; 18; 3; 19; 3; 19; 3; 19; 3; 13; 2; 19; 2;
   21; 3; 20; 3; 19; 3; 19; 3; 11; 5; 15; 5; 19; 3; 15; 3;
   18; 3; 22; 3; 19; 2; 18; 2; 19; 3; 21; 3; 16; 3; 20; 3;
   15; 5; 11; 5; 21; 3; 19; 3; 15; 3; 18; 3; 22; 3; 19; 3;
   14; 2; 19; 2; 21; 3; 22; 3; 13; 2; 17; 2; 5; 5; 15; 5;
   17; 3; 15; 3; 18; 3; 15; 3; 19; 2; 14; 2; 18; 3; 18; 3;
   14; 3; 18; 3; 14; 5; 9; 5; 17; 3; 20; 3; 18; 3; 18; 3;
   14; 2; 20; 2; 13; 3; 17; 3; 19; 3; 19; 3; 4; 5; 12; 5;
   16; 3; 18; 3; 17; 3; 15; 3; 20; 2; 21; 2; 18; 2; 10; 2;
   17; 3; 18; 3; 6; 5; 14; 5; 16; 3; 16; 3; 18; 3; 18; 3;
   14; 2; 17; 2; 16; 3; 20; 3; 10; 3; 19; 3; 10; 3; 17; 3;
   16; 3; 19; 3; 16; 3; 17; 3; 18; 3; 13; 3; 18; 2; 18; 2;
   19; 3; 14; 3; 13; 5; 6; 5; 18; 3; 15; 3; 13; 3; 21; 3;
   16; 3; 10; 3; 3; 5; 4; 5; 2; 5; 3; 5; 2; 5; 2; 5;
   2; 5; 14; 5; 2; 5; 2; 5; 2; 5; 5; 5; 2; 5; 2; 5;
   2; 5; 2; 5; 11; 5; 4; 5; 4; 5; 3; 5; 3; 5; 2; 5;
   2; 5; 2; 5; 6; 5; 9; 5; 2; 5; 2; 5; 2; 5; 5; 5;
   2; 5; 2; 5; 2; 5; 10; 5; 4; 5; 4; 5; 3; 5; 3; 5;
   2; 5; 2; 5; 2; 5; 4; 5; 8; 5; 2; 5; 2; 5; 2; 5;
   5; 5; 2; 5; 2; 5; 2; 5; 5; 5; 6; 5; 2; 5; 2; 5;
   2; 5; 4; 5; 2; 5; 2; 5; 2; 5; 10; 5; 2; 5; 2; 5;
   2; 5; 5; 5; 2; 5; 2; 5; 2; 5; 2; 5; 21; 2; 19; 2;
   20; 3; 21; 3; 19; 3; 21; 3; 20; 2; 18; 2; 16; 5; 15; 5;
   23; 2; 23; 2; 11; 5; 17; 5; 21; 3; 17; 3; 23; 3; 19; 3;
   22; 3; 20; 3; 22; 0; 21; 0; 20; 5; 12; 5; 21; 3; 21; 3;
   21; 3; 21; 3; 15; 3; 21; 3; 22; 3; 21; 3; 17; 2; 22; 2;
   18; 5; 16; 5; 23; 2; 23; 2; 9; 5; 19; 5; 18; 3; 22; 3;
   21; 3; 20; 3; 22; 2; 20; 2; 21; 3; 21; 3; 17; 5; 12; 5;
   18; 3; 22; 3; 20; 3; 19; 3; 20; 3; 21; 3; 15; 0; 22; 0;
   12; 3; 18; 3; 23; 2; 23; 2; 10; 3; 17; 3; 21; 3; 16; 3;
   22; 3; 20; 3; 21; 2; 19; 2; 21; 5; 8; 5; 23; 2; 23; 2;
   10; 5; 16; 5; 20; 3; 23; 3; 17; 3; 21; 3; 20; 3; 21; 3;
   20; 0; 23; 0; 17; 3; 22; 3; 18; 5; 10; 5; 22; 3; 20; 3;
   17; 3; 20; 3; 21; 3; 22; 3; 20; 2; 16; 2; 22; 3; 20; 3;
   21; 3; 20; 3; 10; 5; 17; 5; 15; 3; 23; 3; 13; 4; 5; 4;
   2; 5; 2; 5; 2; 5; 2; 5; 2; 5; 2; 5; 2; 5; 2; 5;
   2; 5; 2; 5; 2; 5; 2; 5; 2; 5; 2; 5; 2; 3; 2; 5;
   14; 14; 15; 15; 14; 15; 15; 14; 15; 14; 12; 14; 14; 12; 14; 14;
   12; 14; 14; 12; 14; 14; 12; 14; 14; 12; 14; 14; 12; 14; 14; 12;
   14; 12; 14; 13; 13; 12; 14; 14; 12; 13; 14; 13; 13; 13; 12; 14;
   13; 12; 13; 14; 8; 2; 7; 4; 5; 2; 7; 4; 2; 5; 2; 7;
   4; 5; 4; 5; 5; 5; 14; 14; 14; 13; 14; 13; 14; 14; 14; 12;
   14; 14; 12; 14; 14; 13; 14; 13; 14; 14; 14; 12; 14; 14; 13; 14;
   2; 1; 1; 1; 158; 235; 120; 16].
