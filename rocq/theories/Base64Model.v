(** Model of src/crypt/base64.c.  Bytes and characters are integers 0..255. *)
From Verif Require Import Base.

(** src/crypt/base64.c:3-4 *)
Definition base64 : list Z := [
    65;  66;  67;  68;  69;  70;  71;  72;  73;  74;  75;  76;  77;  78;  79;  80;
    81;  82;  83;  84;  85;  86;  87;  88;  89;  90;  97;  98;  99; 100; 101; 102;
   103; 104; 105; 106; 107; 108; 109; 110; 111; 112; 113; 114; 115; 116; 117; 118;
   119; 120; 121; 122;  48;  49;  50;  51;  52;  53;  54;  55;  56;  57;  43;  47].
Definition b64 (i : Z) : Z := nth (Z.to_nat i) base64 0.

(** src/crypt/base64.c:6-40 cry_base64_encode.  With an empty input the loop body
    still runs and reads in[0]. *)
Fixpoint encode_loop (l : list Z) : list Z :=
  match l with
  | [] => []
  | [a] =>
      [b64 (Z.shiftr (Z.land a 0xFC) 2); b64 (Z.shiftl (Z.land a 0x03) 4); 61; 61]
  | [a; b] =>
      [b64 (Z.shiftr (Z.land a 0xFC) 2);
       b64 (Z.lor (Z.shiftl (Z.land a 0x03) 4) (Z.shiftr (Z.land b 0xF0) 4));
       b64 (Z.shiftl (Z.land b 0x0F) 2); 61]
  | a :: b :: c :: r =>
      b64 (Z.shiftr (Z.land a 0xFC) 2)
      :: b64 (Z.lor (Z.shiftl (Z.land a 0x03) 4) (Z.shiftr (Z.land b 0xF0) 4))
      :: b64 (Z.lor (Z.shiftl (Z.land b 0x0F) 2) (Z.shiftr (Z.land c 0xC0) 6))
      :: b64 (Z.land c 0x3F)
      :: encode_loop r
  end.
Definition encode (l : list Z) : res (list Z) :=
  match l with [] => UB | _ => Ok (encode_loop l) end.

(** src/crypt/base64.c:43-60 *)
Definition unbase64 : list Z := [
   255; 255; 255; 255; 255; 255; 255; 255; 255; 255; 255; 255; 255; 255; 255; 255;
   255; 255; 255; 255; 255; 255; 255; 255; 255; 255; 255; 255; 255; 255; 255; 255;
   255; 255; 255; 255; 255; 255; 255; 255; 255; 255; 255;  62; 255; 255; 255;  63;
    52;  53;  54;  55;  56;  57;  58;  59;  60;  61; 255; 255; 255;   0; 255; 255;
   255;   0;   1;   2;   3;   4;   5;   6;   7;   8;   9;  10;  11;  12;  13;  14;
    15;  16;  17;  18;  19;  20;  21;  22;  23;  24;  25; 255; 255; 255; 255; 255;
   255;  26;  27;  28;  29;  30;  31;  32;  33;  34;  35;  36;  37;  38;  39;  40;
    41;  42;  43;  44;  45;  46;  47;  48;  49;  50;  51; 255; 255; 255; 255; 255].
Definition unb (c : Z) : Z := nth (Z.to_nat c) unbase64 0.

(** src/crypt/base64.c:62-98 cry_base64_decode.  char is signed: a byte from 128 up
    is negative, and illegal.  With an empty input the loop body still runs. *)
Definition legal (c : Z) : bool := ((c <? 128) && negb (unb c =? 255))%bool.
Fixpoint decode_loop (l : list Z) : res (list Z) :=
  match l with
  | a :: b :: c :: d :: r =>
      if (legal a && legal b && legal c && legal d)%bool then
        do t <- decode_loop r;
        Ok (Z.lor (Z.shiftl (unb a) 2) (Z.shiftr (Z.land (unb b) 0x30) 4) mod 256
            :: (if c =? 61 then []
                else [Z.lor (Z.shiftl (Z.land (unb b) 0x0F) 4) (Z.shiftr (Z.land (unb c) 0x3C) 2) mod 256])
            ++ (if d =? 61 then []
                else [Z.lor (Z.shiftl (Z.land (unb c) 0x03) 6) (unb d) mod 256])
            ++ t)
      else Err (-1)
  | _ => Ok []
  end.
Definition decode (l : list Z) : res (list Z) :=
  if negb (Nat.eqb (Nat.modulo (length l) 4) 0) then Err (-1)
  else match l with [] => UB | _ => decode_loop l end.
