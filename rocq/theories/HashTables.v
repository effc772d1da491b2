(** Constants of src/hash/*.c, copied from the source by a script. *)
From Verif Require Import Base.

(** src/hash/sha256.c:15-32 *)
Definition sha256_k : list Z :=
  [0x428a2f98; 0x71374491; 0xb5c0fbcf; 0xe9b5dba5; 0x3956c25b; 0x59f111f1; 0x923f82a4; 0xab1c5ed5;
   0xd807aa98; 0x12835b01; 0x243185be; 0x550c7dc3; 0x72be5d74; 0x80deb1fe; 0x9bdc06a7; 0xc19bf174;
   0xe49b69c1; 0xefbe4786; 0x0fc19dc6; 0x240ca1cc; 0x2de92c6f; 0x4a7484aa; 0x5cb0a9dc; 0x76f988da;
   0x983e5152; 0xa831c66d; 0xb00327c8; 0xbf597fc7; 0xc6e00bf3; 0xd5a79147; 0x06ca6351; 0x14292967;
   0x27b70a85; 0x2e1b2138; 0x4d2c6dfc; 0x53380d13; 0x650a7354; 0x766a0abb; 0x81c2c92e; 0x92722c85;
   0xa2bfe8a1; 0xa81a664b; 0xc24b8b70; 0xc76c51a3; 0xd192e819; 0xd6990624; 0xf40e3585; 0x106aa070;
   0x19a4c116; 0x1e376c08; 0x2748774c; 0x34b0bcb5; 0x391c0cb3; 0x4ed8aa4a; 0x5b9cca4f; 0x682e6ff3;
   0x748f82ee; 0x78a5636f; 0x84c87814; 0x8cc70208; 0x90befffa; 0xa4506ceb; 0xbef9a3f7; 0xc67178f2].
(** src/hash/sha512.c:26-67 *)
Definition sha512_k : list Z :=
  [0x428a2f98d728ae22; 0x7137449123ef65cd; 0xb5c0fbcfec4d3b2f; 0xe9b5dba58189dbbc;
   0x3956c25bf348b538; 0x59f111f1b605d019; 0x923f82a4af194f9b; 0xab1c5ed5da6d8118;
   0xd807aa98a3030242; 0x12835b0145706fbe; 0x243185be4ee4b28c; 0x550c7dc3d5ffb4e2;
   0x72be5d74f27b896f; 0x80deb1fe3b1696b1; 0x9bdc06a725c71235; 0xc19bf174cf692694;
   0xe49b69c19ef14ad2; 0xefbe4786384f25e3; 0x0fc19dc68b8cd5b5; 0x240ca1cc77ac9c65;
   0x2de92c6f592b0275; 0x4a7484aa6ea6e483; 0x5cb0a9dcbd41fbd4; 0x76f988da831153b5;
   0x983e5152ee66dfab; 0xa831c66d2db43210; 0xb00327c898fb213f; 0xbf597fc7beef0ee4;
   0xc6e00bf33da88fc2; 0xd5a79147930aa725; 0x06ca6351e003826f; 0x142929670a0e6e70;
   0x27b70a8546d22ffc; 0x2e1b21385c26c926; 0x4d2c6dfc5ac42aed; 0x53380d139d95b3df;
   0x650a73548baf63de; 0x766a0abb3c77b2a8; 0x81c2c92e47edaee6; 0x92722c851482353b;
   0xa2bfe8a14cf10364; 0xa81a664bbc423001; 0xc24b8b70d0f89791; 0xc76c51a30654be30;
   0xd192e819d6ef5218; 0xd69906245565a910; 0xf40e35855771202a; 0x106aa07032bbd1b8;
   0x19a4c116b8d2d0c8; 0x1e376c085141ab53; 0x2748774cdf8eeb99; 0x34b0bcb5e19b48a8;
   0x391c0cb3c5c95a63; 0x4ed8aa4ae3418acb; 0x5b9cca4f7763e373; 0x682e6ff3d6b2b8a3;
   0x748f82ee5defb2fc; 0x78a5636f43172f60; 0x84c87814a1f0ab72; 0x8cc702081a6439ec;
   0x90befffa23631e28; 0xa4506cebde82bde9; 0xbef9a3f7b2c67915; 0xc67178f2e372532b;
   0xca273eceea26619c; 0xd186b8c721c0c207; 0xeada7dd6cde0eb1e; 0xf57d4f7fee6ed178;
   0x06f067aa72176fba; 0x0a637dc5a2c898a6; 0x113f9804bef90dae; 0x1b710b35131c471b;
   0x28db77f523047d84; 0x32caab7b40c72493; 0x3c9ebe0a15c9bebc; 0x431d67c49c100d4c;
   0x4cc5d4becb3e42b6; 0x597f299cfc657e2a; 0x5fcb6fab3ad6faec; 0x6c44198c4a475817].
(** src/hash/md5.c:50-136: the 64 macro uses; for each the macro (0 FF, 1 GG, 2 HH, 3 II), the
    positions of its four registers in (a, b, c, d), the word index, the shift
    amount S11..S44 and the constant *)
Definition md5_rows : list (Z * (nat * nat * nat * nat) * nat * Z * Z) :=
  [(0, (0, 1, 2, 3)%nat, 0%nat, 7, 3614090360);
   (0, (3, 0, 1, 2)%nat, 1%nat, 12, 3905402710);
   (0, (2, 3, 0, 1)%nat, 2%nat, 17, 606105819);
   (0, (1, 2, 3, 0)%nat, 3%nat, 22, 3250441966);
   (0, (0, 1, 2, 3)%nat, 4%nat, 7, 4118548399);
   (0, (3, 0, 1, 2)%nat, 5%nat, 12, 1200080426);
   (0, (2, 3, 0, 1)%nat, 6%nat, 17, 2821735955);
   (0, (1, 2, 3, 0)%nat, 7%nat, 22, 4249261313);
   (0, (0, 1, 2, 3)%nat, 8%nat, 7, 1770035416);
   (0, (3, 0, 1, 2)%nat, 9%nat, 12, 2336552879);
   (0, (2, 3, 0, 1)%nat, 10%nat, 17, 4294925233);
   (0, (1, 2, 3, 0)%nat, 11%nat, 22, 2304563134);
   (0, (0, 1, 2, 3)%nat, 12%nat, 7, 1804603682);
   (0, (3, 0, 1, 2)%nat, 13%nat, 12, 4254626195);
   (0, (2, 3, 0, 1)%nat, 14%nat, 17, 2792965006);
   (0, (1, 2, 3, 0)%nat, 15%nat, 22, 1236535329);
   (1, (0, 1, 2, 3)%nat, 1%nat, 5, 4129170786);
   (1, (3, 0, 1, 2)%nat, 6%nat, 9, 3225465664);
   (1, (2, 3, 0, 1)%nat, 11%nat, 14, 643717713);
   (1, (1, 2, 3, 0)%nat, 0%nat, 20, 3921069994);
   (1, (0, 1, 2, 3)%nat, 5%nat, 5, 3593408605);
   (1, (3, 0, 1, 2)%nat, 10%nat, 9, 38016083);
   (1, (2, 3, 0, 1)%nat, 15%nat, 14, 3634488961);
   (1, (1, 2, 3, 0)%nat, 4%nat, 20, 3889429448);
   (1, (0, 1, 2, 3)%nat, 9%nat, 5, 568446438);
   (1, (3, 0, 1, 2)%nat, 14%nat, 9, 3275163606);
   (1, (2, 3, 0, 1)%nat, 3%nat, 14, 4107603335);
   (1, (1, 2, 3, 0)%nat, 8%nat, 20, 1163531501);
   (1, (0, 1, 2, 3)%nat, 13%nat, 5, 2850285829);
   (1, (3, 0, 1, 2)%nat, 2%nat, 9, 4243563512);
   (1, (2, 3, 0, 1)%nat, 7%nat, 14, 1735328473);
   (1, (1, 2, 3, 0)%nat, 12%nat, 20, 2368359562);
   (2, (0, 1, 2, 3)%nat, 5%nat, 4, 4294588738);
   (2, (3, 0, 1, 2)%nat, 8%nat, 11, 2272392833);
   (2, (2, 3, 0, 1)%nat, 11%nat, 16, 1839030562);
   (2, (1, 2, 3, 0)%nat, 14%nat, 23, 4259657740);
   (2, (0, 1, 2, 3)%nat, 1%nat, 4, 2763975236);
   (2, (3, 0, 1, 2)%nat, 4%nat, 11, 1272893353);
   (2, (2, 3, 0, 1)%nat, 7%nat, 16, 4139469664);
   (2, (1, 2, 3, 0)%nat, 10%nat, 23, 3200236656);
   (2, (0, 1, 2, 3)%nat, 13%nat, 4, 681279174);
   (2, (3, 0, 1, 2)%nat, 0%nat, 11, 3936430074);
   (2, (2, 3, 0, 1)%nat, 3%nat, 16, 3572445317);
   (2, (1, 2, 3, 0)%nat, 6%nat, 23, 76029189);
   (2, (0, 1, 2, 3)%nat, 9%nat, 4, 3654602809);
   (2, (3, 0, 1, 2)%nat, 12%nat, 11, 3873151461);
   (2, (2, 3, 0, 1)%nat, 15%nat, 16, 530742520);
   (2, (1, 2, 3, 0)%nat, 2%nat, 23, 3299628645);
   (3, (0, 1, 2, 3)%nat, 0%nat, 6, 4096336452);
   (3, (3, 0, 1, 2)%nat, 7%nat, 10, 1126891415);
   (3, (2, 3, 0, 1)%nat, 14%nat, 15, 2878612391);
   (3, (1, 2, 3, 0)%nat, 5%nat, 21, 4237533241);
   (3, (0, 1, 2, 3)%nat, 12%nat, 6, 1700485571);
   (3, (3, 0, 1, 2)%nat, 3%nat, 10, 2399980690);
   (3, (2, 3, 0, 1)%nat, 10%nat, 15, 4293915773);
   (3, (1, 2, 3, 0)%nat, 1%nat, 21, 2240044497);
   (3, (0, 1, 2, 3)%nat, 8%nat, 6, 1873313359);
   (3, (3, 0, 1, 2)%nat, 15%nat, 10, 4264355552);
   (3, (2, 3, 0, 1)%nat, 6%nat, 15, 2734768916);
   (3, (1, 2, 3, 0)%nat, 13%nat, 21, 1309151649);
   (3, (0, 1, 2, 3)%nat, 4%nat, 6, 4149444226);
   (3, (3, 0, 1, 2)%nat, 11%nat, 10, 3174756917);
   (3, (2, 3, 0, 1)%nat, 2%nat, 15, 718787259);
   (3, (1, 2, 3, 0)%nat, 9%nat, 21, 3951481745)].
(** src/hash/sha1.c:46-144: the 80 macro uses; for each the positions of its five
    registers in (A, B, C, D, E) and the number t of W[t] (t < 16) or R(t) (t >= 16) *)
Definition sha1_rows : list (list nat * nat) :=
  [([0; 1; 2; 3; 4], 0)%nat;
   ([4; 0; 1; 2; 3], 1)%nat;
   ([3; 4; 0; 1; 2], 2)%nat;
   ([2; 3; 4; 0; 1], 3)%nat;
   ([1; 2; 3; 4; 0], 4)%nat;
   ([0; 1; 2; 3; 4], 5)%nat;
   ([4; 0; 1; 2; 3], 6)%nat;
   ([3; 4; 0; 1; 2], 7)%nat;
   ([2; 3; 4; 0; 1], 8)%nat;
   ([1; 2; 3; 4; 0], 9)%nat;
   ([0; 1; 2; 3; 4], 10)%nat;
   ([4; 0; 1; 2; 3], 11)%nat;
   ([3; 4; 0; 1; 2], 12)%nat;
   ([2; 3; 4; 0; 1], 13)%nat;
   ([1; 2; 3; 4; 0], 14)%nat;
   ([0; 1; 2; 3; 4], 15)%nat;
   ([4; 0; 1; 2; 3], 16)%nat;
   ([3; 4; 0; 1; 2], 17)%nat;
   ([2; 3; 4; 0; 1], 18)%nat;
   ([1; 2; 3; 4; 0], 19)%nat;
   ([0; 1; 2; 3; 4], 20)%nat;
   ([4; 0; 1; 2; 3], 21)%nat;
   ([3; 4; 0; 1; 2], 22)%nat;
   ([2; 3; 4; 0; 1], 23)%nat;
   ([1; 2; 3; 4; 0], 24)%nat;
   ([0; 1; 2; 3; 4], 25)%nat;
   ([4; 0; 1; 2; 3], 26)%nat;
   ([3; 4; 0; 1; 2], 27)%nat;
   ([2; 3; 4; 0; 1], 28)%nat;
   ([1; 2; 3; 4; 0], 29)%nat;
   ([0; 1; 2; 3; 4], 30)%nat;
   ([4; 0; 1; 2; 3], 31)%nat;
   ([3; 4; 0; 1; 2], 32)%nat;
   ([2; 3; 4; 0; 1], 33)%nat;
   ([1; 2; 3; 4; 0], 34)%nat;
   ([0; 1; 2; 3; 4], 35)%nat;
   ([4; 0; 1; 2; 3], 36)%nat;
   ([3; 4; 0; 1; 2], 37)%nat;
   ([2; 3; 4; 0; 1], 38)%nat;
   ([1; 2; 3; 4; 0], 39)%nat;
   ([0; 1; 2; 3; 4], 40)%nat;
   ([4; 0; 1; 2; 3], 41)%nat;
   ([3; 4; 0; 1; 2], 42)%nat;
   ([2; 3; 4; 0; 1], 43)%nat;
   ([1; 2; 3; 4; 0], 44)%nat;
   ([0; 1; 2; 3; 4], 45)%nat;
   ([4; 0; 1; 2; 3], 46)%nat;
   ([3; 4; 0; 1; 2], 47)%nat;
   ([2; 3; 4; 0; 1], 48)%nat;
   ([1; 2; 3; 4; 0], 49)%nat;
   ([0; 1; 2; 3; 4], 50)%nat;
   ([4; 0; 1; 2; 3], 51)%nat;
   ([3; 4; 0; 1; 2], 52)%nat;
   ([2; 3; 4; 0; 1], 53)%nat;
   ([1; 2; 3; 4; 0], 54)%nat;
   ([0; 1; 2; 3; 4], 55)%nat;
   ([4; 0; 1; 2; 3], 56)%nat;
   ([3; 4; 0; 1; 2], 57)%nat;
   ([2; 3; 4; 0; 1], 58)%nat;
   ([1; 2; 3; 4; 0], 59)%nat;
   ([0; 1; 2; 3; 4], 60)%nat;
   ([4; 0; 1; 2; 3], 61)%nat;
   ([3; 4; 0; 1; 2], 62)%nat;
   ([2; 3; 4; 0; 1], 63)%nat;
   ([1; 2; 3; 4; 0], 64)%nat;
   ([0; 1; 2; 3; 4], 65)%nat;
   ([4; 0; 1; 2; 3], 66)%nat;
   ([3; 4; 0; 1; 2], 67)%nat;
   ([2; 3; 4; 0; 1], 68)%nat;
   ([1; 2; 3; 4; 0], 69)%nat;
   ([0; 1; 2; 3; 4], 70)%nat;
   ([4; 0; 1; 2; 3], 71)%nat;
   ([3; 4; 0; 1; 2], 72)%nat;
   ([2; 3; 4; 0; 1], 73)%nat;
   ([1; 2; 3; 4; 0], 74)%nat;
   ([0; 1; 2; 3; 4], 75)%nat;
   ([4; 0; 1; 2; 3], 76)%nat;
   ([3; 4; 0; 1; 2], 77)%nat;
   ([2; 3; 4; 0; 1], 78)%nat;
   ([1; 2; 3; 4; 0], 79)%nat].
