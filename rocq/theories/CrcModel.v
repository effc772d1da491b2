(** Model of the CRC code.  Registers and tables are integers; every value
    stays below 2^16 (2^32), see the proofs. *)
From Verif Require Import Base.

(** src/crc/crc16.c:14-15, src/crc/crc32.c:14-15: one byte.  A read outside the
    256 entries cannot happen: the index is masked. *)
Definition crc_byte (tab : list Z) (crc b : Z) : Z :=
  Z.lxor (nth (Z.to_nat (Z.land (Z.lxor b crc) 0xFF)) tab 0) (Z.shiftr crc 8).

(** src/crc/crc16.c:11-16 cry_crc16_update, src/crc/crc32.c:11-16
    cry_crc32_update *)
Definition crc_update (tab : list Z) (crc : Z) (buf : list Z) : Z :=
  fold_left (crc_byte tab) buf crc.

(** src/crc/crc16.c:18-25 cry_crc16_final.  [compl], [swap]: the two flags. *)
Definition crc16_final (compl swap : bool) (crc : Z) : Z :=
  let crc := if compl then Z.lxor crc 0xFFFF else crc in
  if swap then Z.lor (Z.shiftl crc 8 mod 2 ^ 16) (Z.shiftr crc 8) else crc.

(** src/crc/crc32.c:18-28 cry_crc32_final *)
Definition crc32_final (compl swap : bool) (crc : Z) : Z :=
  let crc := if compl then Z.lxor crc 0xFFFFFFFF else crc in
  if swap then Z.lor (Z.lor (Z.lor (Z.shiftl (Z.land crc 0x000000ff) 24) (Z.shiftl (Z.land crc 0x0000ff00) 8))
                            (Z.shiftr (Z.land crc 0x00ff0000) 8)) (Z.shiftr (Z.land crc 0xff000000) 24)
  else crc.

(** src/crc/crc16.c:27-34 cry_crc16_digest, after the final step *)
Definition crc16_digest (crc : Z) : list Z := [Z.shiftr crc 8 mod 256; Z.land crc 0xFF].
(** src/crc/crc32.c:30-39 cry_crc32_digest, after the final step *)
Definition crc32_digest (crc : Z) : list Z :=
  [Z.shiftr crc 24 mod 256; Z.shiftr crc 16 mod 256; Z.shiftr crc 8 mod 256; Z.land crc 0xFF].

(** src/crc/crc16_ccitt.c:5-38 *)
Definition tab_ccitt : list Z := [
   0x0000; 0x1189; 0x2312; 0x329b; 0x4624; 0x57ad; 0x6536; 0x74bf;
   0x8c48; 0x9dc1; 0xaf5a; 0xbed3; 0xca6c; 0xdbe5; 0xe97e; 0xf8f7;
   0x1081; 0x0108; 0x3393; 0x221a; 0x56a5; 0x472c; 0x75b7; 0x643e;
   0x9cc9; 0x8d40; 0xbfdb; 0xae52; 0xdaed; 0xcb64; 0xf9ff; 0xe876;
   0x2102; 0x308b; 0x0210; 0x1399; 0x6726; 0x76af; 0x4434; 0x55bd;
   0xad4a; 0xbcc3; 0x8e58; 0x9fd1; 0xeb6e; 0xfae7; 0xc87c; 0xd9f5;
   0x3183; 0x200a; 0x1291; 0x0318; 0x77a7; 0x662e; 0x54b5; 0x453c;
   0xbdcb; 0xac42; 0x9ed9; 0x8f50; 0xfbef; 0xea66; 0xd8fd; 0xc974;
   0x4204; 0x538d; 0x6116; 0x709f; 0x0420; 0x15a9; 0x2732; 0x36bb;
   0xce4c; 0xdfc5; 0xed5e; 0xfcd7; 0x8868; 0x99e1; 0xab7a; 0xbaf3;
   0x5285; 0x430c; 0x7197; 0x601e; 0x14a1; 0x0528; 0x37b3; 0x263a;
   0xdecd; 0xcf44; 0xfddf; 0xec56; 0x98e9; 0x8960; 0xbbfb; 0xaa72;
   0x6306; 0x728f; 0x4014; 0x519d; 0x2522; 0x34ab; 0x0630; 0x17b9;
   0xef4e; 0xfec7; 0xcc5c; 0xddd5; 0xa96a; 0xb8e3; 0x8a78; 0x9bf1;
   0x7387; 0x620e; 0x5095; 0x411c; 0x35a3; 0x242a; 0x16b1; 0x0738;
   0xffcf; 0xee46; 0xdcdd; 0xcd54; 0xb9eb; 0xa862; 0x9af9; 0x8b70;
   0x8408; 0x9581; 0xa71a; 0xb693; 0xc22c; 0xd3a5; 0xe13e; 0xf0b7;
   0x0840; 0x19c9; 0x2b52; 0x3adb; 0x4e64; 0x5fed; 0x6d76; 0x7cff;
   0x9489; 0x8500; 0xb79b; 0xa612; 0xd2ad; 0xc324; 0xf1bf; 0xe036;
   0x18c1; 0x0948; 0x3bd3; 0x2a5a; 0x5ee5; 0x4f6c; 0x7df7; 0x6c7e;
   0xa50a; 0xb483; 0x8618; 0x9791; 0xe32e; 0xf2a7; 0xc03c; 0xd1b5;
   0x2942; 0x38cb; 0x0a50; 0x1bd9; 0x6f66; 0x7eef; 0x4c74; 0x5dfd;
   0xb58b; 0xa402; 0x9699; 0x8710; 0xf3af; 0xe226; 0xd0bd; 0xc134;
   0x39c3; 0x284a; 0x1ad1; 0x0b58; 0x7fe7; 0x6e6e; 0x5cf5; 0x4d7c;
   0xc60c; 0xd785; 0xe51e; 0xf497; 0x8028; 0x91a1; 0xa33a; 0xb2b3;
   0x4a44; 0x5bcd; 0x6956; 0x78df; 0x0c60; 0x1de9; 0x2f72; 0x3efb;
   0xd68d; 0xc704; 0xf59f; 0xe416; 0x90a9; 0x8120; 0xb3bb; 0xa232;
   0x5ac5; 0x4b4c; 0x79d7; 0x685e; 0x1ce1; 0x0d68; 0x3ff3; 0x2e7a;
   0xe70e; 0xf687; 0xc41c; 0xd595; 0xa12a; 0xb0a3; 0x8238; 0x93b1;
   0x6b46; 0x7acf; 0x4854; 0x59dd; 0x2d62; 0x3ceb; 0x0e70; 0x1ff9;
   0xf78f; 0xe606; 0xd49d; 0xc514; 0xb1ab; 0xa022; 0x92b9; 0x8330;
   0x7bc7; 0x6a4e; 0x58d5; 0x495c; 0x3de3; 0x2c6a; 0x1ef1; 0x0f78].

(** src/crc/crc16_dnp.c:5-38 *)
Definition tab_dnp : list Z := [
   0x0000; 0x365e; 0x6cbc; 0x5ae2; 0xd978; 0xef26; 0xb5c4; 0x839a;
   0xff89; 0xc9d7; 0x9335; 0xa56b; 0x26f1; 0x10af; 0x4a4d; 0x7c13;
   0xb26b; 0x8435; 0xded7; 0xe889; 0x6b13; 0x5d4d; 0x07af; 0x31f1;
   0x4de2; 0x7bbc; 0x215e; 0x1700; 0x949a; 0xa2c4; 0xf826; 0xce78;
   0x29af; 0x1ff1; 0x4513; 0x734d; 0xf0d7; 0xc689; 0x9c6b; 0xaa35;
   0xd626; 0xe078; 0xba9a; 0x8cc4; 0x0f5e; 0x3900; 0x63e2; 0x55bc;
   0x9bc4; 0xad9a; 0xf778; 0xc126; 0x42bc; 0x74e2; 0x2e00; 0x185e;
   0x644d; 0x5213; 0x08f1; 0x3eaf; 0xbd35; 0x8b6b; 0xd189; 0xe7d7;
   0x535e; 0x6500; 0x3fe2; 0x09bc; 0x8a26; 0xbc78; 0xe69a; 0xd0c4;
   0xacd7; 0x9a89; 0xc06b; 0xf635; 0x75af; 0x43f1; 0x1913; 0x2f4d;
   0xe135; 0xd76b; 0x8d89; 0xbbd7; 0x384d; 0x0e13; 0x54f1; 0x62af;
   0x1ebc; 0x28e2; 0x7200; 0x445e; 0xc7c4; 0xf19a; 0xab78; 0x9d26;
   0x7af1; 0x4caf; 0x164d; 0x2013; 0xa389; 0x95d7; 0xcf35; 0xf96b;
   0x8578; 0xb326; 0xe9c4; 0xdf9a; 0x5c00; 0x6a5e; 0x30bc; 0x06e2;
   0xc89a; 0xfec4; 0xa426; 0x9278; 0x11e2; 0x27bc; 0x7d5e; 0x4b00;
   0x3713; 0x014d; 0x5baf; 0x6df1; 0xee6b; 0xd835; 0x82d7; 0xb489;
   0xa6bc; 0x90e2; 0xca00; 0xfc5e; 0x7fc4; 0x499a; 0x1378; 0x2526;
   0x5935; 0x6f6b; 0x3589; 0x03d7; 0x804d; 0xb613; 0xecf1; 0xdaaf;
   0x14d7; 0x2289; 0x786b; 0x4e35; 0xcdaf; 0xfbf1; 0xa113; 0x974d;
   0xeb5e; 0xdd00; 0x87e2; 0xb1bc; 0x3226; 0x0478; 0x5e9a; 0x68c4;
   0x8f13; 0xb94d; 0xe3af; 0xd5f1; 0x566b; 0x6035; 0x3ad7; 0x0c89;
   0x709a; 0x46c4; 0x1c26; 0x2a78; 0xa9e2; 0x9fbc; 0xc55e; 0xf300;
   0x3d78; 0x0b26; 0x51c4; 0x679a; 0xe400; 0xd25e; 0x88bc; 0xbee2;
   0xc2f1; 0xf4af; 0xae4d; 0x9813; 0x1b89; 0x2dd7; 0x7735; 0x416b;
   0xf5e2; 0xc3bc; 0x995e; 0xaf00; 0x2c9a; 0x1ac4; 0x4026; 0x7678;
   0x0a6b; 0x3c35; 0x66d7; 0x5089; 0xd313; 0xe54d; 0xbfaf; 0x89f1;
   0x4789; 0x71d7; 0x2b35; 0x1d6b; 0x9ef1; 0xa8af; 0xf24d; 0xc413;
   0xb800; 0x8e5e; 0xd4bc; 0xe2e2; 0x6178; 0x5726; 0x0dc4; 0x3b9a;
   0xdc4d; 0xea13; 0xb0f1; 0x86af; 0x0535; 0x336b; 0x6989; 0x5fd7;
   0x23c4; 0x159a; 0x4f78; 0x7926; 0xfabc; 0xcce2; 0x9600; 0xa05e;
   0x6e26; 0x5878; 0x029a; 0x34c4; 0xb75e; 0x8100; 0xdbe2; 0xedbc;
   0x91af; 0xa7f1; 0xfd13; 0xcb4d; 0x48d7; 0x7e89; 0x246b; 0x1235].

(** src/crc/crc16_ibm.c:5-38 *)
Definition tab_ibm : list Z := [
   0x0000; 0xc0c1; 0xc181; 0x0140; 0xc301; 0x03c0; 0x0280; 0xc241;
   0xc601; 0x06c0; 0x0780; 0xc741; 0x0500; 0xc5c1; 0xc481; 0x0440;
   0xcc01; 0x0cc0; 0x0d80; 0xcd41; 0x0f00; 0xcfc1; 0xce81; 0x0e40;
   0x0a00; 0xcac1; 0xcb81; 0x0b40; 0xc901; 0x09c0; 0x0880; 0xc841;
   0xd801; 0x18c0; 0x1980; 0xd941; 0x1b00; 0xdbc1; 0xda81; 0x1a40;
   0x1e00; 0xdec1; 0xdf81; 0x1f40; 0xdd01; 0x1dc0; 0x1c80; 0xdc41;
   0x1400; 0xd4c1; 0xd581; 0x1540; 0xd701; 0x17c0; 0x1680; 0xd641;
   0xd201; 0x12c0; 0x1380; 0xd341; 0x1100; 0xd1c1; 0xd081; 0x1040;
   0xf001; 0x30c0; 0x3180; 0xf141; 0x3300; 0xf3c1; 0xf281; 0x3240;
   0x3600; 0xf6c1; 0xf781; 0x3740; 0xf501; 0x35c0; 0x3480; 0xf441;
   0x3c00; 0xfcc1; 0xfd81; 0x3d40; 0xff01; 0x3fc0; 0x3e80; 0xfe41;
   0xfa01; 0x3ac0; 0x3b80; 0xfb41; 0x3900; 0xf9c1; 0xf881; 0x3840;
   0x2800; 0xe8c1; 0xe981; 0x2940; 0xeb01; 0x2bc0; 0x2a80; 0xea41;
   0xee01; 0x2ec0; 0x2f80; 0xef41; 0x2d00; 0xedc1; 0xec81; 0x2c40;
   0xe401; 0x24c0; 0x2580; 0xe541; 0x2700; 0xe7c1; 0xe681; 0x2640;
   0x2200; 0xe2c1; 0xe381; 0x2340; 0xe101; 0x21c0; 0x2080; 0xe041;
   0xa001; 0x60c0; 0x6180; 0xa141; 0x6300; 0xa3c1; 0xa281; 0x6240;
   0x6600; 0xa6c1; 0xa781; 0x6740; 0xa501; 0x65c0; 0x6480; 0xa441;
   0x6c00; 0xacc1; 0xad81; 0x6d40; 0xaf01; 0x6fc0; 0x6e80; 0xae41;
   0xaa01; 0x6ac0; 0x6b80; 0xab41; 0x6900; 0xa9c1; 0xa881; 0x6840;
   0x7800; 0xb8c1; 0xb981; 0x7940; 0xbb01; 0x7bc0; 0x7a80; 0xba41;
   0xbe01; 0x7ec0; 0x7f80; 0xbf41; 0x7d00; 0xbdc1; 0xbc81; 0x7c40;
   0xb401; 0x74c0; 0x7580; 0xb541; 0x7700; 0xb7c1; 0xb681; 0x7640;
   0x7200; 0xb2c1; 0xb381; 0x7340; 0xb101; 0x71c0; 0x7080; 0xb041;
   0x5000; 0x90c1; 0x9181; 0x5140; 0x9301; 0x53c0; 0x5280; 0x9241;
   0x9601; 0x56c0; 0x5780; 0x9741; 0x5500; 0x95c1; 0x9481; 0x5440;
   0x9c01; 0x5cc0; 0x5d80; 0x9d41; 0x5f00; 0x9fc1; 0x9e81; 0x5e40;
   0x5a00; 0x9ac1; 0x9b81; 0x5b40; 0x9901; 0x59c0; 0x5880; 0x9841;
   0x8801; 0x48c0; 0x4980; 0x8941; 0x4b00; 0x8bc1; 0x8a81; 0x4a40;
   0x4e00; 0x8ec1; 0x8f81; 0x4f40; 0x8d01; 0x4dc0; 0x4c80; 0x8c41;
   0x4400; 0x84c1; 0x8581; 0x4540; 0x8701; 0x47c0; 0x4680; 0x8641;
   0x8201; 0x42c0; 0x4380; 0x8341; 0x4100; 0x81c1; 0x8081; 0x4040].

(** src/crc/crc32_eth.c:3-68 *)
Definition tab_eth : list Z := [
   0x00000000; 0x77073096; 0xee0e612c; 0x990951ba; 0x076dc419; 0x706af48f; 0xe963a535; 0x9e6495a3;
   0x0edb8832; 0x79dcb8a4; 0xe0d5e91e; 0x97d2d988; 0x09b64c2b; 0x7eb17cbd; 0xe7b82d07; 0x90bf1d91;
   0x1db71064; 0x6ab020f2; 0xf3b97148; 0x84be41de; 0x1adad47d; 0x6ddde4eb; 0xf4d4b551; 0x83d385c7;
   0x136c9856; 0x646ba8c0; 0xfd62f97a; 0x8a65c9ec; 0x14015c4f; 0x63066cd9; 0xfa0f3d63; 0x8d080df5;
   0x3b6e20c8; 0x4c69105e; 0xd56041e4; 0xa2677172; 0x3c03e4d1; 0x4b04d447; 0xd20d85fd; 0xa50ab56b;
   0x35b5a8fa; 0x42b2986c; 0xdbbbc9d6; 0xacbcf940; 0x32d86ce3; 0x45df5c75; 0xdcd60dcf; 0xabd13d59;
   0x26d930ac; 0x51de003a; 0xc8d75180; 0xbfd06116; 0x21b4f4b5; 0x56b3c423; 0xcfba9599; 0xb8bda50f;
   0x2802b89e; 0x5f058808; 0xc60cd9b2; 0xb10be924; 0x2f6f7c87; 0x58684c11; 0xc1611dab; 0xb6662d3d;
   0x76dc4190; 0x01db7106; 0x98d220bc; 0xefd5102a; 0x71b18589; 0x06b6b51f; 0x9fbfe4a5; 0xe8b8d433;
   0x7807c9a2; 0x0f00f934; 0x9609a88e; 0xe10e9818; 0x7f6a0dbb; 0x086d3d2d; 0x91646c97; 0xe6635c01;
   0x6b6b51f4; 0x1c6c6162; 0x856530d8; 0xf262004e; 0x6c0695ed; 0x1b01a57b; 0x8208f4c1; 0xf50fc457;
   0x65b0d9c6; 0x12b7e950; 0x8bbeb8ea; 0xfcb9887c; 0x62dd1ddf; 0x15da2d49; 0x8cd37cf3; 0xfbd44c65;
   0x4db26158; 0x3ab551ce; 0xa3bc0074; 0xd4bb30e2; 0x4adfa541; 0x3dd895d7; 0xa4d1c46d; 0xd3d6f4fb;
   0x4369e96a; 0x346ed9fc; 0xad678846; 0xda60b8d0; 0x44042d73; 0x33031de5; 0xaa0a4c5f; 0xdd0d7cc9;
   0x5005713c; 0x270241aa; 0xbe0b1010; 0xc90c2086; 0x5768b525; 0x206f85b3; 0xb966d409; 0xce61e49f;
   0x5edef90e; 0x29d9c998; 0xb0d09822; 0xc7d7a8b4; 0x59b33d17; 0x2eb40d81; 0xb7bd5c3b; 0xc0ba6cad;
   0xedb88320; 0x9abfb3b6; 0x03b6e20c; 0x74b1d29a; 0xead54739; 0x9dd277af; 0x04db2615; 0x73dc1683;
   0xe3630b12; 0x94643b84; 0x0d6d6a3e; 0x7a6a5aa8; 0xe40ecf0b; 0x9309ff9d; 0x0a00ae27; 0x7d079eb1;
   0xf00f9344; 0x8708a3d2; 0x1e01f268; 0x6906c2fe; 0xf762575d; 0x806567cb; 0x196c3671; 0x6e6b06e7;
   0xfed41b76; 0x89d32be0; 0x10da7a5a; 0x67dd4acc; 0xf9b9df6f; 0x8ebeeff9; 0x17b7be43; 0x60b08ed5;
   0xd6d6a3e8; 0xa1d1937e; 0x38d8c2c4; 0x4fdff252; 0xd1bb67f1; 0xa6bc5767; 0x3fb506dd; 0x48b2364b;
   0xd80d2bda; 0xaf0a1b4c; 0x36034af6; 0x41047a60; 0xdf60efc3; 0xa867df55; 0x316e8eef; 0x4669be79;
   0xcb61b38c; 0xbc66831a; 0x256fd2a0; 0x5268e236; 0xcc0c7795; 0xbb0b4703; 0x220216b9; 0x5505262f;
   0xc5ba3bbe; 0xb2bd0b28; 0x2bb45a92; 0x5cb36a04; 0xc2d7ffa7; 0xb5d0cf31; 0x2cd99e8b; 0x5bdeae1d;
   0x9b64c2b0; 0xec63f226; 0x756aa39c; 0x026d930a; 0x9c0906a9; 0xeb0e363f; 0x72076785; 0x05005713;
   0x95bf4a82; 0xe2b87a14; 0x7bb12bae; 0x0cb61b38; 0x92d28e9b; 0xe5d5be0d; 0x7cdcefb7; 0x0bdbdf21;
   0x86d3d2d4; 0xf1d4e242; 0x68ddb3f8; 0x1fda836e; 0x81be16cd; 0xf6b9265b; 0x6fb077e1; 0x18b74777;
   0x88085ae6; 0xff0f6a70; 0x66063bca; 0x11010b5c; 0x8f659eff; 0xf862ae69; 0x616bffd3; 0x166ccf45;
   0xa00ae278; 0xd70dd2ee; 0x4e048354; 0x3903b3c2; 0xa7672661; 0xd06016f7; 0x4969474d; 0x3e6e77db;
   0xaed16a4a; 0xd9d65adc; 0x40df0b66; 0x37d83bf0; 0xa9bcae53; 0xdebb9ec5; 0x47b2cf7f; 0x30b5ffe9;
   0xbdbdf21c; 0xcabac28a; 0x53b39330; 0x24b4a3a6; 0xbad03605; 0xcdd70693; 0x54de5729; 0x23d967bf;
   0xb3667a2e; 0xc4614ab8; 0x5d681b02; 0x2a6f2b94; 0xb40bbe37; 0xc30c8ea1; 0x5a05df1b; 0x2d02ef8d].

(** src/crc/crc16_ccitt.c:40-58 cry_crc16_ccitt *)
Definition crc16_ccitt (m : list Z) : Z := crc16_final true true (crc_update tab_ccitt 0xFFFF m).
(** src/crc/crc16_dnp.c:40-58 cry_crc16_dnp *)
Definition crc16_dnp (m : list Z) : Z := crc16_final true true (crc_update tab_dnp 0x0000 m).
(** src/crc/crc16_ibm.c:40-57 cry_crc16_ibm *)
Definition crc16_ibm (m : list Z) : Z := crc16_final false false (crc_update tab_ibm 0xFFFF m).
(** src/crc/crc32_eth.c:70-82 cry_crc32_eth *)
Definition crc32_eth (m : list Z) : Z := crc32_final true false (crc_update tab_eth 0xffffffff m).
