(** Recorded results of x86 instructions (generated by tools/hardware.py; not part of any proof).

    Each line runs the model of one vsimd operation on vectors on which a CPU with AVX2 executed the intrinsics that the
    Rust source uses for that operation and instruction set, and compares with what the CPU returned.
    This tests the meaning given to the instructions, which the theorems trust (DESIGN.md, section 1).
    A vector is written as the number whose little-endian bytes it holds. *)
From Coq Require Import ZArith List Bool.
From Verif Require Import Bytes Isa Ints Simd VsimdSpec Vsimd FloatSpec Float Uuid.
Import ListNotations.
Open Scope Z_scope.
Local Definition v16 := le_bytes 16.
Local Definition v32 := le_bytes 32.
Local Ltac run := vm_compute; reflexivity.

Example hw000 : let f := u_add W128 SSE2 U8 in
  [f (v16 0xfebfbf001fbf00f07efebf7e80fe1f1f) (v16 0x8081f020013fc07fc081bff020bf7ff0); f (v16 0x797f466250f8ca6d0302745e68ee3eea) (v16 0x7cd894a25f3dd501fe6be66829543ac9); f (v16 0x0000ff7fff01017f7f8000017f007f7f) (v16 0x017f000180ff8080ff0100ff00ff7f00); f (v16 0x00ff0000ff0080ffff0000ffff018001) (v16 0xffffff01ff0000ff80ffff0080ffffff)] =
  [Some (v16 0x7e40af2020fec06f3e7f7e6ea0bd9e0f); Some (v16 0xf557da04af359f6e016d5ac6914278b3); Some (v16 0x017fff807f0081ff7e8100007ffffe7f); Some (v16 0xfffeff01fe0080fe7fffffff7f007f00)].
Proof. run. Qed.
Example hw001 : let f := u_sub W128 SSE2 U8 in
  [f (v16 0xff208f0f1f01fd3f7f01fe7f02ff7ebf) (v16 0x7fffbf3f81bf02f03f20901fbf01107f); f (v16 0xe31d954d0f1d995003aa20b0fcb936e6) (v16 0x96cafcb57156d24a7b73a9c7c11c34c7); f (v16 0xff7f008080ff8001807f00ffff8080ff) (v16 0x0101ff807f7f8000000180ff00ff0001); f (v16 0xff01000080ff00018001000080000001) (v16 0xff01ffff800080008001000080000001)] =
  [Some (v16 0x8021d0d09e42fb4f40e16e6043fe6e40); Some (v16 0x4d5399989ec7c706883777e93b9d021f); Some (v16 0xfe7e010001800001807e8000ff8180fe); Some (v16 0x0000010100ff80010000000000000000)].
Proof. run. Qed.
Example hw002 : let f := u_eq W128 SSE2 U8 in
  [f (v16 0xffc0407ebf1f0f1ffd1fff0f00c08081) (v16 0x7f1ffffffd0102ff807f0f807fff7e3f); f (v16 0x891a28c84909f7c316b5c5faa7859b5b) (v16 0x32f5f8805166d4fa83c16a89d4d58dc1); f (v16 0x80ff7f80ff0000010080ff0080007f01) (v16 0x000001000100ff00ff0180000080017f); f (v16 0x0000800100ff00008000ff0080010001) (v16 0xff008001000100018000ff0080010001)] =
  [Some (v16 0x00000000000000000000000000000000); Some (v16 0x00000000000000000000000000000000); Some (v16 0x0000000000ff0000000000ff00000000); Some (v16 0x00ffffffff00ff00ffffffffffffffff)].
Proof. run. Qed.
Example hw003 : let f := u_add W128 SSE2 I8 in
  [f (v16 0x20021110111f02fd02fd807ff010ffff) (v16 0xff408000fd40908f907f3f7f1040f081); f (v16 0xa7562a12c6c0bbe6579e44a944b64cf9) (v16 0xfee072c72c68d609d1131df7bd757987); f (v16 0x00ff01ffff7f800080ff008080000100) (v16 0x01018080010101010101000100807f7f); f (v16 0xffff0001000100ffff01800080ff00ff) (v16 0xffff0001000100ff80ff8001800100ff)] =
  [Some (v16 0x1f4291100e5f928c927cbffe0050ef80); Some (v16 0xa5369cd9f22891ef28b161a0012bc580); Some (v16 0x0100817f00808101810000818080807f); Some (v16 0xfefe0002000200fe7f000001000000fe)].
Proof. run. Qed.
Example hw004 : let f := u_sub W128 SSE2 I8 in
  [f (v16 0xfe40fd80020111017f3f20fe3f01ff7e) (v16 0x90c001fe817f1102fe40fd100f90118f); f (v16 0x7220755644674ac37a8b942cfe912ad4) (v16 0x29321707d87ebea103a3258ba47fd310); f (v16 0xffffff7f008001808080ff0000017f01) (v16 0x7fff00ff807fff00ff017f0080800080); f (v16 0x0000ff01ffffff00000100008000ff00) (v16 0x00010001ff000001000100008000ff00)] =
  [Some (v16 0x6e80fc82818200ff81ff23ee3071eeef); Some (v16 0x49ee5e4f6ce98c2277e86fa15a1257c4); Some (v16 0x8000ff8080010280817f800080817f81); Some (v16 0x00ffff0000ffffff0000000000000000)].
Proof. run. Qed.
Example hw005 : let f := u_eq W128 SSE2 I8 in
  [f (v16 0x3f90f0fd02bf1140401f8f0ffdfd2000) (v16 0x1f027e027e0100fefe0f1f40ff802040); f (v16 0x56bcebdb7d85e1f552382c7520ce9a35) (v16 0x193686a7a6c749d439e1c562624426f4); f (v16 0x00ff01ff7f80ffff01ffff0000807f7f) (v16 0x7f7f01ff007f0080807f7f8080017fff); f (v16 0x000100ff0000ff00000000ffff00ffff) (v16 0x000100ff0000ff00000000ffff00ffff)] =
  [Some (v16 0x0000000000000000000000000000ff00); Some (v16 0x00000000000000000000000000000000); Some (v16 0x0000ffff00000000000000000000ff00); Some (v16 0xffffffffffffffffffffffffffffffff)].
Proof. run. Qed.
Example hw006 : let f := u_lt W128 SSE2 I8 in
  [f (v16 0x8f1000fe80204090807e801181c08ff0) (v16 0x80fd81f0112011bfbf200f8ffdc0ff01); f (v16 0xa201071ed51fc6545b5bb28b12e40dc2) (v16 0x97c2c3e865b4c3bdb8107dbc40e50622); f (v16 0xff807fff01007f008080007f00ffff01) (v16 0x800000ff8080017f018080ff80017f80); f (v16 0xff018001ff0080ff00ffffffff018000) (v16 0x0001ff00ff0100ff00ffffffff018000)] =
  [Some (v16 0x00000000ff0000ffff00ff00ff00ffff); Some (v16 0x00000000ff0000000000ffffffff00ff); Some (v16 0x00ff0000000000ffff00000000ffff00); Some (v16 0xff00ff0000ffff000000000000000000)].
Proof. run. Qed.
Example hw007 : let f := u_lt W128 SSE2 U8 in
  [f (v16 0x813ff08011017f3f40f08fbfbf907f8f) (v16 0x11007f01fdfd02fe0f3f80f010001f00); f (v16 0x5be73757f5feda31d50a119ac64651fd) (v16 0x4a126f73e1ed83e3a41d46ad7a99926c); f (v16 0x7f7f800000ff8001017f00807f00ff7f) (v16 0x7f00807f808000017f01007f7f00007f); f (v16 0xff0180ffff0180ff8000ffffffff0001) (v16 0xff0180ffff0180ff8000ffffffff0001)] =
  [Some (v16 0x00000000ffff00ff000000ff00000000); Some (v16 0x0000ffff000000ff00ffffff00ffff00); Some (v16 0x000000ffff000000ff00000000000000); Some (v16 0x00000000000000000000000000000000)].
Proof. run. Qed.
Example hw008 : let f := u_add_sat W128 SSE2 U8 in
  [f (v16 0x7eff810f01c0813ff03f7e02c000f08f) (v16 0xf08000fe00400f1040104080ff3f8f7e); f (v16 0xc3b20bf440dc69fe63bde4c049601c20) (v16 0xe4c7b771e10e0c2e5a38a9c18963d210); f (v16 0x01ffffff00ff8000807f7f00ff017f00) (v16 0xffff0080000080ffff8080ff7f7f80ff); f (v16 0x8000800000ff0000ff0080ff0001ffff) (v16 0x8000800000ff0000ff01800180ff8001)] =
  [Some (v16 0xffff81ff01ff904fff4fbe82ff3fffff); Some (v16 0xffffc2ffffea75ffbdf5ffffd2c3ee30); Some (v16 0xffffffff00ffffffffffffffff80ffff); Some (v16 0xff00ff0000ff0000ff01ffff80ffffff)].
Proof. run. Qed.
Example hw009 : let f := u_add_sat W128 SSE2 I8 in
  [f (v16 0x3f02907eff103fff00f07e01f0200f0f) (v16 0x903fc03ffe0f108f200ffef0c0807f81); f (v16 0xfa6dddd9bbb9b8cae0bb432baedaa113) (v16 0x72f21582fe33c8c91df728152b6bed3b); f (v16 0x0180ff7f0101017f01000000807f8001) (v16 0xff0080000001000180807fffff7f0180); f (v16 0x800080ffff00ffffff0180ffff010000) (v16 0x800080ffff00ffffff00ff018001ff00)] =
  [Some (v16 0xcf41807ffd1f4f8e20ff7cf1b0a07f90); Some (v16 0x6c5ff280b9ec8093fdb26b40d9458e4e); Some (v16 0x0080807f0102017f81807fff807f8181); Some (v16 0x800080fefe00fefefe0180008002ff00)].
Proof. run. Qed.
Example hw010 : let f := u_sub_sat W128 SSE2 U8 in
  [f (v16 0x81febf02fe0f807f81bf11f011ffff90) (v16 0xfe0200fdbf11fd01401f818ffef00f11); f (v16 0x0dcd3ed41040b23bb5038f27a94fb774) (v16 0xd8b7c51490d45adf804985ae0578f206); f (v16 0xff8080ff80ff01ff7f007f0101ff7f80) (v16 0x7f0101017f007f7f8080017f01ff7f80); f (v16 0xffffffff00ff000080ffff0080010000) (v16 0xffffffff00ff000080ffff0080010000)] =
  [Some (v16 0x00fcbf003f00007e41a00061000ff07f); Some (v16 0x001600c00000580035000a00a400006e); Some (v16 0x807f7ffe01ff008000007e0000000000); Some (v16 0x00000000000000000000000000000000)].
Proof. run. Qed.
Example hw011 : let f := u_sub_sat W128 SSE2 I8 in
  [f (v16 0x10f090207f1f0140108ffe004020bf8f) (v16 0x02bf81fd0f00c000001f20c0800f00ff); f (v16 0xa3726daa355ea58fef9cb78f29342d62) (v16 0xbf8222ce6a2fac7a73506ce6b84651f5); f (v16 0xffffffff00010080ff00ff017f0000ff) (v16 0x0100007f807fff010100000180ff0100); f (v16 0x80ffffff0001800100000001ff0080ff) (v16 0x80ffffff0001800100000001ff0080ff)] =
  [Some (v16 0x0e310f23701f41401080de407f11bf90); Some (v16 0xe47f4bdccb2ff980808080a971eedc6d); Some (v16 0xfeffff807f820180fe00ff007f01ffff); Some (v16 0x00000000000000000000000000000000)].
Proof. run. Qed.
Example hw012 : let f := u_max W128 SSE41 U8 in
  [f (v16 0x1fbf807f7f817f10fffe7f7fff1f4002) (v16 0x1140110f021ffebfff7f3ffefd110fc0); f (v16 0x43cc8a3999e08eefa4bbca3e1bb80f0c) (v16 0x6d6e9ae00485ad5e4d2106245caadb13); f (v16 0x8000ff808001007fff7fff000080007f) (v16 0x7f800080807fff0101807fff00008080); f (v16 0x00018001000000000000000080ff00ff) (v16 0x80ff0000ff01000080018001ff01ff01)] =
  [Some (v16 0x1fbf807f7f81febffffe7ffeff1f40c0); Some (v16 0x6dcc9ae099e0adefa4bbca3e5cb8db13); Some (v16 0x8080ff80807fff7fff80ffff00808080); Some (v16 0x80ff8001ff01000080018001ffffffff)].
Proof. run. Qed.
Example hw013 : let f := u_max W128 SSE41 I8 in
  [f (v16 0x117effff3f02111f7ffe3f003f1ffd10) (v16 0xfd10c07efef010fe10fdc07e408fbf00); f (v16 0xe814e21f3fdff56a672935908a78f2cc) (v16 0xfb01bd9575c929cf95294e01a80fc601); f (v16 0x807f00000100807f00ff00000180807f) (v16 0xff01ff7f7fff01000101017f8000ff01); f (v16 0x00ffff00ff0180ff8000800180008001) (v16 0x00ffff00ff0180ff8000800180008001)] =
  [Some (v16 0x117eff7e3f02111f7ffe3f7e401ffd10); Some (v16 0xfb14e21f75df296a67294e01a878f201); Some (v16 0xff7f007f7f00017f0101017f0100ff7f); Some (v16 0x00ffff00ff0180ff8000800180008001)].
Proof. run. Qed.
Example hw014 : let f := u_min W128 SSE41 U8 in
  [f (v16 0xbf403fc0f001f07eff017effff020f80) (v16 0x7ef0804010204040f0ff801002f03f3f); f (v16 0x9fcf1a26d8c59d3db8fa04dab9f9b834) (v16 0xcf4663ccdc29d8296b864bb1b17e3e8f); f (v16 0x7f80007f00ff01ff80807f8001010180) (v16 0x007f80807f01ffff01ff017fff7fff80); f (v16 0x8000ffff80ffffff00ff0000ffff00ff) (v16 0x8000ffff80ffffffffffff0100010001)] =
  [Some (v16 0x7e403f4010014040f0017e1002020f3f); Some (v16 0x9f461a26d8299d296b8604b1b17e3e34); Some (v16 0x007f007f000101ff0180017f01010180); Some (v16 0x8000ffff80ffffff00ff000000010001)].
Proof. run. Qed.
Example hw015 : let f := u_min W128 SSE41 I8 in
  [f (v16 0xfe8fc001110111ff0f3fc03f11111f01) (v16 0xfd8f00c0ff020211027e020f80ff8101); f (v16 0x7a96ee1e3b357e04fdd9d1d5831d827b) (v16 0x06c2bfbd6ec26e2ec22648c4d8f9d438); f (v16 0x01ffff7fff000101010080007f807f00) (v16 0x807f0180000100807fff0101ff7f7f00); f (v16 0xffff800180ffff00000000ff80ff00ff) (v16 0xffff800180ffff00800000ff800180ff)] =
  [Some (v16 0xfd8fc0c0ff0102ff023fc00f80ff8101); Some (v16 0x0696bfbd3bc26e04c2d9d1c483f98238); Some (v16 0x80ffff80ff00008001ff8000ff807f00); Some (v16 0xffff800180ffff00800000ff80ff80ff)].
Proof. run. Qed.
Example hw016 : let f := zip_lo 1 SSE2 in
  [f (v16 0x8f7efe3f8120800ffff090bff0000f10) (v16 0x7e7f01117fbf7e0090001040bf400f01); f (v16 0xee9f90bb4695dfd36d83d0f407c96a65) (v16 0x413aba8cd4cfa46097d599625e48ad40); f (v16 0x008001808080807f007fffff00807f7f) (v16 0x808000ff00000180808080007fff007f); f (v16 0x80ffff0080000000ff018001ff000001) (v16 0x80ffff008000000080ff000100ffff00)] =
  [Some (v16 0x90ff00f0109040bfbff040000f0f0110); Some (v16 0x976dd58399d062f45e0748c9ad6a4065); Some (v16 0x8000807f80ff00ff7f00ff80007f7f7f); Some (v16 0x80ffff010080010100ffff00ff000001)].
Proof. run. Qed.
Example hw017 : let f := zip_hi 1 SSE2 in
  [f (v16 0x3ffd1fbfc00f3f10fe7ffec0818f8f0f) (v16 0x00bf8f7f81fdfefe807f1ffd10028020); f (v16 0x6257630403305aca0822bb4919ff6b6f) (v16 0x2078ab4c4a58f71f2316d5a4e1a9286b); f (v16 0x80ff80ffff8080018080ff80ffff7f80) (v16 0xff00010080007fffff8000ff807fff80); f (v16 0x00000001ffff80ff800000ff000000ff) (v16 0x800100ffffff80ff00ffffff000180ff)] =
  [Some (v16 0x003fbffd8f1f7fbf81c0fd0ffe3ffe10); Some (v16 0x20627857ab634c044a035830f75a1fca); Some (v16 0xff8000ff018000ff80ff00807f80ff01); Some (v16 0x800001000000ff01ffffffff8080ffff)].
Proof. run. Qed.
Example hw018 : let f := u_add W256 AVX2 U8 in
  [f (v32 0x80fd3f0211007efffe0f8fbf011001c08ffe00fdbf7e0f0ff00f01bf3f027efd) (v32 0xff7f7e800020ffbffffe80f0fffe80f0fe8f7f20fd40bf003fff11fdfd0ffd20); f (v32 0x27087c0b46392e0d0f97c0fb93bd004e759a5f464e1460256bca621e77762407) (v32 0xf95602b7c129e31cf25ad4b821bc738aeeb003240282bd68f6318016686d13d3); f (v32 0x01ff7f017f8080ff80017fff808000ff00ff0001ffff00800100008000017f7f) (v32 0x000101ff8080000101808080ff01017f007f007f7f00007f008001007f800180); f (v32 0x8001ff01ff00800000ffffff00ff800080ffffffff00000080ff00010000ff00) (v32 0x8001ff01ff008000ffff0000800100ff80ffffffff00000080ff00010000ff00)] =
  [Some (v32 0x7f7cbd8211207dbefd0d0faf000e81b08d8d7f1dbcbece0f2f0e12bc3c117b1d); Some (v32 0x205e7ec20762112901f194b3b47973d8634a626a50961d8d61fbe234dfe337da); Some (v32 0x01008000ff0080008181ff7f7f81017e007e00807eff00ff018001807f8180ff); Some (v32 0x0002fe02fe000000fffeffff800080ff00fefefefe00000000fe00020000fe00)].
Proof. run. Qed.
Example hw019 : let f := u_sub W256 AVX2 U8 in
  [f (v32 0xfd3ffd3f900f1f1f1002007f7e40fd1f201180817fff2081c0bf8102ff1ffdfd) (v32 0x10fd0f400f02007f1fbf20f0c0007ffe3f107ffe000ff07f80fd8fff900fc020); f (v32 0xfad710ce94c2f889d1b84f52c5f84d55316c49412694fc55d38a0e2899ee2f88) (v32 0xeff013e7aeda7ba02c2ace7e1843c12e663ee62634c0c79baa112550de750267); f (v32 0x7f00808000ff01007f80ffffff7f80ff0080ff017f000080ff0000008001ff80) (v32 0x00807f01007f017f0101010100ffffff0000ffff01000100ff01ff01807f0000); f (v32 0x000100ffff00000100ff80008001000000008000ffffff01800180ff00ff0000) (v32 0x0001ff01ff0180ff00ff80008001000000008000ffffff01800180ff00ff0000)] =
  [Some (v32 0xed42eeff810d1fa0f143e08fbe407e21e10101837ff0300240c2f2036f103ddd); Some (v32 0x0be7fde7e6e87de9a58e81d4adb58c27cb2e631bf2d435ba2979e9d8bb792d21); Some (v32 0x7f80017f008000817e7ffefeff808100008000027e00ff8000ff01ff0082ff80); Some (v32 0x000001fe00ff8002000000000000000000000000000000000000000000000000)].
Proof. run. Qed.
Example hw020 : let f := u_eq W256 AVX2 U8 in
  [f (v32 0xf07f7f407ebf3f0ffe80fefe203f908f8f0f3f20f0018f90f0800f7fffff2000) (v32 0x207f01118f0040010190903f90feff027e11bf8f11ffbff002901f40801ffdf0); f (v32 0x8c19e8ea273093cdf305432ae49794d1f2bda90b42a7a719f4bd91f4256e997f) (v32 0x0d2f9a87b241f48691f6dd98e304e07ac67f6f390675598e52b064bf9e4aeb89); f (v32 0x80ff8000000100ff018001007f7f7f0080807f808001ff80ff7f80010001017f) (v32 0x018001ffff01008080807f7f017f00000100008001ff7f7fff000180010000ff); f (v32 0x8000ff010001800000ff0001ff00000080ffffff0001800180018000ff000000) (v32 0x80ff8000800080ff000180008001800100ffff018001800100ff800180000000)] =
  [Some (v32 0x00ff000000000000000000000000000000000000000000000000000000000000); Some (v32 0x0000000000000000000000000000000000000000000000000000000000000000); Some (v32 0x0000000000ffff0000ff000000ff00ff000000ff00000000ff00000000000000); Some (v32 0xff0000000000ff00ff0000000000000000ffff0000ffffff0000ff0000ffffff)].
Proof. run. Qed.
Example hw021 : let f := u_add W256 AVX2 I8 in
  [f (v32 0xc020403f90bf2011bf0020400f10400090c01ff002027f804000fe8f1111c000) (v32 0x01fe0220817ebf801fc0fdbf0f3f207e01017e7e00407e10003ff0001f11c0fe); f (v32 0xed1192dfd2d601ff658785db17160756a92b9d97a135ce096489276b159241fa) (v32 0xb20b1075cc0ecb50baba3301568d75920f5aa4e54bb756e0e95266a5832578da); f (v32 0xff7f017f807fffff0100807fff00007f017f00ff80007fff807f01ff01008001) (v32 0xff017fffff00ff01017f00007f017fffff7f0080808000ff80007fffff007f00); f (v32 0xff010000800100ff8001ffffff00ff010000ff01800100018000000000000001) (v32 0xff010000800100ff0001ffffffffffff0000ff01800100018000000000000001)] =
  [Some (v32 0xc11e425f113ddf91dec01dff1e4f607e91c19d6e0242fd90403fee8f302280fe); Some (v32 0x9f1ca2549ee4cc4f1f41b8dc6da37ce8b885417cecec24e94ddb8d1098b7b9d4); Some (v32 0xfe80807e7f7ffe00027f807f7e017f7e00fe007f00807ffe007f80fe0000ff01); Some (v32 0xfe020000000200fe8002fefefefffe000000fe02000200020000000000000002)].
Proof. run. Qed.
Example hw022 : let f := u_sub W256 AVX2 I8 in
  [f (v32 0xc00f00ff7e20fd0211017e7e80feff3f20ff3f4090400f810f1ffe8f0f800f02) (v32 0x2080fdfefff0bf819011013ffd00c01000c0f01180bf000f00bfff1f3f118110); f (v32 0x1a8ee24081233fb9026b4a71c0477eca558c89b091bcb3093b42f70fe7b3e5ff) (v32 0xb22b4343470fdb5cdae213a8217cc3e029a6751a259bf7c3e4566667f282a896); f (v32 0x800101ff80010101018001808000807f010001800000017f0080ff7f7fff80ff) (v32 0x7f8080807fff7f00017f8000017f800080017f018080807f00ff7f7f807fff80); f (v32 0xffff0000800100ffff00ff01ff0000ff80ff80ffff0000ff00ff800080ff8001) (v32 0xffff0000800100ff00010001ffff000180ff80ffff0000ff00ff800080ff8001)] =
  [Some (v32 0xa08f03017f303e8181f07d3f83fe3f2f203f4f2f10810f720f60ff70d06f8ef2); Some (v32 0x68639ffd3a14645d288937c99fcbbbea2ce614966c21bc4657ec91a8f5313d69); Some (v32 0x0181817f01028201000181807f81007f81ff827f8080810000818000ff80817f); Some (v32 0x0000000000000000ffffff00000100fe00000000000000000000000000000000)].
Proof. run. Qed.
Example hw023 : let f := u_eq W256 AVX2 I8 in
  [f (v32 0xffbf118f201fc0811f7e7ef00201117f001f0f90007f903f11fd20208f202011) (v32 0x7e000ff0fd7ebf7e7ff01081fd40bf02bf901f1f0f00200000c0c08f10104000); f (v32 0xfe1e4e4540e5f463f9ecf4779b0c6fd9999f709f563452af2e4ff6b345d3c3e5) (v32 0x717b34af799907aac8ed753f4ef6189fa67d534d7aa4d6abbf2871ef8e29ad44); f (v32 0xff80ff01ff7fff80017f80ff7fff017fff01ff0000018001ff8001808080ff7f) (v32 0x807f0100ff7f800000008001800100800001017fff000101ff018080ff808080); f (v32 0x00ff00018000ff010000ff0180ff80ffff01ff01ff00ff0100008001800080ff) (v32 0xffffff0180ff00010001ff01ff00000080ff8001ff01000000008001800080ff)] =
  [Some (v32 0x0000000000000000000000000000000000000000000000000000000000000000); Some (v32 0x0000000000000000000000000000000000000000000000000000000000000000); Some (v32 0x00000000ffff00000000ff000000000000ff0000000000ffff0000ff00ff0000); Some (v32 0x00ff00ffff0000ffff00ffff00000000000000ffff000000ffffffffffffffff)].
Proof. run. Qed.
Example hw024 : let f := u_lt W256 AVX2 I8 in
  [f (v32 0x3f200fbffe111f9010fff0bf1f7f403f817e021f00202001c0fe40400090f00f) (v32 0x02018ffe011f003f811fff200202c08f908000fe010f800181fd0ffd1102023f); f (v32 0x741651b12acf8e560a57e041c60a7e2049907ba1780b83e95d65e41af4897404) (v32 0x9efbf022c308b40649f091f57831b8f16c9a34441d90f8cda837c9179aaf965c); f (v32 0x800001017f7f007fff000101ff00ff007f01ffff01ff01ff0001ff7f80000180) (v32 0x007f0180ff00ff01ff8080000000010100ff010000ff808001000000ff7f8001); f (v32 0x0001800080ff00008001ff01800180ffff0180ffff008000000080ffff000001) (v32 0x0001800080ff00008001ff01800180ffff008001800180ff000080ffff000001)] =
  [Some (v32 0x000000ffffff00ff00ffffff00000000ff000000ff00000000000000ffffffff); Some (v32 0x000000ff00ffff00ff000000ffff0000ffff00ff0000ff000000000000ff00ff); Some (v32 0xffff00000000000000000000ff00ffff0000ffff00000000ff00ff00ffff00ff); Some (v32 0x00000000000000000000000000000000000000ff00ff00000000000000000000)].
Proof. run. Qed.
Example hw025 : let f := u_lt W256 AVX2 U8 in
  [f (v32 0xc0111ffe02fefd90bf01fd20403f003fc0900fff40908f01fffe801f7e3fbf7f) (v32 0x01bf907e1f80bf1fc0f090813ff081400f1f8111018002003f00ff7e817e1f7e); f (v32 0xca73cb026a4bfcb1aeefd74dad9a8fc099f8c4a178e6cd083a076d8cc4b1d010) (v32 0x77a5b626280f9cea807a5cc61c900663d7726370a3f2eb52be2134fb735feb34); f (v32 0x7f017f00ff01ff017f0180ffff8080007f8080017fff007f8001800080010000) (v32 0x7f018000008001008080017f7fff017f808001ffff0101007f80000100ff7fff); f (v32 0x00ffff0080ffff01ff00ffffff0180ffffffff00000000ff8001ff0180008001) (v32 0xffffff01ffff80ffff00ffffff0180ffffffff00000000ff8001ff0180008001)] =
  [Some (v32 0x00ffff00ff000000ffff00ff00ffffff0000ff00000000000000ffffffff0000); Some (v32 0x00ff00ff000000ff000000ff00000000ff000000ffffffffffff00ff0000ffff); Some (v32 0x0000ff0000ff0000ffff000000ff00ffff0000ffff00ff0000ff00ff00ffffff); Some (v32 0xff0000ffff0000ff000000000000000000000000000000000000000000000000)].
Proof. run. Qed.
Example hw026 : let f := u_add_sat W256 AVX2 U8 in
  [f (v32 0x110f8f40020f01fe3f7e01003f0080fd0f40fefd90f07f90bf1ffd90fdc00120) (v32 0x908100c0ff81001f40ff0f908020008f7f90c0f0ff000fc07fc040f03f00ff7e); f (v32 0xffb52bd19cdb6ce15ec812848ed26c52cfb87eff4d60eaf6c75ddcededefa858) (v32 0xa1ae902e44911d54a83b3fd174a3ef88a79fc9c1fd30c0e8a62df80348060164); f (v32 0x01010180007f7f01ff01ff80808000007f7f7f8001017f800001000001ff00ff) (v32 0xff01018001ff7f807f018001ffff010101010101807f00017fff7f007f007f7f); f (v32 0xffff80000001000180ff0001800080008001800080ff8000ffff80ffff000001) (v32 0xffff80000001000180ff00018000800080ff0000ffff8001ffff80ffff000001)] =
  [Some (v32 0xa1908fffff9001ff7fff1090bf2080ff8ed0fffffff08effffdfffffffc0ff9e); Some (v32 0xffffbbffe0ff89ffffff51ffffffffdaffffffffff90ffffff8afff0fff5a9bc); Some (v32 0xff0202ff01fffe81ff02ff81ffff01018080808181807f817fff7f0080ff7fff); Some (v32 0xffffff0000020002ffff0002ff00ff00ffff8000ffffff01ffffffffff000002)].
Proof. run. Qed.
Example hw027 : let f := u_add_sat W256 AVX2 I8 in
  [f (v32 0xf00f1fff02bf7f9002ff7f3f1020003f8f4010bf117e7f803f7f11ff0100fd40) (v32 0x401f8f7eff408fc08190109001014000f0bf3ffd207e7e0f20023ff080fe1f00); f (v32 0xa9d260ba80ca047a27e856920beeded44b3ea1093c6fb5f45908c7a7d9b7428e) (v32 0xdc945d90e225ef7deb3e175b21c6ede3719fdb39b9ae8fc1021238af82958263); f (v32 0x800000007fff8001017fff7f00007fff00800100018001ff0101007fff808001) (v32 0x7f00007f800100000080ff7f80017f8001000100807f7f80ffff7f007f7f0080); f (v32 0x0001ff0000010001ffffffff0000ffffffffff00000000018000ff01ff01ffff) (v32 0x0001ff0000010001000100ff80ff8001ffffff00000000018000ff01ff01ffff)] =
  [Some (v32 0x302eae7d01ff0e80838f7fcf1121403f80ff4fbc317f7f8f5f7f50ef81fe1c40); Some (v32 0x85807f8080eff37f12266ded2cb4cbb77fdd8042f51d80b55b1aff808080c4f1); Some (v32 0xff00007fff00800101fffe7f80017f800180020081ff7f8000007f7f7eff8081); Some (v32 0x0002fe0000020002ff00fffe80ff8000fefefe00000000028000fe02fe02fefe)].
Proof. run. Qed.
Example hw028 : let f := u_sub_sat W256 AVX2 U8 in
  [f (v32 0x90818f0281408f2020c01101907e0f808f11207f40fd40feff0190c0fdc03ffd) (v32 0xfeff7e813f1ffef0bffe1f018fc0008090813ffec010f081800ffebf811ffe1f); f (v32 0x9535ab64697379fa3805e5aabec6d9820b9162f13b7ec93747e6c6c200a104dd) (v32 0x3f1f428eafa463fd123db4252b533ee05ffb17b155ee4dc4a000b56a69adaeb2); f (v32 0x80000180000000017f017f007f00017fff01800080007f01007f807f01ff807f) (v32 0x7f8001ff00010180ff80ff7f7f8000ff8001ff7f0101ff807fff017f0001ff00); f (v32 0x000100018000ff008000ff0080ff00008001800000000001ff0080ff000100ff) (v32 0x000100018000ff008000ff0080ff00008001800000000001ff0080ff000100ff)] =
  [Some (v32 0x00001100422100000000000001000f000000000000ed007d7f0000017ca100de); Some (v32 0x56166900000016002600318593739b0000004b4000007c0000e611580000002b); Some (v32 0x010000000000000000000000000001007f0000007f00000000007f0001fe007f); Some (v32 0x0000000000000000000000000000000000000000000000000000000000000000)].
Proof. run. Qed.
Example hw029 : let f := u_sub_sat W256 AVX2 I8 in
  [f (v32 0xf0900081021f7e7f000001f0ff207f90022000201ff040017e8101fec0c01f3f) (v32 0xfd3f0280ff9040c00f7ff04001001080101f02409000ff11fe7ffd201f0f00bf); f (v32 0x5521f3a2c31da2bdd51e1216e35212259d35b115de1599423a21a7b8edae38c0) (v32 0xff920837c578a7eb01c861960dbe5325bf593858d705ca5b1d0642d5b54eb8d4); f (v32 0xff0001ffff80ffffff7f01010101ff010101010101000100ff8000800100ff01) (v32 0xff00ff7f0001ff7f7f808001800180ff000000807f7fffffff8080ff01ffff80); f (v32 0xff0180ff80ffff018001ffff8000000000010001ffff80000000800080000001) (v32 0xff0000ffff0100010000ff01ff00ff00800080018000ff000000000080010000)] =
  [Some (v32 0xf380fe01037f3e7ff18111b0fe206f10f201fee07ff041f07f8004dea1b11f7f); Some (v32 0x567feb80fea5fbd2d456b17fd67fbf00dedc80bd0710cfe71d1b80e338807fec); Some (v32 0x00000280ff800080807f7f007f007f020101017f8281020100007f810001007f); Some (v32 0x0001800081feff00800100fe810001007f017f007fff81000000800000ff0001)].
Proof. run. Qed.
Example hw030 : let f := u_max W256 AVX2 U8 in
  [f (v32 0x8f021ff00ffdfe3ffe8f010ffef07e9011c07f10c07f118f0f90fdfffebf20fe) (v32 0x80810001fd7efd00908f407e00022040c0ffff3f018f11bf1090027e408180f0); f (v32 0x2dfdad4b2a987d7e387678056565c57ffa8b3d24e67ad62b0eb37f20f47f78a4) (v32 0xc11f8aab6a8c4634106c4f5327512aca9f79eec0f6cb2e4a5fae2c5128e4fa9d); f (v32 0x0001ff7f8080ff7f007f0000807f808000007f000080ffff017f7f7f017f017f) (v32 0x7f010100ff7f00ff80018000ff018080017fff80ff807f7f017f7f800100ff80); f (v32 0x0001ff00ff000000ff00800100000000ff008000ff0000ff80ffff0000018001) (v32 0x80ff8000ffff00ff8001ff010000ff01ff008000ff0000ff80ffff0000018001)] =
  [Some (v32 0x8f811ff0fdfdfe3ffe8f407efef07e90c0ffff3fc08f11bf1090fdfffebf80fe); Some (v32 0xc1fdadab6a987d7e387678536565c5cafa8beec0f6cbd64a5fb37f51f4e4faa4); Some (v32 0x7f01ff7fff80ffff807f8000ff7f8080017fff80ff80ffff017f7f80017fff80); Some (v32 0x80ffff00ffff00ffff01ff010000ff01ff008000ff0000ff80ffff0000018001)].
Proof. run. Qed.
Example hw031 : let f := u_max W256 AVX2 I8 in
  [f (v32 0x1181fe81003f400211fdc0ff0010fd817fc07f00900f8f0240908f90810fbffd) (v32 0x8f0140ff01408fff7f81f040bf401002017e0f114011ff017e2080007e81fd1f); f (v32 0xf58b5926939eca88034b14b929b9fb775de7eadbc074fd10b553f304bb06f5c6) (v32 0x1639c58967800eb5eb53ceee0d74cdbafa4d4a9fc4eb76aecea09d5ccb16aa77); f (v32 0x7fff80017f807f01ff000001010080ff007fff7f7f00000101807f0001808080) (v32 0x7fff80ff8001ff00ff0100ff7f7f00017f807f7fff7f80808000807f0100ff01); f (v32 0x00ffff01ff0080010001000000ffffffff00000080ff8001ffffffffff01ff00) (v32 0xff0000ff80ff80ff0001000000ffffff0001ffff80ff80ffff00000180018000)] =
  [Some (v32 0x110140ff014040027ffdf040004010027f7e7f114011ff027e208f007e0ffd1f); Some (v32 0x16395926679e0eb5035314ee2974fb775d4d4adbc4747610ce53f35ccb16f577); Some (v32 0x7fff80017f017f01ff0100017f7f00017f7f7f7f7f7f000101007f7f0100ff01); Some (v32 0x00000001ff0080010001000000ffffff0001000080ff8001ff000001ff01ff00)].
Proof. run. Qed.
Example hw032 : let f := u_min W256 AVX2 U8 in
  [f (v32 0x00fe803f00f0810f1f02bf8f011fc04080fffdfd2000908100818002909002bf) (v32 0x00bf017efe907e81f0fe4001bff0800090bf3f9011901ffd1f4001807e8ffe01); f (v32 0x3cd6bd766c1ba4ea5c36035811753085c74704e540ac5409624658c3b0c0ad15) (v32 0x72f05c686ea3685cea1a0b2f29ffca32805e49091678161f7f9afaa9dc583433); f (v32 0xff8000000000ffff00807f00017f0001ffff7f010100800100ffff01ff01017f) (v32 0x010000ff80ffff0080000001ff7f0180007f007f80008000ffff007f80018001); f (v32 0x000100018001ffffffff0001ff01000180008001ff01800100008000ff00ffff) (v32 0x000100018001ffff0001ff01ff00ffff80008001ff01800100008000ff00ffff)] =
  [Some (v32 0x00bf013f00907e0f1f024001011f800080bf3f9011001f81004001027e8f0201); Some (v32 0x3cd65c686c1b685c5c1a032f117530328047040916781609624658a9b0583415); Some (v32 0x010000000000ff0000000000017f0001007f00010100800000ff000180010101); Some (v32 0x000100018001ffff00010001ff00000180008001ff01800100008000ff00ffff)].
Proof. run. Qed.
Example hw033 : let f := u_min W256 AVX2 I8 in
  [f (v32 0x20011fc0118f20fff08f01400f810f0f111180febf200fbf00ff3f812010fffd) (v32 0xfe1140107e003f02013fc0011fff3f904090018180810290403fffbf808f110f); f (v32 0x3894f92bda3b9f6e928f8c9a0101c5b3e395e68cfec12889de4abb7f2b3ab9c7) (v32 0x780b3b7622fb56d0f7be527b9aefa7c9fcdf984d6d570bffd09c516cf197bbd5); f (v32 0x800001ff00ff808000ff80ffff0101ff7fff807f007f0100ff01008080800000) (v32 0x8080ffff800180800000007f000080017fff00017f00808080807f0101017f7f); f (v32 0x000100ff80008001ffffffff80ff800180ff0001ff01ffff80ff0001ffffff01) (v32 0x000100ff8000800180ff00ff8000ff0080ff0001ff01ffffff01ffffff0000ff)] =
  [Some (v32 0xfe011fc0118f20fff08fc0010f810f90119080818081029000ffff81808ffffd); Some (v32 0x3894f92bdafb9fd0928f8c9a9aefa7b3e395988cfec10b89d09cbb6cf197b9c7); Some (v32 0x8080ffff80ff808000ff80ffff0080ff7fff8001000080808080008080800000); Some (v32 0x000100ff8000800180ffffff80ff800080ff0001ff01ffff80ffffffffffffff)].
Proof. run. Qed.
Example hw034 : let f := zip_lo_x2 1 AVX2 in
  [f (v32 0x7e0f00fd107ec0c08ffefdfd00207f000190fd801fc03f0201fe008f10407e1f) (v32 0x0020118000fd1ffe4000ff3fc0c0000f40f08102fe40023f80fe114002fef0fe); f (v32 0x61691ba7ce3a654cc66eee797b5ebf7e9434225776dfeb4fe8bf4227a3587b6d) (v32 0xec1495a310236ca9641a35254df85122a1985bda6eee9ec0c7353871dcffaecf); f (v32 0x80017f807f7f7f017f807f80ffffff7f7fffffff7f01ff80017f807f01ff0000) (v32 0x00ff007f80007f7f8001ff808000007fff007f7f0000807fff01018001018000); f (v32 0xffffff00ffff0001ff01ff01000000ff8000ff018000ffff80ff000180ffff01) (v32 0xffffff00ffff0001ff01ff01000000ff8000000080018000ff010000ff0000ff)] =
  [Some (v32 0x408f00fefffd3ffdc000c020007f0f008001fefe1100408f0210fe40f07efe1f); Some (v32 0x64c61a6e35ee25794d7bf85e51bf227ec7e835bf38427127dca3ff58ae7bcf6d); Some (v32 0x807f0180ff7f808080ff00ff00ff7f7fff01017f0180807f010101ff80000000); Some (v32 0xffff0101ffff0101000000000000ffffff8001ff00000001ff8000ff00ffff01)].
Proof. run. Qed.
Example hw035 : let f := zip_hi_x2 1 AVX2 in
  [f (v32 0xff407f20fe208fc01110bf00bffd7e0f7f110ff0fdf0fd3f1f7f11bf1f117ff0) (v32 0x20bffebf4081bf808f808f908f0100200f803f7f1181fffe4011bf9081fefeff); f (v32 0x0cca4df4d7816cb60fcd3be145d7af92c870393f85b5a1e65da334db319e751b) (v32 0xd669462b3e16f1f505e3d0ef1ea1b2054893798f3a8c15988662d9f3acaa5ef7); f (v32 0x017fff00ffff7f7f007f7f0180ff00800001ff7f00800101807f0001010001ff) (v32 0xffff7fff8001007f807fff7f017f0180017f017f808080ffff7fffff80ff7f80); f (v32 0x00010000ff0180018001ffffffff800180ff8001ff00ff0000ff0001ff00ffff) (v32 0x00010000ff01800180010001ff01ff0080ff8001ff00ff0000ff0001ff00ffff)] =
  [Some (v32 0x20ffbf40fe7fbf2040fe8120bf8f80c00f7f80113f0f7ff011fd81f0fffdfe3f); Some (v32 0xd60c69ca464d2bf43ed71681f16cf5b648c8937079398f3f3a858cb515a198e6); Some (v32 0xff01ff7f7fffff0080ff01ff007f7f7f01007f0101ff7f7f800080808001ff01); Some (v32 0x0000010100000000ffff0101808001018080ffff80800101ffff0000ffff0000)].
Proof. run. Qed.
Example hw036 : let f := u_add W128 SSE2 U16 in
  [f (v16 0x8f1120bf00f0f0f0402020007f11bf40) (v16 0x0f7f112020017ffe90c002001fff903f); f (v16 0x9684ecab01ffc2ed6dbff07460e72f6d) (v16 0x39651f25c97c9a3b2f62cc93be2a1622); f (v16 0x808000808001ff017f80000080017f01) (v16 0x7fffffffff01ff007f007f7f7f7f0080); f (v16 0xff0180ff000100000001ff000000ff01) (v16 0x00018001000100ff0001ff000000ff01)] =
  [Some (v16 0x9e9031df20f170eed0e022009f104f7f); Some (v16 0xcfe90bd0cb7b5d289d21bd071f11458f); Some (v16 0x007f007f7f02fe01fe807f7fff807f81); Some (v16 0xff020100000200ff0002fe000000fe02)].
Proof. run. Qed.
Example hw037 : let f := u_sub W128 SSE2 U16 in
  [f (v16 0xfe027f02fe90c00010f08f3ffe1f1f81) (v16 0xf0803f7eff1081f01f90fe81f010f0ff); f (v16 0xa3df40ba8817afb0324f85a345e1c255) (v16 0x53adf48a348a36eb4750b86bb6ecc274); f (v16 0x7f0180007f800000807f7f7f8001ffff) (v16 0x80017f00ff7f00ffff01807f80007f01); f (v16 0x8000ffffffff8001800080ff8000ff01) (v16 0xffff00ffff0180ffffff80ffffff8000)] =
  [Some (v16 0x0d823f84ff803e10f16090be0e0f2e82); Some (v16 0x50324c30538d78c5eaffcd388ef5ffe1); Some (v16 0xff0001008001ff01817eff00000180fe); Some (v16 0x8001ff0000feff028001000080017f01)].
Proof. run. Qed.
Example hw038 : let f := u_eq W128 SSE2 U16 in
  [f (v16 0x403f810ffd20bf10fd8ffffe02811180) (v16 0xfeff20ff81fd40c0f020c0c07e01bf3f); f (v16 0x215446963de514ed26b5fa7e6cc30ba0) (v16 0xb9688feb75c367eec47764479c67278d); f (v16 0x00ff00ff7fff8001ff0101ff8001807f) (v16 0xffff007f0100007f80ff8001000180ff); f (v16 0xff01ff01800000ffffffffff8000ff00) (v16 0xff01ff01800000ff8001000180ffff00)] =
  [Some (v16 0x00000000000000000000000000000000); Some (v16 0x00000000000000000000000000000000); Some (v16 0x00000000000000000000000000000000); Some (v16 0xffffffffffffffff000000000000ffff)].
Proof. run. Qed.
Example hw039 : let f := u_add W128 SSE2 I16 in
  [f (v16 0xf00090ff3f0f100140f08f3f7ec0811f) (v16 0x0f117f20c0100f013fbf2080401f201f); f (v16 0xc278d1c5017c9ec0ce4e9e096fced5fa) (v16 0x7dfac4cf26979efcf00a3da8ae033bf5); f (v16 0x7fffff017f7f80ff0101ff0100ff8000) (v16 0x007f7f0101ffff7fffff010000007f7f); f (v16 0x000180ffff01ff0100ff00ff000180ff) (v16 0x000180ffff01ff01ff0180000000ff01)] =
  [Some (v16 0xff11101fff1f1f0280afafbfbedfa13e); Some (v16 0x4072969428133dbcbe58dbb11dd111ef); Some (v16 0x807e7e02817e807e0100000100ffff7f); Some (v16 0x000201fefe02fe02000080ff00018000)].
Proof. run. Qed.
Example hw040 : let f := u_sub W128 SSE2 I16 in
  [f (v16 0xf080001180feff117e3f0110fefe8f11) (v16 0x8010107eff10f080bf7e90f0107ffe01); f (v16 0x4093d66fa96ed644328d5475280889f8) (v16 0x267c0f195233ea0d36d5c1393a1fd14f); f (v16 0x80ff007f807f80017f7f7f80807fff7f) (v16 0xff010100ffff017fff80ff01007f0080); f (v16 0x0001ff0080ff0001000080ff00ff8000) (v16 0x800080ff80ff00ff000080ff00ff8000)] =
  [Some (v16 0x7070ef9381ee0e91bec17020ee7f9110); Some (v16 0x1a17c756573bec37fbb8933cede9b8a9); Some (v16 0x81feff7f80807e827fff807f8000feff); Some (v16 0x80017e010000ff020000000000000000)].
Proof. run. Qed.
Example hw041 : let f := u_eq W128 SSE2 I16 in
  [f (v16 0x1f3f017e117f108090c0800f011f10c0) (v16 0x11bf9000ff7e8f81ff1090c0ff401f8f); f (v16 0xd3bfe6f6cf1ae66addc9069557c30301) (v16 0xeac5143894deb2cdd916dc250c959f53); f (v16 0x01007f7f01ff000000807fff01807f01) (v16 0x00ff7f800100007f00ff807f017f007f); f (v16 0x00ff00ff8001800180010001800080ff) (v16 0xffffff008000ff00800100ff00ff8000)] =
  [Some (v16 0x00000000000000000000000000000000); Some (v16 0x00000000000000000000000000000000); Some (v16 0x00000000000000000000000000000000); Some (v16 0x0000000000000000ffff000000000000)].
Proof. run. Qed.
Example hw042 : let f := u_lt W128 SSE2 I16 in
  [f (v16 0x200220811f40f020023f1010000f0202) (v16 0x7efef03f809001fe007e0001bf20fe40); f (v16 0x3378632095c6ff7048e3a7f64c1f04e5) (v16 0xcf5237f2a6453c8a89a7e51270ce1231); f (v16 0x01ff007f00007f00807f800000ff0180) (v16 0xff7f7f0001ff01008001ff80807f807f); f (v16 0x00ff8001ff0000ffff0180ffff01ff00) (v16 0x0000ff008000ff010001ff00800000ff)] =
  [Some (v16 0xffff00000000ffff0000000000000000); Some (v16 0x00000000ffffffff0000ffffffffffff); Some (v16 0x0000ffffffff00000000ffff00000000); Some (v16 0x0000ffff00000000ffffffff0000ffff)].
Proof. run. Qed.
Example hw043 : let f := u_lt W128 SSE2 U16 in
  [f (v16 0xfd7e40fd807efd20fefe00f090201f1f) (v16 0x8f1f1fc00f3f0fc010817fc08ffd8020); f (v16 0xf5667ab06b060208e8db103e108177b5) (v16 0x538b6a6f5341b4e0d88e66f61557fbef); f (v16 0xff7f0000010180017f7f7f00807f00ff) (v16 0xff010180000100808080007f80017fff); f (v16 0x0000ff018000800180ffff000000ffff) (v16 0x0000ff018000800100ff0000000180ff)] =
  [Some (v16 0x00000000000000000000ffff0000ffff); Some (v16 0x000000000000ffff0000ffffffffffff); Some (v16 0x0000ffff00000000ffff00000000ffff); Some (v16 0x000000000000000000000000ffff0000)].
Proof. run. Qed.
Example hw044 : let f := u_add_sat W128 SSE2 U16 in
  [f (v16 0x813f00f010403f023f1002c011bf1f20) (v16 0xbf20100080800ffd3f40fe01c00ffd3f); f (v16 0xca5dcf570429beade81ca83d8d7c39fb) (v16 0x79740267e4049cc7e64e179d62ccb5de); f (v16 0x7f80017f7f00807f7f00ffffff007f00) (v16 0xff017fff8080007f00ff80ff017f8001); f (v16 0x8000000000018000ff010000ff008000) (v16 0x8000000000018000ff010000ff008000)] =
  [Some (v16 0xffff10f090c04eff7e50ffffd1ceffff); Some (v16 0xffffd1bee82dffffffffbfdaf048efd9); Some (v16 0xffff817eff8080fe7fffffffffffff01); Some (v16 0xffff00000002ffffffff0000ffffffff)].
Proof. run. Qed.
Example hw045 : let f := u_add_sat W128 SSE2 I16 in
  [f (v16 0x021fbfc0017f020f80817e90c0807eff) (v16 0x80bf10fefebf8f100101c03f20fdff7e); f (v16 0xb548cd469ae2320a4724193c7835ac98) (v16 0x1f3329b13c6e764ae4c511d145ad7ff1); f (v16 0x01ff0000ffff0080ff0001800100ffff) (v16 0x80000180017f8001017f007f7f7f80ff); f (v16 0x00ff00000000ff0000ff00ffffff8001) (v16 0x00ffff01ffffff0100ff00ffffff8001)] =
  [Some (v16 0x82ded0be003e911f81823ecfe17d7e7d); Some (v16 0xd47bf6f7d7507fff2be92b0d7fff2c89); Some (v16 0x81ff0180017e8081007f01ff7fff80fe); Some (v16 0x01feff01fffffe0101fe01fefffe8000)].
Proof. run. Qed.
Example hw046 : let f := u_sub_sat W128 SSE2 U16 in
  [f (v16 0xbf407fff0001f08f027fff0181fe208f) (v16 0x1f20fd800f01fd0f7e7ef01101200f11); f (v16 0xd84e366c1b7ea8e3d30f8020925f7397) (v16 0xbcd7d7f04e7816bb28dc708c7a261980); f (v16 0x8080ff7f80ff807f7f800100ff7fffff) (v16 0x80ff00017fff008080ff008000807f00); f (v16 0xff000000ffff00ffffffff0100000001) (v16 0xff000000ffff00ffffffff0100000001)] =
  [Some (v16 0xa02000000000000000000ef080de117e); Some (v16 0x1b77000000009228aa330f9418395a17); Some (v16 0x0000ff7e01007fff00000080feff80ff); Some (v16 0x00000000000000000000000000000000)].
Proof. run. Qed.
Example hw047 : let f := u_sub_sat W128 SSE2 I16 in
  [f (v16 0xfd1f80bf7e900f0f80fe11fe7efd1010) (v16 0x01bf8f1f0f8f9090407e008fc0408f1f); f (v16 0x8b81827f22724a862d2b64faaefd5e94) (v16 0x2b87e3984e8146d1a5565bd4cb6152ac); f (v16 0xff80ff800101008080ffff01ff800101) (v16 0x0080007f0001ff017f8000007f00007f); f (v16 0x800080ff8000ffffff000000ff008001) (v16 0x80ff00ffff01ffff00ffffff00ff0001)] =
  [Some (v16 0xfb60f1a06f017e7f8000116f7fff7fff); Some (v16 0x80009ee7d3f103b57fff0926e39c0be8); Some (v16 0xff00ff010100017f8000ff0180800082); Some (v16 0xff01800080ff0000fe010001fe018000)].
Proof. run. Qed.
Example hw048 : let f := u_max W128 SSE41 U16 in
  [f (v16 0x7f7e02fd80817f7e118100f01f10ff80) (v16 0x02c080f090f0fe1120fd81f040ff8000); f (v16 0x3da2a762c2c3c19578b1dd19dc31666c) (v16 0x2ed202b01034efef0b55d4e2dae550be); f (v16 0x800001010180000180007f80ff010080) (v16 0xffff80000100010180018080007f01ff); f (v16 0x800000ffff0080ff8000000000000000) (v16 0x800000ffff0080ff00018000ff010001)] =
  [Some (v16 0x7f7e80f090f0fe1120fd81f040ffff80); Some (v16 0x3da2a762c2c3efef78b1dd19dc31666c); Some (v16 0xffff80000180010180018080ff0101ff); Some (v16 0x800000ffff0080ff80008000ff010001)].
Proof. run. Qed.
Example hw049 : let f := u_max W128 SSE41 I16 in
  [f (v16 0x81000180019080fd01bf20fe1f0f1ff0) (v16 0x1f018ff011bf100f7f810001fefe4020); f (v16 0x54914402018c66e12c10dfb13b509abf) (v16 0x99777f91673fe2b4dcb9353dcf4ca17d); f (v16 0x7fff7fff0101ff7f807f8000007f8080) (v16 0x7f807f008001ff7f01ff7f80000080ff); f (v16 0xff0080ff80ff8001ffff800080ff8001) (v16 0x0001ff00ff0080ffffff800080ff8001)] =
  [Some (v16 0x1f01018011bf100f7f8120fe1f0f4020); Some (v16 0x54917f91673f66e12c10353d3b50a17d); Some (v16 0x7fff7fff0101ff7f01ff7f80007f80ff); Some (v16 0x0001ff00ff0080ffffff800080ff8001)].
Proof. run. Qed.
Example hw050 : let f := u_min W128 SSE41 U16 in
  [f (v16 0x027fff40907e1f3f108f7e7ec0f09040) (v16 0x4002ffbf110fbf11f07ffefeff012000); f (v16 0x40eda33af545e3b94d397d2123696658) (v16 0x6fa93472707dc63ca6412d2fa9b7d453); f (v16 0xff7f01ff80ff7f0080ff7fff017f00ff) (v16 0x007f000000800001ffff017f8000ff7f); f (v16 0xffff00010001ff00ffff000180ff0000) (v16 0xffff00010001ff008000ff010001ff00)] =
  [Some (v16 0x027fff40110f1f3f108f7e7ec0f02000); Some (v16 0x40ed3472707dc63c4d392d2f23696658); Some (v16 0x007f00000080000180ff017f017f00ff); Some (v16 0xffff00010001ff008000000100010000)].
Proof. run. Qed.
Example hw051 : let f := u_min W128 SSE41 I16 in
  [f (v16 0x7efd117f1101004020103ff0c0010f10) (v16 0xfffffd7e0f11ff40100040bf80011f7e); f (v16 0x83b53223983037247bb4489afa344942) (v16 0x412ef0e5f62eb06ec37fbc05d23e14c9); f (v16 0x00017f01ff00800001ff7fff7fff7f7f) (v16 0x017f00ff807f007f8080ff80007fff7f); f (v16 0xff00ffffff00ff0080018000ff008001) (v16 0xff00ffffff00ff0080018000ff008001)] =
  [Some (v16 0xfffffd7e0f11ff4010003ff080010f10); Some (v16 0x83b5f0e59830b06ec37fbc05d23e14c9); Some (v16 0x000100ff807f80008080ff80007fff7f); Some (v16 0xff00ffffff00ff0080018000ff008001)].
Proof. run. Qed.
Example hw052 : let f := shift W128 Left 2 0 SSE2 in
  [f (v16 0xfd1f908101203f81fe00818fff4002fe); f (v16 0x9a6132fa3a73d7f2a75c1d6896f80430); f (v16 0x8080ffff01017f01ff007f01ff010100); f (v16 0x0000ffff80ff000080ffffffffff0001)] =
  [Some (v16 0xfd1f908101203f81fe00818fff4002fe); Some (v16 0x9a6132fa3a73d7f2a75c1d6896f80430); Some (v16 0x8080ffff01017f01ff007f01ff010100); Some (v16 0x0000ffff80ff000080ffffffffff0001)].
Proof. run. Qed.
Example hw053 : let f := shift W128 Right 2 0 SSE2 in
  [f (v16 0x2000ff814000fe117f9080100190c040); f (v16 0x79ac3918364864a489f2595d83d9ea53); f (v16 0xffff017f0100007f01ff8000ff018080); f (v16 0x8001ffff80ff000180008000ff00ffff)] =
  [Some (v16 0x2000ff814000fe117f9080100190c040); Some (v16 0x79ac3918364864a489f2595d83d9ea53); Some (v16 0xffff017f0100007f01ff8000ff018080); Some (v16 0x8001ffff80ff000180008000ff00ffff)].
Proof. run. Qed.
Example hw054 : let f := shift W128 Left 2 1 SSE2 in
  [f (v16 0x01f08081118f00f0fff010fe3f1ffdbf); f (v16 0x46f31e6b4687dd3fbfc6ba757cb41a8d); f (v16 0x0180008080807f0101017f7fff7f7f01); f (v16 0x80008000ffff8001ff00000080ff8000)] =
  [Some (v16 0x03e00102231e01e0ffe021fc7e3efb7e); Some (v16 0x8de63cd68d0eba7e7f8c74eaf968351a); Some (v16 0x030001000100fe020202fefefefefe02); Some (v16 0x00000000fffe0002fe00000001fe0000)].
Proof. run. Qed.
Example hw055 : let f := shift W128 Right 2 1 SSE2 in
  [f (v16 0xfd7e801ff0f0f002fd8101103f90bf7e); f (v16 0xab55508a0234e3b0daba6658c67c25e1); f (v16 0x7fffff800001ff7f7f0180007f8001ff); f (v16 0xff00ff00ffff80ff80ffff0100008001)] =
  [Some (v16 0x7ebf400f787878017ec000881fc85fbf); Some (v16 0x55aa2845011a71d86d5d332c633e12f0); Some (v16 0x3fff7fc000007fbf3f8040003fc000ff); Some (v16 0x7f807f807fff407f407f7f8000004000)].
Proof. run. Qed.
Example hw056 : let f := shift W128 Left 2 8 SSE2 in
  [f (v16 0xfe102081007fff11bfbf0ff01020003f); f (v16 0x2b94f5624127f6ed7cfcde805a8a612a); f (v16 0x01ff00807f000080ffffffff80008080); f (v16 0x80ffffff8001ff00ff01ff0180000001)] =
  [Some (v16 0x100081007f001100bf00f00020003f00); Some (v16 0x940062002700ed00fc0080008a002a00); Some (v16 0xff00800000008000ff00ff0000008000); Some (v16 0xff00ff00010000000100010000000100)].
Proof. run. Qed.
Example hw057 : let f := shift W128 Right 2 8 SSE2 in
  [f (v16 0x7ef020c0007f110f02fffd8002fd107e); f (v16 0x15fe4c39dab708abb4420dcf3d9ab170); f (v16 0x80ffff0080017fff7fff007fff007f80); f (v16 0xff0000008000ffffff01800180008000)] =
  [Some (v16 0x007e002000000011000200fd00020010); Some (v16 0x0015004c00da000800b4000d003d00b1); Some (v16 0x008000ff0080007f007f000000ff007f); Some (v16 0x00ff0000008000ff00ff008000800080)].
Proof. run. Qed.
Example hw058 : let f := shift W128 Left 2 15 SSE2 in
  [f (v16 0xc081408181ff3f9020c0818f8100200f); f (v16 0x01d73de8716d2f7c1e9ead6919798c5f); f (v16 0x00ff0180017f00010100ff0000808000); f (v16 0x000100ff00ff800000ff0001ff0080ff)] =
  [Some (v16 0x80008000800000000000800000008000); Some (v16 0x80000000800000000000800080008000); Some (v16 0x80000000800080000000000000000000); Some (v16 0x80008000800000008000800000008000)].
Proof. run. Qed.
Example hw059 : let f := shift W128 Right 2 15 SSE2 in
  [f (v16 0x011fbf40800010113f8111bf01017f20); f (v16 0x8f726ad1806fb4864c17c97298efe003); f (v16 0x8080ff00007fff007f80008001ff00ff); f (v16 0xffff80ff80ff00ffff0180ff80008001)] =
  [Some (v16 0x00000001000100000000000000000000); Some (v16 0x00010000000100010000000100010001); Some (v16 0x00010001000000010000000000000000); Some (v16 0x00010001000100000001000100010001)].
Proof. run. Qed.
Example hw060 : let f := shift W128 Left 2 16 SSE2 in
  [f (v16 0xc01f404011100280107f11903f7e810f); f (v16 0xb7cd6e616a4cb41da08bb8fdbd66bd1b); f (v16 0x7f7f7f01007f01ff0080ff00ff80807f); f (v16 0xffffff000001ff0100000000ff008000)] =
  [Some (v16 0x00000000000000000000000000000000); Some (v16 0x00000000000000000000000000000000); Some (v16 0x00000000000000000000000000000000); Some (v16 0x00000000000000000000000000000000)].
Proof. run. Qed.
Example hw061 : let f := shift W128 Right 2 16 SSE2 in
  [f (v16 0x0f01fe40117eff01207f100f1f0281fe); f (v16 0xb2bfa360959aab34e16834a5519a9192); f (v16 0xff01ff7f010100ff01807f000100ff00); f (v16 0x8000ff010001ff00800080ffffffffff)] =
  [Some (v16 0x00000000000000000000000000000000); Some (v16 0x00000000000000000000000000000000); Some (v16 0x00000000000000000000000000000000); Some (v16 0x00000000000000000000000000000000)].
Proof. run. Qed.
Example hw062 : let f := shift W128 Left 2 17 SSE2 in
  [f (v16 0x8180907efe900f007e81bf408f001090); f (v16 0x6d5ca02d420237fed61aa08b0d48fc7d); f (v16 0x80000101017f807f7f8001ffff807f01); f (v16 0x00010000ff0100008000ff0000ff0000)] =
  [Some (v16 0x00000000000000000000000000000000); Some (v16 0x00000000000000000000000000000000); Some (v16 0x00000000000000000000000000000000); Some (v16 0x00000000000000000000000000000000)].
Proof. run. Qed.
Example hw063 : let f := shift W128 Right 2 17 SSE2 in
  [f (v16 0xfd3fc0fe7ec07e0f8f3ff00ffe908ffe); f (v16 0xd752e21209b661a0625c0b8ce3252952); f (v16 0xff000101ff018000ff8000ffff7f0100); f (v16 0x000100010001ff0000018000800000ff)] =
  [Some (v16 0x00000000000000000000000000000000); Some (v16 0x00000000000000000000000000000000); Some (v16 0x00000000000000000000000000000000); Some (v16 0x00000000000000000000000000000000)].
Proof. run. Qed.
Example hw064 : let f := shift W128 Left 2 255 SSE2 in
  [f (v16 0x0140f0107efffffdff8000811f108100); f (v16 0x82530222338e7bda197843eedb9da770); f (v16 0x8080ff0180ffff80ff7fff0180ffff7f); f (v16 0xff00ffffff0080ff80000001ffffff00)] =
  [Some (v16 0x00000000000000000000000000000000); Some (v16 0x00000000000000000000000000000000); Some (v16 0x00000000000000000000000000000000); Some (v16 0x00000000000000000000000000000000)].
Proof. run. Qed.
Example hw065 : let f := shift W128 Right 2 255 SSE2 in
  [f (v16 0x20ff7fbf117e3f1110fd107e02f0bf02); f (v16 0x8531b54851dc6ede2f040b211afe33fd); f (v16 0x017f800100807f000001017f7f000101); f (v16 0x8001800100010000ff01ff018001ffff)] =
  [Some (v16 0x00000000000000000000000000000000); Some (v16 0x00000000000000000000000000000000); Some (v16 0x00000000000000000000000000000000); Some (v16 0x00000000000000000000000000000000)].
Proof. run. Qed.
Example hw066 : let f := zip_lo 2 SSE2 in
  [f (v16 0x01407e1f11fd7f8f9010000f1f7e10fd) (v16 0x017e200f7efd20c010ff40fec0bf3f11); f (v16 0x8db750fd204d7fe9e8758b1be69b4564) (v16 0x90126554fe7b5016f3e9ab3ca57f5c0b); f (v16 0x7f017fff01ff8000ff017f0080808001) (v16 0x01010100ffffffffff80000101ff8000); f (v16 0x800080008000ff0000000000ff01ffff) (v16 0x8000ffff80008001000100ff800080ff)] =
  [Some (v16 0x10ff901040fe000fc0bf1f7e3f1110fd); Some (v16 0xf3e9e875ab3c8b1ba57fe69b5c0b4564); Some (v16 0xff80ff0100017f0001ff808080008001); Some (v16 0x0001000000ff00008000ff0180ffffff)].
Proof. run. Qed.
Example hw067 : let f := zip_hi 2 SSE2 in
  [f (v16 0xff400181fd8f02bf90ff110ffe01fd00) (v16 0x7e3ffd111ffeff0040c00002103f0f11); f (v16 0xb22f6c75a48f2e8ffc262213aaad2f89) (v16 0xff836160dc109e432b3af8139b6326c8); f (v16 0x01000101017f80010180ff800180ff7f) (v16 0x007f80800101ff807f00007f7f800001); f (v16 0x0000ff0000ff80ffff018000ff01ffff) (v16 0xff00000100ff00ffff018000ff01ffff)] =
  [Some (v16 0x7e3fff40fd1101811ffefd8fff0002bf); Some (v16 0xff83b22f61606c75dc10a48f9e432e8f); Some (v16 0x007f0100808001010101017fff808001); Some (v16 0xff0000000001ff0000ff00ff00ff80ff)].
Proof. run. Qed.
Example hw068 : let f := u_add W256 AVX2 U16 in
  [f (v32 0x900181f0007e907ffe8fc0903f40bf027f7e00f08190c0f07e40101f0240fd8f) (v32 0x907f7f2011c08040bf3f7f02810f7f107fc001fd807fbf9001fd3fc03f90f002); f (v32 0xe80f59f426b19762efc096d12ae6f76602213d5742c68a805ef9b7892ab32934) (v32 0x73397156262d4424eae4e97cb65ccd054fb59aaccd25b33c0494d50766516358); f (v32 0x00008001ff0180007f807fff80ff017f01ff7fff01007fffff0101ff00ffff01) (v32 0x7f7fff807f7f0100ff000000ff007f7f01ff007f807fff0101000080807f8001); f (v32 0xff0000ff00ffffff80ff00ffffff0000ffff00ff8000ffffff00ff0080ff00ff) (v32 0x00ff80018001ff0080ff8001ff008000ffff00ff8000ffff8000ffff000000ff)] =
  [Some (v32 0x20800110123e10bfbdce3f92c04f3e12ff3e02ed020f8080803d4fdf41d0ed91); Some (v32 0x5b48cb4a4cdedb86daa4804de142c46b51d6d8030feb3dbc638d8c9091048c8c); Some (v32 0x7f7f7f817e8081007e807fff7fff80fe03fe807e817f7f000001027f817e7f02); Some (v32 0xffff81008100feff01fe8100feff8000fffe01fe0000fffe7f00feff80ff01fe)].
Proof. run. Qed.
Example hw069 : let f := u_sub W256 AVX2 U16 in
  [f (v32 0x11014010bf10907ffd1f0f9011fd2011c01020f0000f40fe3ff0fd0f7f7e00ff) (v32 0x20bf810f11400180028111ffbfc081fd0fbf1f909080fdbf3f7f7e1f7e3f9040); f (v32 0x245e59855d64fe1d5cf41a8130ff0118e7fe12bceb7d17bf9af8e4a9bac54b64) (v32 0x6d455ca1958459ee8cff18dc9b9539fd7aace90c03369ab49150ef6af953a651); f (v32 0x7f7fff7fffffff80ff7f010001ff7f7f7f8000ff7f01ff7f0101ff0180008000) (v32 0x7f00808000000100ffffff010000008000008080ffff017f01000080ff0000ff); f (v32 0x80ff00ff00ffff0100ffff008000ffff80008001ff000000ff01800080ff0000) (v32 0x80ff00ff00ffff0100ffff008000ffff00ff8000000180ffff01800080ff0000)] =
  [Some (v32 0xf042bf01add08efffa9efd91523d9e14b05101606f8f433f00717ef0013f70bf); Some (v32 0xb719fce4c7e0a42fcff501a5956ac71b6d5229b0e8477d0b09a8f53fc172a513); Some (v32 0x007f7efffffffe80ff8001ff01ff7eff7f80807f7f02fe000001fe8181007f01); Some (v32 0x000000000000000000000000000000007f010001feff7f010000000000000000)].
Proof. run. Qed.
Example hw070 : let f := u_eq W256 AVX2 U16 in
  [f (v32 0xffbf80801180ff8010ff9090fffd81ff100fbff0908f0f10c0110f3f1f40117e) (v32 0x3ffe40f03f807f7f11807f1f7efd0202c0f0811f8f81ff0240118081808110c0); f (v32 0xd7eab5474a2d71ad5c99a1d971f6b81979725fc42aab33dd8c023bab42ac1b8e) (v32 0xb69e0dcb8bd44173081eac7cf3835b0df8e56e493ecfe51802a1a167c3fb26d0); f (v32 0x7f017fff7f01ff800080ff01018000ff0000ff00ff7f0180007f00ff00808000) (v32 0x0080010080ff0101ffff017f80ff8000807f800180ffffff01000080017f807f); f (v32 0x80ffff0000018000ffff00ff00ffff01ff01000180ffff00ff0100018001ff01) (v32 0x00000000ffff80ff8000ff0000ff00ffff01000180ffff00ff0100018001ff01)] =
  [Some (v32 0x0000000000000000000000000000000000000000000000000000000000000000); Some (v32 0x0000000000000000000000000000000000000000000000000000000000000000); Some (v32 0x0000000000000000000000000000000000000000000000000000000000000000); Some (v32 0x000000000000000000000000ffff0000ffffffffffffffffffffffffffffffff)].
Proof. run. Qed.
Example hw071 : let f := u_add W256 AVX2 I16 in
  [f (v32 0x811100fef09081ff100140feff2081c0f08fffbff01fff0001bf8180fd023f0f) (v32 0x201f1002fe8190022090bf017ff07e401f8f8f40fffd11c03f7efe817e10028f); f (v32 0x3f162c79bd4686fde773bf0392d262f7aed4fee3a5a97482f2b70be12065e9f0) (v32 0x65f5e432777b0ead6a2023d11bec52696e9599dea5eeed491f6ce84dbbe93edf); f (v32 0x80ff0100007f7f01807f00007f7f007f7f80ff0080ffff7f800101017f7f017f) (v32 0xff0001808080808000ffff00007fff7fff80ff0080008080ff7f00ff7f010000); f (v32 0xff000001000180ffffff00ff00ffff00ff0000ffffffff0080ff80ff80008000) (v32 0xff000001000180ff00ff80ff800080ffff0100ff00ff000100ffff0080010001)] =
  [Some (v32 0xa1301100ef1112013091ffff7f100000101e8efff01c10c0413d80017b12419e); Some (v32 0xa50b10ab34c195aa5193e2d4aebeb5601d6998c14b9761cb1223f42edc4e28cf); Some (v32 0x7fff028080ffff81817eff007ffefffe7f00fe0000ff7fff7f800200fe80017f); Some (v32 0xfe000002000201fe00fe81fe80ff7ffffe0101fe00feff0181fe7fff00018001)].
Proof. run. Qed.
Example hw072 : let f := u_sub W256 AVX2 I16 in
  [f (v32 0x008120c0f07f7f40c08010113ffd408fc08f90000f80fd7ffd02207e010090c0) (v32 0x1110fe117f0290400f1181ff20900f0011fdc08fc080febf812080ff20bf7f7e); f (v32 0x4b5ccb82006236515a74bca709576c818f5b239c5d48b522d7ab5e85de5c9738) (v32 0x4a6dc0756adc5a3cb43e672776474a966e2faeeb9c64d1acc6e15bf8bb79709e); f (v32 0x7f7f80ff800080ff0001017f00007f0001807f80017f010001ff800000008000) (v32 0x7fff00ff80ff80807f7f7f80007f000000807f7f017f8000ff7f000000807fff); f (v32 0x00000000ff008000ffff800000ff0000ff0100008000ff0100008001ff000001) (v32 0xff01ffff00ff0001ffff800000ff000080008001ff0080ff0000ff00800100ff)] =
  [Some (v32 0xef7122af717def00b16f8e121f6d318fae92cf714f00fec07be29f7fe0411142); Some (v32 0x00ef0b0d9586dc15a6365580931021eb212c74b1c0e4e37610ca028d22e3269a); Some (v32 0xff808000ff01007f808281ffff817f00010000010000810002808000ff800001); Some (v32 0x00ff0001fe017fff00000000000000007f017fff81007e02000081017effff02)].
Proof. run. Qed.
Example hw073 : let f := u_eq W256 AVX2 I16 in
  [f (v32 0x40fd111f117f7f1180fef00f1ff00f1f00fe1f81ff90ff010180fe02fd3f0090) (v32 0xfffebf021f7f90ff02900f00900140117e800100fe8f1040fd4081ff40c081f0); f (v32 0x9d3a459b34c6ac7cec0c0bfa53b207586b8604668dc715ecfdd0464e3a000e63) (v32 0x69ca979e926e1666a2aaa0cc4cd7578db75b573539e0488cfa763723820cd94f); f (v32 0x7f800101ffff7f01010080ff01018001ffff807f7f007f018001800001800101) (v32 0x0001808080007f80807f0080ffff7f80808080ff7f7f807f8000007f7f01ffff); f (v32 0xffffffffff010000000080010001800000ff00ff80ffffff80ff80ffff010001) (v32 0xffffffffff01000000ff80ffffff000100ff00ff80ffffff80ffff00800000ff)] =
  [Some (v32 0x0000000000000000000000000000000000000000000000000000000000000000); Some (v32 0x0000000000000000000000000000000000000000000000000000000000000000); Some (v32 0x0000000000000000000000000000000000000000000000000000000000000000); Some (v32 0xffffffffffffffff0000000000000000ffffffffffffffffffff000000000000)].
Proof. run. Qed.
Example hw074 : let f := u_lt W256 AVX2 I16 in
  [f (v32 0x200f80fe80bf7f1f017ffe1011811000fd3f90000f8f11103f01800f40f0c00f) (v32 0x02bf3ffe01bf811fbffe803f8f02c07e10c0007f7e110220bf3ff0ff11811f01); f (v32 0xaa2d6ff891d71f6c4f8f85f9caa46e9dc352d131a5d9c1f5c9c017c71ac45796) (v32 0xafb5fec59ed0fe57ee2c3887cccdd3048ec7dc393759dca73901818c3a85dc69); f (v32 0x7f00ff017fffffff808001017f80ff007f00ff0000007f7f0080017f0101007f) (v32 0x7fffff017f0000000080000180ff7f007f00ffff017fff017f7f00ffff7f007f); f (v32 0xff00ff0000ff00008000ffff8001800080ff8000ffffff00800100ff00010001) (v32 0xff00ff0000ff00008000ffff80018000ffff8000ff010001800100ff00010001)] =
  [Some (v32 0x0000ffffffff00000000000000000000ffffffffffff00000000ffff0000ffff); Some (v32 0xffff0000ffff00000000ffffffff00000000ffffffffffffffff0000ffff0000); Some (v32 0xffff00000000ffffffff00000000ffff0000ffffffff0000ffff000000000000); Some (v32 0x00000000000000000000000000000000ffff00000000ffff0000000000000000)].
Proof. run. Qed.
Example hw075 : let f := u_lt W256 AVX2 U16 in
  [f (v32 0xc0c0c0008f00107e0f811fff7efe817f8f10ff908101fe0f1f80f08f4011fd81) (v32 0xf001f07f20404000fdfe80100f01ff1fff90101f1fc01fc0c00fc0023fbf1fc0); f (v32 0xb93a068037c09928701e5c69d5a1b87f4f49de9768414aedc50c84f3688b476d) (v32 0x79dc2f40c1c8a6700b5b635e0d8fb5646783fd4a95850df8e0139197e6ed5480); f (v32 0xff017f017fff7f00800001ff00ff01007f8080017fffff01808000ff7f000080) (v32 0xff00800101010000007f80000001017f7fff7f017fff800180007f8001008000); f (v32 0x800080ffff00ff0000ffffff80ff8000000100018000800080010001ff00ffff) (v32 0xff0080ff80010000ffff0000ffff80ff8001ffffff010001ffff80ffff01ff00)] =
  [Some (v32 0xffffffff0000ffffffffffff0000ffffffff000000000000ffff000000000000); Some (v32 0x0000ffffffffffff0000ffff00000000ffffffffffff0000ffffffffffffffff); Some (v32 0x0000ffff000000000000ffff0000ffffffff0000000000000000ffff0000ffff); Some (v32 0xffff000000000000ffff0000ffffffffffffffffffff0000ffffffffffff0000)].
Proof. run. Qed.
Example hw076 : let f := u_add_sat W256 AVX2 U16 in
  [f (v32 0x001190117e40bf801f0102f0fd401f01407f1f103ffe8f8f0f02114000fd1f01) (v32 0x11201080c03f11108fc0908ff03ffd0f000080f0207f90ff008ff08f40011120); f (v32 0x5af0bd67bfcec5ea581a13d42c480977363efff91007508bdc370759d185961b) (v32 0xa02b4e4516eb92c9607bd68e98a9adef98f0de8624d744b2d93a3a824cd7caf7); f (v32 0x00007f01807f807f00ff01ff7f808080007f01ffff80017f0180ff000001017f) (v32 0x7f01ff80ff00ff018001018080ff808001000080ff7f017f7f00008080ffff01); f (v32 0x00ff00ff80ff80ff80018000ff01ffff00ff80ff80ff8001ff00ffffff0180ff) (v32 0x8000ff010001000180018000ff01ffff80ffff0000ffffff80000001ffff8001)] =
  [Some (v32 0x1131a091ffffd090aec1937fffffffff407fa000607dffff0f91ffff40fe3021); Some (v32 0xfb1bffffd6b9ffffb895ea62c4f1b766cf2effff34de953dffff41dbffffffff); Some (v32 0x7f01ffffffffffff8100037fffffffff017f027fffff02fe8080ff808100ffff); Some (v32 0x80ffffff81008100ffffffffffffffff81feffff81feffffffffffffffffffff)].
Proof. run. Qed.
Example hw077 : let f := u_add_sat W256 AVX2 I16 in
  [f (v32 0x400220c0807f1f103ffe0f90813f4090f07f801120020f7e1020020f10204010) (v32 0xf0200220bf907f000ffdff2001ffff0ff010f08ffe90bf02fd81f03fc0407fff); f (v32 0x7a4a78b4ac71d63ef7d822eb49f052654b614322bb7c4ac8c6f67692f341bf6d) (v32 0x121deb21823b0ec649d1880cfb7a3c5f6fbe1a904052212bb3769227e1768cde); f (v32 0xff01017f0000018000007f010001ff807f7f8001007f00807f00000080017f00) (v32 0x7f01017f8080ffff00ff7f007fff7f017fff7f000001ff0100000100010101ff); f (v32 0xffffffff8000ffffff0080000001ffff80ff80010001ff0100ffffffffff80ff) (v32 0xffffffff8000ffffff0080000001ffffffff800180ff000100ff000100000000)] =
  [Some (v32 0x302222e080007fff4ffb0eb0833e3f9fe08f80001e92ce800da1f24ed0607fff); Some (v32 0x7fff63d58000e50441a9aaf7456a7fff7fff5db2fbce6bf3800008b9d4b78000); Some (v32 0x7e0202fe8080017f00ff7fff7fff7e817fffff010080ff817f00010081027fff); Some (v32 0xfffefffe8000fffefe0080000002fffe80fe80008100ff0201fe0000ffff80ff)].
Proof. run. Qed.
Example hw078 : let f := u_sub_sat W256 AVX2 U16 in
  [f (v32 0x817e1f021f7f011f0002ff1f0290907f0fff8002fffd01201fc03f80fd901190) (v32 0x7efd40809001ff7f7e400010ff01ff0240f07f0f808ffd10ff9001807f800101); f (v32 0x81b3946eba04d35c1de88b2b6b7da5f7d107c8d64ba502d8ed22cf249ce5b3c1) (v32 0x4e8c6d13ec4cce657f58bbb253329c444ea8bad9d7f3257ad056876719d6448e); f (v32 0x7f01017fffff0101ff7f7f807f80017f0100ff01807f7fff807f01ff00ff0001) (v32 0x007f7f017f7f80ff01ff01808080ffff7fff0001ff0100008000010001017f80); f (v32 0x8001ff018001000080ff80ff0001ffff8000800180ff8000800000000001ff01) (v32 0x8000ffff8000800180ff80ff0001ffff8000800180ff8000000180ff80008001)] =
  [Some (v32 0x02810000000000000000ff0f00000000000000f37f6e000000003e007e10108f); Some (v32 0x3327275b000004f700000000184b09b3825f0dfd000000001ccc47bd830f6f33); Some (v32 0x7e82000080800000fd807e00000000000000ff0000007fff007f00ff00000000); Some (v32 0x0001000000010000000000000000000000000000000000007fff000000007f00)].
Proof. run. Qed.
Example hw079 : let f := u_sub_sat W256 AVX2 I16 in
  [f (v32 0x909001c0900fff1f80c040407fff7f8f1f007f7ebf90117f10fec0ff1f7fc080) (v32 0xf03f00808f10900f9001007e10f0bf1f3f1f00013f20107fbf8102107fbf0f40); f (v32 0x1a32007fc37960dc73c2fe577065858d9f318cf9cb8a5b4218e8f7a838d4eda7) (v32 0xef45415cc03a0346f6f38ee1dd714a3e75b02c944d07125ee90357d1fc89f79c); f (v32 0x0000ff8080000080017f017fff7f0101807f0000800001ffff00010001808080) (v32 0x010080807f01ff80ff7fff0080ff01008000808001ffff018080017f01800101); f (v32 0x0000ff0000ffffff800080ffffff8001ffff0001000080ff80018001ffff0001) (v32 0x0000ff0000ffffff800080ffffff8001ffff0001000080ff80018001ffff0001)] =
  [Some (v32 0xa051014000ff6f10f0bf3fc26f0f7fffdfe17f7d80700100517dbeef9fc0b140); Some (v32 0x2aedbf23033f5d967ccf6f767fff800080008000800048e42fe59fd73c4bf60b); Some (v32 0xff007f00800001000200027f7e800001007f7f80800002fe7e80ff8100008000); Some (v32 0x0000000000000000000000000000000000000000000000000000000000000000)].
Proof. run. Qed.
Example hw080 : let f := u_max W256 AVX2 U16 in
  [f (v32 0x7e0f01113f10101180fe0f021fff8f102010ff3f0fc0ff3f7f9080018f7f8ffe) (v32 0x40fd108f0f8ffe207f3fc01f7f90401f0180110211ff907e404090107fff1f8f); f (v32 0x799e6b99fe0d02278726006720ebf4e11bef01ebb8e31b5b9b6d0ac1295392ab) (v32 0xa5cc50751cfd1308df3eea99a32bd5c24533fd03cb31c844e62c929ea11f414a); f (v32 0x0001807fff00ff000100007f00ff00ff80010080ff7fff007f7f010101800180) (v32 0x80800080807f80807f7f0000ff0080017fff7fff80ff80ff0180007f80017f80); f (v32 0x8000ff008000ffffff00ffff0000ffff80ffff018000ff0100ffffff80018000) (v32 0x0001ff0180ff80ff8001800080000000ffff0000ff000001ff010001ff010001)] =
  [Some (v32 0x7e0f108f3f10fe2080fec01f7f908f102010ff3f11ffff3f7f9090108f7f8ffe); Some (v32 0xa5cc6b99fe0d1308df3eea99a32bf4e14533fd03cb31c844e62c929ea11f92ab); Some (v32 0x8080807fff00ff007f7f007fff00800180017fffff7fff007f7f010180017f80); Some (v32 0x8000ff0180ffffffff00ffff8000ffffffffff01ff00ff01ff01ffffff018000)].
Proof. run. Qed.
Example hw081 : let f := u_max W256 AVX2 I16 in
  [f (v32 0xfd0190908190bf013f01909011813f8190c0fd400f807e11113f007ff01111fd) (v32 0x8ffeff807e3f20ff208fff108f40813fbf80901fffbf10f001807ffe00bf007f); f (v32 0x2173838e4e092bedd276103dfade74784f2382a6320ee9bf422e22aa355fda9d) (v32 0xe0bc15aacf91062922d25ba24bb2d17c4a1d7b44b8f5b141ad120a09efb15f30); f (v32 0x01007f7fff007f01800100807f7f01800180010100ff807f7f7f018080800100) (v32 0x7f7f800101007f7f0080ffffff008001ff01008001000080007f7f80007fff01); f (v32 0x800080010000ffff00018000ffff8001ff00ffff00ff00018001ff00ffff00ff) (v32 0x80ff0000ff00000100ff8001ffff00ff8001ff0100000001ffff8001ff01ffff)] =
  [Some (v32 0xfd01ff807e3f20ff3f01ff1011813f81bf80fd400f807e11113f7ffe00bf11fd); Some (v32 0x217315aa4e092bed22d25ba24bb274784f237b44320ee9bf422e22aa355f5f30); Some (v32 0x7f7f7f7f01007f7f008000807f7f018001800101010000807f7f7f80007f0100); Some (v32 0x80ff00000000000100ff8001ffff00ffff00ffff00ff0001ffffff00ffff00ff)].
Proof. run. Qed.
Example hw082 : let f := u_min W256 AVX2 U16 in
  [f (v32 0x1f7f0f907f901040ff0f7e80000f3f0ff01180208f8111ff80bffefd10fd101f) (v32 0x8f20908fbf2000100001807e0200c080fdbfc000810f7e3f818100017f3ffe02); f (v32 0x2e8b69cd2f7256cca0059f4927891d66de3ea15a4f2b33fce869cc7c046b087e) (v32 0x16f90f00ebc6d3b4ea70354ff5012cc26f6c7137714b80fc3dc4ce7055f41ccb); f (v32 0x800080ffff01ffff007f7f007f008000ff7f01ff0101ff7f01ff7f0001007fff) (v32 0xff80ff7f017f7f00007f007f007f00007f8000007fffff0001010001ffff0180); f (v32 0x80010001000000ffff000001ff0080ffff008000ffffff0100ffff00ff010001) (v32 0xff00000180ff00ffff000001ff0080ffff008000ffffff0100ffff00ff010001)] =
  [Some (v32 0x1f7f0f907f90001000017e80000f3f0ff0118020810f11ff80bf000110fd101f); Some (v32 0x16f90f002f7256cca005354f27891d666f6c71374f2b33fc3dc4cc7c046b087e); Some (v32 0x800080ff017f7f00007f007f007f00007f8000000101ff000101000101000180); Some (v32 0x80010001000000ffff000001ff0080ffff008000ffffff0100ffff00ff010001)].
Proof. run. Qed.
Example hw083 : let f := u_min W256 AVX2 I16 in
  [f (v32 0x0f00902002fffd0f8f10fe0200c0803f020ff0f00f8f8f1f810202fd111f8f40) (v32 0x90ffff1f00110f90fec081c08190f0bf00011f80fd02108f81020f800f0ff0f0); f (v32 0x1f403d96d2fbf7a2fac8d95004d76e5b0b405a8122e54204a048fcff2e830cca) (v32 0x8b87d16cc4520c5a48f5a0909bf053c6b7171ba9f6d573061801246cbbf9a8b9); f (v32 0x010000ff7f00ff7f017f800001807f7fff017f017f017f7fff807f0180018080) (v32 0x000101017f00017f7f0180ff7f00800080ff01ff800100ff80007fffff007f01); f (v32 0x80018001ff00ff00ff008000ff0100ff8001800180ff80ff0001ffff80008000) (v32 0x80018001ff00ff00ff008000ff0100ff80008001ff0080ffff00ff0000008000)] =
  [Some (v32 0x90ff90200011fd0f8f1081c08190803f0001f0f0fd028f1f810202fd0f0f8f40); Some (v32 0x8b87d16cc452f7a2fac8a0909bf053c6b7171ba9f6d54204a048fcffbbf9a8b9); Some (v32 0x000100ff7f00ff7f017f80000180800080ff01ff800100ff80007f0180018080); Some (v32 0x80018001ff00ff00ff008000ff0100ff8000800180ff80ffff00ff0080008000)].
Proof. run. Qed.
Example hw084 : let f := shift W256 Left 2 0 AVX2 in
  [f (v32 0xc040010f000190ff8f0f027f1f40113f0ff0f0fd8ff080bf3fbfff8100bf7fff); f (v32 0x08831451e177c5aa8786448a00289595d1f9e7fb2253428fdd449906a06a6e1c); f (v32 0x7fffff7f00017f0100808080008001ff000180ffff7f00007f807f0180ff7f01); f (v32 0xff018001ff0000000001ffff80ff80ff80ff0001000180ff0001ff01ff0080ff)] =
  [Some (v32 0xc040010f000190ff8f0f027f1f40113f0ff0f0fd8ff080bf3fbfff8100bf7fff); Some (v32 0x08831451e177c5aa8786448a00289595d1f9e7fb2253428fdd449906a06a6e1c); Some (v32 0x7fffff7f00017f0100808080008001ff000180ffff7f00007f807f0180ff7f01); Some (v32 0xff018001ff0000000001ffff80ff80ff80ff0001000180ff0001ff01ff0080ff)].
Proof. run. Qed.
Example hw085 : let f := shift W256 Right 2 0 AVX2 in
  [f (v32 0x4001810f0202818fbf40fd907f90fefffd117f101fbf409011f0c0203f00fd3f); f (v32 0xa4674aaed4c05d1d19166585d2549f35b717724c68c75f10d449cee525c12434); f (v32 0x017f010180007f7f0180ff7f00808001ffff00ff0101807f7f01ff8001ff007f); f (v32 0x80010001ff0180ff00ff8000800100ffff0180ff80008000ffff8000000180ff)] =
  [Some (v32 0x4001810f0202818fbf40fd907f90fefffd117f101fbf409011f0c0203f00fd3f); Some (v32 0xa4674aaed4c05d1d19166585d2549f35b717724c68c75f10d449cee525c12434); Some (v32 0x017f010180007f7f0180ff7f00808001ffff00ff0101807f7f01ff8001ff007f); Some (v32 0x80010001ff0180ff00ff8000800100ffff0180ff80008000ffff8000000180ff)].
Proof. run. Qed.
Example hw086 : let f := shift W256 Left 2 1 AVX2 in
  [f (v32 0x7f11104090fefd3f907f7f8fc010ffc03f80fd7e008f907e908fbf00403f0fc0); f (v32 0xfb624d6440173721a4a1d144f5ab9cee89ed52ef0e6d3477428159b279b71813); f (v32 0x7f0001ff0100807fff808000ff017f80ff80807f807f800080017fff807f8000); f (v32 0x00ffffff800080ff00000000800100ff800080ff8001000180008001ffffff00)] =
  [Some (v32 0xfe22208021fcfa7e20feff1e8020ff807f00fafc011e20fc211e7e00807e1f80); Some (v32 0xf6c49ac8802e6e424942a288eb5639dc13daa5de1cda68ee8502b364f36e3026); Some (v32 0xfe0003fe020000feff000000fe02ff00ff0000fe00fe00000002fffe00fe0000); Some (v32 0x01fefffe000001fe00000000000201fe000001fe0002000200000002fffefe00)].
Proof. run. Qed.
Example hw087 : let f := shift W256 Right 2 1 AVX2 in
  [f (v32 0x100f900fc07e0020fe11c0813f40101f0ffff01f7ff00fbf01c011f07f027f7e); f (v32 0x3b907296f51427ef04383f3a712b3c7dea510add97ae1ccf5bfbfd4480074c99); f (v32 0x0180807f01ff7f010000007f7f017fffff8001ff017f0101000001ff807f80ff); f (v32 0x00018000000000ffff01800000ff00008000ff00800000008000ff01ffffff00)] =
  [Some (v32 0x08074807603f00107f0860401fa0080f07ff780f3ff807df00e008f83f813fbf); Some (v32 0x1dc8394b7a8a13f7021c1f9d38951e3e7528056e4bd70e672dfd7ea24003264c); Some (v32 0x00c0403f00ff3f800000003f3f803fff7fc000ff00bf0080000000ff403f407f); Some (v32 0x000040000000007f7f804000007f000040007f804000000040007f807fff7f80)].
Proof. run. Qed.
Example hw088 : let f := shift W256 Left 2 8 AVX2 in
  [f (v32 0x1f8101002010f0803ffd0220fdf03ffd0f7f810ffff07e0f8f7f0fbfbf101111); f (v32 0x7b68964d5c67d72376e7acc37d78b711b6f3c86234e4f33c30692e00fc3c110b); f (v32 0xff0180018080ff017f7f010000017f7f0180ff007fff00808000ff807f808000); f (v32 0x0000ff00ff008001000000ff8001ff01ffffff000000ff00ff00000080010000)] =
  [Some (v32 0x8100000010008000fd002000f000fd007f000f00f0000f007f00bf0010001100); Some (v32 0x68004d0067002300e700c30078001100f3006200e4003c00690000003c000b00); Some (v32 0x01000100800001007f00000001007f0080000000ff0080000000800080000000); Some (v32 0x00000000000001000000ff0001000100ff000000000000000000000001000000)].
Proof. run. Qed.
Example hw089 : let f := shift W256 Right 2 8 AVX2 in
  [f (v32 0x80f07efd81907eff200020207e8fbffffeff0240fd3fc0ff1f20101f1fbf7ffd); f (v32 0xe4abd9e2802c9adc87a1c2e3bd0025c01ae5063f3330ed4be62bd11278267a48); f (v32 0x7f010101808000008001ff0101ff017f7fff00007f80807f7f0080007f007f01); f (v32 0x00ff8001ff00800000018001000180010000000180ff000180000000ff0080ff)] =
  [Some (v32 0x0080007e0081007e00200020007e00bf00fe000200fd00c0001f0010001f007f); Some (v32 0x00e400d90080009a008700c200bd0025001a0006003300ed00e600d10078007a); Some (v32 0x007f000100800000008000ff00010001007f0000007f0080007f0080007f007f); Some (v32 0x0000008000ff0080000000800000008000000000008000000080000000ff0080)].
Proof. run. Qed.
Example hw090 : let f := shift W256 Left 2 15 AVX2 in
  [f (v32 0xff808fff021f407e3ffe8f7e011010bf020f01fd7fff1f101f8f01104020207e); f (v32 0xd8aeff4fd6d36d677805b61cbeea030fe28a3e805f9d6133344316f25e7d48e8); f (v32 0x007f010000807f80807f01ff80017f80000000ffff7f80808080ff7f80ffff01); f (v32 0x0000800000018001ff01ffff0001ffff0001ff0100ffff01ff0100ff80ffff01)] =
  [Some (v32 0x0000800080000000000000000000800080008000800000008000000000000000); Some (v32 0x0000800080008000800000000000800000000000800080008000000080000000); Some (v32 0x8000000000000000800080008000000000008000800000000000800080008000); Some (v32 0x0000000080008000800080008000800080008000800080008000800080008000)].
Proof. run. Qed.
Example hw091 : let f := shift W256 Right 2 15 AVX2 in
  [f (v32 0x203ffd8081803f811f0f02c0f07f2011feff8f1100fffe7ef0ff113f8111408f); f (v32 0x428496410057ba609634101bf299246b615aae9940b25f48bd76494c87cb0d3e); f (v32 0x7f0180ff7f0080010180807fff80017fff0080807f807f007fff017f8000ff7f); f (v32 0x00008000ffffffffff0100000001000180ff0000800100ff80ff80018001ffff)] =
  [Some (v32 0x0000000100010000000000000001000000010001000000010001000000010000); Some (v32 0x0000000100000001000100000001000000000001000000000001000000010000); Some (v32 0x0000000100000001000000010001000000010001000000000000000000010001); Some (v32 0x0000000100010001000100000000000000010000000100000001000100010001)].
Proof. run. Qed.
Example hw092 : let f := shift W256 Left 2 16 AVX2 in
  [f (v32 0x7e10007e0fc0fdfdfd401f20bf1f7efd023f1f80bf00ff010f11819010813ff0); f (v32 0x01deadbb7b5b10cb1365d6e49940b7d577ff8afd189461ddb117b1a5b18304df); f (v32 0x7f007f0180ff80ffffff7fffff017f807f7f7f7f01ff800000808001000100ff); f (v32 0x80ff80ffff00800180018001ff01ff0100008000ff0180ffff0100ffff0100ff)] =
  [Some (v32 0x0000000000000000000000000000000000000000000000000000000000000000); Some (v32 0x0000000000000000000000000000000000000000000000000000000000000000); Some (v32 0x0000000000000000000000000000000000000000000000000000000000000000); Some (v32 0x0000000000000000000000000000000000000000000000000000000000000000)].
Proof. run. Qed.
Example hw093 : let f := shift W256 Right 2 16 AVX2 in
  [f (v32 0x7f81c011fff08f9000fe10fdfd201f00f0110210ff007fff3f017e1f1f027e10); f (v32 0x5bc22741c799851d6b61d8bb84607a4213a3a10dbf5f60a3c66dbef4ac41cc78); f (v32 0xff0080808080ffff000080ff800100800101007f00ff01807f00ffffffff0100); f (v32 0x80ffff00ffffff00ff01ff01ffff000180000000000180008000ff0180000001)] =
  [Some (v32 0x0000000000000000000000000000000000000000000000000000000000000000); Some (v32 0x0000000000000000000000000000000000000000000000000000000000000000); Some (v32 0x0000000000000000000000000000000000000000000000000000000000000000); Some (v32 0x0000000000000000000000000000000000000000000000000000000000000000)].
Proof. run. Qed.
Example hw094 : let f := shift W256 Left 2 17 AVX2 in
  [f (v32 0x7f1f0281007f110f8001bffef0118111fe1f8f02ff8ffe7ffd11bf818f203f02); f (v32 0xa183e01bf370e868f91ac86cf40371a9b95c614652ba9dda37186d21caa3e5c0); f (v32 0xff7f01018080807f017f7f01010080ff017f01ff0000ff7fff00807f017fff7f); f (v32 0x0001ffff80ffff0000008001ff008001ff0080ffff0100ffffffff0080008001)] =
  [Some (v32 0x0000000000000000000000000000000000000000000000000000000000000000); Some (v32 0x0000000000000000000000000000000000000000000000000000000000000000); Some (v32 0x0000000000000000000000000000000000000000000000000000000000000000); Some (v32 0x0000000000000000000000000000000000000000000000000000000000000000)].
Proof. run. Qed.
Example hw095 : let f := shift W256 Right 2 17 AVX2 in
  [f (v32 0x02807f813fff8011113f7f0f013f1ffd3ffe3f40fd4001c020021080fe81bf81); f (v32 0x106404de2d6c20793c12d0bbdac00a63fde7d3944001cc584adc7c2f0e426156); f (v32 0x007f00018080000180018000ffff0080017f0100018001ffffffff807f7f00ff); f (v32 0x80ff800080ff8001ff010001ff010000ffff0000ff01ff01800080ff0001ff00)] =
  [Some (v32 0x0000000000000000000000000000000000000000000000000000000000000000); Some (v32 0x0000000000000000000000000000000000000000000000000000000000000000); Some (v32 0x0000000000000000000000000000000000000000000000000000000000000000); Some (v32 0x0000000000000000000000000000000000000000000000000000000000000000)].
Proof. run. Qed.
Example hw096 : let f := shift W256 Left 2 255 AVX2 in
  [f (v32 0x800140100fff81108101117e02812011bffd81fd02ff0f901ff0117f7f3ffffe); f (v32 0x9db423aa0f97bb574853d62882cb31b21175f37dec4bbc21dcb73c3ef664e412); f (v32 0x01807f7f807f01007f007f7f7f7fff7f7f807fff8001ff0180008080ff018000); f (v32 0x80008000ff01ff0080008001ff00ff01ff018001ff01800180000001ff018001)] =
  [Some (v32 0x0000000000000000000000000000000000000000000000000000000000000000); Some (v32 0x0000000000000000000000000000000000000000000000000000000000000000); Some (v32 0x0000000000000000000000000000000000000000000000000000000000000000); Some (v32 0x0000000000000000000000000000000000000000000000000000000000000000)].
Proof. run. Qed.
Example hw097 : let f := shift W256 Right 2 255 AVX2 in
  [f (v32 0x7f1190bf1f020201801f202011018f907ffe01fd7f011f01017ffd7f3f1101ff); f (v32 0xa118716a2b279f4ba2cf6412df2232eca9bfd719267948fd1b42f39474693660); f (v32 0x017f808000807f008001018001007f800001017f7f800101008000017f808080); f (v32 0x8000ff0000ff80008000ff0080ff80ff00ff8001ff01ff018001ff0180ff0001)] =
  [Some (v32 0x0000000000000000000000000000000000000000000000000000000000000000); Some (v32 0x0000000000000000000000000000000000000000000000000000000000000000); Some (v32 0x0000000000000000000000000000000000000000000000000000000000000000); Some (v32 0x0000000000000000000000000000000000000000000000000000000000000000)].
Proof. run. Qed.
Example hw098 : let f := zip_lo_x2 2 AVX2 in
  [f (v32 0xff20801ff0f0903f027f3f7e0f0fc0ff10f01f0181c01100fe0fc011801f11f0) (v32 0x1f207e1f907e8190c0401fff028190000100c0100001f0fe1f1ff0fffff02001); f (v32 0xd5487b55c74b7b88d808e7b5a457c4d48a8bfa3d7a1bad5bb31b34584f88958b) (v32 0xdaf561e158bfa15c5026ccbcafc327361d478154f0522b23c571c7c28d7841ae); f (v32 0xff0001ff7f00000080800100018001ff7f018080ff01ffff01ff000101ffff01) (v32 0x008080008001ff7f00ff0180800001007f7f7f7fff00007fffff00017f8000ff); f (v32 0x800100000000ff018000ffffff010000800080008001ffff800100018000ff00) (v32 0x80ff0001ffffffffff010000800080ff000000010000ff01800180018001ff00)] =
  [Some (v32 0xc040027f1fff3f7e02810f0f9000c0ff1f1ffe0ff0ffc011fff0801f200111f0); Some (v32 0x5026d808ccbce7b5afc3a4572736c4d4c571b31bc7c234588d784f8841ae958b); Some (v32 0x00ff80800180010080000180010001ffffff01ff000100017f8001ff00ffff01); Some (v32 0xff0180000000ffff8000ff0180ff0000800180018001000180018000ff00ff00)].
Proof. run. Qed.
Example hw099 : let f := zip_hi_x2 2 AVX2 in
  [f (v32 0x810f011f407f021fbfbffd208111202020fefef0bf0f7ef03f3f1010018090fd) (v32 0x401140bf01011f011f1fc03ffe80f0ff9090900f80fe0211bf11c08081100fbf); f (v32 0x217d4268b7e2b24ef3ba1fc2bcc4e67b5b9f5007b923a285d769f7001522d12d) (v32 0x8c78cba516108b3c855f25256a16627a2831258de812b2cb251dda174a7a439f); f (v32 0x01800100ff017f8000ff0000ff80007f800001010180ffffff0000ff807f007f) (v32 0x7fffffff7fffff000001ff7f01ff00ff7fff017f00000080807f017f7fffff7f); f (v32 0x800180ffffffffff80ff8000800080008001ffffff01ff0000ffff01ff0180ff) (v32 0xff01ff01ff00800080ff8000800080008001ffffff01ff0000ffff01ff0180ff)] =
  [Some (v32 0x4011810f40bf011f0101407f1f01021f909020fe900ffef080febf0f02117ef0); Some (v32 0x8c78217dcba542681610b7e28b3cb24e28315b9f258d5007e812b923b2cba285); Some (v32 0x7fff0180ffff01007fffff01ff007f807fff8000017f0101000001800080ffff); Some (v32 0xff018001ff0180ffff00ffff8000ffff80018001ffffffffff01ff01ff00ff00)].
Proof. run. Qed.
Example hw100 : let f := u_add W128 SSE2 U32 in
  [f (v16 0x40807e0190bf113ffd2020fdf07f8fff) (v16 0x0200f0fe40fd90fe10fd8ff001400002); f (v16 0xc339e4cc7bddf81d5c2e3ac85dbe5356) (v16 0x126e4c09137db394c024b3883bec538e); f (v16 0x80ff018080800000ff0080ffff7f0000) (v16 0x800180007f007fff7f7f00807f8080ff); f (v16 0x8001ffffff00ffff0001ff0100018000) (v16 0x80000000000180ff0001ff0100018000)] =
  [Some (v16 0x42816effd1bca23d0e1db0edf1bf9001); Some (v16 0xd5a830d58f5babb11c52ee5099aaa6e4); Some (v16 0x01008180ff807fff7e7f817f7eff80ff); Some (v16 0x0001ffffff0280fe0003fe0200030000)].
Proof. run. Qed.
Example hw101 : let f := u_sub W128 SSE2 U32 in
  [f (v16 0x8f40018f1090fefe118f02fd11c00f00) (v16 0x1010023f1f10bf10fd0f0f1f00fd118f); f (v16 0x89adc7bb2f6a17866b3b76593249805e) (v16 0xaa89e41d73e2297e41be74fbad9d2e50); f (v16 0xff8000ff8080ffff80000001017f7f01) (v16 0x7f01808080807f000100ff80ff7f0001); f (v16 0x00ff8000ffff00000000ff01800080ff) (v16 0x00ff8000ffff00000000ff01800080ff)] =
  [Some (v16 0x7f2fff50f1803fee147ff3de10c2fd71); Some (v16 0xdf23e39ebb87ee08297d015e84ac520e); Some (v16 0x807e807f000080ff7eff008102007f00); Some (v16 0x00000000000000000000000000000000)].
Proof. run. Qed.
Example hw102 : let f := u_eq W128 SSE2 U32 in
  [f (v16 0xfe10ffff02407e8f0f8f4010f0101010) (v16 0x11ff7f801f100080900f20fdc0409001); f (v16 0xd9a652cb5576675cc262cfe20998a460) (v16 0xe2d439d3a01f3fd1ee99787dfe162cca); f (v16 0x007f808080ff80ff0180807f807f0101) (v16 0x808001ff0101ffff0000807f7f7f8000); f (v16 0x0000800180ff00010000ffff80010001) (v16 0x0000800180ff00010000ffff80010001)] =
  [Some (v16 0x00000000000000000000000000000000); Some (v16 0x00000000000000000000000000000000); Some (v16 0x00000000000000000000000000000000); Some (v16 0xffffffffffffffffffffffffffffffff)].
Proof. run. Qed.
Example hw103 : let f := u_add W128 SSE2 I32 in
  [f (v16 0x80f010febf1f0ffd403fbf7ef090fe80) (v16 0xfd10ffbf3fbf7eff01811010813f10fe); f (v16 0xc1d90b980c6bc89b01bde2b2eee103c2) (v16 0xa6c7b06a2f9659446d3a1e28665a52cc); f (v16 0x800100007f8001ff8001ff00ff8001ff) (v16 0x7f8001017f01ff80ff00807f00017fff); f (v16 0x00ff00010000000180ff8001ff018001) (v16 0xff000000ffff8000800000010001ff00)] =
  [Some (v16 0x7e0110bdfede8efc41c0cf8e71d00f7e); Some (v16 0x68a0bc023c0221df6ef800da553b568e); Some (v16 0xff810101fe82017f7f027f7fff8181fe); Some (v16 0xffff0001ffff800100ff8002ff037f01)].
Proof. run. Qed.
Example hw104 : let f := u_sub W128 SSE2 I32 in
  [f (v16 0x02bffd7f10813f1100103fc0113f0100) (v16 0x8111ff408f7e811040bf3f40fd7ef080); f (v16 0x179a2e8e782b598384f9a7ea9eb51621) (v16 0xf8dd4145387408254c28108ee87392e6); f (v16 0x7fff0001807f7f80ff010100000100ff) (v16 0x01ff8000007f7f0180000101ff00017f); f (v16 0xff01800180ff00ff00ffff00ff000000) (v16 0xff01800180ff00ffff018001000000ff)] =
  [Some (v16 0x81adfe3f8102be01bf51008013c01080); Some (v16 0x1ebced493fb7515e38d1975cb641833b); Some (v16 0x7dff80018000007f7f00ffff0100ff80); Some (v16 0x000000000000000001fe7efffeffff01)].
Proof. run. Qed.
Example hw105 : let f := u_eq W128 SSE2 I32 in
  [f (v16 0x7ff0f0fe20407e022090bfff01bf3f7f) (v16 0x4081c00f01fd0f101f01c00f3f11fe11); f (v16 0x2a6eba2241c52c228f7be994f24cf027) (v16 0x16f5eb9676695afd2c3cd44edd6110f2); f (v16 0x7f017f7f0180010000ff0100007f0000) (v16 0x8001007f00018080808000800180017f); f (v16 0x800000ffffff8001ffffffffffffffff) (v16 0x800000ffffff8001ffffffffffffffff)] =
  [Some (v16 0x00000000000000000000000000000000); Some (v16 0x00000000000000000000000000000000); Some (v16 0x00000000000000000000000000000000); Some (v16 0xffffffffffffffffffffffffffffffff)].
Proof. run. Qed.
Example hw106 : let f := u_lt W128 SSE2 I32 in
  [f (v16 0x7efd7ebf900ffd2081f0bffd111f02c0) (v16 0x010002007f20801f001020ffff90f081); f (v16 0xf598f37ae01d8784cf92e4f67d58acb1) (v16 0x010e776ccc8e09e434b487c92549f679); f (v16 0x80000180ff017f007f017f0001ff8001) (v16 0x010180ff01017f7f7f7f01ff7f017fff); f (v16 0xff01ffff8001ffff8000ff00ffffff01) (v16 0xff01ffff8001ffff000000ff80008000)] =
  [Some (v16 0x00000000ffffffffffffffff00000000); Some (v16 0xffffffff00000000ffffffff00000000); Some (v16 0xffffffffffffffffffffffffffffffff); Some (v16 0x0000000000000000ffffffff00000000)].
Proof. run. Qed.
Example hw107 : let f := u_lt W128 SSE2 U32 in
  [f (v16 0x817f3fc0bf2010c0fe0240028102f07e) (v16 0x008f80203f7efdfe0100000080021f01); f (v16 0x1894ec973e18bbd4537f7e2e2392eb38) (v16 0xa61065c669e72a8b7dcf26c07a9566d3); f (v16 0x00000180ff8080007f7f010100ff0001) (v16 0x01ff01800100007f00ff800001800000); f (v16 0x00ff00ff000180ffff00ff0100ff80ff) (v16 0x00ff00ff000180ff000180008001ff00)] =
  [Some (v16 0x00000000000000000000000000000000); Some (v16 0xffffffffffffffffffffffffffffffff); Some (v16 0xffffffff0000000000000000ffffffff); Some (v16 0x000000000000000000000000ffffffff)].
Proof. run. Qed.
Example hw108 : let f := u_max W128 SSE41 U32 in
  [f (v16 0x8f3f20ff01c08f3f90908fc0f08f7eff) (v16 0xf0bf7f9040f0fe7f02f00200fe0f10fe); f (v16 0xec1d18cc30aedafc0d6eaa19fa7a14d8) (v16 0x75988eaa5dcf76cec4971c26b56b12c3); f (v16 0x7fff01010080ff807f00ff8080800080) (v16 0xff018001808001ff80017fff80ff8000); f (v16 0x800000ff00ff80000000ff0100010000) (v16 0xff0180ff800000ff80ff80ff00ff00ff)] =
  [Some (v16 0xf0bf7f9040f0fe7f90908fc0fe0f10fe); Some (v16 0xec1d18cc5dcf76cec4971c26fa7a14d8); Some (v16 0xff018001808001ff80017fff80ff8000); Some (v16 0xff0180ff800000ff80ff80ff00ff00ff)].
Proof. run. Qed.
Example hw109 : let f := u_max W128 SSE41 I32 in
  [f (v16 0x02018111907e407f000ffd7efe900100) (v16 0x3ffd813f008101007e108090fefdfe7f); f (v16 0x88b375fda4d6542f3b62ae659f8196d0) (v16 0x6e1cc81f3a042656f6f34113067a9348); f (v16 0x7f8001007fff01ff0101807fff7f0100) (v16 0x0100007f80ff7f00ffff7fffff00007f); f (v16 0xff01ff0080ffff01ff00ff00ffff80ff) (v16 0x8001ffff80010000ff00ff00ffff80ff)] =
  [Some (v16 0x3ffd813f008101007e108090fefdfe7f); Some (v16 0x6e1cc81f3a0426563b62ae65067a9348); Some (v16 0x7f8001007fff01ff0101807fff7f0100); Some (v16 0xff01ff0080ffff01ff00ff00ffff80ff)].
Proof. run. Qed.
Example hw110 : let f := u_min W128 SSE41 U32 in
  [f (v16 0x8f0fff4011ffff1ff0ff807ffe90bf40) (v16 0x1f8ffe8ffdfd0fc0101f3f1f3f1001fd); f (v16 0x21cc7cb4c1af53465ac31c0bd03dbe1b) (v16 0x06f3126ef01257b9f000a4f31c0abab1); f (v16 0x01ffffffff7f00ffff00807f01007f7f) (v16 0x000001ff01ff80800101007f7fff0001); f (v16 0x0001ff00ffff8000ff0000ff8000ffff) (v16 0x0001ff00ffff8000ffff80ff00ffff00)] =
  [Some (v16 0x1f8ffe8f11ffff1f101f3f1f3f1001fd); Some (v16 0x06f3126ec1af53465ac31c0b1c0abab1); Some (v16 0x000001ff01ff80800101007f01007f7f); Some (v16 0x0001ff00ffff8000ff0000ff00ffff00)].
Proof. run. Qed.
Example hw111 : let f := u_min W128 SSE41 I32 in
  [f (v16 0x40117f00407e0f027ffe7ef07ef00ffe) (v16 0x0f81fe1f80c0bfbf817f1120ff80f080); f (v16 0x39b8f4b465629eb58d86b747b39bb72f) (v16 0x0569e75679d5b9f6c5e275e0016b22ec); f (v16 0x80010101ff00ffff007f7f7f80800080) (v16 0x00017f7f0100010180800080017f7f80); f (v16 0x800000008000ff018001ff0000ff8001) (v16 0x800000008000ff018001ff0000ff8001)] =
  [Some (v16 0x0f81fe1f80c0bfbf817f1120ff80f080); Some (v16 0x0569e75665629eb58d86b747b39bb72f); Some (v16 0x80010101ff00ffff8080008080800080); Some (v16 0x800000008000ff018001ff0000ff8001)].
Proof. run. Qed.
Example hw112 : let f := shift W128 Left 4 0 SSE2 in
  [f (v16 0x7f8f7f8fff11403f7f021f7efd007f8f); f (v16 0xeb5e19b512e8021af8de6fdbf91ea4e5); f (v16 0x017f007f010080007f00800100007fff); f (v16 0x0000000000ffffffff01ffff80018000)] =
  [Some (v16 0x7f8f7f8fff11403f7f021f7efd007f8f); Some (v16 0xeb5e19b512e8021af8de6fdbf91ea4e5); Some (v16 0x017f007f010080007f00800100007fff); Some (v16 0x0000000000ffffffff01ffff80018000)].
Proof. run. Qed.
Example hw113 : let f := shift W128 Right 4 0 SSE2 in
  [f (v16 0x7fffff1f20800ffefdfe8f3f7e021001); f (v16 0x0e589fdc731c61e80124b9ab3437297a); f (v16 0x7fff007f01ff807f01ff7f8001ff8080); f (v16 0xff0180008000ff0080008000800180ff)] =
  [Some (v16 0x7fffff1f20800ffefdfe8f3f7e021001); Some (v16 0x0e589fdc731c61e80124b9ab3437297a); Some (v16 0x7fff007f01ff807f01ff7f8001ff8080); Some (v16 0xff0180008000ff0080008000800180ff)].
Proof. run. Qed.
Example hw114 : let f := shift W128 Left 4 1 SSE2 in
  [f (v16 0x108f81f07f7e810f107e00fdbff0fefd); f (v16 0xc449a050cc11b34c4893f934ade981e7); f (v16 0xff7f01ff7f0000ff7f0000007f007f00); f (v16 0xff018001ff008001ff01ffff0000ff01)] =
  [Some (v16 0x211f03e0fefd021e20fc01fa7fe1fdfa); Some (v16 0x889340a0982366989127f2685bd303ce); Some (v16 0xfefe03fefe0001fefe000000fe00fe00); Some (v16 0xfe030002fe010002fe03fffe0001fe02)].
Proof. run. Qed.
Example hw115 : let f := shift W128 Right 4 1 SSE2 in
  [f (v16 0xfd408f11fdfec0c0fd810f3f10ff8ff0); f (v16 0x34789d6361646b6b69d23eabd572913c); f (v16 0x8080ff7f808000ff7f8001ff7f010001); f (v16 0x80ff8000ffff00ffffff00ff80ff8001)] =
  [Some (v16 0x7ea047887eff60607ec0879f087fc7f8); Some (v16 0x1a3c4eb130b235b534e91f556ab9489e); Some (v16 0x40407fbf4040007f3fc000ff3f808000); Some (v16 0x407fc0007fff807f7fff807f407fc000)].
Proof. run. Qed.
Example hw116 : let f := shift W128 Left 4 16 SSE2 in
  [f (v16 0x200ff0c0118100c00211fefe11001fbf); f (v16 0x2126060b2f2097f9267d4d43927a5d92); f (v16 0x007f010180ff0180010080ff7f808080); f (v16 0x80ffff018000800000ff800000000000)] =
  [Some (v16 0xf0c0000000c00000fefe00001fbf0000); Some (v16 0x060b000097f900004d4300005d920000); Some (v16 0x010100000180000080ff000080800000); Some (v16 0xff010000800000008000000000000000)].
Proof. run. Qed.
Example hw117 : let f := shift W128 Right 4 16 SSE2 in
  [f (v16 0x117f90208190001f8f0f80800f01200f); f (v16 0x510790e5c1a0f3d75b2cbac5ae095cf4); f (v16 0x80ff807f7fff807f00010080807f7fff); f (v16 0x8001ff0000008000ff01ff00ffff80ff)] =
  [Some (v16 0x0000117f0000819000008f0f00000f01); Some (v16 0x000051070000c1a000005b2c0000ae09); Some (v16 0x000080ff00007fff000000010000807f); Some (v16 0x00008001000000000000ff010000ffff)].
Proof. run. Qed.
Example hw118 : let f := shift W128 Left 4 31 SSE2 in
  [f (v16 0x0080bffdc0c03f408f1fc0c00280fd11); f (v16 0x42db92be6b4ecc52f88c384be9443649); f (v16 0x8000ffff7f017fff800000ff80ff00ff); f (v16 0xff0080ffff01ff0000ffff0000ff0001)] =
  [Some (v16 0x80000000000000000000000080000000); Some (v16 0x00000000000000008000000080000000); Some (v16 0x80000000800000008000000080000000); Some (v16 0x80000000000000000000000080000000)].
Proof. run. Qed.
Example hw119 : let f := shift W128 Right 4 31 SSE2 in
  [f (v16 0xfdfd80000f00c02002f01f8f90bf807e); f (v16 0x96d9ecb84f9faa839f35fb3310ccd9e1); f (v16 0x00ff01ff018000ff80007f0180ff7f01); f (v16 0xff010000ffff8000000080ffff010000)] =
  [Some (v16 0x00000001000000000000000000000001); Some (v16 0x00000001000000000000000100000000); Some (v16 0x00000000000000000000000100000001); Some (v16 0x00000001000000010000000000000001)].
Proof. run. Qed.
Example hw120 : let f := shift W128 Left 4 32 SSE2 in
  [f (v16 0xf0ff3f3f000120808fff207ffef0fe01); f (v16 0xfa1515d6237f72d96b77efc9a87ebd3b); f (v16 0x808080800180000080ff008080ff017f); f (v16 0xffff0000000080ff80ff000000ffff01)] =
  [Some (v16 0x00000000000000000000000000000000); Some (v16 0x00000000000000000000000000000000); Some (v16 0x00000000000000000000000000000000); Some (v16 0x00000000000000000000000000000000)].
Proof. run. Qed.
Example hw121 : let f := shift W128 Right 4 32 SSE2 in
  [f (v16 0xfdff7e8111fec000020f8f1f01027efe); f (v16 0x980e2f5c299d5bad0c646e981892e14e); f (v16 0x01ff7f7f7f7fff7f01807f80807f0101); f (v16 0xff01000100ffff000001ffff8001ffff)] =
  [Some (v16 0x00000000000000000000000000000000); Some (v16 0x00000000000000000000000000000000); Some (v16 0x00000000000000000000000000000000); Some (v16 0x00000000000000000000000000000000)].
Proof. run. Qed.
Example hw122 : let f := shift W128 Left 4 33 SSE2 in
  [f (v16 0xc07fffbffd017e80204090c040fefdbf); f (v16 0x3343a65359a71e99c155ae1a31cf0070); f (v16 0x00807f7f0100ff80ff010180ff807f7f); f (v16 0x80ffff01ff0180ff800080ffffff80ff)] =
  [Some (v16 0x00000000000000000000000000000000); Some (v16 0x00000000000000000000000000000000); Some (v16 0x00000000000000000000000000000000); Some (v16 0x00000000000000000000000000000000)].
Proof. run. Qed.
Example hw123 : let f := shift W128 Right 4 33 SSE2 in
  [f (v16 0x1f20f0fe80f03f7f0190c000bfbff03f); f (v16 0x3738353fa3ae4d63a90d3e25ee0839ca); f (v16 0x7f00807f7fff80017f0000807f807f00); f (v16 0x00018001ff0180ff0001000080008000)] =
  [Some (v16 0x00000000000000000000000000000000); Some (v16 0x00000000000000000000000000000000); Some (v16 0x00000000000000000000000000000000); Some (v16 0x00000000000000000000000000000000)].
Proof. run. Qed.
Example hw124 : let f := shift W128 Left 4 255 SSE2 in
  [f (v16 0x02807f2040fd0f1020813f009081118f); f (v16 0x6804f4f37ecb3eca4fda86bcb6281a28); f (v16 0x80800180000101ff7fff01017f80ff00); f (v16 0xff010000ff000000800080ff00ff80ff)] =
  [Some (v16 0x00000000000000000000000000000000); Some (v16 0x00000000000000000000000000000000); Some (v16 0x00000000000000000000000000000000); Some (v16 0x00000000000000000000000000000000)].
Proof. run. Qed.
Example hw125 : let f := shift W128 Right 4 255 SSE2 in
  [f (v16 0x80001f908140fd903f907ffe11fdbffe); f (v16 0x6c81dc10e28ac1fd7a88e0fbda72a974); f (v16 0x7f01800180ff8001008000807f8080ff); f (v16 0x00ff000000ffff01ff01ff0080ff8000)] =
  [Some (v16 0x00000000000000000000000000000000); Some (v16 0x00000000000000000000000000000000); Some (v16 0x00000000000000000000000000000000); Some (v16 0x00000000000000000000000000000000)].
Proof. run. Qed.
Example hw126 : let f := zip_lo 4 SSE2 in
  [f (v16 0x11ff11209020107e0f0f801f7e103f1f) (v16 0x81803f8f008001101f7efe0f40408f40); f (v16 0x6af2b7bd1819ec40de8c3e014c9d001d) (v16 0xbdaf451392a496973facb187625688c0); f (v16 0x7fff017fff7f7f00ff7f01ff00ff7f80) (v16 0x00017f008080ff007fffff7f7fff7f7f); f (v16 0xff018000ffff00ff000100010000ffff) (v16 0xff018000ffff00ff000100010000ffff)] =
  [Some (v16 0x1f7efe0f0f0f801f40408f407e103f1f); Some (v16 0x3facb187de8c3e01625688c04c9d001d); Some (v16 0x7fffff7fff7f01ff7fff7f7f00ff7f80); Some (v16 0x00010001000100010000ffff0000ffff)].
Proof. run. Qed.
Example hw127 : let f := zip_hi 4 SSE2 in
  [f (v16 0x7fc07f4010409002c000900f8f00fdf0) (v16 0x008fbffebf1f7ebfbf0f8fffc001407f); f (v16 0x763c4666d4b310e8e79b95d26df2deb1) (v16 0x820538ea81c3024cc79b5767f515e98f); f (v16 0x0001000000007f017f017fff000001ff) (v16 0x01ff7fff80ff7f0080007fff00ff017f); f (v16 0x00ff000100ff8001ff00000180ff80ff) (v16 0x00ff000100ff800100008001ff00ff00)] =
  [Some (v16 0x008fbffe7fc07f40bf1f7ebf10409002); Some (v16 0x820538ea763c466681c3024cd4b310e8); Some (v16 0x01ff7fff0001000080ff7f0000007f01); Some (v16 0x00ff000100ff000100ff800100ff8001)].
Proof. run. Qed.
Example hw128 : let f := u_add W256 AVX2 U32 in
  [f (v32 0x3f0f02fe1010ff10c081013f811f1ffef0bf9010401f0081bffe803fc01f81f0) (v32 0x111011fd8011111ffd20023f400100ff7e7fbfc0103ffd204002018f0ffd7e81); f (v32 0x31b2c5e45a7167991671965abb4e3c0c497dbe8c2c710e64ecc7d50ca742d265) (v32 0x2557a4f5486a196ad209fc85ed5da825a2883394b134b859a34f53d2d05b7638); f (v32 0x7f7f807f01807f80807f7f0180ffff807f7fff807f007f7fffff01ff00ff00ff) (v32 0xff80007f0080ffff8001ff807fff017f80ff00ff00ffff7fff007fff7fffff00); f (v32 0x00ff0000ff00ff0000ff80ff8000ff000001000180ff8001ff00000100018001) (v32 0x0000ffffff00800000ff80ff8000ff00ff018000ff01ffffffff80ffff0100ff)] =
  [Some (v32 0x501f14fb9022102fbda1037ec12020fd6f3f4fd0505efda1000081ced01d0071); Some (v32 0x570a6ad9a2db8103e87b92dfa8abe431ec05f220dda5c6bd901728de779e489d); Some (v32 0x7eff80fe02017f7f00817e8100ff00ff007f007f80007efefeff81fe80feffff); Some (v32 0x00fffffffe017f0001ff01fe0001fe00ff02800180018000feff8100ff028100)].
Proof. run. Qed.
Example hw129 : let f := u_sub W256 AVX2 U32 in
  [f (v32 0x9040bf3f900010409040fd11808f8ff07f0102fe7e7e8ffd02fd201f02fd00bf) (v32 0x0f00401f7f021f10017fff7f8081ff10900f7e10bf003f8f02c010007f1fc090); f (v32 0x8759a2211b0dc5d753675d780fbc2a82d28f6ee528fb6bf4fdfe89b52c90756f) (v32 0x875105e2a431f0295f8d2b07b91c202760a3b8f9ab2119ce35a8e499b2609e6a); f (v32 0xffff7f80ff0000ff800080ff01808000807f01ffff7f80800100007f7f00007f) (v32 0x7f007f0100800101ff0080807f00807fffff01ff7f7fff010000010101010180); f (v32 0xffff8000000000ff80010000000100ff80ff8000ffff00ff8001000080ff8000) (v32 0xffff8000000000ffffffff00000180008000ff010000ffff8001000080ff8000)] =
  [Some (v32 0x81407f2010fdf1308ec0fd92000d90e0eef184eebf7e506e003d101f83dd402f); Some (v32 0x00089c3f76dbd5aef3da327156a00a5b71ebb5ec7dda5226c855a51c7a2fd705); Some (v32 0x80ff007ffe7ffffe8100007f827fff81808000007fff817f00ffff7e7dfefeff); Some (v32 0x000000000000000080010100ffff80ff00fe80fffffe01000000000000000000)].
Proof. run. Qed.
Example hw130 : let f := u_eq W256 AVX2 U32 in
  [f (v32 0x7e8020203f3f1ff0fdf01ffd00113f111180fd1ff0908120200140bffff0fe01) (v32 0x407fbf01bf111f81fd3f207f11ff1fff002011bf7ebf0fff7e1f0f7e0f900ff0); f (v32 0x10a2721849b31f5be89c87250ff7e4249979b53ac16d26d61f790d7f0535166b) (v32 0xafeaf34e28f1c2302dc7e23d45258078fba913b09abd4281db9e162915f91f06); f (v32 0xff00017f7f7fff8080807f807f7f010001017fff0001ff7f8001ff00000000ff) (v32 0x01ff7f800100807f7f00ff7fff80018000ff80010100017f7f010180808080ff); f (v32 0x8000ff00ff01000080ffff010001ff00ff0000ff80ff00ff00ff00ff8000ffff) (v32 0x8000ff00ff010000ffffff008000ff0080ffffff00ff000000ff00ff8000ffff)] =
  [Some (v32 0x0000000000000000000000000000000000000000000000000000000000000000); Some (v32 0x0000000000000000000000000000000000000000000000000000000000000000); Some (v32 0x0000000000000000000000000000000000000000000000000000000000000000); Some (v32 0xffffffffffffffff00000000000000000000000000000000ffffffffffffffff)].
Proof. run. Qed.
Example hw131 : let f := u_add W256 AVX2 I32 in
  [f (v32 0x0120c0fe02024010c0904040200081408f013f20bf81fe80ff02f0908f7e207f) (v32 0xc040c0900f1ffe2040c081fdf08f8010f01081fe00201020fd7e7e7fbf100f7e); f (v32 0xea4a7d2794ab72f654c0a0f627527bb8406c043d443c5b2ab365a7330e9c6c20) (v32 0x02d07e6cbd4bcbb7449d658cebea5f1cccf5fe0ed8a361eb43429ca18f72f046); f (v32 0x807f7f80007f80007f01007f7f0000ff01ff007f7f807f7f80807f7f00008080) (v32 0x01ff7fff7f800080017f0001ff00ffff010180008001807f7f0000808001ff80); f (v32 0xffffff00000080008000ff0100010001000000008000ff01000000ffffff0001) (v32 0xffffff0000008000ff01800180018001000000008000ff01000100018001ff01)] =
  [Some (v32 0xc161818e11223e300150c23d109001507f11c11ebfa20ea0fc816f0f4e8e2ffd); Some (v32 0xed1afb9351f73ead995e0682133cdad40d62024b1cdfbd15f6a843d49e0f5c66); Some (v32 0x827eff7f7fff8080808000807e0100fe0300807fff81fffeff807fff80028000); Some (v32 0xfffffe00000100007f027f0280028002000000000001fe02000101008000ff02)].
Proof. run. Qed.
Example hw132 : let f := u_sub W256 AVX2 I32 in
  [f (v32 0x3ffe018102bfc07e7e7e0281ff10bf0f002002fe8f7ffe7e40103f8002fd0102) (v32 0xfd1f1fbf1011bfff200ffe1f907f90100f3f0081013f3ff08f90bf8ff0803f90); f (v32 0x0af47908d3d6f51abc80aae26db27cf0f819917fa673877cac03e242543a8d35) (v32 0xdea70bd62e0c1f161a0dfb49302d0b945a497f5279710638201ccb6b1f9ced1a); f (v32 0x0000808001000001ff017f80ffff01017f0001ff01ff007f017f800180ff7f00) (v32 0x01ff7fff01000100ffff0001ff7fff807fff80018000010100008001ff0000ff); f (v32 0xff01ffff80ff000100ffff018000ffff8001ffff80ff8001000100000000ff00) (v32 0xff01ffff80ff000100ffff018000ffff8001ffff80ff8001ff018001ff00ffff)] =
  [Some (v32 0x42dee1c2f2ae007f5e6e04626e912efff0e1027d8e40be8eb07f7ff1127cc172); Some (v32 0x2c4d6d32a5cad604a272af993d85715c9dd0122d2d0281448be716d7349da01b); Some (v32 0xfe010081ffffff01ff027f7f007f0181ff0081fe81feff7e017f000081ff7e01); Some (v32 0x00000000000000000000000000000000000000000000000000ff7fff00ffff01)].
Proof. run. Qed.
Example hw133 : let f := u_eq W256 AVX2 I32 in
  [f (v32 0x80c03f1fff7f8f200f110f20019090ff811f1190fe80903fbf7eff7f400ffd10) (v32 0xfd81008120bf80207ec07f02027e203f7e7e7e02021fbf7e0f90018002810f3f); f (v32 0x12ecfde9db91bb71be5156fbfa2454d3961ede723136418acdf97703a26d2a5a) (v32 0xc5d55d8f83f35628f12e16d2d1527e5454d25ccbb29e698a60a8c92ad579c626); f (v32 0xff0100808000ff01ff007f7fff8001800100ff01807f010101017f007f0000ff) (v32 0x7f7f7fffff80ff017f01807f0000007f7fffff010100808080ff01017f00007f); f (v32 0xffffffff80ffff00ff00800180ffffff80ffffff80018001ffff800000010001) (v32 0x000100010000ff01ff00800180ffffff80ffff01ff018000ffff800000010001)] =
  [Some (v32 0x0000000000000000000000000000000000000000000000000000000000000000); Some (v32 0x0000000000000000000000000000000000000000000000000000000000000000); Some (v32 0x0000000000000000000000000000000000000000000000000000000000000000); Some (v32 0x0000000000000000ffffffffffffffff0000000000000000ffffffffffffffff)].
Proof. run. Qed.
Example hw134 : let f := u_lt W256 AVX2 I32 in
  [f (v32 0x404001ff0f018f3f10111002011ff07e3f20023f3ffe20907ebf11ff10c01ff0) (v32 0xc0fff0fe9080fe02011110fefec0bfbf8011c07f1f40fe01bf808ff080901181); f (v32 0x395c08d58f28732d15cfeb759d860ec6eafa2f946fe59f9ff4095b3553a032c9) (v32 0x4836a8c960db529cd78f1269eff1dd43d87ef3e6b7b8100d0ceaa118a8dd3cff); f (v32 0x0080ff00ff0180ff0001ff80807f7f0001018000010100807f008000ff7f8001) (v32 0x0001ff7f01807f007f0080ff00800180800100ff8001ff01007f80018001ff01); f (v32 0xffffff000001800000ff800000ff8001ff00800180ff0001ff01ffff80010000) (v32 0x80000001ff010001ff0000ff0001ff00ff00800180ff00010000ff01ff018001)] =
  [Some (v32 0x0000000000000000000000000000000000000000000000000000000000000000); Some (v32 0xffffffffffffffff00000000ffffffff0000000000000000ffffffff00000000); Some (v32 0x00000000ffffffffffffffffffffffff00000000000000000000000000000000); Some (v32 0x000000000000000000000000000000000000000000000000ffffffffffffffff)].
Proof. run. Qed.
Example hw135 : let f := u_lt W256 AVX2 U32 in
  [f (v32 0x7ff00f0f400f1ffe0000ff101f027e8f40020f027ffd40ff1f10f04090f010f0) (v32 0xbff07ebfc04011bf408f407e0140c0403fbfbf80c0c0114010008f10108020fe); f (v32 0xd4eefd0b81f6f51b7658827f8437826fbf37c768419d8ef8ff4597a1a56f9312) (v32 0x30c3825a3acb03c5ad73c6275150d15f7afd5c4b70a4b19075099da0975ef4b0); f (v32 0x7fff7f00ffff007fff00ff808000ff0080807fff010080ff80007f80ff808000) (v32 0x8001007f7f7fff01ff7fff01800100800001807fffff000101800000808080ff); f (v32 0xff0180ff00010001ff01ffffff00800080ff0000000080ffffff00ffffff00ff) (v32 0xff0180ff0001000180008001ff010000ffff8000000000ffffff00ffffff00ff)] =
  [Some (v32 0xffffffffffffffffffffffff0000000000000000ffffffff0000000000000000); Some (v32 0x0000000000000000ffffffff0000000000000000ffffffff0000000000000000); Some (v32 0xffffffff00000000ffffffffffffffff00000000ffffffff0000000000000000); Some (v32 0x000000000000000000000000ffffffffffffffff000000000000000000000000)].
Proof. run. Qed.
Example hw136 : let f := u_max W256 AVX2 U32 in
  [f (v32 0x90fd80bf029020fdfeff800f0fbf028000007fc07f7ffe0f801f8f7f4001fe1f) (v32 0xbfbf2090fdc07f3f7e0f028ff01ffd11fd40fd103f20ff0fbf010ff080027ff0); f (v32 0x626d8c7c9e7660334e5959d90b9cab0c4f728260381112086a267c1c04fed428) (v32 0x6c37a90bf32fdb651c41b459f616a9154b54ad94cc4cd2c96839d406c30432c8); f (v32 0x7f0180ff017f010180017fff00ff7f000180ff7f8000ff800000007fffff0180) (v32 0xff0001ff807f7f007f00ffff017f80ff000000018080ff0101807f01ffffffff); f (v32 0x0000ff0000ff8001000180ffffff00ff000100008001ffff8000ff01800000ff) (v32 0x80ffff018001000080ff80008001800000010001ffffff018000ff01800000ff)] =
  [Some (v32 0xbfbf2090fdc07f3ffeff800ff01ffd11fd40fd107f7ffe0fbf010ff080027ff0); Some (v32 0x6c37a90bf32fdb654e5959d9f616a9154f728260cc4cd2c96a267c1cc30432c8); Some (v32 0xff0001ff807f7f0080017fff017f80ff0180ff7f8080ff0101807f01ffffffff); Some (v32 0x80ffff018001000080ff8000ffff00ff00010001ffffff018000ff01800000ff)].
Proof. run. Qed.
Example hw137 : let f := u_max W256 AVX2 I32 in
  [f (v32 0xfe7e0f108f0f01bf7e7f1f11ff2090100180ff3f7efd00118081fe7e207ff010) (v32 0x808f007ef0c07e0101ff0f11ff01fdc0ff1020011f90c0011fc00f7e7e108fbf); f (v32 0xf2cea1f4afee454129b2cde4368aa932ab51a509c410d21c4335b1927ed6be77) (v32 0x73940367a07775e204f804f1ba662615fb55862f2d14f89d9daba8b7ab58947e); f (v32 0x7f80807f007f0101ff0101ff808080017f80017f7fff017f7f8001808000007f) (v32 0x7f80ff8001007fff01ff7f7f017f807fff01007f7f017fff80ff008080800000); f (v32 0xff01ffffffff80ff8001800080010000ff0000ffff008000ff01ff0080008001) (v32 0xff01ffffffff80ff0001ff008001ff00000080ff00000001ff01ff0080008001)] =
  [Some (v32 0xfe7e0f10f0c07e017e7f1f11ff2090100180ff3f7efd00111fc00f7e7e108fbf); Some (v32 0x73940367afee454129b2cde4368aa932fb55862f2d14f89d4335b1927ed6be77); Some (v32 0x7f80ff8001007fff01ff7f7f017f807f7f80017f7fff017f7f80018080800000); Some (v32 0xff01ffffffff80ff0001ff008001ff00000080ff00000001ff01ff0080008001)].
Proof. run. Qed.
Example hw138 : let f := u_min W256 AVX2 U32 in
  [f (v32 0x01f03f8f8f021f9080100ff01140fe0f1f1000024000008040ffc0207f003f40) (v32 0xf04020bf10903fff3f81c090407e11fe807e1f20c0ff40f0ff407ef011bf7e3f); f (v32 0x9fb98b47b5d232a8200498335bdf083ff418764ade235a1af2acddcd97717fd0) (v32 0x75199e143dbcd4dd7d99053f2ad211561eed9e3824307492d432739e35171f56); f (v32 0x007f00800101017f010100800101017fff017fff80ff807f7f0100808000ff01) (v32 0x80807f01ff80800001808001800101ff0100018000ff01807f7f80ff007f7f00); f (v32 0xffff000080ff8000ffffff0000ff80018001800180ffffffff000000ff00ff00) (v32 0x00018001000100ffffff8001ff00ff0000000000000180000001000000000001)] =
  [Some (v32 0x01f03f8f10903fff3f81c0901140fe0f1f1000024000008040ffc02011bf7e3f); Some (v32 0x75199e143dbcd4dd200498332ad211561eed9e3824307492d432739e35171f56); Some (v32 0x007f00800101017f010100800101017f0100018000ff01807f010080007f7f00); Some (v32 0x00018001000100ffffff800100ff800100000000000180000001000000000001)].
Proof. run. Qed.
Example hw139 : let f := u_min W256 AVX2 I32 in
  [f (v32 0x4040103f7f0211fd011f800f1fbffdc020101f1fc0f01fffbfbf81017ffffd1f) (v32 0xff00900f81fdbf80800f207f8ffd1f7e7fbf90907ef002bf0f1f8fbf8f010f7e); f (v32 0x927dc94dae9731ec342021d86c19045483764d09dabe8e72c57599094e547afc) (v32 0xa1667c330822e1a78f0160b7b3ad5bf75cab920333dead8978fcdd76cf2574c4); f (v32 0xffff7f00017fff01ff7f017fff008001800180010180ff00807f80807f01017f) (v32 0x7f01010001807f01ff017f7f00008000800180018000018000ff007fff7f0100); f (v32 0xffffff00ffff00ff80000001ffffff0080ffff00ffff800100008001ff010000) (v32 0x8001ff01ffffff0180000001ffffff0080ffff00ffff800100008001ff010000)] =
  [Some (v32 0xff00900f81fdbf80800f207f8ffd1f7e20101f1fc0f01fffbfbf81018f010f7e); Some (v32 0x927dc94dae9731ec8f0160b7b3ad5bf783764d09dabe8e72c5759909cf2574c4); Some (v32 0xffff7f00017fff01ff017f7fff0080018001800180000180807f8080ff7f0100); Some (v32 0x8001ff01ffff00ff80000001ffffff0080ffff00ffff800100008001ff010000)].
Proof. run. Qed.
Example hw140 : let f := shift W256 Left 4 0 AVX2 in
  [f (v32 0x90bf403f1020fdff011f207ff011207ffe20bfc0fd7ffefd8f8ff0008f7f1f81); f (v32 0x07c9c0a8bf62b34b46ebbe42c8b33ef3d776250fefa5b34dab0b00398fecd60d); f (v32 0x7fffff017f7fff8000017f800080017f0001007f8000007f0080800101ff8080); f (v32 0xff0080ff00ffffff80ff0001ff00800100000001ffffffff00008000ffffffff)] =
  [Some (v32 0x90bf403f1020fdff011f207ff011207ffe20bfc0fd7ffefd8f8ff0008f7f1f81); Some (v32 0x07c9c0a8bf62b34b46ebbe42c8b33ef3d776250fefa5b34dab0b00398fecd60d); Some (v32 0x7fffff017f7fff8000017f800080017f0001007f8000007f0080800101ff8080); Some (v32 0xff0080ff00ffffff80ff0001ff00800100000001ffffffff00008000ffffffff)].
Proof. run. Qed.
Example hw141 : let f := shift W256 Right 4 0 AVX2 in
  [f (v32 0x0f81901f027e7f3f810fffbf02807eff7e1f401f20401020401f810fbf000f81); f (v32 0xe4ef0b32c2e954f5666d670722bf30d8dc2aaacdfbd6422223c4df5ecf2b3ee6); f (v32 0x7f00ffff7fffff0100ff7f7f807f01807f0180807f8000ff00ff80000000ff01); f (v32 0x000000000000ff0180018000ffff8000000100ff0000ff0180ffff0000000000)] =
  [Some (v32 0x0f81901f027e7f3f810fffbf02807eff7e1f401f20401020401f810fbf000f81); Some (v32 0xe4ef0b32c2e954f5666d670722bf30d8dc2aaacdfbd6422223c4df5ecf2b3ee6); Some (v32 0x7f00ffff7fffff0100ff7f7f807f01807f0180807f8000ff00ff80000000ff01); Some (v32 0x000000000000ff0180018000ffff8000000100ff0000ff0180ffff0000000000)].
Proof. run. Qed.
Example hw142 : let f := shift W256 Left 4 1 AVX2 in
  [f (v32 0x00c00ff020208f10000140ff80813f901f1f7f80c07eff204020207f7fc0f08f); f (v32 0x6221ef85fef0393056b7d669ecb2bd6b4cd0a949eb68b9d395309df8604411ba); f (v32 0x0001807f7f00ff7f00ff007f800001ff7fffff7f80017f80017f7fff00018080); f (v32 0xff0180ff8001000080000000000180ff00ff0001ff008001ffff80ff00008000)] =
  [Some (v32 0x01801fe040411e20000281fe01027f203e3eff0080fdfe40804040feff81e11e); Some (v32 0xc443df0afde07260ad6facd2d9657ad699a15292d6d173a62a613bf0c0882374); Some (v32 0x000300fefe01fefe01fe00fe000003fefffffefe0002ff0002fefffe00030100); Some (v32 0xfe0301fe0002000000000000000301fe01fe0002fe010002ffff01fe00010000)].
Proof. run. Qed.
Example hw143 : let f := shift W256 Right 4 1 AVX2 in
  [f (v32 0x403fc00110010111fd101f80f07fbf4081404080007e10fe103f1f7e101f0210); f (v32 0x53c29161819f9bbe1fe353b73c4c972045c570a4fc5a237526fc5400ec5ce70e); f (v32 0xff0080807f7f8001ff01017f0001ff010001ffff80800101ff7fff007fff8080); f (v32 0x800080ffff00000000ffffffff010001000180ffff000000ffff0001ff018000)] =
  [Some (v32 0x201fe000080080887e880fc0783fdfa040a02040003f087f081f8fbf080f8108); Some (v32 0x29e148b040cfcddf0ff1a9db1e264b9022e2b8527e2d11ba137e2a00762e7387); Some (v32 0x7f8040403fbfc0007f8080bf0000ff800000ffff404000807fbfff803fffc040); Some (v32 0x4000407f7f800000007fffff7f8080000000c07f7f8000007fff80007f80c000)].
Proof. run. Qed.
Example hw144 : let f := shift W256 Left 4 16 AVX2 in
  [f (v32 0x4010fe90011f101001007f900281021180401f11007f01021ff011208180103f); f (v32 0x28d51f10fca30aa7f0577fda0d839be606627d82e7647e5264b33e74d0f9413e); f (v32 0x80ffffff8001ffffff7f0180ffffff0180017f8000010180ffffff01017fff01); f (v32 0xffff00018001ff00ffff00010001ff00ff00ff010001ff01ff0180ff00ff8001)] =
  [Some (v32 0xfe900000101000007f900000021100001f1100000102000011200000103f0000); Some (v32 0x1f1000000aa700007fda00009be600007d8200007e5200003e740000413e0000); Some (v32 0xffff0000ffff000001800000ff0100007f80000001800000ff010000ff010000); Some (v32 0x00010000ff00000000010000ff000000ff010000ff01000080ff000080010000)].
Proof. run. Qed.
Example hw145 : let f := shift W256 Right 4 16 AVX2 in
  [f (v32 0x0f407f012081811f903f10027f9011fe7f8f02ff801f7ff0017f0f001ff0fff0); f (v32 0x7e63562f8566062622112a34b4170eb436c872ba39f6af749702b7404aa41562); f (v32 0x8080010180ff7f00010180ffff000100ff00ffff80007f010080007f01ff0101); f (v32 0x80018001800180008001800180018001ff008001ff008001ff00800080008001)] =
  [Some (v32 0x00000f40000020810000903f00007f9000007f8f0000801f0000017f00001ff0); Some (v32 0x00007e6300008566000022110000b417000036c8000039f60000970200004aa4); Some (v32 0x00008080000080ff000001010000ff000000ff000000800000000080000001ff); Some (v32 0x000080010000800100008001000080010000ff000000ff000000ff0000008000)].
Proof. run. Qed.
Example hw146 : let f := shift W256 Left 4 31 AVX2 in
  [f (v32 0x7eff3f8f01fd1f8f0f107f02f07ec03f118f02fd90c00f3f0f8f100fff3f1fff); f (v32 0x7b3c853d7fccb0782506653fe8498c85b5d78c9f93d25d231ef8d497c189f877); f (v32 0x8080ff7f80008080ff01017f800000ff800101017fff01ffff7f807f7f017f80); f (v32 0x8000000000ffff00ff008000ffff80ff8001ffff00ffff008000000100ffff01)] =
  [Some (v32 0x8000000080000000000000008000000080000000800000008000000080000000); Some (v32 0x8000000000000000800000008000000080000000800000008000000080000000); Some (v32 0x8000000000000000800000008000000080000000800000008000000000000000); Some (v32 0x0000000000000000000000008000000080000000000000008000000080000000)].
Proof. run. Qed.
Example hw147 : let f := shift W256 Right 4 31 AVX2 in
  [f (v32 0x00201f1f10c01f1f7fff20ff008ffdff0f007e807efef01f7f00021ff03ffd81); f (v32 0x7ddfc2eccb6aaf46b8ce14edd432847b9dcfada828038dd5cfcdb223ff6b9a83); f (v32 0xff0101807fff007f0001017f00007f7f7f007f7f0100000180018000800000ff); f (v32 0xff0000ff0000ffff00ff80ff000180ff0001000180ffff01ff0080ffff00ff00)] =
  [Some (v32 0x0000000000000000000000000000000000000000000000000000000000000001); Some (v32 0x0000000000000001000000010000000100000001000000000000000100000001); Some (v32 0x0000000100000000000000000000000000000000000000000000000100000001); Some (v32 0x0000000100000000000000000000000000000000000000010000000100000001)].
Proof. run. Qed.
Example hw148 : let f := shift W256 Left 4 32 AVX2 in
  [f (v32 0x81bf7e11801f8ffef03f3f20801f8f1100fd009011fe0280c0fd8f7f2011bf40); f (v32 0xb72bbf171409ae1be92d5e5473e2ccbb08a705637cd84ce74098b5ec370e10f6); f (v32 0x8000ff7f017f800101ff807f80007fff01ff017f7fff0101807f00800101807f); f (v32 0xff00800100ffff00ffffff000000ff0000018001ff0080010001ff0180ffff00)] =
  [Some (v32 0x0000000000000000000000000000000000000000000000000000000000000000); Some (v32 0x0000000000000000000000000000000000000000000000000000000000000000); Some (v32 0x0000000000000000000000000000000000000000000000000000000000000000); Some (v32 0x0000000000000000000000000000000000000000000000000000000000000000)].
Proof. run. Qed.
Example hw149 : let f := shift W256 Right 4 32 AVX2 in
  [f (v32 0x1181c090fec0ff0f7f7e022001f0f010007e1f7ec0ff20fe3f02021f10407e02); f (v32 0x729cd47dd44d03aa6ae68658db1643f88209f68f72d19469a20faef40e2d66b6); f (v32 0x018001807f80ffff01ff7f80007f00ff7fff00017f80018000ff0000017fff80); f (v32 0x000080ffff00ffff0000ff010001ffffff01ff01ffff800100ff80ffff010000)] =
  [Some (v32 0x0000000000000000000000000000000000000000000000000000000000000000); Some (v32 0x0000000000000000000000000000000000000000000000000000000000000000); Some (v32 0x0000000000000000000000000000000000000000000000000000000000000000); Some (v32 0x0000000000000000000000000000000000000000000000000000000000000000)].
Proof. run. Qed.
Example hw150 : let f := shift W256 Left 4 33 AVX2 in
  [f (v32 0x20c0903f7e807fc080f07ec03ffe7f8f3f01407e20fd808010c0f00f00bfff8f); f (v32 0x8d0fe3fab210961dcd96ad9b2b9f6b67938b25ec295b25503587352158525de6); f (v32 0x007f80ff00018001010000808080000100ff80ff017f01ff0001ff008001017f); f (v32 0x0000800080010001800080018000ff00ff0000ffffff00ffffffff01ff01ff00)] =
  [Some (v32 0x0000000000000000000000000000000000000000000000000000000000000000); Some (v32 0x0000000000000000000000000000000000000000000000000000000000000000); Some (v32 0x0000000000000000000000000000000000000000000000000000000000000000); Some (v32 0x0000000000000000000000000000000000000000000000000000000000000000)].
Proof. run. Qed.
Example hw151 : let f := shift W256 Right 4 33 AVX2 in
  [f (v32 0x1020027e010f80fffefd901181200ffdfdff108fc010c0bffdfd7ffe81fe0080); f (v32 0xdb8b2f09017c2ecd7b58ccfa7734698b7c45de1b40fd82c4258901249efe4b31); f (v32 0x0001ff00ff7f80ff80ff800180807f7f808000ff0000ff018000ff01ff7f807f); f (v32 0xffff0001ff0080ffff00ff010000ffffff00ff0100ff80ff00ff00ffff010000)] =
  [Some (v32 0x0000000000000000000000000000000000000000000000000000000000000000); Some (v32 0x0000000000000000000000000000000000000000000000000000000000000000); Some (v32 0x0000000000000000000000000000000000000000000000000000000000000000); Some (v32 0x0000000000000000000000000000000000000000000000000000000000000000)].
Proof. run. Qed.
Example hw152 : let f := shift W256 Left 4 255 AVX2 in
  [f (v32 0x20801181027e20fdc0100f807f1120811ffe208f203f1f207ff0bf0f007ec020); f (v32 0xfa99dcb96b30fdad9f35c7683172393b0fd55689db48550a5f2b08fb09036427); f (v32 0x8000000180ffff00ff8001017f000000ffff80ff0100017f7f0180ff7fff00ff); f (v32 0x8001ffffff0180ff00ffff01ffff00ff00ffffff00008001ffffff0080ff0000)] =
  [Some (v32 0x0000000000000000000000000000000000000000000000000000000000000000); Some (v32 0x0000000000000000000000000000000000000000000000000000000000000000); Some (v32 0x0000000000000000000000000000000000000000000000000000000000000000); Some (v32 0x0000000000000000000000000000000000000000000000000000000000000000)].
Proof. run. Qed.
Example hw153 : let f := shift W256 Right 4 255 AVX2 in
  [f (v32 0x40fd00f0017ec0008f0281f0c08f11ffbf1fff7fc020bff011bf1f201002401f); f (v32 0xfe000259c77ac5768469981a57a02e33bbc9c855626e858c9a3a354d17b43e1b); f (v32 0x7f0001018080ffff00017fff807fffffffff00ff01ffffff017fff0101000000); f (v32 0xffff800180ff8000ffff000000ffffff00ffff00ff01ffffffff0000ff008000)] =
  [Some (v32 0x0000000000000000000000000000000000000000000000000000000000000000); Some (v32 0x0000000000000000000000000000000000000000000000000000000000000000); Some (v32 0x0000000000000000000000000000000000000000000000000000000000000000); Some (v32 0x0000000000000000000000000000000000000000000000000000000000000000)].
Proof. run. Qed.
Example hw154 : let f := zip_lo_x2 4 AVX2 in
  [f (v32 0x0f00f00f7fbf407f4011f0bf407e02fd2002fd200f02fe80fe409010f0c00140) (v32 0x01000f400220c03ffd7fc0107f7fff20fe11f0bf7ffef0903f8001817fff7f20); f (v32 0x3306df4ea9cf11742fb7d619da2628cf057b419efdb663909cb82d9330f3b39e) (v32 0xb6ab184142e2c9e012878ac4201b50272951847dcd2637c4068c04c0a6da6571); f (v32 0x808001800100ff00007fff800100800001807f010180ff8080ff010080007f01) (v32 0x0100807f008001007f01008000017f7f7fff7f80ff80ff80ff01007f7f008001); f (v32 0x800100ff00ff80ff8001ff0180ff00ffffff800080008001000100ffffffff00) (v32 0xff00ff01ff000000000000ffffff000100ff80ff80ffffff000100ffffffff00)] =
  [Some (v32 0xfd7fc0104011f0bf7f7fff20407e02fd3f800181fe4090107fff7f20f0c00140); Some (v32 0x12878ac42fb7d619201b5027da2628cf068c04c09cb82d93a6da657130f3b39e); Some (v32 0x7f010080007fff8000017f7f01008000ff01007f80ff01007f00800180007f01); Some (v32 0x000000ff8001ff01ffff000180ff00ff000100ff000100ffffffff00ffffff00)].
Proof. run. Qed.
Example hw155 : let f := zip_hi_x2 4 AVX2 in
  [f (v32 0xfffe01f0f08080400ffd0f7e7f40c010ff000ff040fe02020001c07e8110fdbf) (v32 0x7f9001bf027fbfbf1f3f7f007ec020f0f0200fff20bf3f407fff90f08f7eff01); f (v32 0xb3f91ae92f37a4357bb828a8111b9370d2390aadab4c68762ace4def5e944438) (v32 0x854da26e4c8d9eba79c620c99341e6d9f232a24700830cc6715bd8f92852a5d4); f (v32 0x807fff0001ff0000ff00ff807f7f007f80ff7f80000101ff007f7f7fff7f0080) (v32 0x00807f010001ff000180010080ffff00ff7fff00807f7f7f01010101ff01ff00); f (v32 0x80ff80ffff00ff0000018000000180ffffff0000ffff80ffff0100ff00ff00ff) (v32 0x80ff80ffff00ff00000180018001ff01ffff0000ffff80ff00ff80ffff0180ff)] =
  [Some (v32 0x7f9001bffffe01f0027fbfbff0808040f0200fffff000ff020bf3f4040fe0202); Some (v32 0x854da26eb3f91ae94c8d9eba2f37a435f232a247d2390aad00830cc6ab4c6876); Some (v32 0x00807f01807fff000001ff0001ff0000ff7fff0080ff7f80807f7f7f000101ff); Some (v32 0x80ff80ff80ff80ffff00ff00ff00ff00ffff0000ffff0000ffff80ffffff80ff)].
Proof. run. Qed.
Example hw156 : let f := u_add W128 SSE2 U64 in
  [f (v16 0x11408020810f020fff800001bf10f07e) (v16 0xbf7ffe8010fe3f8f7e803f7eff0110c0); f (v16 0xe89717dc5883e710065fa1e99b55a938) (v16 0xa1d58dd90b6f815274cc9dd59330811c); f (v16 0x00018080807f01ffff7fff00ff7f80ff) (v16 0xff808001017f808001800000008001ff); f (v16 0xff000000000080ff80008000800000ff) (v16 0x00ff0001ff00ff0080008000800000ff)] =
  [Some (v16 0xd0c07ea0920d419e7e003f80be12013e); Some (v16 0x8a6ca5b563f368627b2c3fbf2e862a54); Some (v16 0xff82008181fe827f00ffff00ffff82fe); Some (v16 0xffff0001ff017fff00010001000001fe)].
Proof. run. Qed.
Example hw157 : let f := u_sub W128 SSE2 U64 in
  [f (v16 0x001f11c08f81fd7efdbf3f7f7e10f090) (v16 0x0ffe7ebfc00ff0108140c09000f0febf); f (v16 0x560c9d929db7e3ba3acf13934a128c83) (v16 0x900f01567ef8892c8466ba621aad3b10); f (v16 0x80ffff80007f80ff7f0180000180ff80) (v16 0x01010101ff7f808080017f8001010180); f (v16 0x00ffff0100008001ff00000100018000) (v16 0x8000ff01ffff8000ff00000100018000)] =
  [Some (v16 0xf0209300cf720d6e7c7e7eef7d1ff1d1); Some (v16 0xc5fd9c3c1ebf5a8eb66859312f655173); Some (v16 0x7ffefe7e0100007fff000080007ffe00); Some (v16 0x80feffff000100010000000000000000)].
Proof. run. Qed.
Example hw158 : let f := u_add W128 SSE2 I64 in
  [f (v16 0x3f8f802010bf7e7f00118f80ff3fc020) (v16 0x808f0f3f7e10f0f07fc0fe7e814040c0); f (v16 0x416a0af0b0272d682452cab545ec84d6) (v16 0x5eeda1b12d92e496331b6ab10886bce1); f (v16 0x808000017f00018000ff00ffffff8000) (v16 0x00800000808000ff80ff007f7f7f7f00); f (v16 0x800180ff00ff00ff800000ff000080ff) (v16 0xff0100ff8001ff01ff010001ff0100ff)] =
  [Some (v16 0xc01e8f5f8ed06f6f7fd28dff808000e0); Some (v16 0xa057aca1ddba11fe576e35664e7341b7); Some (v16 0x81000001ff80027f81fe017f7f7eff00); Some (v16 0x7f0281fe810100007f010100ff0181fe)].
Proof. run. Qed.
Example hw159 : let f := u_sub W128 SSE2 I64 in
  [f (v16 0x118090110f0ff00202fef090fe012090) (v16 0x8f0fff3f8f801f7e01fd20bf1f801f20); f (v16 0xc5402e8f48eadc35152676129c3c414a) (v16 0x1e747ac7d4388491c8ecc968fbfc4dca); f (v16 0xff7fffff807f80ffff807f00000101ff) (v16 0xff017f00ff01ffff8001ff01ffff017f); f (v16 0xff0000ff0001ff0080ff8001ffffff00) (v16 0x80010000000180ff0000ff0180ffff01)] =
  [Some (v16 0x827090d17f8fd0840101cfd1de810170); Some (v16 0xa6cbb3c774b257a44c39aca9a03ff380); Some (v16 0x007e80fe817d81007f7e7ffe00020080); Some (v16 0x7eff00ff00007e0180fe81007effffff)].
Proof. run. Qed.
Example hw160 : let f := shift W128 Left 8 0 SSE2 in
  [f (v16 0x0f7ef0fe3f8f1fff1120207e40113f02); f (v16 0xd7d202f0982da25cbed9411452f289b2); f (v16 0xffffffff000080ff007f017fff7f0080); f (v16 0xff01ff0180ffffffff01000080ffff01)] =
  [Some (v16 0x0f7ef0fe3f8f1fff1120207e40113f02); Some (v16 0xd7d202f0982da25cbed9411452f289b2); Some (v16 0xffffffff000080ff007f017fff7f0080); Some (v16 0xff01ff0180ffffffff01000080ffff01)].
Proof. run. Qed.
Example hw161 : let f := shift W128 Right 8 0 SSE2 in
  [f (v16 0x111102001f903fff1001fd8ffd7f0280); f (v16 0x5c05c1aa97275d22df64602a5308c0e3); f (v16 0x007f00007f018080ff80ff800000ff7f); f (v16 0x80ff000080ffff010001ffff0001ff01)] =
  [Some (v16 0x111102001f903fff1001fd8ffd7f0280); Some (v16 0x5c05c1aa97275d22df64602a5308c0e3); Some (v16 0x007f00007f018080ff80ff800000ff7f); Some (v16 0x80ff000080ffff010001ffff0001ff01)].
Proof. run. Qed.
Example hw162 : let f := shift W128 Left 8 1 SSE2 in
  [f (v16 0x01fd0f02f01f207eff11ff801f017f10); f (v16 0xfed4fa8d10917d1817243c0b4381b94f); f (v16 0x007f7f00007f008080807fffff007f7f); f (v16 0x00ffff00ffff80ff00018000ff00ff00)] =
  [Some (v16 0x03fa1e05e03e40fcfe23ff003e02fe20); Some (v16 0xfda9f51a2122fa302e4878168703729e); Some (v16 0x00fefe0000fe01000100fffffe00fefe); Some (v16 0x01fffe01ffff01fe00030001fe01fe00)].
Proof. run. Qed.
Example hw163 : let f := shift W128 Right 8 1 SSE2 in
  [f (v16 0x1080001f7ef081107e027e3f90000102); f (v16 0x955a36a1d3e23311f72a4c60b6e6c99c); f (v16 0x7f0000010180ff007f8080ff0180007f); f (v16 0xffff000100ff00010000800100000000)] =
  [Some (v16 0x0840000fbf7840883f013f1fc8000081); Some (v16 0x4aad1b50e9f119887b9526305b7364ce); Some (v16 0x3f80000080c07f803fc0407f80c0003f); Some (v16 0x7fff8000807f80000000400080000000)].
Proof. run. Qed.
Example hw164 : let f := shift W128 Left 8 32 SSE2 in
  [f (v16 0x0f0f2001fe00117f404010bfc00202bf); f (v16 0x1f737c4cc8a053fef270d2ef1b4ff601); f (v16 0x007f8080ff807f01017f7f7fffff7fff); f (v16 0x00018001000180000001ff0180ff8001)] =
  [Some (v16 0xfe00117f00000000c00202bf00000000); Some (v16 0xc8a053fe000000001b4ff60100000000); Some (v16 0xff807f0100000000ffff7fff00000000); Some (v16 0x000180000000000080ff800100000000)].
Proof. run. Qed.
Example hw165 : let f := shift W128 Right 8 32 SSE2 in
  [f (v16 0x407fff0f800f7fc0400f7e10f0013f8f); f (v16 0xb7832bd31843588abbb6cd27070d33a7); f (v16 0x7f80807f7fff00ff807f8080007fff80); f (v16 0x80ff000000ff800100ff00ff80008000)] =
  [Some (v16 0x00000000407fff0f00000000400f7e10); Some (v16 0x00000000b7832bd300000000bbb6cd27); Some (v16 0x000000007f80807f00000000807f8080); Some (v16 0x0000000080ff00000000000000ff00ff)].
Proof. run. Qed.
Example hw166 : let f := shift W128 Left 8 63 SSE2 in
  [f (v16 0x7ef0208f02c00f7e3f01ff40fd209010); f (v16 0xa185bad8667fad4ab8b0c42900f3e1a0); f (v16 0xff0000ff01ff7f807f01017fffffff00); f (v16 0x800100ff000000ffff0080ff800080ff)] =
  [Some (v16 0x00000000000000000000000000000000); Some (v16 0x00000000000000000000000000000000); Some (v16 0x00000000000000000000000000000000); Some (v16 0x80000000000000008000000000000000)].
Proof. run. Qed.
Example hw167 : let f := shift W128 Right 8 63 SSE2 in
  [f (v16 0x7f7e0ffe02fd7efe7f0ffffe40bf1f11); f (v16 0x9508d82f9327dbbd6febbd36da045339); f (v16 0x80ff00807f7f8001ffff01808080ff7f); f (v16 0xffff80ff8001ffff000100ff0001ffff)] =
  [Some (v16 0x00000000000000000000000000000000); Some (v16 0x00000000000000010000000000000000); Some (v16 0x00000000000000010000000000000001); Some (v16 0x00000000000000010000000000000000)].
Proof. run. Qed.
Example hw168 : let f := shift W128 Left 8 64 SSE2 in
  [f (v16 0x8f1020fd8181bf8fbf01813f018f0fff); f (v16 0x403358241a2b625a83b3aa65354ade38); f (v16 0x0001808080ff00ff0180ff0001807f00); f (v16 0x800180ff0001ffff80ff0000ffff8001)] =
  [Some (v16 0x00000000000000000000000000000000); Some (v16 0x00000000000000000000000000000000); Some (v16 0x00000000000000000000000000000000); Some (v16 0x00000000000000000000000000000000)].
Proof. run. Qed.
Example hw169 : let f := shift W128 Right 8 64 SSE2 in
  [f (v16 0x207e0f7f0ff0100200f00f819001013f); f (v16 0xa9f020cd527cfff4ac7924447ae42830); f (v16 0x7f0000007f018080017f000000808000); f (v16 0xff01000080ff000180ff00000000ffff)] =
  [Some (v16 0x00000000000000000000000000000000); Some (v16 0x00000000000000000000000000000000); Some (v16 0x00000000000000000000000000000000); Some (v16 0x00000000000000000000000000000000)].
Proof. run. Qed.
Example hw170 : let f := shift W128 Left 8 65 SSE2 in
  [f (v16 0x11feff01107ffefffdfe7e01ff0f8020); f (v16 0xf30c17a275664d9b84c999808c48f7c5); f (v16 0xff00ff01ff7f000100ffff7f007f7fff); f (v16 0x800100ff00010000ff00000180ff0000)] =
  [Some (v16 0x00000000000000000000000000000000); Some (v16 0x00000000000000000000000000000000); Some (v16 0x00000000000000000000000000000000); Some (v16 0x00000000000000000000000000000000)].
Proof. run. Qed.
Example hw171 : let f := shift W128 Right 8 65 SSE2 in
  [f (v16 0x018fff01fd11bf202011407e80f010fe); f (v16 0x374ec06ce55ae90abefc35efad2f1697); f (v16 0x00ff010101807f7f01ff0001017f00ff); f (v16 0xff00800180ff0001000100ff000080ff)] =
  [Some (v16 0x00000000000000000000000000000000); Some (v16 0x00000000000000000000000000000000); Some (v16 0x00000000000000000000000000000000); Some (v16 0x00000000000000000000000000000000)].
Proof. run. Qed.
Example hw172 : let f := shift W128 Left 8 255 SSE2 in
  [f (v16 0x40fefe00017fff018f3ffd20817ef010); f (v16 0xfbece617ba811808cd81999ac4befc80); f (v16 0xff8001ff01007f7fff7f807fff017fff); f (v16 0x80ffffff8000ff01800080ff00018000)] =
  [Some (v16 0x00000000000000000000000000000000); Some (v16 0x00000000000000000000000000000000); Some (v16 0x00000000000000000000000000000000); Some (v16 0x00000000000000000000000000000000)].
Proof. run. Qed.
Example hw173 : let f := shift W128 Right 8 255 SSE2 in
  [f (v16 0xc00f7f7e7f7efffe0110fdbf007e3f10); f (v16 0xfbd4b83932568ef7e2a7126e308464b2); f (v16 0xffff7f800001007fffff7f807f7f807f); f (v16 0x00018001ffffffff000080ff80008000)] =
  [Some (v16 0x00000000000000000000000000000000); Some (v16 0x00000000000000000000000000000000); Some (v16 0x00000000000000000000000000000000); Some (v16 0x00000000000000000000000000000000)].
Proof. run. Qed.
Example hw174 : let f := zip_lo 8 SSE2 in
  [f (v16 0x027e203f0f20ff01fe0010408ffd108f) (v16 0xf0801101bf10020f804001001020f0ff); f (v16 0xee5c79c885aaa0e8be4548d45b230f12) (v16 0xf9ab06781b92b7f175a1eed4422d4e81); f (v16 0x7f8001000101000100ff7fff80800000) (v16 0x80018001807fffffff0001800000ff80); f (v16 0x00ff8001000080008000ffffff010001) (v16 0xffffff0100ffff008000ffffff010001)] =
  [Some (v16 0x804001001020f0fffe0010408ffd108f); Some (v16 0x75a1eed4422d4e81be4548d45b230f12); Some (v16 0xff0001800000ff8000ff7fff80800000); Some (v16 0x8000ffffff0100018000ffffff010001)].
Proof. run. Qed.
Example hw175 : let f := zip_hi 8 SSE2 in
  [f (v16 0x8f20c07e7efe4090117ff010c08f1f02) (v16 0xbf8fbf811f7e813f02bf403f80018110); f (v16 0xbff4517f7cf10b4d9972bd241c3f35d8) (v16 0x236593d90df6b50c64a2c691b5eccb7d); f (v16 0x7f01007f01ffff0100ff00000001ffff) (v16 0x7f80ff01808000017f807fff807f0180); f (v16 0xff01ffffff0100ff00ffffff800180ff) (v16 0xff01ffffff0100ff80000000ffff80ff)] =
  [Some (v16 0xbf8fbf811f7e813f8f20c07e7efe4090); Some (v16 0x236593d90df6b50cbff4517f7cf10b4d); Some (v16 0x7f80ff01808000017f01007f01ffff01); Some (v16 0xff01ffffff0100ffff01ffffff0100ff)].
Proof. run. Qed.
Example hw176 : let f := u_add W256 AVX2 U64 in
  [f (v32 0x3f8fc0f000207ffd000f403f1fc0208f1f3fff028f7fc03fbffdff11bffe811f) (v32 0x01209020c09081f0401f7e8ff0112040408f0281c081bf4000bff01f103f2020); f (v32 0xe6b71b5ad3998473ff349bcd190225933034562a682cdebb94b0942695be0155) (v32 0x0e90cfcbb88f72ed20ce3d9d8850e8263237136f0b322ed19a1198b0d3b487d0); f (v32 0x7f018001800001017f017f7f01ff7f807fff7f0000007f01000080ff01007fff) (v32 0x01ff017f80807f7f00ff7f0001007f80ff80017fff807f0080ff7f0180018001); f (v32 0x00ffffff80ff0001ff01ff01ff00ffff00ff80ff80ff000100ff8000000080ff) (v32 0x00ffffff80ff0001ff01ff01ff00ffffff0080ff8001000180008000ffff8001)] =
  [Some (v32 0x40b05110c0b101ed402ebecf0fd140cf5fcf018450017f7fc0bdef30d03da13f); Some (v32 0xf547eb268c28f7602002d96aa1530db9626b6999735f0d8c2ec22cd769728925); Some (v32 0x81008181008080808000fe7f02ffff007f7f807fff80fe018100000081020000); Some (v32 0x01ffffff01fe0002fe03fe03fe01fffe000001ff010000028100000100000100)].
Proof. run. Qed.
Example hw177 : let f := u_sub W256 AVX2 U64 in
  [f (v32 0x808f3f0f908f7e0f0fff7e20c0103f0190fd803f01f020c000027ffdfd0f90fd) (v32 0xff0290f0010202100f800202ff801f8f2080817efef0fe108f8f8f000f107e80); f (v32 0x84d241ef2c23822b6a5d0cde8f002b32537c508587f845260345642af6fb86ca) (v32 0xbb9595621174fdd4dfaeb7f066b13a4eafb1fd77ab775de65c63f7bad6d644fd); f (v32 0x7fffff0100ff000100007f8080ff017f7f80807f000001010080ff8001ff807f) (v32 0x00ff007fff007fff80ff7fff8080017f7f80017f017fffff8001017f80ff017f); f (v32 0x800180ff8000ff01000080008001ff01000080000001000180ffffff8001ff00) (v32 0x800180ff8000ff01000080008001ff0180010001ffffffff80ff800180ffff00)] =
  [Some (v32 0x818cae1f8f8d7bff007f7c1dc0901f72707cfec002ff22b07072f0fdedff127d); Some (v32 0xc93cac8d1aae84578aae54ee284ef0e4a3ca530ddc80e740a6e16c70202541cd); Some (v32 0x7f00fe8101fe80027f00ff81007f000000007efffe800102807ffe0081007f00); Some (v32 0x000000000000000000000000000000007fff7ffe0001000200007ffdff020000)].
Proof. run. Qed.
Example hw178 : let f := u_eq W256 AVX2 U64 in
  [f (v32 0x7f018ffefe3f0f0ffd800ff03ffe4020810fc0fff080f01ffd409080f0020211) (v32 0xfe20fffdff818020f00f8f010002f0ff80c0403f7e027ebf3ffdffc01120ff0f); f (v32 0x66a80bf62b9da7508596ae57b281b5dc9e1da2b6425215ed46330f6a0f385304) (v32 0x8c1ac261d334300222adea17698a557edb389ce9a582391bd1c1a4432fd8f9d5); f (v32 0x01808001ff7f0101ff80010180ff000101808001ff0080ff807f0000ff807f7f) (v32 0x00ff00007f0080807f007f80ffff7f7f7fff00ff7f007f7f0000ffff01000080); f (v32 0xff01ff00ffff8001800100ff8001800180ffff00ff008001ff0080ff00ff80ff) (v32 0xff01ff00ffff8001000080ff00ffff0180ff00ff80ffff00ff0080ff00ff80ff)] =
  [Some (v32 0x0000000000000000000000000000000000000000000000000000000000000000); Some (v32 0x0000000000000000000000000000000000000000000000000000000000000000); Some (v32 0x0000000000000000000000000000000000000000000000000000000000000000); Some (v32 0xffffffffffffffff00000000000000000000000000000000ffffffffffffffff)].
Proof. run. Qed.
Example hw179 : let f := u_add W256 AVX2 I64 in
  [f (v32 0xfd0f408190003fff01208ff01ffe20013fbf11fdf0fe407ef0fd7e001ffd408f) (v32 0x01c0ffbf00007e807fbf3f0ffd01f001fd0f7e7f8f0281fe200f8080fdbffefe); f (v32 0xc150cb8ae9f8b21c3e271f5958b0504b9bf2836dbf884aad81027e156f59fc2c) (v32 0xb5944453094ddf96f50029dd36e1d9df7b6668ef4af2f0f6a2fd974cdaad505a); f (v32 0xffff0180ff007fff0100ff01ff00ff8001807f0180ff017f7fff7fff7f80807f) (v32 0xff0180007f80ff7f7f010100ff01ff800101ff808080ff007f01ff807f0101ff); f (v32 0x8000800080ff00ff800000010000ff0000ff0001ffff00ff00000000ff008000) (v32 0x00018001ff0000010000ffff000000ff00ff0001ffff00ff00000000ff008000)] =
  [Some (v32 0xfed040409000be7f80dfcf001d0010023cce907d8000c27c110cfe811dbd3f8d); Some (v32 0x76e50fddf34691b2332749368f922a2a1758ec5d0a7b3ba3240015624a074c86); Some (v32 0xff0081817e817f7e80020002fe02ff0002827e820180007fff017f7ffe81827e); Some (v32 0x800200027fff0100800100000000ffff01fe0003fffe01fe00000001fe010000)].
Proof. run. Qed.
Example hw180 : let f := u_sub W256 AVX2 I64 in
  [f (v32 0x113f100200018180007e1f90fe8180c00f200f10903f0ffdbf90fe0f1f0f90fe) (v32 0x0110fefef01f0281ff11fdc010807f808180fe81bf40017f103f800f80010f02); f (v32 0x31bf794de9c2984f47570026975f7f522e40742c0c6422ad75b439f93cb0e42e) (v32 0x3a5bd30924042c925c0df215b46f5c10b2fc2f28b3eb4be88194a03529e4dae7); f (v32 0x007f0180008001000180ff018000017f007f01017f0180807f7f800101ff0101) (v32 0x018000ff7f7f80ff000080ff01ff007f008080000001800101007f017f7f7f80); f (v32 0x0001ffff80ff000180ffff01800100000000ff00800100ff8001800100008000) (v32 0x0001ffff80ff000100ff80ffffff00ff0000ffff800100018001800100008000)] =
  [Some (v32 0x102e11030fe27eff016c21d0ee0101408d9f108ed0ff0e7eaf517dff9f0e81fc); Some (v32 0xf763a644c5be6bbdeb490e10e2f023427b4445035878d6c5f41f99c412cc0947); Some (v32 0xfeff00808100800101807e027e010100fffe81017f00007f7e7f00ff827f8181); Some (v32 0x000000000000000080007e018001ff01ffffff01000000fe0000000000000000)].
Proof. run. Qed.
Example hw181 : let f := u_eq W256 AVX2 I64 in
  [f (v32 0xc081f080018f903f002040808f8f021190fd8ffe817e0f0f0fff0f40f08002f0) (v32 0xfe901f900f01028f3f1190fffd00022080c00f80fdfdc0f04000fffdc00f8ff0); f (v32 0x48325e29b2c0fc457bfa710519ddd731790f57c1030665982cb3a28e267e44d3) (v32 0xbafa22614b91052423cba06d7f9409efc93e0957a0a7ce14701ae88287ed3548); f (v32 0x017fff010000807f7f000101807f7f007fff80ffff017f807f018080ff7f0080) (v32 0x7f0101ffff008000ff7f00800000ff80ff80807fffff8080ff80007f00ff7fff); f (v32 0xff0180010001800100ff800100ffffff8001800180ffff00ffff000100ff0000) (v32 0xff000001ff01ffff0000000080ff0001800000ffffff8000ffffff00ffff8001)] =
  [Some (v32 0x0000000000000000000000000000000000000000000000000000000000000000); Some (v32 0x0000000000000000000000000000000000000000000000000000000000000000); Some (v32 0x0000000000000000000000000000000000000000000000000000000000000000); Some (v32 0x0000000000000000000000000000000000000000000000000000000000000000)].
Proof. run. Qed.
Example hw182 : let f := u_lt W256 AVX2 I64 in
  [f (v32 0xfe2011fd000f0f4002bf7eff11208ffffe9001110f7e01900202fd7ebf7ff0f0) (v32 0x1f901000810f7fbf0f11807f00ff7eff401ff00002900110107eff801f1020ff); f (v32 0xb7cd7fd003f8f2df6d79b3077cfb446466024c2b73ec67b3c1e00229652eb19d) (v32 0xef5bdef4e799f9605469b3bbc945034aafc12821759bb30ea7ec0ea5dc34339b); f (v32 0x0100007f7fff007fff01007f0080ff7fffff7f01ffffffffff80017fff000100) (v32 0x7f7f00ff008080017f7f7f008000017f0000ffff00ff000080007f01ff7f0100); f (v32 0xff00ff0080010000ff008000000000ff800080ff0001ffff80ff8001ff00ffff) (v32 0xff00ff008001000000ff00ffffffff01800080ff0001ffff00ffffff00008000)] =
  [Some (v32 0xffffffffffffffffffffffffffffffffffffffffffffffffffffffffffffffff); Some (v32 0xffffffffffffffff000000000000000000000000000000000000000000000000); Some (v32 0xffffffffffffffffffffffffffffffffffffffffffffffff0000000000000000); Some (v32 0x0000000000000000ffffffffffffffff0000000000000000ffffffffffffffff)].
Proof. run. Qed.
Example hw183 : let f := shift W256 Left 8 0 AVX2 in
  [f (v32 0x1020fd011f027f107e8fbff0400f01908f8f808ffd403f9040fef0f0408102fd); f (v32 0xba9bb59f51680d499d8d0afe8d551473f5733a2f42307c35b51f4467af0526b0); f (v32 0x01ff0101000100ff7f01800180ffff00017f807f807f00000080ff01ff00ff00); f (v32 0x00ffff000000ff0000ff800000010000ff00000000ff80008000ff0180ff8001)] =
  [Some (v32 0x1020fd011f027f107e8fbff0400f01908f8f808ffd403f9040fef0f0408102fd); Some (v32 0xba9bb59f51680d499d8d0afe8d551473f5733a2f42307c35b51f4467af0526b0); Some (v32 0x01ff0101000100ff7f01800180ffff00017f807f807f00000080ff01ff00ff00); Some (v32 0x00ffff000000ff0000ff800000010000ff00000000ff80008000ff0180ff8001)].
Proof. run. Qed.
Example hw184 : let f := shift W256 Right 8 0 AVX2 in
  [f (v32 0x4040111ffd7f7e007e001f40bf807e8f7f00813f207e3fbf0081017f00017f1f); f (v32 0x92b9f6a667ed1b7d611dfb00a4d40b98bd462c1445655fe999ab243f56e5e2c3); f (v32 0x7f00ff807fff0000807f007fff00807f01ff7f0001ff7f7f000180ff00ff0180); f (v32 0x80ff8000ffff80ff800180ff000080ff0001ff0080ff80ffff00000000010001)] =
  [Some (v32 0x4040111ffd7f7e007e001f40bf807e8f7f00813f207e3fbf0081017f00017f1f); Some (v32 0x92b9f6a667ed1b7d611dfb00a4d40b98bd462c1445655fe999ab243f56e5e2c3); Some (v32 0x7f00ff807fff0000807f007fff00807f01ff7f0001ff7f7f000180ff00ff0180); Some (v32 0x80ff8000ffff80ff800180ff000080ff0001ff0080ff80ffff00000000010001)].
Proof. run. Qed.
Example hw185 : let f := shift W256 Left 8 1 AVX2 in
  [f (v32 0xc002fd8f1f3f1190013fff028f107e800200ff1010fd401f80c00f81403f7e11); f (v32 0x6ae3cb615ca16a93b85417933231fc0f924247198d5c6076f61902a689b5c186); f (v32 0x01017f8000017f00ff800101ff010101008000ff0100ff8001010080007f0080); f (v32 0x8000ffff000080018000000180ffff0000ff00ffff01ffff00ff8001ff0180ff)] =
  [Some (v32 0x8005fb1e3e7e2320027ffe051e20fd000401fe2021fa803e01801f02807efc22); Some (v32 0xd5c796c2b942d52670a82f266463f81e24848e331ab8c0ecec32054d136b830c); Some (v32 0x0202ff000002fe00ff000203fe020202010001fe0201ff000202010000fe0100); Some (v32 0x0001fffe000100020000000301fffe0001fe01fffe03fffe01ff0003fe0301fe)].
Proof. run. Qed.
Example hw186 : let f := shift W256 Right 8 1 AVX2 in
  [f (v32 0x7e90fe101fbf0f0fbf80110120fe00117efe0fc0c08f81109080fe7f1f1f1ffe); f (v32 0xa04987252ccf9e5d72edb8471b2340db14f579e6cc69715e06b330f82c0ffb0b); f (v32 0x007f7f7f010080807f7f7f80ff00ff800100010101807f80ff01007f00ff0080); f (v32 0xffffff0080ff0000800180018001ffffffff80008000ff00ff00000080000000)] =
  [Some (v32 0x3f487f080fdf87875fc00880907f00083f7f07e06047c08848407f3f8f8f8fff); Some (v32 0x5024c3929667cf2e3976dc238d91a06d0a7abcf36634b8af0359987c1607fd85); Some (v32 0x003fbfbf808040403fbfbfc07f807fc00080008080c03fc07f80803f807f8040); Some (v32 0x7fffff80407f80004000c000c000ffff7fffc00040007f807f80000040000000)].
Proof. run. Qed.
Example hw187 : let f := shift W256 Left 8 32 AVX2 in
  [f (v32 0x90ff20201010fdffbf001f207eff20bffebfc08090907ffe908000ff0202fe1f); f (v32 0x20b97b59b6f3bb4906d2f3feea47bcc128b8934729d3e2ce5fba9d42343fb18a); f (v32 0x0180007f7f01017f01ff7fff01807f7f807f01807f8000ff0180ff807f80ff80); f (v32 0x80ff80ff00010000800000ffff01ff0100ff8000ffff00010001ffffff00ff00)] =
  [Some (v32 0x1010fdff000000007eff20bf0000000090907ffe000000000202fe1f00000000); Some (v32 0xb6f3bb4900000000ea47bcc10000000029d3e2ce00000000343fb18a00000000); Some (v32 0x7f01017f0000000001807f7f000000007f8000ff000000007f80ff8000000000); Some (v32 0x0001000000000000ff01ff0100000000ffff000100000000ff00ff0000000000)].
Proof. run. Qed.
Example hw188 : let f := shift W256 Right 8 32 AVX2 in
  [f (v32 0x1f0f02203f403f8080007f901102817ef00f01f0bf0f018011118f81fd90017f); f (v32 0x5ec15f895e1e43783607d27caff90d72059badcb00fc299120187445e43cd2e8); f (v32 0x0001017fff017f007f000100ff00ffff7fff0100010080808080800100017fff); f (v32 0xffff8001ff0180ff00018000ff0000ffff0100ff8000ff0180018001ffff0001)] =
  [Some (v32 0x000000001f0f02200000000080007f9000000000f00f01f00000000011118f81); Some (v32 0x000000005ec15f89000000003607d27c00000000059badcb0000000020187445); Some (v32 0x000000000001017f000000007f000100000000007fff01000000000080808001); Some (v32 0x00000000ffff8001000000000001800000000000ff0100ff0000000080018001)].
Proof. run. Qed.
Example hw189 : let f := shift W256 Left 8 63 AVX2 in
  [f (v32 0xc010bf3f80fdff2090fdf07f0211400f0011110f018111c0f0207efe8110bffd); f (v32 0x4bc4a4aa460ab2784c6ae8a88ab39ac149d79ae1baa5d47dc75f2b65618d3226); f (v32 0x808001ff807f0101007f7f00ff010001ffff017f7fff800100ffffff007f0001); f (v32 0xff01ff00000080008000ff01ff0100010001ff01000100ff00ff8000000080ff)] =
  [Some (v32 0x0000000000000000800000000000000000000000000000008000000000000000); Some (v32 0x0000000000000000800000000000000080000000000000000000000000000000); Some (v32 0x8000000000000000800000000000000080000000000000008000000000000000); Some (v32 0x0000000000000000800000000000000080000000000000008000000000000000)].
Proof. run. Qed.
Example hw190 : let f := shift W256 Right 8 63 AVX2 in
  [f (v32 0x811fc0bf00409001017f8002c07f7e020f018190901fffff8f1102f0f0ff1f01); f (v32 0x4676b481244d004f18357355cc911ab159876aa0e3dd21f5bf212b170f966ccf); f (v32 0xff0101000000807f0101ff00ff7f7fff010101000180ff7f018000017f7f007f); f (v32 0x00ffffff00ff8001000100010001ffff00000000ff0000ffffffff01ff0000ff)] =
  [Some (v32 0x0000000000000001000000000000000000000000000000000000000000000001); Some (v32 0x0000000000000000000000000000000000000000000000000000000000000001); Some (v32 0x0000000000000001000000000000000000000000000000000000000000000000); Some (v32 0x0000000000000000000000000000000000000000000000000000000000000001)].
Proof. run. Qed.
Example hw191 : let f := shift W256 Left 8 64 AVX2 in
  [f (v32 0x3ff0c0408f20fd11fe0f0f90ff81fe11fd0f001111013f7f40fe901020100101); f (v32 0x6729930a0df553ec02ae85f5f0475d24690fd60927b7c1cb9752fe83982b8454); f (v32 0x7f8001ffff007fff01807f7f0080ff010100017fff007f7f8080018001017fff); f (v32 0xff01ff018001ffffff01ffff800100018001800100010000800000008001ff01)] =
  [Some (v32 0x0000000000000000000000000000000000000000000000000000000000000000); Some (v32 0x0000000000000000000000000000000000000000000000000000000000000000); Some (v32 0x0000000000000000000000000000000000000000000000000000000000000000); Some (v32 0x0000000000000000000000000000000000000000000000000000000000000000)].
Proof. run. Qed.
Example hw192 : let f := shift W256 Right 8 64 AVX2 in
  [f (v32 0x7e200102818fc0c03f0f3f1fbf208fc001bf00007ff0fe3fff7e02817e8111bf); f (v32 0xbe724c727b6684e17ed7b4b224183f2cc9c0d11cc505ad8f2a3f5b159dedcc3f); f (v32 0x7fff000000010080007f01ff8080ff7f0000ff0000ff7f807f7fff7f00017f80); f (v32 0x8000000080ff80ff8001ff01000100ff0001ff0180000000ff0000ff80010000)] =
  [Some (v32 0x0000000000000000000000000000000000000000000000000000000000000000); Some (v32 0x0000000000000000000000000000000000000000000000000000000000000000); Some (v32 0x0000000000000000000000000000000000000000000000000000000000000000); Some (v32 0x0000000000000000000000000000000000000000000000000000000000000000)].
Proof. run. Qed.
Example hw193 : let f := shift W256 Left 8 65 AVX2 in
  [f (v32 0x7f8000fdfeffc01001200210c03f2001f07fbf3f2001f07fbf0fff0120102080); f (v32 0x0548fc6c3f30f5011db9e59e38c5b2ee1ab8965b98a9f68ee7d2ab78b9d706e7); f (v32 0xff00800000ffff017f01808080000001ffff8000007fff017fffff00007f00ff); f (v32 0x00ff8001ff01ff0180018000ffff80ffffff8001000100ff80ffff01ff000000)] =
  [Some (v32 0x0000000000000000000000000000000000000000000000000000000000000000); Some (v32 0x0000000000000000000000000000000000000000000000000000000000000000); Some (v32 0x0000000000000000000000000000000000000000000000000000000000000000); Some (v32 0x0000000000000000000000000000000000000000000000000000000000000000)].
Proof. run. Qed.
Example hw194 : let f := shift W256 Right 8 65 AVX2 in
  [f (v32 0x404080119080fe7e00fd0ffe20fe3f817f7fff1080fd7e0100bf1120c000bffd); f (v32 0x9cad739f85ec83f66963dbbdd7b603a50dc1a08df1b1ba23482d09913fddfe58); f (v32 0x0100ffff017fff80017fff80807f0101ffff010101010101ffffff0080ff0001); f (v32 0x0000ffff00ff0001ffff80008001000180ff000080ff00ffffff00010000ff00)] =
  [Some (v32 0x0000000000000000000000000000000000000000000000000000000000000000); Some (v32 0x0000000000000000000000000000000000000000000000000000000000000000); Some (v32 0x0000000000000000000000000000000000000000000000000000000000000000); Some (v32 0x0000000000000000000000000000000000000000000000000000000000000000)].
Proof. run. Qed.
Example hw195 : let f := shift W256 Left 8 255 AVX2 in
  [f (v32 0xfd00c0c090f020bffd01207e0ffd017efffdffff7fbf40000f3f9090018ff000); f (v32 0x47328ff8bfdf10ed84fdfaac6195bc2b94545cf510bf310244f119c4760ae17f); f (v32 0x80007f7f00000080807f7fff00ffff7f7f7f0080017f007fffff7f017f017f80); f (v32 0xff018001000180018001ff01000180ff00ffffff00ff800180ffff0000018001)] =
  [Some (v32 0x0000000000000000000000000000000000000000000000000000000000000000); Some (v32 0x0000000000000000000000000000000000000000000000000000000000000000); Some (v32 0x0000000000000000000000000000000000000000000000000000000000000000); Some (v32 0x0000000000000000000000000000000000000000000000000000000000000000)].
Proof. run. Qed.
Example hw196 : let f := shift W256 Right 8 255 AVX2 in
  [f (v32 0x7f817ff00f40fec00f011f20fffe010011909000908f3ffd02ff8090803fc010); f (v32 0x96f276892d2b69b03a68fab36ce25b9d6f400d841b9639485955104a750326a1); f (v32 0x80007f017f7fff00807f80ff800180ff017f008000ff0080807f000180800080); f (v32 0xff0100ff80010000ffff0001ff00000080010001ff018001ff00ff01ff0000ff)] =
  [Some (v32 0x0000000000000000000000000000000000000000000000000000000000000000); Some (v32 0x0000000000000000000000000000000000000000000000000000000000000000); Some (v32 0x0000000000000000000000000000000000000000000000000000000000000000); Some (v32 0x0000000000000000000000000000000000000000000000000000000000000000)].
Proof. run. Qed.
Example hw197 : let f := zip_lo_x2 8 AVX2 in
  [f (v32 0x20fd1f10203f7f408f7eff8000818f008ffd111f7f017ef0f00f02117e90bf0f) (v32 0x01801f018f1100bf7f00101fbfc0007e7f018fff000190020fc00010c08f207e); f (v32 0x3c43147af06095252009d3f7eaf2f32f9ea38b1a79835e671e8bd35021532bba) (v32 0xc65ab95e818e021dc8e2dec1049809f25da14ce41872172825a7d7a22fa923f7); f (v32 0x7f017f0100807f7fffff01007fff7fff00007fffff000000807f01ff00ff007f) (v32 0x01017f7f8001ff0101ffff007f8000ff00017fff01ff7f80ff018080ff7f7f7f); f (v32 0x80008001ffffff01000180010000ff018001ffffffff800180ff00ff80ff00ff) (v32 0x80008001ffffff01ff01ff00000080ff8001ffffffff800180ff00ff80ff00ff)] =
  [Some (v32 0x7f00101fbfc0007e8f7eff8000818f000fc00010c08f207ef00f02117e90bf0f); Some (v32 0xc8e2dec1049809f22009d3f7eaf2f32f25a7d7a22fa923f71e8bd35021532bba); Some (v32 0x01ffff007f8000ffffff01007fff7fffff018080ff7f7f7f807f01ff00ff007f); Some (v32 0xff01ff00000080ff000180010000ff0180ff00ff80ff00ff80ff00ff80ff00ff)].
Proof. run. Qed.
Example hw198 : let f := zip_hi_x2 8 AVX2 in
  [f (v32 0x00bffd11fdfd017ffe201090fe90907ffec04011fd7f0f81407fff1f80208ff0) (v32 0x20103f3f11fffe10fe0f1180fd40013f8f100f023f208101023f90fdfd7e4010); f (v32 0xe6e8e67fc940f2560283c9a11320b2e8d3b0a9a76620a86e8d331a15f7906789) (v32 0xd02139d446dc99b1d3984a37e19876f3adc6e3ed4bb55e58b7c86a9b17b58c63); f (v32 0x0080807f010001ff0000010100ff00ff01ffff80017f807fff7f80010001017f) (v32 0x017f7f0080ff007f80017f7fff0100800001017f7f7fff807f000080ff017f7f); f (v32 0x00ff80008001ffff0001ff01ffffffff80008000ff00ff01ff0100ffff00ff00) (v32 0xffff00ff80ff00010001ff01ffffffff80008000ff00ff01ff0100ffff00ff00)] =
  [Some (v32 0x20103f3f11fffe1000bffd11fdfd017f8f100f023f208101fec04011fd7f0f81); Some (v32 0xd02139d446dc99b1e6e8e67fc940f256adc6e3ed4bb55e58d3b0a9a76620a86e); Some (v32 0x017f7f0080ff007f0080807f010001ff0001017f7f7fff8001ffff80017f807f); Some (v32 0xffff00ff80ff000100ff80008001ffff80008000ff00ff0180008000ff00ff01)].
Proof. run. Qed.
Example hw199 : let f := v128_and SSE2 in
  [f (v16 0x81bf001f810f01c01f907e0f2040fe7f) (v16 0x1f01108090208140000f4090403f1f7f); f (v16 0xebabdf169c3efe92649fb01f6c918dc6) (v16 0xcedd6a58f9408600314283cc5bdd5097); f (v16 0x7f0000ff007fff007fff00ffff7f7f80) (v16 0x8001018000ff7f00ff807fff01807f01); f (v16 0xff0080ff800180ff8000000080000000) (v16 0x00018001ffffff008000000080000000)] =
  [Some (v16 0x01010000800001400000400000001e7f); Some (v16 0xca894a10980086002002800c48910086); Some (v16 0x00000080007f7f007f8000ff01007f00); Some (v16 0x00008001800180008000000080000000)].
Proof. run. Qed.
Example hw200 : let f := v128_or SSE2 in
  [f (v16 0x81811100fe0100fd81ffffc01f8f1011) (v16 0x1190fd101ffdfe100081403ff07f02fe); f (v16 0xf16e57f3642bbebfab71d788e95954be) (v16 0xdb2a30257a8d34453890daf8f3e0cdfc); f (v16 0x7fffff80ffffff807f7fff7fff80ff00) (v16 0x017f00ffff007f017f01ff7f80800001); f (v16 0x8000ffff0000ff00000100ff00008001) (v16 0x8001ffff00ff8001000100ff00008001)] =
  [Some (v16 0x9191fd10fffdfefd81ffffffffff12ff); Some (v16 0xfb6e77f77eafbeffbbf1dff8fbf9ddfe); Some (v16 0x7fffffffffffff817f7fff7fff80ff01); Some (v16 0x8001ffff00ffff01000100ff00008001)].
Proof. run. Qed.
Example hw201 : let f := v128_xor SSE2 in
  [f (v16 0xfdfe8002903fc0407e02c0fdfe02fff0) (v16 0xbf90f000107e02814040f03f11bf11ff); f (v16 0xbf8d549d2513058b93cc6d7ba1398e7c) (v16 0x105de6381657ad348621b2f6fb9b55b7); f (v16 0x0080ff007f80017f00007f017f017fff) (v16 0x7f7f017f800080800000ffff01807f00); f (v16 0xff01800000ff000180018001ff010001) (v16 0x80ffff0080008000ff00ff01ff018001)] =
  [Some (v16 0x426e70028041c2c13e4230c2efbdee0f); Some (v16 0xafd0b2a53344a8bf15eddf8d5aa2dbcb); Some (v16 0x7ffffe7fff8081ff000080fe7e8100ff); Some (v16 0x7ffe7f0080ff80017f017f0000008000)].
Proof. run. Qed.
Example hw202 : let f := v128_andnot SSE2 in
  [f (v16 0x8f81f0001fff021ffe01c0fdbffdfefe) (v16 0xbfc010fdc0103f20c020403fbfc020fd); f (v16 0xfefaa8c9f50007621fcc342af5088908) (v16 0x3e70a99a03aa290cf1d2f5c58fd2a619); f (v16 0x007f80ff0101ff7fff8000ff80ff00ff) (v16 0x010100ffff008000ff80ff7f01808080); f (v16 0xff00ff01ffff000080ff80ff0001ff01) (v16 0xff00ff01ffff000080ff80ff0001ff01)] =
  [Some (v16 0x0001e0001fef001f3e0180c0003dde02); Some (v16 0xc08a0041f40006620e0c002a70080900); Some (v16 0x007e800000017f7f00000080807f007f); Some (v16 0x00000000000000000000000000000000)].
Proof. run. Qed.
Example hw203 : let f := v128_not SSE2 in
  [f (v16 0x7f000f3fff811ffe20110f7efdfe01fe); f (v16 0xa79c67fd55c0e67cfb04fb01157046df); f (v16 0x7f80007fff008080000100000080017f); f (v16 0xff01ffff8001ff000000000080008000)] =
  [Some (v16 0x80fff0c0007ee001dfeef0810201fe01); Some (v16 0x58639802aa3f198304fb04feea8fb920); Some (v16 0x807fff8000ff7f7ffffeffffff7ffe80); Some (v16 0x00fe00007ffe00ffffffffff7fff7fff)].
Proof. run. Qed.
Example hw204 : let f := v128_bsl SSE2 in
  [f (v16 0x0f20fdc002fe7e8110010fc0ff8f3fc0) (v16 0x81001fc0907fc020fd0290022002fd40) (v16 0x0011bf001011f0ff1f01fdf0bf012080); f (v16 0x3649942712ae50e111a3599b6295611f) (v16 0xed9de120647ed99858211c63084bbd53) (v16 0x97f59d395c2b16e18161c802eb1d6529); f (v16 0x800080017f0101800101ff7fffff0080) (v16 0x017f007f800180007fff01017f7f01ff) (v16 0x008001007f7f01ff01800101ff00007f); f (v16 0x0000ffffff010001000100ff00ff00ff) (v16 0xff00ff00ff00ff01000080ff80008001) (v16 0x80ff8000ffff00ff0001ffff0000ffff)] =
  [Some (v16 0x01111fc0107fc07e1f00f03020023d40); Some (v16 0xa5bd89384c2f56809061980389092533); Some (v16 0x00800101007f007f018101017f7f00ff); Some (v16 0x80ffff00fffe00ff0000ffff0000ff01)].
Proof. run. Qed.
Example hw205 : let f := i16x8_mul_lo SSE2 in
  [f (v16 0x8fff00fe7e0200ff81f01ffdff02ff20) (v16 0x901fbf9080118f800f118f208f118110); f (v16 0x4ea70ca9d57428e5a1a3fb05aa48e895) (v16 0x8cfcff688c1787ae5106b9c2d8f908e8); f (v16 0x0100ff010001007f7fff008080000180) (v16 0x017f7f7fff80ff7f007fff0180ffff80); f (v16 0x0000ffffffff000000ffff00ffff8000) (v16 0x0000ffffffff00008000ff0100ffff00)] =
  [Some (v16 0xdfe110e05e22f080b0f052a00d221200); Some (v16 0xc0647ba89d6c8ea65cd2d6ca60086f08); Some (v16 0x7f00007fff80c0017f81808080004000); Some (v16 0x00000001000100008000ff00ff010000)].
Proof. run. Qed.
Example hw206 : let f := i32x4_mul_lo SSE41 in
  [f (v16 0xff11fe7efe400281007e0f400111bf40) (v16 0x0140803f80f03f900ffe118020c0fe8f); f (v16 0x99944f12ef4f07ddf4dac2f3a770839b) (v16 0x2a53faa459a0ebf42203acb4cbf0084b); f (v16 0x807fff7f0100807f8001017f7f018080) (v16 0x7f0100000001ff018000800101010001); f (v16 0x80018001800000ffffff000180ff00ff) (v16 0x80018001800000ffffff000180ff00ff)] =
  [Some (v16 0xe22ca1029d8f27907f8ae000a4ab54c0); Some (v16 0xcf103b8862ab5da4b3a556dcdc636669); Some (v16 0x007f0000017e017f80c0817f7f818080); Some (v16 0x400300010000fe01fffe0001fc02fe01)].
Proof. run. Qed.
Example hw207 : let f := u16x8_mul_hi SSE2 in
  [f (v16 0x10101181f0bf80111fc0ff8f907ff03f) (v16 0x81401fff02107ef0ff7e027f7ef01f8f); f (v16 0x974fd376aa74e4dc3b0e7f407d1bff4e) (v16 0x45fe9b8ac8ff57cc3e639d76e85b3bfb); f (v16 0x00017f7f017f017f7f8000007f010100) (v16 0x7f010000ffff8000ff7fff010001ff01); f (v16 0xffffff0180ffffffff00800080018001) (v16 0xff01ff0000008001ff00800080018001)] =
  [Some (v16 0x081c023001f03f801faf027d47a51d9d); Some (v16 0x295e807a85d44e7d0e644e44718c3bd1); Some (v16 0x00000000017e00bf7f3f0000000000ff); Some (v16 0xff00fe0100008000fe01400040014001)].
Proof. run. Qed.
Example hw208 : let f := i16x8_mul_hi SSE2 in
  [f (v16 0x7e3fc000fec002bf7e02ffff01fdbf11) (v16 0x814020fe3ff081c07f8080008f8fc08f); f (v16 0x9104848034465b2d0af856c5b2f5c21b) (v16 0xe52d04cfa8938f7fd53c83ba58b1f32d); f (v16 0x800000017f0100808000ffff017fff01) (v16 0x7fff7f01ff00807f00807f00ff010100); f (v16 0xff0180ff000080ffff00ff000001ff00) (v16 0x0001000100018001ff00ff000001ff00)] =
  [Some (v16 0xc17ef7c0ffb0fea53ec10000ff201017); Some (v16 0x0ba1fdaeee25d7eefe2ad5e0e54e0319); Some (v16 0xc0000000ff80ffc0ffc0fffffffeffff); Some (v16 0xffffffff00003f800001000100000001)].
Proof. run. Qed.
Example hw209 : let f := i16x8_maddubs SSSE3 in
  [f (v16 0x8f02fdbf00901fbffec01f7f0f0040f0) (v16 0xbff0808fbffd0290ff008f7e107effc0); f (v16 0x69b419fe59b7d1d3c23e6ed4262d8ace) (v16 0x7f663f6d7c3ac57ab8b74d82b174ae6c); f (v16 0x7f0001ff00ff007f7f80807f017f8000) (v16 0x0101800101ffff7f80ff80007f7f7f00); f (v16 0x00ff8000ff01ff0100008000ff01ffff) (v16 0x8001ff0100ffff0100008000ff01ffff)] =
  [Some (v16 0xdb918000fe50acaeff0230d300f0c3c0); Some (v16 0x7bcf724d54923463b7c2b8be08aa2ab4); Some (v16 0x007f007fff013f01c000c0003f803f80); Some (v16 0x00ffff80ffffff020000c000ff02fe02)].
Proof. run. Qed.
Example hw210 : let f := i16x8_madd SSE2 in
  [f (v16 0x10fd008f10bf11814090907e1102fd7e) (v16 0x0200c001bf1140207ebffd0f1f812080); f (v16 0x553dd0c1779544f6bf96c6871ff1125e) (v16 0x29489c154d51cc6e0d9fd5e56fd2d0e7); f (v16 0x00017fff80007f8001ff800001ff017f) (v16 0x00017f7fff7f018000ff000101018000); f (v16 0x0001800180ff0000ff0080ff80008001) (v16 0x0001800180ff0000800080ff00ffff00)] =
  [Some (v16 0xfffe3a8f00230dcf213f08d201c64f02); Some (v16 0x202f79fd163950d9060685ed0a92a584); Some (v16 0x3fbf008200ffc00000017d01ff4280ff); Some (v16 0x3fff00023f01fe013f81fe0100007f00)].
Proof. run. Qed.
Example hw211 : let f := u8x16_avgr SSE2 in
  [f (v16 0xbf11020fc0010180ff7e10c0020f1090) (v16 0x7f90bf10f0c0117f7f01c00081ffff1f); f (v16 0xb3da2784370678123797a709b36806f4) (v16 0x75ccae365181016155e3a5de709b27c3); f (v16 0x80007f01807f80010001ff7fff007fff) (v16 0x80ff007f807fff7f7fff7f0180800080); f (v16 0x800080ffff0100ff00018001ff00ff00) (v16 0x00018001ff0100ffff0080ff00010000)] =
  [Some (v16 0x9f516110d8610980bf40686042878858); Some (v16 0x94d36b5d44443d3a46bda674928217dc); Some (v16 0x80804040807fc0404080bf40c04040c0); Some (v16 0x40018080ff0100ff8001808080018000)].
Proof. run. Qed.
Example hw212 : let f := i16x8_packus SSE2 in
  [f (v16 0x3f0f802040fec0fffd90c020900f013f) (v16 0xc020bf40c0f0f0801f8f401f011101f0); f (v16 0xbff0ff35657df89c777888992709ebc1) (v16 0x2a10389592314ffeaa328515ca639a28); f (v16 0x7f80ff007f7f80808080ff00ff01807f) (v16 0x7f7fff7f01ff807f807f017f80000080); f (v16 0x000180ffffff000180ffff01ffff0001) (v16 0x000180ffffff0001ffff0000ff01ff00)] =
  [Some (v16 0x00000000ffffffffff00ff00000000ff); Some (v16 0xffff00ff000000000000ff00ff00ff00); Some (v16 0xff00ff0000ff0080ff00ff0000000000); Some (v16 0x01000001000000000100000100000001)].
Proof. run. Qed.
Example hw213 : let f := u8x16_swizzle SSSE3 in
  [f (v16 0xc011203f7e10c0f07f8010fe901fbffe) (v16 0x02bf2020fdfe9020febf810f80bff07f); f (v16 0xc69e71127770f8909abe1ed6c148a242) (v16 0x6f266520957467c9cf2e4aa9c253c911); f (v16 0xff01017f7f7fff00ff0080807f80ff01) (v16 0x80018080ff80000080010101007f007f); f (v16 0x000180008000000180ff000180ff0001) (v16 0x000180008000000180ffff0080008001)] =
  [Some (v16 0x1f00fefe000000fe000000c0000000c0); Some (v16 0xc6be1e4200d69a00009e700000c100a2); Some (v16 0x00ff00000000010100ffffff01ff01ff); Some (v16 0x01000001000101000000000100010000)].
Proof. run. Qed.
Example hw214 : let f := u8x16_blendv SSE41 in
  [f (v16 0xff40fd0211c0017ff020f03f02817efd) (v16 0xfd0f3ffd800f80907eff8ffd1040117f) (v16 0x20bf908101813f1f11fe0ffd1010fffe); f (v16 0xdb2ee03a142fd4a7f9ce83ec8d574eaf) (v16 0x9aeae4a5edbe25d8bcb6757687019db5) (v16 0x979588a59c2a6f2e9da19f29e8f72344); f (v16 0x7f80ff7f000000807f01017f007f7f7f) (v16 0x00808000007f7f00ffff7f0000ff01ff) (v16 0xff00000000800001ff8000807fff8000); f (v16 0x0001ff00000180ff000100ff80ff8000) (v16 0x0001ff0000ffffff000100ff80ff8000) (v16 0x80018000000180ffff01ffff80010001)] =
  [Some (v16 0xff0f3ffd110f017ff0fff0fd0281117f); Some (v16 0x9aeae4a5ed2fd4a7bcb675ec87014eaf); Some (v16 0x0080ff7f007f0080ffff010000ff017f); Some (v16 0x0001ff000001ffff000100ff80ff8000)].
Proof. run. Qed.
Example hw215 : let f := u16x8_blend SSE41 51 in
  [f (v16 0xbf021f0201900f80fffe201100f080bf) (v16 0x800ffd7e3ff08f8f7f907e80bf903f81); f (v16 0x241827fcadd6fc891b4a5027afd8fd5f) (v16 0xff5e2936684d833b6fad626cf179d7f4); f (v16 0x80ff0000807f7f7f8000017f8080ffff) (v16 0x7fff807f00ff80ff00ffff0080000080); f (v16 0x0000ffff800080ff8001800100ff0001) (v16 0x8000ffffff00ffff8001800100ff0001)] =
  [Some (v16 0xbf021f023ff08f8ffffe2011bf903f81); Some (v16 0x241827fc684d833b1b4a5027f179d7f4); Some (v16 0x80ff000000ff80ff8000017f80000080); Some (v16 0x0000ffffff00ffff8001800100ff0001)].
Proof. run. Qed.
Example hw216 : let f := u16x8_blend SSE41 85 in
  [f (v16 0x7e20200111819020f0fe7ebf8f8111fd) (v16 0x207ec0018fbf7fc0108120c08f0f1102); f (v16 0x44d9f58fe0362e0af984f1ca8ecd059a) (v16 0x54a31163ec797cbb44ea07c8715c7b11); f (v16 0x7f807f807f007f000100807f7f800101) (v16 0x01808001ff0180ff7fff7fff010101ff); f (v16 0x000180000001800000ffff01ff000000) (v16 0x000180000001800000ffff01ff000000)] =
  [Some (v16 0x7e20c00111817fc0f0fe20c08f811102); Some (v16 0x44d91163e0367cbbf98407c88ecd7b11); Some (v16 0x7f8080017f0080ff01007fff7f8001ff); Some (v16 0x000180000001800000ffff01ff000000)].
Proof. run. Qed.
Example hw217 : let f := u16x8_blend SSE41 170 in
  [f (v16 0x3f1f111f90c0111f11fd80117f7ff002) (v16 0xfe7f8f008f0f0fc0003f0210007fbfc0); f (v16 0xd2194235fca19bfaebd96da832f9f642) (v16 0xa0acad1c3db41e0cf0379b3046deaaf3); f (v16 0x000100017f007f008000017f7fff01ff) (v16 0xff0080007f007f00007f8000017f7f00); f (v16 0x0001ff01000100ff8001000000010001) (v16 0x0001ff01000100ffffffff00ff010001)] =
  [Some (v16 0xfe7f111f8f0f111f003f8011007ff002); Some (v16 0xa0ac42353db49bfaf0376da846def642); Some (v16 0xff0000017f007f00007f017f017f01ff); Some (v16 0x0001ff01000100ffffff0000ff010001)].
Proof. run. Qed.
Example hw218 : let f := u16x8_blend SSE41 129 in
  [f (v16 0x81fe81117e3fbfbfc0ffbf107ebf3f90) (v16 0x8102f002bffffd80021102c01f10f01f); f (v16 0xf02d3afc4054b5b3ab0f32a984354451) (v16 0x15a59b4f9df1618d501803766bf71fda); f (v16 0xffffff0000017f7f80018000807f7fff) (v16 0x01ffff7fff8001010100000100007f01); f (v16 0xffff0000ffff800000ff000100ff8000) (v16 0xffff0000ffff800080010001800000ff)] =
  [Some (v16 0x810281117e3fbfbfc0ffbf107ebff01f); Some (v16 0x15a53afc4054b5b3ab0f32a984351fda); Some (v16 0x01ffff0000017f7f80018000807f7f01); Some (v16 0xffff0000ffff800000ff000100ff00ff)].
Proof. run. Qed.
Example hw219 : let f := u8x16_bitmask SSE2 in
  [f (v16 0xf07ffe02407f1f907f117e81817fff40); f (v16 0xd14f39cbe11c7e78723c01ec422867c4); f (v16 0x00ff7f0001ff80ffffff8080017f8080); f (v16 0x80ff00000000ff0100ffff01000080ff)] =
  [Some 41242; Some 38929; Some 18419; Some 49763].
Proof. run. Qed.
Example hw220 : let f := v128_all_zero SSE41 in
  [f (v16 0x01000000000000000000000000000000); f (v16 0x68afa55e06a57753ed9478dba36e0933); f (v16 0x800101017f008000007f7f0101800000); f (v16 0x00000000000000000000000000000000)] =
  [Some false; Some false; Some false; Some true].
Proof. run. Qed.
Example hw221 : let f := u8x16_any_zero SSE2 in
  [f (v16 0x01000000000000000000000000000000); f (v16 0x564ef79f0a9409ace0680c15c00b0600); f (v16 0x80ff7f807fff7f01008080807fffffff); f (v16 0x00000000000000000000000000000000)] =
  [Some true; Some true; Some true; Some true].
Proof. run. Qed.
Example hw222 : let f := v256_and AVX2 in
  [f (v32 0x7fff0ffd8ffd80f000c01f1180113f0202203f908ffd1f00fe20101fff027e3f) (v32 0x818fc0f0909080ffc0ff0f4001ff0281c08f02fdbfbf1f10011f7f7e8110f010); f (v32 0x7c5be50e71b9a4ff6d45ec0334c1eb8750e5f48a8acc0b028e3f2b08d7d1ecd5) (v32 0x4d72b702f413510efac2c89bb5cbaa0c5a46736057d840139507e1b7d3a9d371); f (v32 0x7fff0101ff010000807f80807f80807f008080ff7f017f0080018000ff7f00ff) (v32 0xff7fff01ff80007f01ff00ff8000800180ffff007fff007f7f7f808080007f01); f (v32 0x80008001ff0180010000ff01800180ff80ff80ffff01ff0180ff00ff00ff0001) (v32 0x800080ff80ffffff000180ff00000000000180008000ff01000000ff800180ff)] =
  [Some (v32 0x018f00f0809080f000c00f0000110200000002908fbd1f000000101e81007010); Some (v32 0x4c52a5027011000e6840c80334c1aa045044700002c8000284072100d381c051); Some (v32 0x7f7f0101ff000000007f008000008001008080007f0100000001800080000001); Some (v32 0x80008001800180010000800100000000000180008000ff01000000ff00010001)].
Proof. run. Qed.
Example hw223 : let f := v256_or AVX2 in
  [f (v32 0xff0202f000801f403f40f0c01181fe3fbf904000ff020fc0f0fffd20fd408020) (v32 0x20f020007ebff0f08000fec0ff00febf81c0118fc0bf11ffc00f7f02ff8f1000); f (v32 0x91ed78bdefdce7f834810d1133937c09207bde83d2cf2a7a31c8880d2727163d) (v32 0xc16f0126faed9b8c56b42be28f087e32a6b697e867eb363880529154482a5865); f (v32 0x0180000001010001010001007f807f017f01807f00800100ff807f01807f017f) (v32 0x01017f00807fff0180ff7f7f7f8001ff808080ff00010080008000ffffffff01); f (v32 0x0000ff00ffff8000000080ff8001ffff000180ff800080000001800080ff80ff) (v32 0x0000ff00ffff800080ffff0180008000000180ff80008000ffff80000001ffff)] =
  [Some (v32 0xfff222f07ebffff0bf40fec0ff81febfbfd0518fffbf1ffff0ffff22ffcf9020); Some (v32 0xd1ef79bffffdfffc76b52ff3bf9b7e3ba6ffdfebf7ef3e7ab1da995d6f2f5e7d); Some (v32 0x01817f00817fff0181ff7f7f7f807fffff8180ff00810180ff807fffffffff7f); Some (v32 0x0000ff00ffff800080ffffff8001ffff000180ff80008000ffff800080ffffff)].
Proof. run. Qed.
Example hw224 : let f := v256_xor AVX2 in
  [f (v32 0x7e2002c03ffe107efe11fe40c0ff907ffe40c0c0c0901ffe81207f1f7e3f1090) (v32 0xc0c07e0211c0020f10203fffff4000bf023fc0fdbfff3f81f01100bf3fc0017f); f (v32 0x69bea907f12f3503ec59648aad4b0a6844d0d06f0886c1e28f969c79cdde04b5) (v32 0x87f042f4af8fb3dfa88125c198503bf25cd5f1cbb4037955d486028214b49d2c); f (v32 0xff0080ffff8080008080ff01018000007fff017f01808001ffff7f007f000101) (v32 0x80000180ff808080000000800000007f8080807f80000101800001ff7f01ff00); f (v32 0x8001ff00ffff000000ffffff0001ff01800180ffffff00ff000100ff00ffffff) (v32 0x8001ff00ffff000000ffffffff01ffff8001800080010001000100ff00ffffff)] =
  [Some (v32 0xbee07cc22e3e1271ee31c1bf3fbf90c0fc7f003d7f6f207f71317fa041ff11ef); Some (v32 0xee4eebf35ea086dc44d8414b351b319a180521a4bc85b8b75b109efbd96a9999); Some (v32 0x7f00817f000000808080ff810180007fff7f8100818081007fff7eff0001fe01); Some (v32 0x000000000000000000000000ff0000fe000000ff7ffe00fe0000000000000000)].
Proof. run. Qed.
Example hw225 : let f := v256_andnot AVX2 in
  [f (v32 0x11fef00140ff90017ef0027f900f103ff002fe7e021f7f0f7e80908f20f0ff00) (v32 0xfec01f3f8090c07e802090807f807ff0f00f20801f8f1040c0c02000c07e8140); f (v32 0x16f0641d70d59cba8126b59361cbde6c42aed45beeb7af11f005b8e09411e1d1) (v32 0x5ba130932c8ee9fef2631d02f7e60123e2e1e74a2eb9bd2d66d0def958ff11e8); f (v32 0x7f80ffff7f7f7f80808000007f007f7fffffff80ff007f807f80ff7fff80807f) (v32 0x000080000101007f8080000001007f7f7fff0180000080008001000101ff7f00); f (v32 0x80ff00008000ff010001ffff800100008000ff01ff0000000000ffff0000ff00) (v32 0x800000ff800180000001ffff80010000ff00ff0080ffff00ff00ff0180ffff00)] =
  [Some (v32 0x013ee000406f10017ed0027f800f000f0000de7e00106f0f3e00908f20807e00); Some (v32 0x0450440c505114000104a0910009de4c000e1011c0060210900520008400e011); Some (v32 0x7f807fff7e7e7f80000000007e0000008000fe00ff007f807f80ff7efe00807f); Some (v32 0x00ff000000007f010000000000000000000000017f000000000000fe00000000)].
Proof. run. Qed.
Example hw226 : let f := v256_not AVX2 in
  [f (v32 0xc04080028ffd3fbf8f8fbf20fd0f0100bf0190113ffec07ffd20c0108f3f11fe); f (v32 0x2b93398167e86a48b795813384da626bd2e1dcf34d28075d20d73564e289c95d); f (v32 0x000001ff807f01ff80ff01807f007f8080807f80008000ffffffffff807f00ff); f (v32 0x00ff80ff00ff00ffff0180ff00ffff00ffff80ffffff00010000ff018001ffff)] =
  [Some (v32 0x3fbf7ffd7002c040707040df02f0feff40fe6feec0013f8002df3fef70c0ee01); Some (v32 0xd46cc67e981795b7486a7ecc7b259d942d1e230cb2d7f8a2df28ca9b1d7636a2); Some (v32 0xfffffe007f80fe007f00fe7f80ff807f7f7f807fff7fff00000000007f80ff00); Some (v32 0xff007f00ff00ff0000fe7f00ff0000ff00007f000000fffeffff00fe7ffe0000)].
Proof. run. Qed.
Example hw227 : let f := v256_bsl AVX2 in
  [f (v32 0xf03f7f0002110290209020119000c02002907e02103f00017ef001fd2001fd01) (v32 0x10bf11fd02c08f8f00fe800f407e1f7f7e90fd7f108120c0bf8f11bf1f7e10c0) (v32 0x1080bf0f010f02f0bfbf0190fd108f40003f01bf0201c001fd8102fe114090fd); f (v32 0xaa5c6ce13482aa7c7e0afd949048d6d48b09473311ebe0b5cd10f8935ee0415a) (v32 0x24cfaf8b13f2d1395801d45057c368977a2a2ff4c566a0be37addafb2019f39c) (v32 0xa36d8942374f460e9a748a19258a1552a8ae84cf5cd0600d5b026a79b5589c1e); f (v32 0xff80010080ffff01000100000101ff800100800101ff807f000101018080ff7f) (v32 0x7fff7f00ffffff00008001808001ff0000ff0001017f01ff01808080017f0000) (v32 0x7fff80ff01017fff01010001ff007f800080007f80018080ff808000017f0001); f (v32 0x80ff800080ff000180ff800180ffff010001ff01000100ff00ff800080ff8001) (v32 0x80ff0000ff00800180ff800180ffff01ffff00ffff0180ff0000ff00800100ff) (v32 0x000100000001ff01ff008000000180ff8000ff00ff01800080ff00ffff000000)] =
  [Some (v32 0x10bf910f030e02e09fbf01816d100f6002bf7dbf1201c000bf8103bf114010fc); Some (v32 0x216dad8313cfc43ad874d61935c241962aae87fc4d72a0bc1702dafba118dd1c); Some (v32 0x7fff81ff81fffffe01000001fe01ff000080007f817f00ffff808000017f0000); Some (v32 0x80ff00008000ff01ffff800180ffffff80010001ff0180ff800080ffff010001)].
Proof. run. Qed.
Example hw228 : let f := i16x16_mul_lo AVX2 in
  [f (v32 0xfef08ff0810f7f7e0ffffd013f81107e8f201f1fff40107eff0f8f7ff011027f) (v32 0x8110fd1f0280201f7f0111017eff810f8f0f01fe0f100f20801180bf7f90bf00); f (v32 0xcb24565929b2693bdd32539a8c4ff6ed035bbdbcf182e7bd3ff62303d4e1062f) (v32 0x7bdce87108f35b8fa229ac228fac82edd1750998ecf26265901fc5709cb21c38); f (v32 0x7f7fff0180807fff7fff7fff00807f8080807f8000018001ff7f7f0000ffffff) (v32 0xff0180ff0101ffff7f0000ff7f7f8080008080808080ff007fff807f807fff80); f (v32 0xff01ff00ff01ff000000000000ff000100ffffff00ff8001ffff80ffffffffff) (v32 0x00ff80010000ff01ffff8001000100ff00ffffff00ff8001ffff80ffffffffff)] =
  [Some (v32 0xdf009e10a580304290ff0e01bf7f756242e0ffc2b40071c06fff8fc17890c100); Some (v32 0xdef0c54923f6c0f5110292746614f369d39743a024e4c7911ecaa05020727e48); Some (v32 0x007f81ff0080800181007f01bf80c0004000c0008080ff0080810100fe810080); Some (v32 0x01ffff000000ff000000000000ff00fffe010001fe0100010001fe0100010001)].
Proof. run. Qed.
Example hw229 : let f := i32x8_mul_lo AVX2 in
  [f (v32 0x8f408120101f0180c03f7f007e003f818ffe900fbf012010100f7f90200f4010) (v32 0x008000100f024001fe800f7f02ff3f90fe00fd1100f011408fbf7fc0f0908f1f); f (v32 0x9de497d5c9dd243f5d999e4c251f76ec92dc4e7b897d8e3584ffd43b9ce2d316) (v32 0xf9552310abd06930ca9f15468485a314015965e8de8eb5e02f7f6b744e2ad633); f (v32 0xff007f00807f01ff7fff8000ff007f7f017f017f8000ff01ff017f007fff01ff) (v32 0x7f0100ff000001ffff7f80ffff007f7f007f0001ff01010080ff80ff7f807f00); f (v32 0xffffff0100010000ff000001ffffff00ff0180ffff0100010000000080ffffff) (v32 0x800100ffff0000ffff000001ffffff00ff0180ffff0100010000000080ffffff)] =
  [Some (v32 0x84081200537f018097f1010033437790064663ffe269140058581c006fa1b1f0); Some (v32 0xb5c49c501584a2d07b3184c867c98e70c660a678eacde7604fe5d3bc33407162); Some (v32 0x807e81007d84fc01bf808000417f4101bf80017fff00010042fd8100027d8100); Some (v32 0x7f0001ff00ff0000fe0000010001000044fdfe01fe02000100000000fe000001)].
Proof. run. Qed.
Example hw230 : let f := u16x16_mul_hi AVX2 in
  [f (v32 0xf020ffc0803fffc0011f9020fd90f002901080013ffe201020bf02027e1fbf0f) (v32 0x20fdff40ff818f3f7f90bf7e02fe118001c00f01ff7f00402011ff40ff7ffd80); f (v32 0x362436bb98d26e9ec9875f3363a29011c0bd85f62aa083d2bbadf46b8d792c35) (v32 0x988fdcd14bf4fdb12dadff2e55ec74bb7517adb3133d2dbd153b822ffb36235a); f (v32 0x7fff017f807f807fffffff017fffff000101ff017fff00ffffffff7f0180ff00) (v32 0x0000807f007f807f7fffff7f800100807f7f000001800080808001ff800101ff); f (v32 0x800180ffff018000800100ff000100ff0001ffff00ff00ff8000ff018001ff01) (v32 0x80ff000100ff8000800100ff000100ff0001ffff00ff00ff8000ff0080018001)] =
  [Some (v32 0x1ef1ff007fff8f1b008f6bce02f6106800fc07803fdd0008041a02007ddfbd31); Some (v32 0x20432f352d576d9e23f45ee4217041b058275ae40334178d0f907c4b8ad3061a); Some (v32 0x000000c0003f407f7ffefe803fff007f007f000000bf0000807f01fd00c001fd); Some (v32 0x4080000000fe400040010000000000000000fffe000000004000fe0140017f81)].
Proof. run. Qed.
Example hw231 : let f := i16x16_mul_hi AVX2 in
  [f (v32 0x10903ff0808002bf8ffd8f7f908f113f001f81401000fd8fff0ff081f010bfff) (v32 0x010f111f0ffe208f7f3ffd3fc090111f0ffe02c0c01120c03f201f8000f0fd80); f (v32 0x3c66b436e9da9870965c824ea864438f881a4b6b0b7f5565c31e19332bb2cd3e) (v32 0x701d4ece4917653e97f3be54c4bf68e5d486e41389181cbd8d1b24f8d0a8f6de); f (v32 0x017fff807f80017f7fff0101807f010080ff0101807fffff007fff7fffff007f) (v32 0x018080800080018000ff8001ff7f80807f00ff7f807f7f800100017fff7fffff); f (v32 0x0000ffff80000001ff000000ff000001ffff80ff800000ff000080018000ffff) (v32 0x80ff80ffffff8001ff018000800180010000ff0080ff0001000080018000ffff)] =
  [Some (v32 0x00110446f8080059c85201351b9d01270001fea3fc01ffb0ffc4fe17fff100a0); Some (v32 0x1a73e8abf9add70b2aef203e14471bae145cf7c5faa909961b5303a3f7eb01cf); Some (v32 0x0002003f003f0002007fff7f0040ff80c0feffff3f81ffff0000ffff0000ffff); Some (v32 0x000000000000ffff00000000007fffff0000007f3f80000000003fff40000000)].
Proof. run. Qed.
Example hw232 : let f := i16x16_maddubs AVX2 in
  [f (v32 0xfe3f7e000ffd407ff01ffe3f8001907f900f113fff0f118f113f407e9081fdbf) (v32 0xff7e3fc000fd101f0f0211bf203ffd0110bf11c00f02028040808f1f01f07e8f); f (v32 0x079b14545ddfb24dd519791f4c97af7a90fdcc4170b50c57aba3daa77a8baa37) (v32 0xc57aea97f267ed5d2777a5f860a9298a07bd882fcda395d60616b84ef67303de); f (v32 0x017fffff8000800000ffff01ff7f01ff7f00ff0100010001017f7f0001007f01) (v32 0xffff8001ffff0080ff80018000ff00807f7f808001800180807f80ff00807f7f); f (v32 0xff01ff0000ffff00ff01ff018000ff00ff01ff0100010001ff00ff0180ffff00) (v32 0xff01ff0000ffff00ff01ff018000ff00ff01ff0100010001ff00ff0180ffff00)] =
  [Some (v32 0x1e041f02fd0913610e4e00df103ffecf0531f1610f0fb8a2e4c0f302f8802837); Some (v32 0x4841dbd454a30ec32c12d405e92fe3cbc1b9ac4fa7efecb61204f59239adfab0); Some (v32 0xff80817fff8000008080007fff8180803f018000ff80ff803e81c08000003f80); Some (v32 0xff02ff01ff01ff01ff02ff02c000ff01ff02ff0200010001ff01ff02bf01ff01)].
Proof. run. Qed.
Example hw233 : let f := i16x16_madd AVX2 in
  [f (v32 0x02fd40fe900281107e80817e8110022020ffffbf907eff3f11c0023f903fc011) (v32 0xf07e103ff001018fc040c01102200f7e90017e10109011bf207f000202808fbf); f (v32 0x810dc505ce3ae8b1aeea54126d5fc3b5d4521f97a18ded1238d6a0f154244db9) (v32 0xae08c2614059f611abf038e60a9cbfaf8c8fa71585a154f2ae60593d25f531d9); f (v32 0x01018000800001ff7f7f807f80ff807f7fff7f0100ffff7fff80ff00808080ff) (v32 0x7f01ffff8080007fff01ff8080808000ff7f7f80ff80ff7f008000ff80800180); f (v32 0x00010001ff010001ffffff008000ff000000ff00ffffff0080ff00ff0001ff00) (v32 0x00010001ff010001ffffff008000ff000000ff00ffffff008000ff00ff010000)] =
  [Some (v32 0x03f18708063997f20017b95eff132dc0f1708eeff8bbc5e10240d2be1af1692f); Some (v32 0x36d84f4df464bbeb2d4fc18c13ae2f9f08b98a3126ddddb1ccbde6ad1b9c0545); Some (v32 0x008000013fc0fd81ffc0c0ff7f017f803f008001ffffc181fffec1003ec1be80); Some (v32 0x000000020000fe02000100014001000000010000000100013f7f8100ffffff01)].
Proof. run. Qed.
Example hw234 : let f := u8x32_avgr AVX2 in
  [f (v32 0x00fe027f8fff818f900ffefe8f20f010ff40fe7f028ffdfefdbf3ffe117f3f0f) (v32 0x117effc08081028fc0fdfd10fe11813f00fdfd3f1f01ff40f01ffe7f407f807e); f (v32 0x456fbb315db03c092ab34bac894452012efd631ad47044de6a88e7e97080ecc8) (v32 0x559e1278098321bc6f3eeaf708931806917e30f5cc16fbc6aa27d7eb1200c5de); f (v32 0xff01ff007f7f80018001ff01800100000001ffff017f010000ff80010180017f) (v32 0x8001017fff000100ff7f018000010101010000007f7f007f800180ff7fff8080); f (v32 0xff00000100ff000080ffff0180000001000100ffff000001ff018000ffffff00) (v32 0xff00000100ff000080ffff0180000001ffffffffffffff0180ff000100018000)] =
  [Some (v32 0x09be81a088c0428fa886fe87c719b928809ffe5f1148fe9ff76f9fbf297f6047); Some (v32 0x4d876755339a2f634d799bd2496c350460be4a88d043a0d28a58dfea4140d9d3); Some (v32 0xc0018040bf404101c04080414001010101018080407f01404080808040c04180); Some (v32 0xff00000100ff000080ffff0180000001808080ffff808001c08040018080c000)].
Proof. run. Qed.
Example hw235 : let f := u8x16x2_swizzle AVX2 in
  [f (v32 0x0f2000f081027e02020f907efebf7f017fbf7fbffd4081bf02feff20107f8111) (v32 0xff3f90018f4080108fffff014000fd0290fec081808140fdbffd3f801f1100ff); f (v32 0xb4290ff9f75a2427b8e322009819018a586002a7195a27411de56249624b1caa) (v32 0xb0f5a894488fb320870c375964515c012a1f7c696aafbf0002a57e01b16d48d1); f (v32 0x007fff7f80807f807f7f000100ff017fffff7f7f808080ff017f800100017f7f) (v32 0x7f807fff80ff7f80017f000080807f01008000807f00ffffff007f007f010080); f (v32 0x800080ffff01000100ffff0100018000ffff8001000000ff00ff80ff00ff0000) (v32 0x800080ffff01000100ffff0100018000ffff8001000000ffff000001ffff8000)] =
  [Some (v32 0x000f007f000100010000007f010100bf000000000000110000007f007f811100); Some (v32 0x000000002700008a00f9b8240001f9015a58a7275a0000aa4b00601c00024100); Some (v32 0x000000000000000001007f7f000000017f007f00ff7f0000007fff7fff7f7f00); Some (v32 0x0000000000800080000000800080000000000000000000000000000000000000)].
Proof. run. Qed.
Example hw236 : let f := u8x32_blendv AVX2 in
  [f (v32 0xbf8001fd00bf90903f000080f0bf1f02ff20bf0011807e007effbf1f81fe9040) (v32 0x8f1000fdc00fc0818fc080fec0ff8120f07f4002ff40202011bf80fd8fc000f0) (v32 0x1081feffc0f0fd8f0f201f20ff8f3fbf7e0081021ff0fd010f7e3f8f3f0f3f02); f (v32 0xd7f55b12a5eec3ce7bb7ff1f8cd672fd22b16abbf0993cbdbd8ac79124d89505) (v32 0x8e9acab23d56e098a9ea2c495012cc4f81634f175f8f568c00977749a69f783d) (v32 0x02655a8cb9911774152c2b8025356e93a3be68b17b4df64ae7f5792be7a604c0); f (v32 0x7f7f007f0101ff8000807f007f010000000000ff7f0101018080808001ff7f01) (v32 0x007f01ffffff7f8080017f80010100ff8000ff7f8000017f0101010080800080) (v32 0x807f008000ff7f7f80ff01017f7f017f7f00ffff80ffffff80000080ff7f7f7f); f (v32 0x00ffffff800000ff80018000800180ffff0080ff0000800000ff800080ff8000) (v32 0x00ffffff800000ff80018000800180ffff0080ff0000800000ff800080ff8000) (v32 0x00ff000080ffff008001800000ffff01800000ff0001800100ff8000800000ff)] =
  [Some (v32 0xbf1000fdc00fc0813f000080c0ff1f20ff204000114020007effbffd81fe9040); Some (v32 0xd7f55bb23d56c3ce7bb7ff498cd6724f81636a17f09956bd0097c791a69f953d); Some (v32 0x007f00ff01ffff8080017f007f0100000000ff7f8000017f0180800080ff7f01); Some (v32 0x00ffffff800000ff80018000800180ffff0080ff0000800000ff800080ff8000)].
Proof. run. Qed.
Example hw237 : let f := u32x8_blend AVX2 85 in
  [f (v32 0x20f07f10808f11f0021120bf10bf401f0ff0901f1080400fff813f814040ff40) (v32 0xbf207f8f203f8f80ff1f01f08120bf7e0f81000002402000201fc0028000fe7e); f (v32 0x8c866aae4ab2d197609f9102255f2a0177a4fe04bb19649686044e88992d88ea) (v32 0x62bcb3ba5ffe417b49288d2350ec494b41142c282edca36a45f348ba1be3c514); f (v32 0x000180ff7f8080007fff7fff80ff010080ff000080ffff00ff018000017f0100) (v32 0x800180800001ff00007f800180807f7f7f7f01ff017f7f007f00ff808001807f); f (v32 0xffffff010001ffff0000ff0180000001ffff80ff80010001800080ffffff0001) (v32 0xffff80000001ffff0000ff0180000001ffff80ff80010001800080ffffff0001)] =
  [Some (v32 0x20f07f10203f8f80021120bf8120bf7e0ff0901f02402000ff813f818000fe7e); Some (v32 0x8c866aae5ffe417b609f910250ec494b77a4fe042edca36a86044e881be3c514); Some (v32 0x000180ff0001ff007fff7fff80807f7f80ff0000017f7f00ff0180008001807f); Some (v32 0xffffff010001ffff0000ff0180000001ffff80ff80010001800080ffffff0001)].
Proof. run. Qed.
Example hw238 : let f := u32x8_blend AVX2 170 in
  [f (v32 0x018f3ffdfe7f407efd02ff0ff0f010bfff4040fdfe7fbf0110f0903f02c02010) (v32 0xf08f8010bf027eff020f9090202011bf7f2090c0ffff7e00bf001ff04000800f); f (v32 0xb5f0d1ca2fd23d077f4e03a7b5efefc0448ae987217068319976a749c0a2d09d) (v32 0x0118e8d53aacdaa969f5d9cae98f5a740c5b1f4cc49fbdcdd6c15c12f14c09e4); f (v32 0x7fff8080ffff00ff7f01010001807f7fff010001ffff00000080ff0000808001) (v32 0x7f7f007f0001010080017fff7fff8080808080007f01010101000080ff01ff01); f (v32 0xff0100ff0000ff018001ff00ff01ff0000ff00ff80000000800100ff0000ff01) (v32 0xff0100ff0000ff01ffffff0100ff80ff00ff00ff800000008001ff0100018001)] =
  [Some (v32 0xf08f8010fe7f407e020f9090f0f010bf7f2090c0fe7fbf01bf001ff002c02010); Some (v32 0x0118e8d52fd23d0769f5d9cab5efefc00c5b1f4c21706831d6c15c12c0a2d09d); Some (v32 0x7f7f007fffff00ff80017fff01807f7f80808000ffff00000100008000808001); Some (v32 0xff0100ff0000ff01ffffff01ff01ff0000ff00ff800000008001ff010000ff01)].
Proof. run. Qed.
Example hw239 : let f := u32x8_blend AVX2 129 in
  [f (v32 0x02ff3f8f0081028f1fc0fdfe400290fe7e200f908fff0f1f40f08000f010bf0f) (v32 0x3fbf7efd0140811040110f40020f8f027f01fd7f7e7f1120013f0f0f01203f40); f (v32 0x21fe64d47878894cb5c3b3951c2dea28ddeeecdf13a7b1e4a9cc01a3cad31269) (v32 0x1ab7ef50dce345ccb7be571ae2f51c95a61eb95685681fc616e9ea9e621b269e); f (v32 0x0100007f80ff800080017f00ffff0080ff80007f018080ff0080000000000180) (v32 0xff0101ff7f01800080007fff00ff010000ff00ff80ffff8080017f800180ff80); f (v32 0x000100008000000100ff0001000080018001ffff80ff000180ffff0000ffffff) (v32 0x0001000080000001000000ff000100018001ffff80ff000180ffff00800000ff)] =
  [Some (v32 0x3fbf7efd0081028f1fc0fdfe400290fe7e200f908fff0f1f40f0800001203f40); Some (v32 0x1ab7ef507878894cb5c3b3951c2dea28ddeeecdf13a7b1e4a9cc01a3621b269e); Some (v32 0xff0101ff80ff800080017f00ffff0080ff80007f018080ff008000000180ff80); Some (v32 0x000100008000000100ff0001000080018001ffff80ff000180ffff00800000ff)].
Proof. run. Qed.
Example hw240 : let f := u8x32_bitmask AVX2 in
  [f (v32 0x0f1f7f0f00ffbf209090017efd0f80800f02011f01f01fbf11ffc0bf7efe81bf); f (v32 0x5cfeafe35874a72d8a38c48ceca21c549e948644a7eba54a1a1ab8595f839c8f); f (v32 0x808000017f8080ff010180ff0101ff80ff01ffff7f0101ff00007f008001ffff); f (v32 0x0000ffffffff80ff8001ff01ff0000008001ff0100018000000080008000ff01)] =
  [Some 113968503; Some 1924984359; Some 3342053643; Some 1068016170].
Proof. run. Qed.
Example hw241 : let f := v256_all_zero AVX2 in
  [f (v32 0x0100000000000000000000000000000000000000000000000000000000000000); f (v32 0xb9018236e13d8b9dc688c820da5a0ce911b549d0e99de84a0aa5cb4cdfb05854); f (v32 0x017f8000800001010080807fff0001017f00807f7f7fffff007fffff7f00007f); f (v32 0x0000000000000000000000000000000000000000000000000000000000000000)] =
  [Some false; Some false; Some false; Some true].
Proof. run. Qed.
Example hw242 : let f := u8x32_any_zero AVX2 in
  [f (v32 0x0100000000000000000000000000000000000000000000000000000000000000); f (v32 0xb21a1d797e07e6c962a915a588e246e449e2fdffa524eb4a5ee15be3bdbbd65d); f (v32 0xff7f0001ff7f7fff017f01ff01010080800101007f7f007fff01ff7f01018000); f (v32 0x0000000000000000000000000000000000000000000000000000000000000000)] =
  [Some true; Some false; Some true; Some true].
Proof. run. Qed.
Example hw243 : let f := u16x16_from_u8x16 AVX2 in
  [f (v16 0x010fc0003f40bf11f0bf20903f010102); f (v16 0x13d6ac65c51c56a780f4ca135defbb2a); f (v16 0xff017f80000000017f7f8080ff7f80ff); f (v16 0x00ffff00ffff80ff00ffff010000ff01)] =
  [Some (v32 0x0001000f00c00000003f004000bf001100f000bf00200090003f000100010002); Some (v32 0x001300d600ac006500c5001c005600a7008000f400ca0013005d00ef00bb002a); Some (v32 0x00ff0001007f00800000000000000001007f007f0080008000ff007f008000ff); Some (v32 0x000000ff00ff000000ff00ff008000ff000000ff00ff00010000000000ff0001)].
Proof. run. Qed.
Example hw244 : let f := u64x4_permute 216 AVX2 in
  [f (v32 0x000081fd007e90ffbffe804002bf7f000190111f8f0f1f1fc0c00f8fc0bf10fe); f (v32 0x955ae6578f868038f56caf5e3edf9e5331d515add130cf03a1f5372fbc4a2d00); f (v32 0x7f01ff01ff0000ff017f000101ff7fff80ff0080807f7f00807f7f0100018080); f (v32 0xff00ff00ff0000ffff0100ff0001800100ff80ff0001ff0180ff00ff8000ffff)] =
  [Some (v32 0x000081fd007e90ff0190111f8f0f1f1fbffe804002bf7f00c0c00f8fc0bf10fe); Some (v32 0x955ae6578f86803831d515add130cf03f56caf5e3edf9e53a1f5372fbc4a2d00); Some (v32 0x7f01ff01ff0000ff80ff0080807f7f00017f000101ff7fff807f7f0100018080); Some (v32 0xff00ff00ff0000ff00ff80ff0001ff01ff0100ff0001800180ff00ff8000ffff)].
Proof. run. Qed.
Example hw245 : let f := u64x4_permute 0 AVX2 in
  [f (v32 0x81207ef01ffdc020011f023f00fd4002027fbfc0ff1ff08080117e0f7e11f07f); f (v32 0xb0fb214aaa133299688c0788ddc09d7660d5701340f05cb3f4816fd3335872dd); f (v32 0x80807fff807f007f80017f007f018001ff7f7f7f7f7f000080ff807fffffff00); f (v32 0xffff00000000ff0000ffff0000ffff010001ffffff000001ff01800100000001)] =
  [Some (v32 0x80117e0f7e11f07f80117e0f7e11f07f80117e0f7e11f07f80117e0f7e11f07f); Some (v32 0xf4816fd3335872ddf4816fd3335872ddf4816fd3335872ddf4816fd3335872dd); Some (v32 0x80ff807fffffff0080ff807fffffff0080ff807fffffff0080ff807fffffff00); Some (v32 0xff01800100000001ff01800100000001ff01800100000001ff01800100000001)].
Proof. run. Qed.
Example hw246 : let f := u64x4_permute 27 AVX2 in
  [f (v32 0xf0bf3f8190400ff0117efffd20fd8fbf8f8f7e7f8000fdf00080023ffd1f8180); f (v32 0xc4dce9a47cabaffe12e67f49fbbc3eae2eb7ba13478a4f9e7c6c7e8d8e7359a7); f (v32 0xff7fff80017f01807fffff000180017fffff807f01ffffff80ff80017fff7f7f); f (v32 0xff0100ff0000000100018001ff01ffff00000000ffffff0100008001ff00ffff)] =
  [Some (v32 0x0080023ffd1f81808f8f7e7f8000fdf0117efffd20fd8fbff0bf3f8190400ff0); Some (v32 0x7c6c7e8d8e7359a72eb7ba13478a4f9e12e67f49fbbc3eaec4dce9a47cabaffe); Some (v32 0x80ff80017fff7f7fffff807f01ffffff7fffff000180017fff7fff80017f0180); Some (v32 0x00008001ff00ffff00000000ffffff0100018001ff01ffffff0100ff00000001)].
Proof. run. Qed.
Example hw247 : let f := u64x4_permute 228 AVX2 in
  [f (v32 0x407efd10c000bf007ec01f7e01817e10fe0f7ff01f118190003f9001010f8001); f (v32 0x3a4ac29abc044314ee77b7897dd04442fa0ed24dd7f8ddf33f0cf35f6da77f4d); f (v32 0x0101017f8000007fff800000007f00007fff8080ff80ff0001017fffff010000); f (v32 0x0000ff010001ff0000ff80ffff00ff0180ff000080ff00018000000100ff8001)] =
  [Some (v32 0x407efd10c000bf007ec01f7e01817e10fe0f7ff01f118190003f9001010f8001); Some (v32 0x3a4ac29abc044314ee77b7897dd04442fa0ed24dd7f8ddf33f0cf35f6da77f4d); Some (v32 0x0101017f8000007fff800000007f00007fff8080ff80ff0001017fffff010000); Some (v32 0x0000ff010001ff0000ff80ffff00ff0180ff000080ff00018000000100ff8001)].
Proof. run. Qed.
Example hw248 : let f := u64x4_permute 78 AVX2 in
  [f (v32 0x20101f3ff090ff7fbfbf900f011111fdff00bff07e00bf8f7f8111fdfefd3ff0); f (v32 0x33406ad7c795d0c6d6e2fc420c44586f510d9e9582ae5b3b7b110e2e7cf2e4dd); f (v32 0x01ffff000180007f01017fff0180ff7f7fff017f800001ff7fff800101017fff); f (v32 0x0000800180ff8000000100ffff0080ff8000ff00ff00ff000000000180ffff00)] =
  [Some (v32 0xff00bff07e00bf8f7f8111fdfefd3ff020101f3ff090ff7fbfbf900f011111fd); Some (v32 0x510d9e9582ae5b3b7b110e2e7cf2e4dd33406ad7c795d0c6d6e2fc420c44586f); Some (v32 0x7fff017f800001ff7fff800101017fff01ffff000180007f01017fff0180ff7f); Some (v32 0x8000ff00ff00ff000000000180ffff000000800180ff8000000100ffff0080ff)].
Proof. run. Qed.
Example hw249 : let f := u64x4_permute_0213 AVX2 in
  [f (v32 0x8080bf8f3f10c0c0018f1fc07e7f3fff3ffe40fd7f8f804000ffc0018f0fc0ff); f (v32 0x926cda030b7945b6f93e6a0bc1b6791992ba1c01f146eea457c671025fe2ed5b); f (v32 0x01807f8001ff7f80807f8000807f01807f80ffff7f00807f807f00ff00010180); f (v32 0xff0180ff00ffffff000000010000ff018000ffff000100ff000180ff00000001)] =
  [Some (v32 0x8080bf8f3f10c0c03ffe40fd7f8f8040018f1fc07e7f3fff00ffc0018f0fc0ff); Some (v32 0x926cda030b7945b692ba1c01f146eea4f93e6a0bc1b6791957c671025fe2ed5b); Some (v32 0x01807f8001ff7f807f80ffff7f00807f807f8000807f0180807f00ff00010180); Some (v32 0xff0180ff00ffffff8000ffff000100ff000000010000ff01000180ff00000001)].
Proof. run. Qed.
Example hw250 : let f := v128x2_zip_lo AVX2 in
  [f (v32 0x81bf023f9081c0400f0f817f3ffe1f1190c010fd7ebf00021fff0040401f7e7e) (v32 0x11908f407e3f81ff901020fec03f01813f0211bf017fff4080117e1fbff01ffd); f (v32 0x32d0b840e4d348c6d954fecacad048c31b14528ea87c09acb4ce17eeea9c66c1) (v32 0xc935f1fade9652cb2f6658969a2b0fbc7fdcf661634099a0f0aea9f7af6fe523); f (v32 0x80ffff007f8001017f80800100017f00ff00ff00800001ff0001ff0101010180) (v32 0x8080807f00807f8080008000018001ff800000ffff01007fff000000007fff01); f (v32 0x000000ff0000ffffff010001ff0100ffff00000180ffff0000ff80008001ff01) (v32 0x80010000ff0000ffff010001ff0100ff80ff800180ffff0100ff80008001ff01)] =
  [Some (v32 0x3f0211bf017fff4080117e1fbff01ffd90c010fd7ebf00021fff0040401f7e7e); Some (v32 0x7fdcf661634099a0f0aea9f7af6fe5231b14528ea87c09acb4ce17eeea9c66c1); Some (v32 0x800000ffff01007fff000000007fff01ff00ff00800001ff0001ff0101010180); Some (v32 0x80ff800180ffff0100ff80008001ff01ff00000180ffff0000ff80008001ff01)].
Proof. run. Qed.
Example hw251 : let f := v128x2_zip_hi AVX2 in
  [f (v32 0xfe4080fd3f1f7e8002c0908f7efd00201110fff001027ffdbf7f101f1002fd40) (v32 0x9002100f200210f07ec0bf1ffefe407f101f107e0fc0f020100040ff0f1f007f); f (v32 0xde983c39d55cb56caeb1a6c6760c62cb637228fb6a974b73f06cf0648b27ccef) (v32 0x6673537f8a2473332e26acd38d712351d2dfd9ffaba71cb7002180332d8a19c5); f (v32 0xff000180017f80807fffff807f7f01808080ff80ffff7f01ffffff0080800100) (v32 0x7f0080ff000100808000007f00ff80ff80807f007f7fff0080ff0100ff807fff); f (v32 0x8001000080ff80000000ff01ff01ffff80ffff01000080ff000100ff0000ff00) (v32 0x8001000080ff8000800000018001ff0180ffff01000080ff0000ffffff008000)] =
  [Some (v32 0x9002100f200210f07ec0bf1ffefe407ffe4080fd3f1f7e8002c0908f7efd0020); Some (v32 0x6673537f8a2473332e26acd38d712351de983c39d55cb56caeb1a6c6760c62cb); Some (v32 0x7f0080ff000100808000007f00ff80ffff000180017f80807fffff807f7f0180); Some (v32 0x8001000080ff8000800000018001ff018001000080ff80000000ff01ff01ffff)].
Proof. run. Qed.
Example hw252 : let f := f_max (fun x _ => x) W128 SSE2 F32 in
  [f (v16 0x7f800000800000010000000000000000) (v16 0x80000000800000003f800000bf800000); f (v16 0x7f7fffff7fc00000bf80000000800000) (v16 0x7f800000007fffff000000017f800000); f (v16 0x00800000007fffff40490fdb80000001) (v16 0xffc00000ff7fffff007fffffffc00000); f (v16 0x00800000800000007fc0000080000000) (v16 0xff7fffffff7fffffffc00000ff800001)] =
  [Some (v16 0x7f800000800000003f80000000000000); Some (v16 0x7f800000007fffff000000017f800000); Some (v16 0xffc00000007fffff40490fdbffc00000); Some (v16 0x0080000080000000ffc00000ff800001)].
Proof. run. Qed.
Example hw253 : let f := f_max (fun x _ => x) W128 SSE2 F64 in
  [f (v16 0x3ff00000000000007fefffffffffffff) (v16 0x00100000000000000000000000000000); f (v16 0x7ff0000000000001fff0000000000001) (v16 0xfff00000000000003ff0000000000000); f (v16 0x7feffffffffffffffff0000000000000) (v16 0x7ff80000000000008000000000000000); f (v16 0x400921fb54442d18fff0000000000000) (v16 0x400921fb54442d18bff0000000000000)] =
  [Some (v16 0x3ff00000000000007fefffffffffffff); Some (v16 0xfff00000000000003ff0000000000000); Some (v16 0x7ff80000000000008000000000000000); Some (v16 0x400921fb54442d18bff0000000000000)].
Proof. run. Qed.
Example hw254 : let f := f_min (fun x _ => x) W128 SSE2 F32 in
  [f (v16 0x7f8000007f8000000000000180000000) (v16 0x80000001ff8000010000000080000001); f (v16 0x007fffff3f8000003f80000080000001) (v16 0x7f800000bf8000007f80000100800000); f (v16 0x40490fdbff7fffff00000001ff7fffff) (v16 0x00000000bf800000ff8000007fffffff); f (v16 0x007fffff40490fdb008000007fc00000) (v16 0x007fffff40490fdb008000007fc00000)] =
  [Some (v16 0x80000001ff8000010000000080000001); Some (v16 0x007fffffbf8000007f80000180000001); Some (v16 0x00000000ff7fffffff8000007fffffff); Some (v16 0x007fffff40490fdb008000007fc00000)].
Proof. run. Qed.
Example hw255 : let f := f_min (fun x _ => x) W128 SSE2 F64 in
  [f (v16 0x00000000000000017ff8000000000000) (v16 0x00000000000000007ff0000000000001); f (v16 0xbff0000000000000fff8000000000000) (v16 0x0000000000000001bff0000000000000); f (v16 0x0010000000000000400921fb54442d18) (v16 0xfff00000000000017fefffffffffffff); f (v16 0xfff80000000000008000000000000001) (v16 0xfff80000000000008000000000000001)] =
  [Some (v16 0x00000000000000007ff0000000000001); Some (v16 0xbff0000000000000bff0000000000000); Some (v16 0xfff0000000000001400921fb54442d18); Some (v16 0xfff80000000000008000000000000001)].
Proof. run. Qed.
Example hw256 : let f := f_max (fun x _ => x) W256 AVX2 F32 in
  [f (v32 0xbf800000007fffff7fc00000ff800001bf8000007f8000017f8000017f7fffff) (v32 0x40490fdb80000000ff80000000000000ff80000080000000ff800000ffc00000); f (v32 0xffc00000000000007f800000008000000080000040490fdb7f80000080000000) (v32 0xbf8000007f8000007f8000007f800001ff7fffffffc000000000000000000001); f (v32 0x7f800001007fffff7f8000007fffffff7f8000008000000000000001007fffff) (v32 0x7f7fffffff7fffff000000017f800001ff8000007f8000013f800000ff800000); f (v32 0x800000007f80000040490fdb3f800000ff7fffff800000010080000080000001) (v32 0x800000007f80000040490fdb3f800000ff7fffff800000010080000080000001)] =
  [Some (v32 0x40490fdb007fffffff80000000000000bf80000080000000ff800000ffc00000); Some (v32 0xbf8000007f8000007f8000007f80000100800000ffc000007f80000000000001); Some (v32 0x7f7fffff007fffff7f8000007f8000017f8000007f8000013f800000007fffff); Some (v32 0x800000007f80000040490fdb3f800000ff7fffff800000010080000080000001)].
Proof. run. Qed.
Example hw257 : let f := f_max (fun x _ => x) W256 AVX2 F64 in
  [f (v32 0x3ff00000000000007fefffffffffffff7ff0000000000001bff0000000000000) (v32 0x8000000000000000000fffffffffffff7ff00000000000018000000000000001); f (v32 0x7ff80000000000003ff00000000000007ff00000000000013ff0000000000000) (v32 0x7ff80000000000007ff000000000000100100000000000000000000000000000); f (v32 0x400921fb54442d18400921fb54442d183ff00000000000007fefffffffffffff) (v32 0xfff8000000000000000ffffffffffffffff8000000000000400921fb54442d18); f (v32 0x0010000000000000000000000000000100000000000000003ff0000000000000) (v32 0x001000000000000000000000000000017ff00000000000017ff8000000000000)] =
  [Some (v32 0x3ff00000000000007fefffffffffffff7ff00000000000018000000000000001); Some (v32 0x7ff80000000000007ff000000000000100100000000000003ff0000000000000); Some (v32 0xfff8000000000000400921fb54442d18fff80000000000007fefffffffffffff); Some (v32 0x001000000000000000000000000000017ff00000000000017ff8000000000000)].
Proof. run. Qed.
Example hw258 : let f := f_min (fun x _ => x) W256 AVX2 F32 in
  [f (v32 0x800000013f8000003f8000007f7fffff800000003f8000007f7fffff7f800001) (v32 0x00000001007fffffbf800000ff800001ff8000017f7fffffff8000017f7fffff); f (v32 0x000000017fffffff40490fdb7f7fffff8000000180000001ff7fffff7fc00000) (v32 0xffc000007f800000ff800001ffc0000000000000ffc00000ffc00000ff800000); f (v32 0xbf8000007fc000007fffffff0000000040490fdb7fc0000040490fdbbf800000) (v32 0x40490fdb7f8000007fc00000007fffff80000000ffc0000040490fdbff7fffff); f (v32 0x7fffffff7f7fffff7f800000000000017fc000007fffffffff800000ff800000) (v32 0x7fffffff7f7fffff7f800000000000017fc000007fffffffff800000ff800000)] =
  [Some (v32 0x80000001007fffffbf800000ff800001ff8000013f800000ff8000017f7fffff); Some (v32 0xffc000007f800000ff800001ffc0000080000001ffc00000ffc00000ff800000); Some (v32 0xbf8000007f8000007fc000000000000080000000ffc0000040490fdbff7fffff); Some (v32 0x7fffffff7f7fffff7f800000000000017fc000007fffffffff800000ff800000)].
Proof. run. Qed.
Example hw259 : let f := f_min (fun x _ => x) W256 AVX2 F64 in
  [f (v32 0x80000000000000018000000000000001fff00000000000000010000000000000) (v32 0x00100000000000008000000000000001400921fb54442d180010000000000000); f (v32 0x7fefffffffffffff7ff00000000000017ff8000000000000400921fb54442d18) (v32 0x00100000000000000010000000000000fff0000000000000000fffffffffffff); f (v32 0x000fffffffffffff7ff00000000000007ff00000000000010010000000000000) (v32 0xbff0000000000000bff00000000000007ff00000000000007fefffffffffffff); f (v32 0x00000000000000007ff0000000000001bff00000000000007fefffffffffffff) (v32 0x80000000000000000000000000000000fff00000000000017fefffffffffffff)] =
  [Some (v32 0x80000000000000018000000000000001fff00000000000000010000000000000); Some (v32 0x00100000000000000010000000000000fff0000000000000000fffffffffffff); Some (v32 0xbff0000000000000bff00000000000007ff00000000000000010000000000000); Some (v32 0x80000000000000000000000000000000fff00000000000017fefffffffffffff)].
Proof. run. Qed.
Example hw260 : let f := i16x16_set_lane7 AVX2 in
  [f (v32 0x207f81ff8080fe811ffffd901ffefe000f8fbf028f20010f11fe1140011f9081) 0x7ebf; f (v32 0x0ea70ae8ca3f53329e4021b5a4c052e7096c30278f47882678c98ade5fe20319) 0x84f3; f (v32 0xffff80ff01010100010080807fff7f8000017fff8000000001ffff800000ff01) 0x7fff; f (v32 0xff018000ff00ff0080018001ff0000010001ffff8001ff0180ff00008001ff00) 0x0001] =
  [Some (v32 0x207f81ff8080fe811ffffd901ffefe007ebfbf028f20010f11fe1140011f9081); Some (v32 0x0ea70ae8ca3f53329e4021b5a4c052e784f330278f47882678c98ade5fe20319); Some (v32 0xffff80ff01010100010080807fff7f807fff7fff8000000001ffff800000ff01); Some (v32 0xff018000ff00ff0080018001ff0000010001ffff8001ff0180ff00008001ff00)].
Proof. run. Qed.
Example hw261 : let f := i32x8_set_lane7 AVX2 in
  [f (v32 0x111f80c0bf810020017fffbf1001bf90208f8ff0101180028f3f7e40201f9040) 0x7f10fffd; f (v32 0x164480ed19c16e5391b8e1bd6518b26695b5ebfd845476c8f08b6f4f31079038) 0xdc97ac00; f (v32 0x00ffffff800100010180ff01018000800100007f0180017f7fff007f007fffff) 0x7f000180; f (v32 0x00008000ff01ff00ffffff018001ff0100ff8001ffff0001ff01800080ff00ff) 0xff01800080ff00ff] =
  [Some (v32 0x7f10fffdbf810020017fffbf1001bf90208f8ff0101180028f3f7e40201f9040); Some (v32 0xdc97ac0019c16e5391b8e1bd6518b26695b5ebfd845476c8f08b6f4f31079038); Some (v32 0x7f000180800100010180ff01018000800100007f0180017f7fff007f007fffff); Some (v32 0x80ff00ffff01ff00ffffff018001ff0100ff8001ffff0001ff01800080ff00ff)].
Proof. run. Qed.
Example hw262 : let f := i16x16_set_lane7 SSE2 in
  [f (v32 0x0fff90ff007e012002ff203f408110c01190808081900f7e90907e11f0fe9011) 0x1f7e; f (v32 0x7525f806ed09ab582953137c4fe802546038663a602f788c059aeb00f2337ec7) 0xc832; f (v32 0x000101ffff010000800101007f80ff807f017fff007f7f00ff0080ff80017f01) 0x80ff; f (v32 0x80ff000000ffff01ff0000008000ff0080ff00000000ff00ff0000ff00ff8001) 0xff0000ff00ff8001] =
  [Some (v32 0x0fff90ff007e012002ff203f408110c01f7e808081900f7e90907e11f0fe9011); Some (v32 0x7525f806ed09ab582953137c4fe80254c832663a602f788c059aeb00f2337ec7); Some (v32 0x000101ffff010000800101007f80ff8080ff7fff007f7f00ff0080ff80017f01); Some (v32 0x80ff000000ffff01ff0000008000ff00800100000000ff00ff0000ff00ff8001)].
Proof. run. Qed.
Example hw263 : let f := i32x8_set_lane7 SSE41 in
  [f (v32 0xfd1f7f80bf90fd10000f7e81ff3f8020c07efe2020c081c08f20408f1ffd7e40) 0x20900280; f (v32 0x5fcde19ba28333ee54d51f1ecbc72b37d10ac6a6195148f2ccfc516db662d0a8) 0xae9f1be8; f (v32 0x01808000ff01017f0080ff007f80ff0001ffff8001ff0080ff807f80807f0000) 0x7f7fffff; f (v32 0x8000ff01ff00ff0000ff0001ff00ffffff01800180ff800080ff000000018001) 0x80ff000000018001] =
  [Some (v32 0x20900280bf90fd10000f7e81ff3f8020c07efe2020c081c08f20408f1ffd7e40); Some (v32 0xae9f1be8a28333ee54d51f1ecbc72b37d10ac6a6195148f2ccfc516db662d0a8); Some (v32 0x7f7fffffff01017f0080ff007f80ff0001ffff8001ff0080ff807f80807f0000); Some (v32 0x00018001ff00ff0000ff0001ff00ffffff01800180ff800080ff000000018001)].
Proof. run. Qed.
Example hw264 : let f := i32x4_get_lane3 SSE41 in
  [f (v16 0xf03f807f01f01fbf0fbfbfbf00011f90); f (v16 0x3b5bb7090756d03393569c97b6aaf8d3); f (v16 0xff80ff8001ff7f800000ff800100ff00); f (v16 0xff0100ff00ff00000000800000018000)] =
  [Some 4030693503; Some 995866377; Some 4286644096; Some 4278255871].
Proof. run. Qed.
Example hw265 : let f := i16x8_get_lane7 SSE2 in
  [f (v16 0xfe8f3f101ff03f0f20ff20ff7e8f4001); f (v16 0x0ab133771ed4c8fb29f9cbe71367f69b); f (v16 0xff800180007f0180ff0100ff01008001); f (v16 0x00ffff01ffff000000018001ff01ff01)] =
  [Some 65167; Some 2737; Some 65408; Some 255].
Proof. run. Qed.
Example hw266 : let f := u_splat W128 SSE2 U8 in
  [f 0x40; f 0x23; f 0x01; f 0xff] =
  [Some (v16 0x40404040404040404040404040404040); Some (v16 0x23232323232323232323232323232323); Some (v16 0x01010101010101010101010101010101); Some (v16 0xffffffffffffffffffffffffffffffff)].
Proof. run. Qed.
Example hw267 : let f := u_splat W128 SSE2 U16 in
  [f 0x801f; f 0x9ab4; f 0x007f; f 0x0000] =
  [Some (v16 0x801f801f801f801f801f801f801f801f); Some (v16 0x9ab49ab49ab49ab49ab49ab49ab49ab4); Some (v16 0x007f007f007f007f007f007f007f007f); Some (v16 0x00000000000000000000000000000000)].
Proof. run. Qed.
Example hw268 : let f := u_splat W128 SSE2 U32 in
  [f 0xbf00027f; f 0xa07fe4e6; f 0x7f000101; f 0xffff8001] =
  [Some (v16 0xbf00027fbf00027fbf00027fbf00027f); Some (v16 0xa07fe4e6a07fe4e6a07fe4e6a07fe4e6); Some (v16 0x7f0001017f0001017f0001017f000101); Some (v16 0xffff8001ffff8001ffff8001ffff8001)].
Proof. run. Qed.
Example hw269 : let f := u_splat W128 SSE2 U64 in
  [f 0x1f028f90117e00bf; f 0x2a81b44ac29ddd07; f 0x807f010000ff8000; f 0x8001800080010001] =
  [Some (v16 0x1f028f90117e00bf1f028f90117e00bf); Some (v16 0x2a81b44ac29ddd072a81b44ac29ddd07); Some (v16 0x807f010000ff8000807f010000ff8000); Some (v16 0x80018000800100018001800080010001)].
Proof. run. Qed.
Example hw270 : let f := u_splat W256 AVX2 U8 in
  [f 0x8f; f 0x0b; f 0x01; f 0xff] =
  [Some (v32 0x8f8f8f8f8f8f8f8f8f8f8f8f8f8f8f8f8f8f8f8f8f8f8f8f8f8f8f8f8f8f8f8f); Some (v32 0x0b0b0b0b0b0b0b0b0b0b0b0b0b0b0b0b0b0b0b0b0b0b0b0b0b0b0b0b0b0b0b0b); Some (v32 0x0101010101010101010101010101010101010101010101010101010101010101); Some (v32 0xffffffffffffffffffffffffffffffffffffffffffffffffffffffffffffffff)].
Proof. run. Qed.
