(** Recorded results of wasm32 SIMD instructions (generated by tools/wasm.py; not part of any proof).

    Like Hardware.v, for the instructions behind [core::arch::wasm32]: V8 executed the instructions that the Rust source uses. *)
From Coq Require Import ZArith List Bool.
From Verif Require Import Bytes Isa Ints Simd VsimdSpec Vsimd FloatSpec Float Uuid.
Import ListNotations.
Open Scope Z_scope.
Local Definition v16 := le_bytes 16.
Local Definition v32 := le_bytes 32.
Local Ltac run := vm_compute; reflexivity.

Example wasm000 : let f := u_add W128 WASM128 U8 in
  [f (v16 0x9040407f00018f7f1f407e1f1f200010) (v16 0xc020fd10c0f0c0ffff4010119080bf0f); f (v16 0x26a89a54973d59433c2c272440316354) (v16 0x07af68f99cc9553ac4f98148b1b35525); f (v16 0x01ff0101ff8080ff007f7f807fff807f) (v16 0x7f000180807f80ff00800080ff800100); f (v16 0xff00000000ff800080ff8000ffff0001) (v16 0x00ffffff80010000ff01ff0180018001)] =
  [Some (v16 0x50603d8fc0f14f7e1e808e30afa0bf1f); Some (v16 0x2d57024d3306ae7d0025a86cf1e4b879); Some (v16 0x80ff02817fff00fe00ff7f007e7f817f); Some (v16 0xffffffff800080007f007f017f008002)].
Proof. run. Qed.
Example wasm001 : let f := u_sub W128 WASM128 U8 in
  [f (v16 0x8fff8081fe208081007e8f4010000010) (v16 0xf0ff7e010f02bfc0fe1fff018190fd80); f (v16 0xfa5528fc32d5ce830b0fad6c8757815d) (v16 0x2c6f6ca68a90845a3cba1b83a666509b); f (v16 0xffff7fff017f000101ff00007f010100) (v16 0x807f807f01800180808080808080807f); f (v16 0xffff000180010001ff01ff0180018000) (v16 0x0000ff0000ff8001ff0080ffff010000)] =
  [Some (v16 0x9f000280ef1ec1c1025f903f8f700390); Some (v16 0xcee6bc56a8454a29cf5592e9e1f131c2); Some (v16 0x7f80ff8000ffff81817f8080ff818181); Some (v16 0xffff01018002800000017f0281008000)].
Proof. run. Qed.
Example wasm002 : let f := u_eq W128 WASM128 U8 in
  [f (v16 0x90c07ec03ffd7f0280bf000fbf1090f0) (v16 0x013f00fe111f103fc0fd3f000fbf3f20); f (v16 0x01e1280db24e8cba37f9e39364e66d45) (v16 0xef787868826d39f892877e18daafe556); f (v16 0x7fff000001807f017f008000ff017f7f) (v16 0x01017f0180ff007f7f007f7f007f7f7f); f (v16 0x00018000800000ffff00ffff00018001) (v16 0xffffff000000ff0100ff000000018001)] =
  [Some (v16 0x00000000000000000000000000000000); Some (v16 0x00000000000000000000000000000000); Some (v16 0x0000000000000000ffff00000000ffff); Some (v16 0x000000ff00ff000000000000ffffffff)].
Proof. run. Qed.
Example wasm003 : let f := u_add W128 WASM128 I8 in
  [f (v16 0x02f040fe3fc03f0110908f11fefff0fd) (v16 0x023f0f10ff010f00c07fbf7e8f0ff011); f (v16 0xde6ba53246a3f81f0a0433789cdd895f) (v16 0x36c12d0eb3e54d1f9ef0c245a0499726); f (v16 0x7f80ff00ff7f010080ff007f80007f80) (v16 0x00018001ff7f8080017f017f017f8001); f (v16 0xff0180ffffffff0100010001ff01ff01) (v16 0xff0000ffff000000ff008000000080ff)] =
  [Some (v16 0x042f4f0e3ec14e01d00f4e8f8d0ee00e); Some (v16 0x142cd240f988453ea8f4f5bd3c262085); Some (v16 0x7f817f01fefe8180817e01fe817fff81); Some (v16 0xfe0180fefeffff01ff018001ff017f00)].
Proof. run. Qed.
Example wasm004 : let f := u_sub W128 WASM128 I8 in
  [f (v16 0x81c03f8f7e80ff8ff0007ef0ff7f3f00) (v16 0x02023fc020ff4010fff00f10f0f03f8f); f (v16 0x6c14e8dc769784a9461c83705c8a9fc5) (v16 0xb47416f0302f9b1e4e3dbc40db2bda0c); f (v16 0x0101ff80ff7f0180017fffff7f000180) (v16 0x01000000ff8001ffff7f00808000007f); f (v16 0xff008000ffff00ff0001800080ffff01) (v16 0x0001ff01ffff00000001800080ffff01)] =
  [Some (v16 0x7fbe00cf5e81bf7ff1106fe00f8f0071); Some (v16 0xb8a0d2ec4668e98bf8dfc730815fc5b9); Some (v16 0x0001ff8000ff00810200ff7fff000101); Some (v16 0xffff81ff000000ff0000000000000000)].
Proof. run. Qed.
Example wasm005 : let f := u_eq W128 WASM128 I8 in
  [f (v16 0x4080ff8f20bf201f3f0f3fc0900280bf) (v16 0x7efd00ff1181fec040028f407e40f010); f (v16 0xffb28b9e311d19c7d3f5679b9f7e4881) (v16 0xf617da362d35cc6c614ac0af0e1fd4a6); f (v16 0x00ff010000000180000000ffff007f80) (v16 0xff01ff80ff7f80ff80ff01ff007f8080); f (v16 0xffffff01ff01ff00ff0080ff00018000) (v16 0xffffff01ff01ff000001ff00ff0180ff)] =
  [Some (v16 0x00000000000000000000000000000000); Some (v16 0x00000000000000000000000000000000); Some (v16 0x0000000000000000000000ff000000ff); Some (v16 0xffffffffffffffff0000000000ffff00)].
Proof. run. Qed.
Example wasm006 : let f := u_add W128 WASM128 U16 in
  [f (v16 0xfffd7f0ffebf0f801040bf10f0800200) (v16 0x200100027ff03f101040807f0202407e); f (v16 0xc4444ee518c7be8312d9684225dcaa4f) (v16 0x3650316e8d63dee52f03db2b69430d98); f (v16 0x017f01ffff80807f01ff808080ff8080) (v16 0x7f0001017f7f800100ff7f80ff7f7f7f); f (v16 0xff01800180010001ff01000080ff0001) (v16 0xff0180018001000180010000ffff00ff)] =
  [Some (v16 0x1ffe7f117eaf4e9020803f8ff282427e); Some (v16 0xfa948053a62a9d6841dc436d8f1fb7e7); Some (v16 0x807f03007eff008002fe0000807effff); Some (v16 0xfe020002000200027f02000080fe0100)].
Proof. run. Qed.
Example wasm007 : let f := u_sub W128 WASM128 U16 in
  [f (v16 0x7ffff090ff81fe000f0280803fbf7e0f) (v16 0x7f907e7fc01f0ff0ff807e3f3f01817f); f (v16 0x500ccc8248ab782103cd455d89618963) (v16 0x8663a5374501d2a86619f8facfef3887); f (v16 0x008080ff010001007f7f8080ff010000) (v16 0x7fff0100ffffff7f808001007f7f7f01); f (v16 0xffff00ff80ff800000ff8000ffff80ff) (v16 0x00ffffff800100008001ff0100ff0001)] =
  [Some (v16 0x006f72113f62ee100f82024100befc90); Some (v16 0xc9a9274b03aaa5799db44c63b97250dc); Some (v16 0x80817fff01010181feff7f807f8280ff); Some (v16 0xff00010000fe800080fe80ffff0080fe)].
Proof. run. Qed.
Example wasm008 : let f := u_eq W128 WASM128 U16 in
  [f (v16 0x4000fe3ffd80402010ff103f8102fd20) (v16 0x0120fd3fbf81c00ff0801f90011f1fff); f (v16 0xb37768522d53e4d3a8026940d8b9eec5) (v16 0x303165e107360a768a7dfebd85c4e0d0); f (v16 0x7f7fffff0180808000017f8001ffff00) (v16 0xff7f0001010101007fff00017f007f80); f (v16 0x80ffff018000ff00000180ffff018001) (v16 0x00008001ffff00018000800080000001)] =
  [Some (v16 0x00000000000000000000000000000000); Some (v16 0x00000000000000000000000000000000); Some (v16 0x00000000000000000000000000000000); Some (v16 0x00000000000000000000000000000000)].
Proof. run. Qed.
Example wasm009 : let f := u_add W128 WASM128 I16 in
  [f (v16 0x8f11403f3ff0000290201010fff0020f) (v16 0xbf803f203f7e02ff1081c07e7e7f400f); f (v16 0x355f3ac73041bf23947dd1315b5978dc) (v16 0xc35318ce1dc3bf90266cdfb40a0f05fd); f (v16 0x80ffff018001000101807f7f017f80ff) (v16 0x01ff01007f7f00ffff01017f80800100); f (v16 0x8001ff0000008000000180ff00ffff00) (v16 0x00ffff00ff0100000000ff0080ff0000)] =
  [Some (v16 0x4e917f5f7f6e0301a0a1d08e7e6f421e); Some (v16 0xf8b253954e047eb3bae9b0e565687ed9); Some (v16 0x82fe0001ff800100008180fe81ff81ff); Some (v16 0x8100fe00ff01800000017fff81feff00)].
Proof. run. Qed.
Example wasm010 : let f := u_sub W128 WASM128 I16 in
  [f (v16 0x8f8fff113f7f0102902010fe80020f20) (v16 0xc01f0f7f01101010027ffd20f0f0fd20); f (v16 0x76eb60018de8fe30a564ee7749efffeb) (v16 0x8975ae2daeb908102a799622325609ec); f (v16 0x007f010000ffff7f80800080ff01ff7f) (v16 0x0100ff80ff0001000080800080017f80); f (v16 0x00ff000000ff00ff000000018000ff00) (v16 0x800180ffff000000000000018000ff00)] =
  [Some (v16 0xcf70ef923e6ff0f28da113de8f121200); Some (v16 0xed76b1d4df2ff6207aeb58551799f5ff); Some (v16 0xff7f018001fffe7f800080807f007fff); Some (v16 0x80fe7f0101ff00ff0000000000000000)].
Proof. run. Qed.
Example wasm011 : let f := u_eq W128 WASM128 I16 in
  [f (v16 0x90ff02c0900fc0013f017fc0fe801f40) (v16 0xf0007fffffc0029011c01fff011ffdc0); f (v16 0x81410e79db0342e924b69646068e190e) (v16 0x3250810cdc4c36d5eeb24596e1313cf8); f (v16 0x80ffff01010000807f0000ff7fff0100) (v16 0xff0100ff00807f000001ffff807f7f01); f (v16 0x000080000001ff01ff0000ff800100ff) (v16 0x0001ffff8000ff00ffff00ff00ff0000)] =
  [Some (v16 0x00000000000000000000000000000000); Some (v16 0x00000000000000000000000000000000); Some (v16 0x00000000000000000000000000000000); Some (v16 0x00000000000000000000ffff00000000)].
Proof. run. Qed.
Example wasm012 : let f := u_add W128 WASM128 U32 in
  [f (v16 0x0211118090807e9020ff90101080408f) (v16 0x8f7ff08f0f01901f023f7e90fe021111); f (v16 0x1e8188191b810d6a95d86bb6c45a0218) (v16 0xee99ea49d6254cbcf69da5086360e0bf); f (v16 0xff80ff7f8000ff80000100ffff80017f) (v16 0xff00ff0100807f007f807f8001ff01ff); f (v16 0x800080008000ff01ff008000800100ff) (v16 0x800080008000ff01ff008000800100ff)] =
  [Some (v16 0x9191020f9f820eaf233f0ea00e8251a0); Some (v16 0x0d1b7262f1a65a268c7610be27bae2d7); Some (v16 0xfe81fe8080817e807f81807f017f037e); Some (v16 0x000100000001fe02fe010000000201fe)].
Proof. run. Qed.
Example wasm013 : let f := u_sub W128 WASM128 U32 in
  [f (v16 0xfeff107f7e807eff1f10bfc020ff0101) (v16 0x0f80207e8100fe7e81bf3fff201ffd8f); f (v16 0xf0aadb549481d5c72891e6980947b908) (v16 0x834dd2a395c1a21ea26415494bfe56b8); f (v16 0x8000ff0000000180ff7f7f7f00807f00) (v16 0x7f0180808080ff000000007f7f808000); f (v16 0xff0100ff800080ff80ff000180008000) (v16 0xff0100ffff00000080ff000180008000)] =
  [Some (v16 0xef7ef001fd7f80819d517fc100df0372); Some (v16 0x6d5d08b1fec033a9862dd14fbd496250); Some (v16 0x00ff7e807f7f0280ff7f7f0080ffff00); Some (v16 0x00000000810080ff0000000000000000)].
Proof. run. Qed.
Example wasm014 : let f := u_eq W128 WASM128 U32 in
  [f (v16 0xbff07f803f7e7f0011f0900010ff0f02) (v16 0x8fff1ffec0fd8f2081fdbf8001f0fe90); f (v16 0x9a5a26dbf4f8b8f49e68cf6edae8e475) (v16 0x8a599be0246c33bff601d0e908036473); f (v16 0x8080ff0000000101ff7fff8000000080) (v16 0xffff007f00ffff8080017fff0080ffff); f (v16 0x00ffffff000080ff00ff000100000001) (v16 0xff008001ffff800100ff000100000001)] =
  [Some (v16 0x00000000000000000000000000000000); Some (v16 0x00000000000000000000000000000000); Some (v16 0x00000000000000000000000000000000); Some (v16 0x0000000000000000ffffffffffffffff)].
Proof. run. Qed.
Example wasm015 : let f := u_add W128 WASM128 I32 in
  [f (v16 0x8f0110907e1f2081fdff01803f8f9090) (v16 0xbf00f0fefd0280bf3ffd1ff07ef07eff); f (v16 0x1a8cabe6d8d4a10986501976cd3565eb) (v16 0xf3fbf941f25e4f269b29ced654a08507); f (v16 0xff0100017f80017f7f7f01ff017f0180) (v16 0x7f010101007f7f80ff7f010100ff0100); f (v16 0x80ffffff0001ff0180ff800100018001) (v16 0x80ffffff0001ff0180ff800100018001)] =
  [Some (v16 0x4e02018e7b21a1403dfc2170be800f8f); Some (v16 0x0e88a527cb32f02f2179e84c21d5eaf2); Some (v16 0x7e0201027fff80ff7efe0300027e0280); Some (v16 0x01fffffe0003fe0201ff000200030002)].
Proof. run. Qed.
Example wasm016 : let f := u_sub W128 WASM128 I32 in
  [f (v16 0x3f107eff2010118f01027e403f010081) (v16 0x0f107ebf0110023ff07f8f1f80f01f7f); f (v16 0x26796d4d5b8bd4a96017ce9328a919f0) (v16 0x8fb79e407ae3ed218803d8323c582bae); f (v16 0x7fff0100017f00ff807fff0001010101) (v16 0x80ff0001ff7f000100ffff80ff7f7f00); f (v16 0x8001ffff80ffff0180ff80ff00018001) (v16 0x8001ffff80ffff0180ff80ff00018001)] =
  [Some (v16 0x300000401f000f501082ef21be10e102); Some (v16 0x96c1cf0de0a7e788d813f661ec50ee42); Some (v16 0xff0000ff020000fe7f7fff8001818201); Some (v16 0x00000000000000000000000000000000)].
Proof. run. Qed.
Example wasm017 : let f := u_eq W128 WASM128 I32 in
  [f (v16 0x8f3f81ff1f7f807f80bffd80bffd2000) (v16 0x00fd1ff0f01f11ff007f0fc0fdc03f00); f (v16 0x5dccd9e7a8586dc23bb82845f8cecbc4) (v16 0x169fe6de7f4989baebe58be2f2021330); f (v16 0x7f80ffff017f01800001010180017f00) (v16 0xff7f0000ff808080000100ff0101807f); f (v16 0x000100ffff01ff000001800000ff80ff) (v16 0x000100ffff01ff00ff0180ff80000001)] =
  [Some (v16 0x00000000000000000000000000000000); Some (v16 0x00000000000000000000000000000000); Some (v16 0x00000000000000000000000000000000); Some (v16 0xffffffffffffffff0000000000000000)].
Proof. run. Qed.
Example wasm018 : let f := u_add W128 WASM128 U64 in
  [f (v16 0x02ff1ffd10fd107f201f7e908102ffc0) (v16 0x80813f3fbf0210f0f08f017e0f110181); f (v16 0x99b081d8ca30b1aefb66d4145fdbd325) (v16 0x49989677df3c08f9c974fb509a0d189e); f (v16 0x7f007f000180010001ff0100ff7f8080) (v16 0x00ff7fff01ff01ff808080ff80808000); f (v16 0x0000800100ff0000ffff000000ffff01) (v16 0x00ff0000ff01ff01ffff000000ffff01)] =
  [Some (v16 0x83805f3ccfff216f10ae800e90140141); Some (v16 0xe3491850a96cbaa7c4dbcf64f9e8ebc3); Some (v16 0x7ffffeff037f02ff827f820080000080); Some (v16 0x00ff80020000ff01fffe000001fffe02)].
Proof. run. Qed.
Example wasm019 : let f := u_sub W128 WASM128 U64 in
  [f (v16 0x3f818101fec0207efe1f81008ff0fe1f) (v16 0x8f108f11813ffe0f010f7e0011108fc0); f (v16 0x3ede21eb6fa6e7e90d91e4fa52962bec) (v16 0x74fcd41b5a4595ec9c1f74fb156bd029); f (v16 0x7f80ff7f8000ff00007f807f007f0001) (v16 0x00ffff7fff00ff7f010180ff01807f80); f (v16 0xff0100008001ff000000ff01ff008000) (v16 0xff0100008001ff000000ff01ff008000)] =
  [Some (v16 0xb070f1f07d80226ffd1003007ee06e5f); Some (v16 0xc9e14dd0156151fd71726fff3d2a5bc3); Some (v16 0x7e80ffff80ffff81ff7dff7ffefe8081); Some (v16 0x00000000000000000000000000000000)].
Proof. run. Qed.
Example wasm020 : let f := u_eq W128 WASM128 U64 in
  [f (v16 0x000180bfff80807e1fbf8f0281fd1f00) (v16 0x40400f7e901f1ffe11bf0f10f0fd0f01); f (v16 0x0f39ada51c5ee4fb9164e568c8be6cd3) (v16 0x6e9535505441735dbc624cc6e08fba64); f (v16 0xff00ff00ff8080000180ff00007f007f) (v16 0x80017f0000ff000001ff010000800180); f (v16 0x8001ffff80ff800100018001800000ff) (v16 0xffff0000ff00ffff00018001800000ff)] =
  [Some (v16 0x00000000000000000000000000000000); Some (v16 0x00000000000000000000000000000000); Some (v16 0x00000000000000000000000000000000); Some (v16 0x0000000000000000ffffffffffffffff)].
Proof. run. Qed.
Example wasm021 : let f := u_add W128 WASM128 I64 in
  [f (v16 0x1f2081fd8000febf4010c002fe7f807e) (v16 0x40f0f08fff8020feff1fff7f7f027e10); f (v16 0xe3c0fb19fd19fca3ab21d10ffe9f3811) (v16 0xb786ed7f8a29e425a3dfd2c072468965); f (v16 0x01800100ff80ff0080018001ffff8000) (v16 0x0180ff800080807f8001017f01ff8000); f (v16 0xff00ff0000ff00010000800180008000) (v16 0xff0080ff0000ff0080ff00000000ff01)] =
  [Some (v16 0x6011728d7f811fbd3f30bf827d81fe8e); Some (v16 0x9b47e8998743e0c84f01a3d070e5c176); Some (v16 0x0301008100017f7f0002818101ff0000); Some (v16 0xfe017fff00ffff0180ff800180017f01)].
Proof. run. Qed.
Example wasm022 : let f := u_sub W128 WASM128 I64 in
  [f (v16 0x1080900110201f8110fdfe40fe020220) (v16 0x811f818f400001118ffe0f012080807f); f (v16 0x30b3e48d31eb143b61d04a38ff508e62) (v16 0xdc4b560c08efb4d76292e3b1e095a2d4); f (v16 0x80ff0000ff0001017f7fff7f800100ff) (v16 0x01ff00ffff80010001ff00007f7f0000); f (v16 0xff0000ffff0180ff0001ff01ff00ff00) (v16 0xffff8000000180ffff0180018001ffff)] =
  [Some (v16 0x8f610e71d0201e7080ffef3fdd8181a1); Some (v16 0x54688e8128fb5f64ff3d66871ebaeb8e); Some (v16 0x7effff00ff8000017d80ff7f008200ff); Some (v16 0xff0080ffff00000001007f007efeff01)].
Proof. run. Qed.
Example wasm023 : let f := u_eq W128 WASM128 I64 in
  [f (v16 0x028f7eff400ff01ffe10fef08140001f) (v16 0x1ffdc0001ffe8f00fe01f002fd10fffd); f (v16 0x2fcabdf845398f021d076fe2c1f38c6c) (v16 0x18a702b8119933904bbd3f8efe26eb1d); f (v16 0x7f017fff000000ff0001ff0000000080) (v16 0x7f00807fff0000ff7f010101807fffff); f (v16 0x00000000000080ffffff800100ffff01) (v16 0x00ff00ff80ffff0080ffffff000180ff)] =
  [Some (v16 0x00000000000000000000000000000000); Some (v16 0x00000000000000000000000000000000); Some (v16 0x00000000000000000000000000000000); Some (v16 0x00000000000000000000000000000000)].
Proof. run. Qed.
Example wasm024 : let f := u_lt W128 WASM128 I8 in
  [f (v16 0x90ff8f3f0101febfbf1f801f1f80808f) (v16 0x3ff00101c0c00f117f20f07f11fd7f20); f (v16 0x35a8dd3e40599249d2078cf6dffa5cdb) (v16 0xe19611c0e6eb3af0a3083993edc34303); f (v16 0x8001ff7f7f01000080ff80ff007f8080) (v16 0x01800101ffff80010000018001000180); f (v16 0xff0080010001ffff00ff80ff0001ff01) (v16 0xff0080010001ffff00ff80ff0001ff01)] =
  [Some (v16 0xff00ff000000ffffffffffff00ffffff); Some (v16 0x0000ff000000ff0000ffff00ff0000ff); Some (v16 0xff00ff00000000ffffffff00ff00ff00); Some (v16 0x00000000000000000000000000000000)].
Proof. run. Qed.
Example wasm025 : let f := u_lt W128 WASM128 U8 in
  [f (v16 0x7e8181110f1f117e0ff01f8020901102) (v16 0x81007f817ec03f407e7e008f02fd103f); f (v16 0x20c540555e43ec25fb20b3b4e48ed4d9) (v16 0x90764518255cdb63fe757b2c1ce3cf40); f (v16 0x0180807fffffff007f807f7f7f0001ff) (v16 0xff80ffff00000000800101ff01008000); f (v16 0x80ff00ff80018001ff01000180000001) (v16 0x00ff0000ff0100008000000180008001)] =
  [Some (v16 0xff0000ffffffff00ff0000ff00ff00ff); Some (v16 0xff00ff0000ff00ffffff000000ff0000); Some (v16 0xff00ffff00000000ff0000ff0000ff00); Some (v16 0x00000000ff000000000000000000ff00)].
Proof. run. Qed.
Example wasm026 : let f := u_lt W128 WASM128 I16 in
  [f (v16 0x0fbfff01fef080818190feff1f0fbf81) (v16 0xf04002118001fe40f011118f20400080); f (v16 0x202bb1992010e8fc42f5d41de5136642) (v16 0x2193db410d5ba557b168e48747a2edce); f (v16 0x7fff017f0180018000017f0101000080) (v16 0x7f80ff0000ff0100000000807f01ff7f); f (v16 0xffffff0100ff000000ffff00ffffff00) (v16 0xff000001800100ff00ffff00ffffff00)] =
  [Some (v16 0x0000ffff0000ffffffffffffffffffff); Some (v16 0xffffffff000000000000ffffffff0000); Some (v16 0x000000000000000000000000ffff0000); Some (v16 0x0000ffff0000ffff0000000000000000)].
Proof. run. Qed.
Example wasm027 : let f := u_lt W128 WASM128 U16 in
  [f (v16 0xfdfdff1f1110bf40c01ffdbff0207f00) (v16 0xbf7eff3f1fc0110102c08140c000808f); f (v16 0xd8c1daeead10599613c819dde55ac88a) (v16 0x566353008960b9e117fdb1599e2b462d); f (v16 0xff01ff8000807f017f7f00ff017fff7f) (v16 0xff017f8080007f7f01017f7f807f807f); f (v16 0x00ff000080ff800080ff80008001ff00) (v16 0x8001ffffffffff00ff000001ff01ffff)] =
  [Some (v16 0x0000ffffffff0000000000000000ffff); Some (v16 0x000000000000ffffffffffff00000000); Some (v16 0x00000000ffffffff0000ffffffff0000); Some (v16 0xffffffffffffffffffff0000ffffffff)].
Proof. run. Qed.
Example wasm028 : let f := u_lt W128 WASM128 I32 in
  [f (v16 0xf0810f801f10fef0c0117f2002ff40bf) (v16 0xff7e01013f408081f0bf80c03f20203f); f (v16 0x49ee108a1d635c6ff08e70936f8c38a9) (v16 0x067e92f03c3142e3face75a6d17a2e7b); f (v16 0xff80ff0180017f807f01ff8080ff00ff) (v16 0x8001008080007f00ff010001ffff0100); f (v16 0xff010001ff0100000001ffffff010001) (v16 0xff010001ff0100000000ff01ffff0000)] =
  [Some (v16 0xffffffffffffffffffffffffffffffff); Some (v16 0x00000000ffffffffffffffff00000000); Some (v16 0x000000000000000000000000ffffffff); Some (v16 0x000000000000000000000000ffffffff)].
Proof. run. Qed.
Example wasm029 : let f := u_lt W128 WASM128 U32 in
  [f (v16 0x7e003f11f0ff900f0140c081208f0ff0) (v16 0xfdc0207ffff02002028180900f0f0110); f (v16 0x12aa7b5952ff84d69f29e2d76260a336) (v16 0x28b5d27ffd2ba77766917f15385c35d4); f (v16 0x7f00017f018080010101ff7f01010101) (v16 0x7f00ff00ff7f7fff80ff7f807f0180ff); f (v16 0xff0080010000ff000001ff0080018001) (v16 0x00ff0000800080ff0001ff0080018001)] =
  [Some (v16 0xffffffffffffffffffffffff00000000); Some (v16 0xffffffffffffffff0000000000000000); Some (v16 0xffffffffffffffffffffffffffffffff); Some (v16 0x00000000ffffffff0000000000000000)].
Proof. run. Qed.
Example wasm030 : let f := u_lt W128 WASM128 I64 in
  [f (v16 0x111ff01180bf90ff0210bf1181101f01) (v16 0xff7e7e1181907fbf40807ffd7e1180fe); f (v16 0x557037213ee289de54e20f9d7935809a) (v16 0x9df0b3baceca76ecc381c1bf09a87ab2); f (v16 0x800000800101ffff8080018001808000) (v16 0x80807fff807f7fffff00807f01ff0101); f (v16 0xff000001ff01ff01ff0080ff00ffffff) (v16 0x00ff80008001ff010000800180000000)] =
  [Some (v16 0x0000000000000000ffffffffffffffff); Some (v16 0x00000000000000000000000000000000); Some (v16 0xffffffffffffffffffffffffffffffff); Some (v16 0xffffffffffffffffffffffffffffffff)].
Proof. run. Qed.
Example wasm031 : let f := u_add_sat W128 WASM128 I8 in
  [f (v16 0x01023ff0ff7eff00113fbfc0ff7ebf11) (v16 0xc03ffeffbfc0f0401ffff07ebf1f3f7f); f (v16 0xe70a352c46257aad00daa20bb7aac101) (v16 0x3937931d55c412a12ab621fda5fa2627); f (v16 0x0000010001807f007f807f80ffff7fff) (v16 0x0000010100800180ff0101ff7f808001); f (v16 0x0000ff0100ff0000ffff00000000ffff) (v16 0x0000ffff80ffff01ffffffff00ff80ff)] =
  [Some (v16 0xc1413defbe3eef40303eaf3ebe7ffe7f); Some (v16 0x2041c8497fe97f802a90c30880a4e728); Some (v16 0x0000020101807f807e817f807e80ff00); Some (v16 0x0000fe0080feff01fefeffff00ff80fe)].
Proof. run. Qed.
Example wasm032 : let f := u_add_sat W128 WASM128 U8 in
  [f (v16 0x2001ff8fff80f08002400200408fbf90) (v16 0x818fff0081f0013f8ffdfd8081000f7f); f (v16 0x029e8b9dd2a58f8316bd726994bdd9bb) (v16 0xacdbbe0d73313f1a7d20755d43bb7e29); f (v16 0x7f017f807f800180018080000001807f) (v16 0x80000001807f010180ff0001007f0000); f (v16 0x00018001ff0000ff0000ffffffff00ff) (v16 0xffff00ff800100010000ffffffff00ff)] =
  [Some (v16 0xa190ff8ffffff1bf91ffff80c18fceff); Some (v16 0xaeffffaaffd6ce9d93dde7c6d7ffffe4); Some (v16 0xff017f81ffff028181ff80010080807f); Some (v16 0xffff80ffff0100ff0000ffffffff00ff)].
Proof. run. Qed.
Example wasm033 : let f := u_add_sat W128 WASM128 I16 in
  [f (v16 0xfd100f020202401180027f3f3f0202fd) (v16 0x3f11fefe7ffd7efd0f1f01013f807e80); f (v16 0x67d21d7cd94c0ac7385269731260b5c9) (v16 0x4e52d88b7347cb7e88738b08bbc01201); f (v16 0x0100ffff01ffff00000101017f7f80ff) (v16 0x0100807fff7f00807fffff8080ff017f); f (v16 0x0000000080018001ff00800180ff00ff) (v16 0x0000000080018001ff00800180ff00ff)] =
  [Some (v16 0x3c210e007fff7fff8f217fff7e827fff); Some (v16 0x7ffff6074c93d645c0c5f47bce20c7ca); Some (v16 0x0200807e017eff807fff0081007e827e); Some (v16 0x0000000080008000fe008000800001fe)].
Proof. run. Qed.
Example wasm034 : let f := u_add_sat W128 WASM128 U16 in
  [f (v16 0x00017ec0c0201f3ffe3f8111fe80021f) (v16 0x8090fe108f807e0f3f81fe202000bf7e); f (v16 0xd52d5f1006fcd07dca34e7e6fe07e6b5) (v16 0x0f1009f166bd25d863f5dabf5fb4f9ee); f (v16 0xff01ffff007f00017f7f01ffff008001) (v16 0x8080ffff010180ff00ff7f0101ffff7f); f (v16 0x00ffffffffff80ff00ff80ff8000ff01) (v16 0xffff8001ff01000100ff80ff8000ff01)] =
  [Some (v16 0x8091ffffffff9d4effffffffffffc19d); Some (v16 0xe43d69016db9f655ffffffffffffffff); Some (v16 0xffffffff01808100807e8100ffffffff); Some (v16 0xffffffffffff810001feffffffffffff)].
Proof. run. Qed.
Example wasm035 : let f := u_sub_sat W128 WASM128 I8 in
  [f (v16 0xff0ffd10bff010fd10ff117e7f208fc0) (v16 0xfe4011f0fdc08ff08081fefe7f0f7eff); f (v16 0x29d6a3708925338bae85d5a4e6bbce00) (v16 0x056c2ac11f38cd8f3fdf015873c87fb7); f (v16 0x0000ff80ff010001807f7f0180017f01) (v16 0x00017f01000180807fff0180ff7fff01); f (v16 0xff008001800000010000800080010001) (v16 0xff008001800000018000ff00ffffffff)] =
  [Some (v16 0x01cfec20c2307f0d7f7e137f001180c1); Some (v16 0x2480807f80ed66fc80a6d48080f38049); Some (v16 0x00ff8080ff007f7f807f7e7f81827f00); Some (v16 0x00000000000000007f00810081020102)].
Proof. run. Qed.
Example wasm036 : let f := u_sub_sat W128 WASM128 U8 in
  [f (v16 0xfffef00f02c0bf80c07f021ffd810280) (v16 0x02bf00207e001090fd118010208ff07f); f (v16 0x47ddc59ae0529344993113cdb64c34a2) (v16 0x02783707e36c9c35e897b722342ef541); f (v16 0x7f80ff01ff7f0100ff7fff8080000000) (v16 0x7f7f01ff00ff7fffffff8000ffff7f80); f (v16 0x80ffff0000010000ffff000180010001) (v16 0x80ffff000001000000010001000100ff)] =
  [Some (v16 0xfd3ff00000c0af00006e000fdd000001); Some (v16 0x45658e930000000f000000ab821e0061); Some (v16 0x0001fe00ff00000000007f8000000000); Some (v16 0x0000000000000000fffe000080000000)].
Proof. run. Qed.
Example wasm037 : let f := u_sub_sat W128 WASM128 I16 in
  [f (v16 0x11f01fc00fbf011180001010f081bfff) (v16 0x90804090fd908f0f8f1ffd118001c07e); f (v16 0x37618dcdffbf7ca091331b9cbebff5f7) (v16 0xb95d9c7b86761e2bf1bbcb7d6b91599b); f (v16 0x7f807f7fff7f7f800001ffffff008000) (v16 0x80800000ff000080007f800001807f01); f (v16 0x00000000ffff80ff8000800100ff8001) (v16 0x80ff0001ffff80ff8000800100ff8001)] =
  [Some (v16 0x7fffdf30122f7202f0e112ff7080ff81); Some (v16 0x7e04f15279495e759f78501f80009c5c); Some (v16 0x7fff7f7f007f7f00ff827ffffd808000); Some (v16 0x7f01ffff000000000000000000000000)].
Proof. run. Qed.
Example wasm038 : let f := u_sub_sat W128 WASM128 U16 in
  [f (v16 0x81f09040fe028f1011118f8fc00010fd) (v16 0xfd90f0fefd1f001fff02f002403f90fd); f (v16 0x4f163f5650475f3a8184c00b3d42e464) (v16 0x3689f606a91559a1e444cfaff7adc745); f (v16 0xff807f7f017f7fff0180ff0000017f7f) (v16 0xff7f0080ff0080ff0001007f7f00007f); f (v16 0x000080ffffff800080ff0000ffff0000) (v16 0x80ff8000800100ff80ff0000ffff0000)] =
  [Some (v16 0x0000000000e38ef1000000007fc10000); Some (v16 0x188d0000000005990000000000001d1f); Some (v16 0x00017eff00000000017ffe8100007f00); Some (v16 0x000000ff7ffe7f010000000000000000)].
Proof. run. Qed.
Example wasm039 : let f := u_min W128 WASM128 I8 in
  [f (v16 0xff81f0208f3fc0fd4002f0bff0028f7f) (v16 0x20bf110190fdbf00f0100f0f008f20ff); f (v16 0x2d3ec049f45df35b9fe47668b31267cb) (v16 0xd6237cdcd80096584cc211ef805c10a1); f (v16 0x00ff00ff01ff01ff7f017fff7f0001ff) (v16 0x0000ffffff00007f010001ff7f80ff7f); f (v16 0x00010001ff000001ff01ff00800000ff) (v16 0x00010001ff000001ff01ff00800000ff)] =
  [Some (v16 0xff81f0018ffdbffdf002f0bff08f8fff); Some (v16 0xd623c0dcd80096589fc211ef801210a1); Some (v16 0x00ffffffffff00ff010001ff7f80ffff); Some (v16 0x00010001ff000001ff01ff00800000ff)].
Proof. run. Qed.
Example wasm040 : let f := u_max W128 WASM128 I8 in
  [f (v16 0x20fd813f017f100280f07e7fbff080bf) (v16 0x01201f00f0907f7ffe010fbf7ef08080); f (v16 0x167fb1bb152bc832f4fd0a91f68a5657) (v16 0xaa6ffa8e7adc3c45f3bc5e6a2b2fd1b5); f (v16 0x00ff807fff007f00ff0080007f018000) (v16 0xff0080ff807f0080ff0080000080ffff); f (v16 0xffffff00ffffffff80010000000180ff) (v16 0xffffff00ffffffff80010000000180ff)] =
  [Some (v16 0x20201f3f017f7f7ffe017e7f7ef080bf); Some (v16 0x167ffabb7a2b3c45f4fd5e6a2b2f5657); Some (v16 0x0000807fff7f7f00ff0080007f01ff00); Some (v16 0xffffff00ffffffff80010000000180ff)].
Proof. run. Qed.
Example wasm041 : let f := u_min W128 WASM128 U8 in
  [f (v16 0x017f00028f027f108f028111107e8181) (v16 0x10bf40ff7f20fd11f0c000fdf08fc0fd); f (v16 0xa0cc1c073deda9766eeec3cc6c6b1232) (v16 0xf35517e33367ac8bf6cc3caaf22cfdb3); f (v16 0x7f80ffff8000ff80000100ff7f8000ff) (v16 0xff00ff800100800100ff8080800100ff); f (v16 0x8000800000ffffffff01800000ff00ff) (v16 0x8000800000ffffffffff8000ffff8000)] =
  [Some (v16 0x017f00027f027f108f020011107e8181); Some (v16 0xa05517073367a9766ecc3caa6c2c1232); Some (v16 0x7f00ff8001008001000100807f0100ff); Some (v16 0x8000800000ffffffff01800000ff0000)].
Proof. run. Qed.
Example wasm042 : let f := u_max W128 WASM128 U8 in
  [f (v16 0xffff8090010090fd10ffff801f0040fd) (v16 0x3f018f01009000c0403f1fff0f80208f); f (v16 0x88810614e92a18297b9ac39b2a5fbb18) (v16 0x59941732daf12a0cc5a093754341c644); f (v16 0x7f807fff7f7f0001ff00ff0100008080) (v16 0x017f007f0001ff007f00007f0001017f); f (v16 0xff000001800100ff00ff800000ff0001) (v16 0x8000ff01ff0000018001ff00ffff0000)] =
  [Some (v16 0xffff8f90019090fd40ffffff1f8040fd); Some (v16 0x88941732e9f12a29c5a0c39b435fc644); Some (v16 0x7f807fff7f7fff01ff00ff7f00018080); Some (v16 0xff00ff01ff0100ff80ffff00ffff0001)].
Proof. run. Qed.
Example wasm043 : let f := u_min W128 WASM128 I16 in
  [f (v16 0x20f00ff0fd901f10fd0020bfc0803f80) (v16 0xbfff7e3fbf20c0108fc0801001c010bf); f (v16 0x9a870a902784bf5bafca70a8ed538980) (v16 0xb05384f30c85a8050fcc6a649464e519); f (v16 0xff0180007fff807f00ff80ff0080807f) (v16 0x000001017f01ff7f7f7f7fff807f007f); f (v16 0xffff00ff80ff00ffff000001ffffff00) (v16 0x80ff80ff80ffff000001800180ff00ff)] =
  [Some (v16 0xbfff0ff0bf20c0108fc08010c08010bf); Some (v16 0x9a8784f30c85a805afca6a6494648980); Some (v16 0xff0180007f01807f00ff80ff807f807f); Some (v16 0x80ff80ff80ffff00ff00800180ffff00)].
Proof. run. Qed.
Example wasm044 : let f := u_max W128 WASM128 I16 in
  [f (v16 0xfd1f7e4090bf2002800f10007e20407e) (v16 0x1f8f3fff4040fff00201bf3ffd7e7f00); f (v16 0xc53c5459219ee3d61f447b1ff456fb94) (v16 0xc6a95e46294bd10bde088891df48e9db); f (v16 0x80017fff808080000101ff7f00800001) (v16 0xff8080ff807f01ff7f007f7f7f017f80); f (v16 0x80ff000000ffffffff008000ffffff00) (v16 0x80018000000080ff00ff8001ff010000)] =
  [Some (v16 0x1f8f7e4040402002020110007e207f00); Some (v16 0xc6a95e46294be3d61f447b1ff456fb94); Some (v16 0xff807fff808001ff7f007f7f7f017f80); Some (v16 0x80ff000000ffffff00ff8001ffff0000)].
Proof. run. Qed.
Example wasm045 : let f := u_min W128 WASM128 U16 in
  [f (v16 0x109020ff40fe02018002fe8ff0817f90) (v16 0x7e9081c0bf1ffdfdc01f3f3fff007f20); f (v16 0x2150df60e1a4b066207901bd396bb575) (v16 0x07b2533aab32fbe50385ea070e6c1f59); f (v16 0x7fffffff00007f807f007f007f017f80) (v16 0x018001010100017f80807f7f807fff01); f (v16 0xff0080ff0001800000ff8001ff0180ff) (v16 0xff010000ff0180ff00ff8001ff0180ff)] =
  [Some (v16 0x109020ff40fe020180023f3ff0817f20); Some (v16 0x07b2533aab32b066038501bd0e6c1f59); Some (v16 0x018001010000017f7f007f007f017f80); Some (v16 0xff0000000001800000ff8001ff0180ff)].
Proof. run. Qed.
Example wasm046 : let f := u_max W128 WASM128 U16 in
  [f (v16 0x800020c090814011f01ffd100ff01f7e) (v16 0x200211bf817f7e90fd117e010f0fbf1f); f (v16 0xb3ec2decda8041380d33b44672c4294d) (v16 0x40f86a4a316119c3951cb5d76adf7fe8); f (v16 0x010100000001ff80807f0000ff7fff01) (v16 0x01ff8000007f7f7fffffff7f7f018001); f (v16 0x000100ffff00ffff0001ff010000ff00) (v16 0x000100ffff00ffff0001ff010000ff00)] =
  [Some (v16 0x800020c090817e90fd11fd100ff0bf1f); Some (v16 0xb3ec6a4ada804138951cb5d772c47fe8); Some (v16 0x01ff8000007fff80ffffff7fff7fff01); Some (v16 0x000100ffff00ffff0001ff010000ff00)].
Proof. run. Qed.
Example wasm047 : let f := u_min W128 WASM128 I32 in
  [f (v16 0x817f3f818f90020ff0813ffe1f7e7f1f) (v16 0xfe0281c0ff7f7f8f8fff908f7e02c0c0); f (v16 0x73caadab6cf9e0a8c765347aec0fd9ae) (v16 0x8a4640890bd20366a19d072849b753dc); f (v16 0x0100ff01ffffff7fffff7f80ff80ff00) (v16 0xff7fff00007f018080ff018000000080); f (v16 0xff018001800000010001000100ffff01) (v16 0x00008001000180010001000100ffff01)] =
  [Some (v16 0x817f3f818f90020f8fff908f1f7e7f1f); Some (v16 0x8a4640890bd20366a19d0728ec0fd9ae); Some (v16 0xff7fff00ffffff7f80ff0180ff80ff00); Some (v16 0xff018001800000010001000100ffff01)].
Proof. run. Qed.
Example wasm048 : let f := u_max W128 WASM128 I32 in
  [f (v16 0xfeff011f01801001fe903f81ff3f4040) (v16 0x100f813fbf3ffff00ff010fe7f00f000); f (v16 0xca73bb0cf44a450b7e3bfd739dfbe695) (v16 0xe5fa9909e27f089009737d9ae46b7f84); f (v16 0x01007f01010100808080ffff0001017f) (v16 0x017fff0080ffff000101ffffff7f0100); f (v16 0x0000ffff80ff00ff00ffff00ffffff00) (v16 0x00ff00018000ffff00ffff00ffffff00)] =
  [Some (v16 0x100f813f018010010ff010fe7f00f000); Some (v16 0xe5fa9909f44a450b7e3bfd73e46b7f84); Some (v16 0x017fff00010100800101ffff0001017f); Some (v16 0x00ff000180ff00ff00ffff00ffffff00)].
Proof. run. Qed.
Example wasm049 : let f := u_min W128 WASM128 U32 in
  [f (v16 0xf08f7f1fbf900040f080007e3f001f80) (v16 0xff7ff081fe20f0c010fd0f8f8190907e); f (v16 0x1d197256992eaf6e2f0f2fe05280b908) (v16 0x6007e76ac152870b3b3d2bdc4260f5e4); f (v16 0xff00017f8001ff807f00ff7f7f000080) (v16 0x0080ff80007fff807f0000ffff000001); f (v16 0xffff8001ffffff00ffff00ffffff8001) (v16 0xffff8001ffffff000000ff01800180ff)] =
  [Some (v16 0xf08f7f1fbf90004010fd0f8f3f001f80); Some (v16 0x1d197256992eaf6e2f0f2fe04260f5e4); Some (v16 0x0080ff80007fff807f0000ff7f000080); Some (v16 0xffff8001ffffff000000ff01800180ff)].
Proof. run. Qed.
Example wasm050 : let f := u_max W128 WASM128 U32 in
  [f (v16 0xfe80017e7e10c0bf10810190bfff800f) (v16 0x11800f01f011fdfe7f1011bfbffe0f0f); f (v16 0x0d92a1cb6883736bc1b9d798814cf45e) (v16 0x38b7589cd0ebed12e0137b245a238754); f (v16 0x7f007f000180007f0101017fffffff7f) (v16 0x7fff01017f7fff007f0001ff00008000); f (v16 0x00ff000000008000ff0100ff800100ff) (v16 0x00ff000000008000ff0100ff800100ff)] =
  [Some (v16 0xfe80017ef011fdfe7f1011bfbfff800f); Some (v16 0x38b7589cd0ebed12e0137b24814cf45e); Some (v16 0x7fff01017f7fff007f0001ffffffff7f); Some (v16 0x00ff000000008000ff0100ff800100ff)].
Proof. run. Qed.
Example wasm051 : let f := v128_and WASM128 in
  [f (v16 0x7e018f027f7f11f00181fe203f40febf) (v16 0xfd0f201f1f0102908f7eff107f40fefd); f (v16 0x539451bfc0c1558e5f836fbd3c6302d9) (v16 0x07518393dac10e5283d0040a4a52d37e); f (v16 0x8000ff80807f00018001800080ff0100) (v16 0x7f7f01ff8000ff00ff80010001ff0001); f (v16 0x80ffffff80008000ffffffffffff8000) (v16 0x80ffffff80008000ffffffffffff8000)] =
  [Some (v16 0x7c0100021f0100900100fe003f40febd); Some (v16 0x03100193c0c104020380040808420258); Some (v16 0x00000180800000008000000000ff0000); Some (v16 0x80ffffff80008000ffffffffffff8000)].
Proof. run. Qed.
Example wasm052 : let f := v128_andnot WASM128 in
  [f (v16 0xbf8080feff1190400f111f7f7e817efd) (v16 0x7f400200c0107ebff08fbf7e007f4010); f (v16 0x1f8b433ffd21471662d9e2bb2904908e) (v16 0xf5e9bdfc3949a948e6996114ce0a38c6); f (v16 0x0100010180807f8080ff017f808000ff) (v16 0x7f010000ffff017fff7f807f7f017f7f); f (v16 0x0001800100000000ffff0001ffffffff) (v16 0x0001800100000000ffff0001ffffffff)] =
  [Some (v16 0x808080fe3f0180400f1000017e803eed); Some (v16 0x0a024203c4204616004082ab21048008); Some (v16 0x0000010100007e800080010080800080); Some (v16 0x00000000000000000000000000000000)].
Proof. run. Qed.
Example wasm053 : let f := v128_or WASM128 in
  [f (v16 0x7f0001fe10f011f08090bf3f0f02fd8f) (v16 0x8f3f801020810f00f00fff01bf9081c0); f (v16 0x956be3ca7a7f652852ca12d2d1fb1d7c) (v16 0x5a3bac0ba22d4754778bb9fe81e4a72f); f (v16 0x007f00807f7f0101808080017fff7f01) (v16 0x80007f01800000007fff7f0001008000); f (v16 0xff00800080ff00000000ff0080018000) (v16 0xff00800080ff00000001ff018000ff00)] =
  [Some (v16 0xff3f81fe30f11ff0f09fff3fbf92fdcf); Some (v16 0xdf7befcbfa7f677c77cbbbfed1ffbf7f); Some (v16 0x807f7f81ff7f0101ffffff017fffff01); Some (v16 0xff00800080ff00000001ff018001ff00)].
Proof. run. Qed.
Example wasm054 : let f := v128_xor WASM128 in
  [f (v16 0xbffe00bf1fff0f0f0f10fe0202203f7e) (v16 0x20fe010f7e81ff3f7e810202f07e7ffe); f (v16 0x0b064ccbca4096606896ba4a4edf5b7b) (v16 0x5aae356c07a322ea6c6899878b7b4073); f (v16 0x807f7f7f00017f00ffff8000007f007f) (v16 0x017f007f7f8000ff007f7f7f0080ff80); f (v16 0xff01ffffffffff0000ff000000ffffff) (v16 0xff01ff0000010001ffffffff000180ff)] =
  [Some (v16 0x9f0001b0617ef0307191fc00f25e4080); Some (v16 0x51a879a7cde3b48a04fe23cdc5a41b08); Some (v16 0x81007f007f817fffff80ff7f00ffffff); Some (v16 0x000000fffffeff01ff00ffff00fe7f00)].
Proof. run. Qed.
Example wasm055 : let f := v128_not WASM128 in
  [f (v16 0x7f01ff2080fd8fc0407e113f010110c0); f (v16 0x9893b48fdf21953a864832d43101fd44); f (v16 0x7fff017f7f01ffffff00807f7f000000); f (v16 0xff0100ff00ff000100ff8001ff01ff01)] =
  [Some (v16 0x80fe00df7f02703fbf81eec0fefeef3f); Some (v16 0x676c4b7020de6ac579b7cd2bcefe02bb); Some (v16 0x8000fe8080fe000000ff7f8080ffffff); Some (v16 0x00feff00ff00fffeff007ffe00fe00fe)].
Proof. run. Qed.
Example wasm056 : let f := v128_bsl WASM128 in
  [f (v16 0xc07e10fd021111fd01ff81817fc0fe80) (v16 0x81400210fd90003f401f11ffbf811190) (v16 0x4090bf7f818f001181118f1f40112010); f (v16 0xe1e3989710575845312bec27c783845f) (v16 0x092f25edbea4d3340502a5290801b22c) (v16 0x0268762268456510dd64ea1c067998de); f (v16 0x00007f7f0100ff010101017f007fff80) (v16 0xff007fff01007f80ff7f800000ffff80) (v16 0x0000ff8000807f01017f7f017f80ffff); f (v16 0x0000ff010000ffff00000001800000ff) (v16 0x0000ff010000ffffffff8001ff0080ff) (v16 0xff0180ffff01800100ffff00ff000001)] =
  [Some (v16 0x80c0af12819e003d801f0f9f3f911090); Some (v16 0x032b66a578047514cd46a6390079988c); Some (v16 0x0000ffff01807f00017f7e007fffffff); Some (v16 0xff01ffffff01ffff00ffff01ff0000ff)].
Proof. run. Qed.
Example wasm057 : let f := i16x8_mul_lo WASM128 in
  [f (v16 0x0280bf80fd0f90f0bfc001ff01807ffd) (v16 0x0fff7efe90207e7ffe8ff0bf007f0201); f (v16 0x66f4609691439719f13cc8c832280956) (v16 0x18b7a0079ea08e0c1c6d8395abf51378); f (v16 0xff807f0001000101ff01ff7fffff0100) (v16 0xff01017f80017f018000808000ff7f01); f (v16 0x8000000180ff8001ff00ff010001ff00) (v16 0x8001800180008000ff00ff010001ff00)] =
  [Some (v16 0xfd80010011e007109c408d41be8079fd); Some (v16 0x786c641a23e0f32c468c3468b848c250); Some (v16 0x7f8001000100800180003f80ff010100); Some (v16 0x80008001800080000000fe0100010000)].
Proof. run. Qed.
Example wasm058 : let f := i32x4_mul_lo WASM128 in
  [f (v16 0x813f0f9000401f0f3f7f020f01bf0180) (v16 0x40bf7f20811f100011fefe8f408140f0); f (v16 0xfd593b046d0418105332b4787bcafba0) (v16 0x358762b0a37fb651eabcfa78f85fb0b3); f (v16 0x007f017fff7f7f807fff7f7f010001ff) (v16 0xffff00807fff808000007f8001007f00); f (v16 0x0000ff018000ff008001ffffff000000) (v16 0x0000ff018000ff008001ffffff000000)] =
  [Some (v16 0x0d0a620053c1f00085df086124f16800); Some (v16 0x490c1ac08756fd10bc21c8407c4bf0e0); Some (v16 0x3e01bf80ffffc000bfffc080fffd8100); Some (v16 0xfe02fe01fe010000fffc000100000000)].
Proof. run. Qed.
Example wasm059 : let f := u8x16_avgr WASM128 in
  [f (v16 0x013f807e1f7e8f01c0018ffe01ff908f) (v16 0x3f0f109001800f7e00fffd0180fefeff); f (v16 0x66fe041ba7c7b05853b1754cd8b95fdb) (v16 0xe48a53bb9333459414e4643ee0655548); f (v16 0x7fffff80000080007f00808000800180) (v16 0x80807f017fff80ff018000807f000100); f (v16 0x00ff80ff0000ffff0000ff0100ff0000) (v16 0x00ff80ff0000ffff0000ff0100ff0000)] =
  [Some (v16 0x20274887107f4f406080c68041ffc7c7); Some (v16 0xa5c42c6b9d7d7b7634cb6d45dc8f5a92); Some (v16 0x80c0bf41408080804040408040400140); Some (v16 0x00ff80ff0000ffff0000ff0100ff0000)].
Proof. run. Qed.
Example wasm060 : let f := u8x16_swizzle WASM128 in
  [f (v16 0xc0ff01000fc011bffe00ff2001803f8f) (v16 0x028001407ffd11020040fd803f201000); f (v16 0x1e8ca09358514936ee40fdf399979b60) (v16 0x1856678e00a6edc7038aa9f70871318c); f (v16 0x7f0001ff7f7f7f01807f01010180007f) (v16 0xff01ff7f80807f01ff01ffff00ff807f); f (v16 0xff018001ff01ff00800100ffff008000) (v16 0x800000ff8000ff00800100ffff008000)] =
  [Some (v16 0x80003f00000000808f0000000000008f); Some (v16 0x00000000600000009900000036000000); Some (v16 0x0000000000000000000000007f000000); Some (v16 0x00000000000000000080000000000000)].
Proof. run. Qed.
Example wasm061 : let f := shift W128 Left 2 0 WASM128 in
  [f (v16 0x10107e02020f110f0020f0fd7e0100bf); f (v16 0x0f00fdc2c20187b4525be5071510ec64); f (v16 0x8080ff8001ffff7f0100ff0101017f00); f (v16 0x000080ff000100ff80ffffff800100ff)] =
  [Some (v16 0x10107e02020f110f0020f0fd7e0100bf); Some (v16 0x0f00fdc2c20187b4525be5071510ec64); Some (v16 0x8080ff8001ffff7f0100ff0101017f00); Some (v16 0x000080ff000100ff80ffffff800100ff)].
Proof. run. Qed.
Example wasm062 : let f := shift W128 Right 2 0 WASM128 in
  [f (v16 0x203f9020f03fbf3f7e7e7f111111020f); f (v16 0x3bc2875ef8b54ae35c62f2a02fc12d49); f (v16 0x0101ffff000101ff7f00ff8001ff007f); f (v16 0x0001800180ffff008001800180ff00ff)] =
  [Some (v16 0x203f9020f03fbf3f7e7e7f111111020f); Some (v16 0x3bc2875ef8b54ae35c62f2a02fc12d49); Some (v16 0x0101ffff000101ff7f00ff8001ff007f); Some (v16 0x0001800180ffff008001800180ff00ff)].
Proof. run. Qed.
Example wasm063 : let f := shift W128 Left 2 1 WASM128 in
  [f (v16 0x810011403f008f4020bf7ef080fe1f11); f (v16 0xe62e3253e48c0af3df23b9ff79584c3d); f (v16 0xff01007f010000008000ff7fffff0000); f (v16 0x80ff000080010001000000ff8000ff01)] =
  [Some (v16 0x020022807e001e80417efde001fc3e22); Some (v16 0xcc5c64a6c91815e6be4673fef2b0987a); Some (v16 0xfe0200fe020000000000fefefffe0000); Some (v16 0x01fe000000020002000001fe0000fe02)].
Proof. run. Qed.
Example wasm064 : let f := shift W128 Right 2 1 WASM128 in
  [f (v16 0x017ffec020fe8100028101c0fefdbfc0); f (v16 0x4a1d1edbec8f9409e258659bcf29791a); f (v16 0x0101807f01008000807f7f807f00ff7f); f (v16 0x0001ff01ff0000008000ff00ffff80ff)] =
  [Some (v16 0x00bf7f60107f4080014000e07f7e5fe0); Some (v16 0x250e0f6d76474a04712c32cd67943c8d); Some (v16 0x0080403f00804000403f3fc03f807fbf); Some (v16 0x00007f807f80000040007f807fff407f)].
Proof. run. Qed.
Example wasm065 : let f := shift W128 Left 2 8 WASM128 in
  [f (v16 0xc080fd817ffec0023f3fbf0fbf8f0ffd); f (v16 0xfccc92f4a8bdfccebe2413d505cc1232); f (v16 0x7fff0101800180ff0180ff01ff010000); f (v16 0x000180ff0001000180018000ffff0001)] =
  [Some (v16 0x80008100fe0002003f000f008f00fd00); Some (v16 0xcc00f400bd00ce002400d500cc003200); Some (v16 0xff0001000100ff008000010001000000); Some (v16 0x0100ff000100010001000000ff000100)].
Proof. run. Qed.
Example wasm066 : let f := shift W128 Right 2 8 WASM128 in
  [f (v16 0x7fc0fe8010fe3f81811f90ff0f90bf1f); f (v16 0x66d525dad0aeba68b7bd8c37b0c7684e); f (v16 0x808000017f010101010101ffff80ff80); f (v16 0x0001000080018000ff00ffff800180ff)] =
  [Some (v16 0x007f00fe0010003f00810090000f00bf); Some (v16 0x0066002500d000ba00b7008c00b00068); Some (v16 0x00800000007f00010001000100ff00ff); Some (v16 0x000000000080008000ff00ff00800080)].
Proof. run. Qed.
Example wasm067 : let f := shift W128 Left 2 15 WASM128 in
  [f (v16 0xfffd8f11bf000f023f8001f01f1f108f); f (v16 0x1626adf87969a4a4dcdb739554a8305a); f (v16 0x00ff000100ff008001007f0001008080); f (v16 0x80ff00ff80ffff0000ff8001ff000000)] =
  [Some (v16 0x80008000000000000000000080008000); Some (v16 0x00000000800000008000800000000000); Some (v16 0x80008000800000000000000000000000); Some (v16 0x80008000800000008000800000000000)].
Proof. run. Qed.
Example wasm068 : let f := shift W128 Right 2 15 WASM128 in
  [f (v16 0xfd10c03ff080907ffe110f407e7e117e); f (v16 0x3fd6def8b747796c6a7c299ba918fd4b); f (v16 0x7f01807f0100807f8080ff0001ff7f01); f (v16 0x0001ff01ffff00ff8001ff010001ffff)] =
  [Some (v16 0x00010001000100010001000000000000); Some (v16 0x00000001000100000000000000010001); Some (v16 0x00000001000000010001000100000000); Some (v16 0x00000001000100000001000100000001)].
Proof. run. Qed.
Example wasm069 : let f := shift W128 Left 2 16 WASM128 in
  [f (v16 0x90400020008f007f00208fbf7f7f7e40); f (v16 0x529f539b00587cc3d4b1557c1655cd73); f (v16 0x01ffff8000ff00ffff0101000180ff80); f (v16 0x800080ff8001ffff80ff8001800180ff)] =
  [Some (v16 0x90400020008f007f00208fbf7f7f7e40); Some (v16 0x529f539b00587cc3d4b1557c1655cd73); Some (v16 0x01ffff8000ff00ffff0101000180ff80); Some (v16 0x800080ff8001ffff80ff8001800180ff)].
Proof. run. Qed.
Example wasm070 : let f := shift W128 Right 2 16 WASM128 in
  [f (v16 0x0ffe7f8f0000010fffbfc002fe80c002); f (v16 0x71ddda881c96f5124c944516213b13d1); f (v16 0x7f01ff01ff80800180017f010100017f); f (v16 0x0001ff0100010001ff0180ffffff80ff)] =
  [Some (v16 0x0ffe7f8f0000010fffbfc002fe80c002); Some (v16 0x71ddda881c96f5124c944516213b13d1); Some (v16 0x7f01ff01ff80800180017f010100017f); Some (v16 0x0001ff0100010001ff0180ffffff80ff)].
Proof. run. Qed.
Example wasm071 : let f := shift W128 Left 2 19 WASM128 in
  [f (v16 0x0f3f8ff01f7ec081c080bf0281bfbf7e); f (v16 0x5090db261a3b4f074f2e1f94517d341e); f (v16 0x0101ffffff80807f80807f010101ff00); f (v16 0x000000ff80010001ffff80ffffff00ff)] =
  [Some (v16 0x79f87f80fbf004080400f8100df8fbf0); Some (v16 0x8480d930d1d878387970fca08be8a0f0); Some (v16 0x0808fff8fc0003f80400f8080808f800); Some (v16 0x000007f800080008fff807f8fff807f8)].
Proof. run. Qed.
Example wasm072 : let f := shift W128 Right 2 19 WASM128 in
  [f (v16 0x11119040101f01fd8100fd1f0f02901f); f (v16 0xee5585c95b1ee0ddc7a67fd2f05c752b); f (v16 0x7f00ff808001ff007f017f8080000100); f (v16 0x0001ffff8000ff000000ffff80ffff01)] =
  [Some (v16 0x022212080203003f10201fa301e01203); Some (v16 0x1dca10b90b631c1b18f40ffa1e0b0ea5); Some (v16 0x0fe01ff010001fe00fe00ff010000020); Some (v16 0x00001fff10001fe000001fff101f1fe0)].
Proof. run. Qed.
Example wasm073 : let f := shift W128 Left 2 255 WASM128 in
  [f (v16 0x8ffdf0fefefebf10800002207f20fe20); f (v16 0x7bb198e38c41a637c543c21e06554758); f (v16 0x8000010100000180017f7f01017f01ff); f (v16 0x80ff80ff000180008001ff00800080ff)] =
  [Some (v16 0x80000000000000000000000000000000); Some (v16 0x80008000800080008000000080000000); Some (v16 0x00008000000000008000800080008000); Some (v16 0x80008000800000008000000000008000)].
Proof. run. Qed.
Example wasm074 : let f := shift W128 Right 2 255 WASM128 in
  [f (v16 0x110f01c081f08ffd111f7e0f20fe8ff0); f (v16 0x6e9ca5dd40942c85bcc85e9b96ed29d0); f (v16 0x80ff7f0100ffffff7f00ff807f007f7f); f (v16 0xffffff0100ff00010001ff010001ffff)] =
  [Some (v16 0x00000000000100010000000000000001); Some (v16 0x00000001000000000001000000010000); Some (v16 0x00010000000000010000000100000000); Some (v16 0x00010001000000000000000100000001)].
Proof. run. Qed.
Example wasm075 : let f := shift W128 Left 2 (-1) WASM128 in
  [f (v16 0xfe7e107f10900f3f000240100081fd20); f (v16 0x776752d1a8713fc108cf1f1f61a0ff11); f (v16 0x00000001007f00ff0180017f80008080); f (v16 0xff01800180ffff00ffffff010001ffff)] =
  [Some (v16 0x00008000000080000000000080000000); Some (v16 0x80008000800080008000800000008000); Some (v16 0x00008000800080000000800000000000); Some (v16 0x80008000800000008000800080008000)].
Proof. run. Qed.
Example wasm076 : let f := shift W128 Right 2 (-1) WASM128 in
  [f (v16 0xfd1f408f7e11f0fe027f001f02000090); f (v16 0xb20178f2365347990cb6cf095ffcc1a0); f (v16 0xffffffff7f017fffff7fff018001ffff); f (v16 0x00ff0000ff000000ff0080000001ff01)] =
  [Some (v16 0x00010000000000010000000000000000); Some (v16 0x00010000000000000000000100000001); Some (v16 0x00010001000000000001000100010001); Some (v16 0x00000000000100000001000100000001)].
Proof. run. Qed.
Example wasm077 : let f := shift W128 Left 4 0 WASM128 in
  [f (v16 0x1fff101081f090ff117ffdfe7e810f02); f (v16 0xe94acfa257c70c1b97d624b31347d8fe); f (v16 0x8000007fff0000ff00017f0000ff8080); f (v16 0x80ff80ff00ffffff80ff0000ffff00ff)] =
  [Some (v16 0x1fff101081f090ff117ffdfe7e810f02); Some (v16 0xe94acfa257c70c1b97d624b31347d8fe); Some (v16 0x8000007fff0000ff00017f0000ff8080); Some (v16 0x80ff80ff00ffffff80ff0000ffff00ff)].
Proof. run. Qed.
Example wasm078 : let f := shift W128 Right 4 0 WASM128 in
  [f (v16 0x90107ff0818f8081908f118fc03f208f); f (v16 0x43aa13f99a16fd6f50fc3dacbdbee318); f (v16 0xff80000180800001017fff8001800100); f (v16 0x80010001800100018000ff0180ffffff)] =
  [Some (v16 0x90107ff0818f8081908f118fc03f208f); Some (v16 0x43aa13f99a16fd6f50fc3dacbdbee318); Some (v16 0xff80000180800001017fff8001800100); Some (v16 0x80010001800100018000ff0180ffffff)].
Proof. run. Qed.
Example wasm079 : let f := shift W128 Left 4 1 WASM128 in
  [f (v16 0xff3f0f40fe8f1f0f8000fd81fdf07ef0); f (v16 0xe34bf6c7b1854cd68867ce676247fab8); f (v16 0x01807fff807f7f7f80ff7f7f01010001); f (v16 0xff018000ff0180ff800180ff80ff8000)] =
  [Some (v16 0xfe7e1e80fd1e3e1e0001fb02fbe0fde0); Some (v16 0xc697ed8e630a99ac10cf9ccec48ff570); Some (v16 0x0300fffe00fefefe01fefefe02020002); Some (v16 0xfe030000fe0301fe000301fe01ff0000)].
Proof. run. Qed.
Example wasm080 : let f := shift W128 Right 4 1 WASM128 in
  [f (v16 0x0ff0f0bf8120408ffdfd20907fbf10fe); f (v16 0x92fa1dbdef59131d20ec38e7d79c7043); f (v16 0x017f8080807f00000101ff00ff7f0180); f (v16 0xff01800080ffff01ffffff0180008001)] =
  [Some (v16 0x07f8785f409020477efe90483fdf887f); Some (v16 0x497d0ede77ac898e10761c736bce3821); Some (v16 0x00bfc040403f80000080ff807fbf80c0); Some (v16 0x7f80c000407fff807fffff8040004000)].
Proof. run. Qed.
Example wasm081 : let f := shift W128 Left 4 16 WASM128 in
  [f (v16 0x1f110f2081f03f1f0f7efe807e811020); f (v16 0xdb22a112f467b8b53aff7b26edfbf061); f (v16 0x800001ff80007fff7f0000ff017fffff); f (v16 0x000180008001000100ff8001000100ff)] =
  [Some (v16 0x0f2000003f1f0000fe80000010200000); Some (v16 0xa1120000b8b500007b260000f0610000); Some (v16 0x01ff00007fff000000ff0000ffff0000); Some (v16 0x80000000000100008001000000ff0000)].
Proof. run. Qed.
Example wasm082 : let f := shift W128 Right 4 16 WASM128 in
  [f (v16 0x7e8f0fc010017e111f3f90f020fef090); f (v16 0xb1403d833712bca724b6e4e387cd328c); f (v16 0x807f0000ff7f0001ff80017f7fff807f); f (v16 0xffffffff000180018001ffff8000ffff)] =
  [Some (v16 0x00007e8f0000100100001f3f000020fe); Some (v16 0x0000b14000003712000024b6000087cd); Some (v16 0x0000807f0000ff7f0000ff8000007fff); Some (v16 0x0000ffff000000010000800100008000)].
Proof. run. Qed.
Example wasm083 : let f := shift W128 Left 4 31 WASM128 in
  [f (v16 0x0081c00f113f01209020028000109040); f (v16 0xb9217caf27c8df9aa722d253db2c3bee); f (v16 0x0100000001017f8000ff0000ffff7f00); f (v16 0x0001ffff000080ff8001ff00000000ff)] =
  [Some (v16 0x80000000000000000000000000000000); Some (v16 0x80000000000000008000000000000000); Some (v16 0x00000000000000000000000000000000); Some (v16 0x80000000800000000000000080000000)].
Proof. run. Qed.
Example wasm084 : let f := shift W128 Right 4 31 WASM128 in
  [f (v16 0xff7ffd3f107e7f1f8f1fff7f0220fd80); f (v16 0xc7e28c46ad209f5eb9691fb2bf86ff90); f (v16 0x00808001007f0000010100000100ff80); f (v16 0xffff00010000ff010001ff01000180ff)] =
  [Some (v16 0x00000001000000000000000100000000); Some (v16 0x00000001000000010000000100000001); Some (v16 0x00000000000000000000000000000000); Some (v16 0x00000001000000000000000000000000)].
Proof. run. Qed.
Example wasm085 : let f := shift W128 Left 4 32 WASM128 in
  [f (v16 0xfd7e7e1f81c0407ef0200f8190400f02); f (v16 0x686d08d03ba04f68eca4c82e79461c4c); f (v16 0xff80017fff80000080000000ff8080ff); f (v16 0x800080ff0001ff00ffff000000ff00ff)] =
  [Some (v16 0xfd7e7e1f81c0407ef0200f8190400f02); Some (v16 0x686d08d03ba04f68eca4c82e79461c4c); Some (v16 0xff80017fff80000080000000ff8080ff); Some (v16 0x800080ff0001ff00ffff000000ff00ff)].
Proof. run. Qed.
Example wasm086 : let f := shift W128 Right 4 32 WASM128 in
  [f (v16 0xfe81fd1002bf807f20fffdfd107fbf02); f (v16 0xc4c1bd9be2839eba549502d98b9acab7); f (v16 0x00018000ff017f0000800100ff0080ff); f (v16 0xff01ff00000080ffff0180ff00ff0001)] =
  [Some (v16 0xfe81fd1002bf807f20fffdfd107fbf02); Some (v16 0xc4c1bd9be2839eba549502d98b9acab7); Some (v16 0x00018000ff017f0000800100ff0080ff); Some (v16 0xff01ff00000080ffff0180ff00ff0001)].
Proof. run. Qed.
Example wasm087 : let f := shift W128 Left 4 35 WASM128 in
  [f (v16 0xbf8f11800f40209002817e1fbffd101f); f (v16 0xc9c725de14f724a5353dcdb79c912c9e); f (v16 0x0001010000807f010180007f80800180); f (v16 0x80ff80ff00ff0000ffffff00ffff80ff)] =
  [Some (v16 0xfc788c007a010480140bf0f8ffe880f8); Some (v16 0x4e392ef0a7b92528a9ee6db8e48964f0); Some (v16 0x000808000403f8080c0003f804000c00); Some (v16 0x07fc07f807f80000fffff800fffc07f8)].
Proof. run. Qed.
Example wasm088 : let f := shift W128 Right 4 35 WASM128 in
  [f (v16 0x1090203f0fff107f01ff813f02011fbf); f (v16 0xa5c50de21c6b5cbaebf67da911a31f80); f (v16 0x7f7f807f807fff800000017f7f000101); f (v16 0x00ff800080010000ff0180ffffffffff)] =
  [Some (v16 0x0212040701ffe20f003ff027004023f7); Some (v16 0x14b8a1bc038d6b971d7ecfb5023463f0); Some (v16 0x0feff00f100ffff00000002f0fe00020); Some (v16 0x001ff000100020001fe0301f1fffffff)].
Proof. run. Qed.
Example wasm089 : let f := shift W128 Left 4 255 WASM128 in
  [f (v16 0x8f8101fe8f8f90f0fd01201081f0fe90); f (v16 0x9edf103845dbdca6b1a5a03afd836c2c); f (v16 0x80ff7fff80ff8001ff0101ff80018001); f (v16 0x00ff00ff800180010000ffff8000ff01)] =
  [Some (v16 0x00000000000000000000000000000000); Some (v16 0x00000000000000000000000000000000); Some (v16 0x80000000800000008000000080000000); Some (v16 0x80000000800000008000000080000000)].
Proof. run. Qed.
Example wasm090 : let f := shift W128 Right 4 255 WASM128 in
  [f (v16 0x017ff0bf90f000ff00bffdfd908f908f); f (v16 0x08e1c5bbb5225795cf168f82a1fe583b); f (v16 0x7f0100018001007f010080ff7f7f8000); f (v16 0x00ff80010000ff00ffffff0080ff8000)] =
  [Some (v16 0x00000000000000010000000000000001); Some (v16 0x00000000000000010000000100000001); Some (v16 0x00000000000000010000000000000000); Some (v16 0x00000000000000000000000100000001)].
Proof. run. Qed.
Example wasm091 : let f := shift W128 Left 4 (-1) WASM128 in
  [f (v16 0x40f0f081810ff00000ff3ffffdbffec0); f (v16 0x3f9d808b8dbdf048dbf2bec0be65b739); f (v16 0x80807f00000080807fff7f010101ffff); f (v16 0x00ff00ff80ffffff8001ff01ff010001)] =
  [Some (v16 0x80000000000000008000000000000000); Some (v16 0x80000000000000000000000080000000); Some (v16 0x00000000000000008000000080000000); Some (v16 0x80000000800000008000000080000000)].
Proof. run. Qed.
Example wasm092 : let f := shift W128 Right 4 (-1) WASM128 in
  [f (v16 0x0f208ff0ff110f408101fe0202fffe20); f (v16 0x5a8d9be680e755d6d3f5881d3e32d70b); f (v16 0x007f800000000100807f7f018080ff80); f (v16 0x0001000180ffff000000ff01ff0100ff)] =
  [Some (v16 0x00000000000000010000000100000000); Some (v16 0x00000000000000010000000100000000); Some (v16 0x00000000000000000000000100000001); Some (v16 0x00000000000000010000000000000001)].
Proof. run. Qed.
Example wasm093 : let f := zip_lo 1 WASM128 in
  [f (v16 0x8f3f1f407fc0fec01f20813f1f11403f) (v16 0x1f0f02403f90f07ef0fe20c0027e4001); f (v16 0x17bcfd0c1a194e3389acf53d7587eb94) (v16 0xd9741aee5bbc407b5071f0e621556eea); f (v16 0x01ff80007f7f008001007f000080807f) (v16 0xff00010000017f7f017fffffff7f807f); f (v16 0x00010001ff0180018001ff0080ff0000) (v16 0x80ff800180ff80ff8001ffffffff00ff)] =
  [Some (v16 0xf01ffe202081c03f021f7e114040013f); Some (v16 0x508971acf0f5e63d217555876eebea94); Some (v16 0x01017f00ff7fff00ff007f8080807f7f); Some (v16 0x80800101ffffff00ff80ffff0000ff00)].
Proof. run. Qed.
Example wasm094 : let f := zip_hi 1 WASM128 in
  [f (v16 0x100f2010109080fd90c0fe118fff027f) (v16 0x7efefd1f000200011f102080fd108f7f); f (v16 0x2eb8c93cf80ab3a4c0a30ba5edc73aae) (v16 0x53e05125651586c8cf81d7c261130388); f (v16 0x0000807f8080ffff7f7f7f7f01ff01ff) (v16 0x01ff807f00ff7f7f800180ff008001ff); f (v16 0xff010001ff0000ffff01ff0100ff0000) (v16 0x800100ffff01000180018000ff00ffff)] =
  [Some (v16 0x7e10fe0ffd201f1000100290008001fd); Some (v16 0x532ee0b851c9253c65f8150a86b3c8a4); Some (v16 0x0100ff0080807f7f0080ff807fff7fff); Some (v16 0x80ff01010000ff01ffff0100000001ff)].
Proof. run. Qed.
Example wasm095 : let f := zip_lo 2 WASM128 in
  [f (v16 0x017e81013f3f9040810180fe8f817e7f) (v16 0xf0ff023f803f00fec00fbf908f2010f0); f (v16 0xdb0d082ff6a7c50e26a176f6cfae2885) (v16 0x44a247d6bc6484b35f0e2f89ebab2123); f (v16 0x01018001807f00ff7fff010000018001) (v16 0xffff8001ff010180007f80010001807f); f (v16 0xff00ff00ffff80ff0001000100018000) (v16 0x00018000ff00ff0180ff00ff8001ff01)] =
  [Some (v16 0xc00f8101bf9080fe8f208f8110f07e7f); Some (v16 0x5f0e26a12f8976f6ebabcfae21232885); Some (v16 0x007f7fff8001010000010001807f8001); Some (v16 0x80ff000100ff000180010001ff018000)].
Proof. run. Qed.
Example wasm096 : let f := zip_hi 2 WASM128 in
  [f (v16 0x817e8fff40ff20807f3f807fc0111190) (v16 0x0f1140400fc001c08f028f818f200f7f); f (v16 0xe1626fb7c3520894be0e593480da3e16) (v16 0xc1c3665a4b196a2091934d2914e4bdfd); f (v16 0x80018080007f80008080ff00ff00ff80) (v16 0x01ff7f0101ff800101ffff0101007f80); f (v16 0x80ff000000ff8001ff01000080ff0001) (v16 0x80ff000000ff8001ff01000080ff0001)] =
  [Some (v16 0x0f11817e40408fff0fc040ff01c02080); Some (v16 0xc1c3e162665a6fb74b19c3526a200894); Some (v16 0x01ff80017f01808001ff007f80018000); Some (v16 0x80ff80ff0000000000ff00ff80018001)].
Proof. run. Qed.
Example wasm097 : let f := zip_lo 4 WASM128 in
  [f (v16 0x208f80ff000020c01f817fbffd1f2040) (v16 0x90ff20bf0ffe108f111011204090fd40); f (v16 0x7e412b6930deacee12ddcd4bf5cf0f92) (v16 0x7ca6f79c0a956d7801e56fb8a9209e85); f (v16 0x8000ff80007f7f007fffff000000807f) (v16 0x7f807f01000001ff017f0001ff80007f); f (v16 0x800180ff8000ff00ff01000180008000) (v16 0x00ffffff00ff0000ff01800180ff0000)] =
  [Some (v16 0x111011201f817fbf4090fd40fd1f2040); Some (v16 0x01e56fb812ddcd4ba9209e85f5cf0f92); Some (v16 0x017f00017fffff00ff80007f0000807f); Some (v16 0xff018001ff01000180ff000080008000)].
Proof. run. Qed.
Example wasm098 : let f := zip_hi 4 WASM128 in
  [f (v16 0xf0f0010fff207efd3f907e901102ff7e) (v16 0x1f7e8181017f01fd4011ff90c03f8140); f (v16 0x50fa7618a8868bd22fb384905806fbb5) (v16 0x824d2fb52b8f52ce9e08a6560001ba3b); f (v16 0x8001017f7f01ff807fff807f0001ffff) (v16 0x01010001800101ff01ff7f017f010100); f (v16 0xffff800180ffff0100ff800080018001) (v16 0x00ffff000001000180ff000100ff80ff)] =
  [Some (v16 0x1f7e8181f0f0010f017f01fdff207efd); Some (v16 0x824d2fb550fa76182b8f52cea8868bd2); Some (v16 0x010100018001017f800101ff7f01ff80); Some (v16 0x00ffff00ffff80010001000180ffff01)].
Proof. run. Qed.
Example wasm099 : let f := zip_lo 8 WASM128 in
  [f (v16 0x00117e1f100220f001010f2080409081) (v16 0x000f01fe0f80f0bff01ff00f0f01c001); f (v16 0xd985b456a2d44ee00da83f4d746319cf) (v16 0xeb1869477a0d024a322198ee2eaaac00); f (v16 0x80ff0100017f0000017fff80ff01ff01) (v16 0xff01010000ff8001017f7f7fff00ff7f); f (v16 0xff01000000ff0001ffff00008001ff00) (v16 0xffffff0100ff0001ffff00008001ff00)] =
  [Some (v16 0xf01ff00f0f01c00101010f2080409081); Some (v16 0x322198ee2eaaac000da83f4d746319cf); Some (v16 0x017f7f7fff00ff7f017fff80ff01ff01); Some (v16 0xffff00008001ff00ffff00008001ff00)].
Proof. run. Qed.
Example wasm100 : let f := zip_hi 8 WASM128 in
  [f (v16 0xff81f001007e1f808102023f7f90bf3f) (v16 0x80fd81fdfd3f8ffe903f8f7e1fc002c0); f (v16 0xd8d8d8aca94710e27f25836b1d77da2f) (v16 0xb22b49dd51cf93c6437853df669efe86); f (v16 0x7f7f7f0100007f7f80800080017f80ff) (v16 0x007fff00017f800101ffffff00ff8000); f (v16 0xff00800180ff00ff00ffff0180010001) (v16 0xff00800180ff00ff00ffff0180010001)] =
  [Some (v16 0x80fd81fdfd3f8ffeff81f001007e1f80); Some (v16 0xb22b49dd51cf93c6d8d8d8aca94710e2); Some (v16 0x007fff00017f80017f7f7f0100007f7f); Some (v16 0xff00800180ff00ffff00800180ff00ff)].
Proof. run. Qed.
Example wasm101 : let f := unzip_even8 WASM128 in
  [f (v16 0x8ffffffd8101020fc0401102c01f11fd) (v16 0x40809080c0c011011f208f7f11f00fc0); f (v16 0xe68c54478b21a93d7b6a503e188938c8) (v16 0xc39e4995b25ed9d5dac39abb850909a3); f (v16 0x8001007f80007fff0000ff017f00807f) (v16 0x7f7f018001ffffff007fff0180800080); f (v16 0xffffff00ff018001ff01ff01ff00ff01) (v16 0x00000001ff0100ffffff800000ff0000)] =
  [Some (v16 0x8080c001207ff0c0fffd010f40021ffd); Some (v16 0x9e955ed5c3bb09a38c47213d6a3e89c8); Some (v16 0x7f80ffff7f018080017f00ff0001007f); Some (v16 0x000101ffff00ff00ff00010101010001)].
Proof. run. Qed.
Example wasm102 : let f := unzip_odd8 WASM128 in
  [f (v16 0x1080fd01bf11fe00feff8ffe10f02010) (v16 0x0f3f8f10f03f021140bf10207e1f101f); f (v16 0x63504e4d4224c85ef9978bece650cc0a) (v16 0xfce1d1fd3a2cfb1e7d0e6f898e7fcaa4); f (v16 0x017fff01ffff7f8080ffff00ff807f00) (v16 0x7f00ff7f007f7f80000101017fff0001); f (v16 0x00018000000100ff80ffffff00ffff01) (v16 0x00018000000100ffffffffffff0180ff)] =
  [Some (v16 0x0f8ff00240107e1010fdbffefe8f1020); Some (v16 0xfcd13afb7d6f8eca634e42c8f98be6cc); Some (v16 0x7fff007f00017f0001ffff7f80ffff7f); Some (v16 0x00800000ffffff800080000080ff00ff)].
Proof. run. Qed.
Example wasm103 : let f := u8x16_bitmask WASM128 in
  [f (v16 0x8f1102c00f3f027fc03f1ffe818f808f); f (v16 0xfa0657045a11e2a9e55f407bb78759b6); f (v16 0x800100ffff7f7fff017f01807f017fff); f (v16 0xff008001ffff8001ff01000180000001)] =
  [Some 37023; Some 33677; Some 39185; Some 44680].
Proof. run. Qed.
Example wasm104 : let f := v128_all_zero WASM128 in
  [f (v16 0x01000000000000000000000000000000); f (v16 0x0350748f30c5db34a8ab2a5a65158276); f (v16 0x7fff0001ffffff807f01ff0080007fff); f (v16 0x00000000000000000000000000000000)] =
  [Some false; Some false; Some false; Some true].
Proof. run. Qed.
Example wasm105 : let f := u8x16_any_zero WASM128 in
  [f (v16 0x01000000000000000000000000000000); f (v16 0x97ce18ef7ac536f6b33116fdbfe93a7a); f (v16 0x7f7f017f807f80ff01807f007f800180); f (v16 0x00000000000000000000000000000000)] =
  [Some true; Some false; Some true; Some true].
Proof. run. Qed.
Example wasm106 : let f := u16x16_from_u8x16 WASM128 in
  [f (v16 0xfeff7e8fbf0211203f8f90fd02100f11); f (v16 0xeb62bca2cb1152dd6af430358c9c2152); f (v16 0x0000ff017f7f7f8000ffff7f80018001); f (v16 0x800080ffff00ffff00ff80ff00008001)] =
  [Some (v32 0x00fe00ff007e008f00bf000200110020003f008f009000fd00020010000f0011); Some (v32 0x00eb006200bc00a200cb0011005200dd006a00f400300035008c009c00210052); Some (v32 0x0000000000ff0001007f007f007f0080000000ff00ff007f0080000100800001); Some (v32 0x00800000008000ff00ff000000ff00ff000000ff008000ff0000000000800001)].
Proof. run. Qed.
Example wasm107 : let f := i16x16_set_lane7 WASM128 in
  [f (v32 0x8001f0f09001fd8010113fc011fdf08002027e901f7f8f0181403ffe7f7f3f02) 0xbf80; f (v32 0xbcb019876d112e402466ae231041e78ab837a1cd6ac942c743a12dbc60bcdd9f) 0xc79c; f (v32 0x00007f01800001010100010000017f010180ff7f01ff7f007fff7f8000ff0080) 0x7f00; f (v32 0x8001ff010000ff01ff00000100ff80ffffff0001ff0180ff000180ff00ff80ff) 0xff00] =
  [Some (v32 0x8001f0f09001fd8010113fc011fdf080bf807e901f7f8f0181403ffe7f7f3f02); Some (v32 0xbcb019876d112e402466ae231041e78ac79ca1cd6ac942c743a12dbc60bcdd9f); Some (v32 0x00007f01800001010100010000017f017f00ff7f01ff7f007fff7f8000ff0080); Some (v32 0x8001ff010000ff01ff00000100ff80ffff000001ff0180ff000180ff00ff80ff)].
Proof. run. Qed.
Example wasm108 : let f := i32x8_set_lane7 WASM128 in
  [f (v32 0x1f0fbffd7fc08181fd9040fe0181908ffd0f90901f7ffe81813f7f80ff000f01) 0x20200110; f (v32 0x409cd68657cd8cea846f04e40e58e26948916eb022896048b9c4b6d4eea28788) 0xe39505ca; f (v32 0x7f010080018000018001ff7f0180ffffff8001017f7fff7f7f0180ff7f018001) 0x7f00ff01; f (v32 0xffff0000000000ffffff0001ffff000180ff0000ff00000180ff00ff80ffffff) 0x80ff00ff80ffffff] =
  [Some (v32 0x202001107fc08181fd9040fe0181908ffd0f90901f7ffe81813f7f80ff000f01); Some (v32 0xe39505ca57cd8cea846f04e40e58e26948916eb022896048b9c4b6d4eea28788); Some (v32 0x7f00ff01018000018001ff7f0180ffffff8001017f7fff7f7f0180ff7f018001); Some (v32 0x80ffffff000000ffffff0001ffff000180ff0000ff00000180ff00ff80ffffff)].
Proof. run. Qed.
Example wasm109 : let f := i32x4_get_lane3 WASM128 in
  [f (v16 0xf0fe3fc09040408f10fe7e8181fe0f8f); f (v16 0x75654e51cd10b34d46e8a9e50bf99b93); f (v16 0x80ff80ff7fffffff010180807fff0000); f (v16 0x000000010000ff0000ffff00000080ff)] =
  [Some 4043194304; Some 1969573457; Some 2164228351; Some 1].
Proof. run. Qed.
Example wasm110 : let f := i16x8_get_lane7 WASM128 in
  [f (v16 0x8f40813ff090020ffe8ff07e1f0f8181); f (v16 0x732bc7652fd5ec3daff584ef8794fd8f); f (v16 0x010100ff017f80017f01ffff017f80ff); f (v16 0xff01ff01ff01800000ff00ff00ff80ff)] =
  [Some 36672; Some 29483; Some 257; Some 65281].
Proof. run. Qed.
Example wasm111 : let f := u_splat W128 WASM128 U8 in
  [f 0x02; f 0xb2; f 0x00; f 0x01] =
  [Some (v16 0x02020202020202020202020202020202); Some (v16 0xb2b2b2b2b2b2b2b2b2b2b2b2b2b2b2b2); Some (v16 0x00000000000000000000000000000000); Some (v16 0x01010101010101010101010101010101)].
Proof. run. Qed.
Example wasm112 : let f := u_splat W128 WASM128 U16 in
  [f 0xf090; f 0x926e; f 0x7f80; f 0x8000] =
  [Some (v16 0xf090f090f090f090f090f090f090f090); Some (v16 0x926e926e926e926e926e926e926e926e); Some (v16 0x7f807f807f807f807f807f807f807f80); Some (v16 0x80008000800080008000800080008000)].
Proof. run. Qed.
Example wasm113 : let f := u_splat W128 WASM128 U32 in
  [f 0x7fc09000; f 0x7c9767da; f 0xffff7f80; f 0x80018001] =
  [Some (v16 0x7fc090007fc090007fc090007fc09000); Some (v16 0x7c9767da7c9767da7c9767da7c9767da); Some (v16 0xffff7f80ffff7f80ffff7f80ffff7f80); Some (v16 0x80018001800180018001800180018001)].
Proof. run. Qed.
Example wasm114 : let f := u_splat W128 WASM128 U64 in
  [f 0x10c0c01000f0bf7f; f 0x59da7aeee44a5ae6; f 0xffff7f01807f8080; f 0x0001ffffff000000] =
  [Some (v16 0x10c0c01000f0bf7f10c0c01000f0bf7f); Some (v16 0x59da7aeee44a5ae659da7aeee44a5ae6); Some (v16 0xffff7f01807f8080ffff7f01807f8080); Some (v16 0x0001ffffff0000000001ffffff000000)].
Proof. run. Qed.
Example wasm115 : let f := f_min (fun x _ => x) W128 WASM128 F32 in
  [f (v16 0x00000001007fffffbf80000080000001) (v16 0x8000000000000001ff7fffff00000000); f (v16 0x000000010000000040490fdb40490fdb) (v16 0x0000000000000001007fffff80000001); f (v16 0xff7fffffbf8000003f8000007f800000) (v16 0x007fffffff7fffff7f800000ff7fffff); f (v16 0xbf8000000080000000800000bf800000) (v16 0xbf80000000800000ff80000040490fdb)] =
  [Some (v16 0x8000000000000001ff7fffff80000001); Some (v16 0x0000000000000000007fffff80000001); Some (v16 0xff7fffffff7fffff3f800000ff7fffff); Some (v16 0xbf80000000800000ff800000bf800000)].
Proof. run. Qed.
Example wasm116 : let f := f_max (fun x _ => x) W128 WASM128 F32 in
  [f (v16 0xff7fffffff7fffff7f8000007f800000) (v16 0x80000001ff800000800000013f800000); f (v16 0x00000000008000000000000000800000) (v16 0x007fffff80000001ff80000000800000); f (v16 0x0000000080000000bf80000000000001) (v16 0x0080000080000000ff7fffff80000000); f (v16 0x7f8000007f7fffff800000007f7fffff) (v16 0x7f8000007f7fffffff8000007f800000)] =
  [Some (v16 0x80000001ff7fffff7f8000007f800000); Some (v16 0x007fffff008000000000000000800000); Some (v16 0x0080000080000000bf80000000000001); Some (v16 0x7f8000007f7fffff800000007f800000)].
Proof. run. Qed.
