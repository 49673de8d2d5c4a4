(** Generated by tools/gen_table448.py from /repo/include; do not edit. *)
From Coq Require Import ZArith List.
Import ListNotations.
Open Scope Z_scope.

(** TableSign_w4_3675k, include/table_sign_w4_3675k_ed448.h:29-1206 *)
Definition TableSign_w4_3675k : list Z := [
  0xc86079b4dfdd4a65; 0xc86079b4dfdd4a64; 0x17df1c4564ea331a; 0xa3b1deddd748890d;
  0xc1481880173e63f8; 0x084cccedba886412; 0x0818762033a8e9d1; 0xc59d41f91a5d116b;
  0x5e0b42f0ea3bafb0; 0x504640cd24f5486c; 0x548f1cd1191a0316; 0xb6bb6508725d44b1;
  0x1a7df075e2c965e5; 0x5819db89bd7ef409; 0x756002863953cca9; 0x6ef4ed5914250242;
  0x9ffef8dfe2c86277; 0x6bfdf77fbea6a254; 0x287ebf3afd88eef7; 0x7dd59b2183c14092;
  0x298ac16bda0a22cb; 0xee689f0619dcc201; 0xef518b1202c01ab8; 0x56179c8cf4469cff;
  0x199b0c1e3ab470a1; 0x199b0c1e3ab470a1; 0x671961d62834161d; 0x006f5e0419dc0126;
  0x31cbd4b188dfe3f3; 0x9ee38f5bbc56413d; 0x2415c32a67c92a45; 0xea45042c25ad3e30;
  0x0a7259870898d388; 0xcefd75c37d65f5cb; 0xe1169cfd18f8d192; 0xcda20ef5e475c453;
  0x80a212934b40a4ba; 0x322a5ff48a0008e1; 0xce8e5afcbd579934; 0xba2c4da99e182b93;
  0x51f92587d895650f; 0xab7044229de430d8; 0xb5cb565ce6792339; 0x27b912ef26b6293f;
  0xf220328b5b8baca1; 0xf602187c515c103f; 0xec942bec9fb0f2fc; 0x098a73190b924af0;
  0x14181844d73f48e5; 0x14181844d73f48e5; 0x720e7c3ecf13b479; 0x42b98257c85644a0;
  0xa116e0620fb95764; 0x58d36d06ab49f30e; 0xb28b5999302174f9; 0xb50edae9850767cc;
  0x634cb5597fcbdfc2; 0xfbe7bb247a55c86a; 0xc5381bae252155fd; 0x7a2672a1a27468e9;
  0xe24da5e893030d95; 0x89fce45d3f2cf040; 0x90ff24a5d022985e; 0xe042a69f7fc7555c;
  0xb65911e795d497da; 0xf3b0310d46814154; 0x106c60376d806a48; 0xe1089a0997374239;
  0x3719d7c4430cae21; 0xb9dbc710f927acb8; 0xa71c41e687a6997e; 0x5ce7108d0ca1cbea;
  0x93d5242bd0452714; 0x93d5242dd0452714; 0xd342cfe6da5ff1da; 0xe71bd87de0586b29;
  0x21a2159f4b9631be; 0x61b360779fed353e; 0xd98d366ae207a4f0; 0xaaffdd49b432b740;
  0xc6e94f673841e868; 0x0d11ebe476c40819; 0x6547b941ddb87c99; 0xe09934458ce08e1c;
  0x59252dd4cef5813d; 0x8facad972fb42411; 0x36bae939f3589f28; 0x9c94814da42b2e2e;
  0x164e333074d59f9d; 0xe86b41de28e3db4c; 0xd479d460464b4935; 0x37f8459f3f7ab668;
  0x31229c6c9825793d; 0x2806be174d5b5a15; 0x89f45c987b6721f0; 0xc6b879bb56c9ba6e;
  0x05264370504c74c3; 0x05264370504c74c3; 0x60d92d1368c217b6; 0xb66a37a06cbe90ff;
  0x8ad0a93326ccbc3a; 0x0e646f3f60d866eb; 0xaa3d3950737f4ad2; 0x8f2b798bca19bbfc;
  0xeacd0ef7a7086bb2; 0x52c65cfad7f760f1; 0x6b162f5939ef782a; 0xa174e2fd8fd54dc1;
  0x7ed245c7dae75c16; 0x4e50f9e512faab19; 0x255a2bcc417ffb23; 0x337dc65c1f0396f1;
  0xfc347f5ec5b48cca; 0x8a6beef698089ab4; 0x43d541d08867d353; 0x35323073e6978319;
  0xdb13a85eda9f552a; 0x2d9b3b7e4eead436; 0xa64ddd347e60b95c; 0xdf9761b34d476ca9;
  0x8d06c13078ca2408; 0x8d06c13078ca2408; 0xafcdf0965bf0ae3e; 0x25a8c7e8585697d2;
  0xbea9a0820eb2e457; 0xdff1dd1a896dd2bf; 0x47968b2b0d7351a7; 0x12d3e9adc233008d;
  0xd22e4bda8eaf3dca; 0x1935366fbdfa472b; 0xa44fbd22151e0107; 0x1f2da43a0c9eed1d;
  0x28c2b26437d4382c; 0x48e5a68830326f50; 0x072f6f52f12a4c3f; 0x0b1b051e2e878340;
  0xf2538088ccd45621; 0xb7dcb625438fa4e6; 0x22dab61ce371c885; 0x2b6edf68125caecf;
  0xec6f91f439162e8e; 0x1b445c4765b2fdb0; 0xa8d327e26ccca837; 0x06ec7b3f9db3c4a5;
  0x0508de14f04286d4; 0x0508de14f04286d4; 0x55ffa716590db7ea; 0xd32eeb1556504ea4;
  0xe95b306fb34e388b; 0x15e450ec97aaa9b9; 0xd5cf9c39aa5d3cac; 0xa4ff2dad6287aaa8;
  0x3d0f765fc58d6488; 0x6748a9bc61a84cf8; 0xffbdea36c5ac349b; 0x45a636c2d555e9ef;
  0x9f6f3645321672c5; 0x3843e2cd9f1ba228; 0x82887cdd778188e3; 0xe2aedd5837bfe515;
  0xc0db712ec8c80b60; 0x3eb2f8e7db8b5d36; 0x82d57dadac808f64; 0xe94a2e7444a083de;
  0x118fa4f210c97171; 0x5660ad430f855f9b; 0xd1c6dd86720ee903; 0xda32e589bc1eb762;
  0x648a013174d4cdee; 0x6c877f29c460235a; 0x0ca46fcbbb3e52fa; 0xae38721702993e34;
  0x69dba47a0b9fae85; 0x8f0d0bf2b5c8efdb; 0x8699537dfb8ec93e; 0x628a869cac98fcb1;
  0xdf9adebfcd60e448; 0xe59dd02a45c53abe; 0xa644607f9832de30; 0x5c11621b7b06467d;
  0x135e2e2376f4406f; 0x16c25d7f9a0863f4; 0x31a7b577b0d9dda3; 0x90925fe05b5b5882;
  0x7efdf330077e37a3; 0x91fae2c25f9f2a71; 0xb171057f7a17d399; 0x9f62a44a14cef892;
  0x47015f6001aec0d5; 0xa52c1f4a933aa406; 0x29296ca2b5694cff; 0x73a7c75675af0ce0;
  0x17f04914f9fe9445; 0xa12a28c872c2e81d; 0x99d91633ee57de1c; 0xa981e2559cfab963;
  0xdc81fa105a557399; 0x2b71ce76a2c5324c; 0x510ec1a61fa4a5aa; 0xbfe20ca6555a1022;
  0x73ae6df6a4bf0895; 0x97a050bae0c72687; 0x74dc228dc077f9b4; 0xf6543bf7bbb10abf;
  0x979a1c2809a2b2dd; 0x645eb86f9a0e8619; 0xc9e98a63485ba41e; 0x10060741aacad2ef;
  0xc1f73cf5fe4a059e; 0xf6f8ffb8fe7ed5b5; 0x4e351d9757d06534; 0x4c03ed9ad5cfa4ef;
  0xf82ccaba74ad38f0; 0x738492005a347b94; 0x6cc5c407eb3fcb2c; 0xe795158a900388db;
  0x955ec3f37ee50a29; 0x9df5c680a1d1d759; 0x9b12033de3e1a9df; 0xb9d2bc591479177c;
  0x84157962329ba29d; 0xd2ca29048fbdd9a7; 0x0844111af8dfc8c3; 0x65297cce39b46bc1;
  0x27a98102fa289a94; 0x09d7fbf6fcc58e46; 0x18a6eba36320fe25; 0x9e9f42da9c9dcbfa;
  0xa172162886edb498; 0x28d6e034456413c4; 0x94aad3a52473d358; 0x6606d0dc87769725;
  0x53c91a7c066f91a7; 0x61b8c0a4306675e5; 0x38b23c8705750751; 0xf6284ea6cf93f994;
  0x3618ec5ccd39f3ed; 0x7a445b12325d40bb; 0xcf9013071b686ade; 0x069ee7ebcf1b8ef2;
  0x73b69ef80f0be872; 0x5e0a66c8bc6111cd; 0x987dc2df378ccc9b; 0x8c3f9cf0b7292f17;
  0x5881935a4030fb75; 0x359d9fd430a6e09f; 0xb6b5ac61923dad21; 0x3a77ccd5433f520b;
  0x46edc669d21e1d1d; 0x121af28e5f1e02e0; 0x7a45601e1c768876; 0x402ca6596cea6ba9;
  0x77948b5a75faed68; 0xe4e0a13308948f64; 0x6cbbf48ffe1383f9; 0x661cf3f7fc050893;
  0x28b87258d5a381fa; 0x029a28c79d4cb9c6; 0xd1843023a29d3fc5; 0x9a24cfc88155a2dd;
  0x1db8ef3643f20653; 0x5772eadecae2652c; 0xc5aecba7e46de17b; 0x9c1d6f511bbf1c4b;
  0x785f43b2c6963c16; 0x5dfa51b30914bf40; 0x4c7822764de0411b; 0x0fc50d8fe28d3db5;
  0x7fb22f6804fb2d32; 0x7e3a93a67a094e9c; 0x94b947270b819ded; 0xb3ffbd7326787d23;
  0x6c9ce0f8ccdb1031; 0xbe5abe6a9a456bd4; 0xb1933ebb4f96e7c0; 0x7c5a97570bcf482f;
  0x87655ae61972c069; 0x31e4ef2f20c50644; 0x153599f1bd6f22cf; 0xff712959f832a533;
  0x686d79a551d465ab; 0x006fb1f2a97df337; 0x5fbe068ce6c47a0b; 0x3ab83e125ded59a6;
  0x6241e3a5053ed623; 0xb2d7131c5a6bc0aa; 0x3c3d3ae8a1c9342f; 0x11392ee10cb1c029;
  0x216d9da956d18e6d; 0x24473cb6bd1ac347; 0xe09847b6f91ab311; 0x072dcae9c63805e6;
  0x3c9fdda66e442aae; 0xdc46b66d52bef343; 0x32ecb36f4d72bb67; 0x5c8902a58e35b0cf;
  0xf653a22a4d4656c9; 0xbf1e5b98ffcff2a6; 0xb3d9ce4b54e4364e; 0xa1882253337a243b;
  0x08407dd6ec22ea53; 0x63e2710a71e6ab3a; 0xa74c8d82e624be16; 0x564d5ca014bdfaf0;
  0x5f3b530953627695; 0x1c3a19a7c6bc337e; 0x6d453b85469923cb; 0x94b93f5ba780e3d9;
  0x63fc04d32f174771; 0x11339e5f207cf449; 0xaf9c954e0b117cd8; 0x9149780d7e05aed5;
  0xcf46b4cc9d642509; 0xde7e9263e61d0673; 0x1ecf69e700903bec; 0x1a0d436826d2f605;
  0xdeead411052df8c9; 0x7510c088daedfcaa; 0x5e9096509ba185fe; 0xb4a787372b9377ad;
  0x9b06942229a68430; 0xc6cbcb315dd4cf43; 0xb077b6648b4ad97f; 0xcbb853f5eeecc9f3;
  0xaabad443f7ef7ea6; 0x7bdd977fed81edbf; 0xe78dfa586a12c8a1; 0x8ad54169062af2df;
  0xb9c482853ac3ba35; 0x4e4d666a5332fd75; 0xf270d00650057c72; 0xb4391d6a3e6f7007;
  0x44b8471020ce667a; 0x10f7279ff366c507; 0x08fd7b63860471eb; 0x26430b3e17351391;
  0xf0db9bfde5ee7d85; 0x4766e6a94794445e; 0x683ae3b041da8dae; 0xb1a10f0e4a65e84d;
  0x268952cd3d447b1d; 0x4714c64d3b05fbd1; 0x5c6a600534235202; 0x6cbe2a760edeba90;
  0x0d1a4dcaa4260b61; 0x44cf0d7fd881bae3; 0x448030942513c4c9; 0xf01e3ac105b99b1c;
  0x8d13b076f4316c25; 0x51b3390d0c12813b; 0xedc27e6632de26c2; 0x1213ea5b86a938ac;
  0xada3a1c7376f9a41; 0x94be2bfc5143d03e; 0xc21ff3d26b1257e2; 0xcd0e584606e3ba0e;
  0x10c06d91f219623d; 0xfc38ba70f6b98ac4; 0x0011952cbad8128a; 0x30b0682bfbf71928;
  0x31839bbe76a86262; 0x3df364035def3c18; 0xe02e3a64a783c43a; 0xb9ecbab9b9a1c43b;
  0x5e86b65474a0c63b; 0x0b82084f95e90935; 0xf7655d1fb849475b; 0x7b54fa9da3488146;
  0x1e724383a1b5fbb1; 0x5e7ef3f57cf90859; 0x1298431909f6adde; 0x179a1f51940d15a9;
  0x689e7913a094c064; 0xe506175019b59a39; 0xe9d1c93018e3494f; 0x710647d4e072fc85;
  0x53d40236d328bf9f; 0xc1386045915f097f; 0x6a2b3cf3aa235bad; 0x2f9318c64ffc3a20;
  0x9e1d67d7f1e09711; 0x3d4d5d90f12a992d; 0x09934d6821e006ad; 0x2bb93f40affa4b14;
  0x9bb34f11f98f6e06; 0x601f82f80d684832; 0x06ed2b395df944d4; 0x9b980be2925b71a3;
  0xcb139d318df658fe; 0xae702803effa5e56; 0xe1ae3f5f2db4e8f8; 0x7a661ba63ac460f4;
  0xf98dc4f7dd3abcf0; 0xb66365be169eabe1; 0x3e5d2684f144dd78; 0xc499e4b2cd063c65;
  0x75cce2dd5689dbb6; 0xcf0634783b809918; 0x388fab0f1602ed13; 0xb991c9a1929ce0e8;
  0x7986108637545d72; 0x6d07e2ddbb6034f3; 0x131797ad471778eb; 0xa6a49a3ad164240b;
  0x60e921452292b258; 0x0ad7efd5e9c3504e; 0xd41f97bde50895ea; 0xa57833a33aace897;
  0x821ec9509aaa7d8a; 0x6e41623c610b72b1; 0x838c46b9ebcfce1c; 0xc4ce961d08d37185;
  0x93bd941bdd6e2e14; 0xaf5c6a39c95c0e2b; 0xd32b5eaed357510d; 0x3ec55f08e06d15de;
  0x95383f1ea35f66c2; 0x416c628598510ef0; 0xe82607f06c3fb712; 0xe94b36ca49dfc04f;
  0x3bb3200ee86cdd71; 0x36c49b28556acd6d; 0x7e91d402d9909ad2; 0x1c52a2abda0aa26a;
  0xc062a6942fdcccc8; 0x8b10849f4b0d1131; 0x6255df1da2bd2e7b; 0x0621a586d2bcb973;
  0x45166a81064a5a2e; 0xc42c196eaf63cb05; 0x8f9e2d44f43cd0fc; 0x7727907373b2f165;
  0x2de51afd29289ef8; 0x528d71e3ddeaf135; 0x7426cbab5c06e299; 0xc098f4ffd6a31ee0;
  0xeb7a0c35a828b580; 0x0d99c2b8e2267dca; 0xeef2a5690fa1758e; 0x6971b3ec1098ac6b;
  0x04dce918a42c873a; 0xf15be46cabb2cf99; 0x81c0c9f9070ce8d6; 0xb3eefc48fe377179;
  0xc2b580c92464aaba; 0xf59be0673bba4f13; 0x703ffe7ab7e14315; 0xc2a296ba9d5f5476;
  0xeebfc399564b0171; 0x1bd9b7ed37c8eff1; 0x7b4021f8d82f2653; 0x08c83c758fc74a27;
  0xef433d43c2488349; 0x74057b00f16fd85f; 0x23145a44b491dcf8; 0xe943e17ebac8b1b0;
  0x14d1f0071ff3f1e0; 0x51a55aff1a18e0b8; 0x0a1415b33f35f980; 0x982eee905be00b4e;
  0x1af3b22154cd26a0; 0xf7993ef8e96800ef; 0xd48f2c956b7e6086; 0x6cd178bf46f886c8;
  0xe946aee028418bdb; 0x4ad3b09f10611147; 0x34ac70455eab740f; 0x48b3b57cbbaf5f1f;
  0x3d1c42840188ae7d; 0x44409e32c18e1eec; 0xb09eb198283e082f; 0x0645b563f331e5af;
  0x73ea49ad8b915081; 0x3e856790aca6c3c1; 0x1d72039e73ed418f; 0xb006ccd8cd812be0;
  0xed4dc6c7759f6437; 0x5d501b166cfcf82f; 0xd01538e2a196723a; 0xf23cd4996bba3d22;
  0x3ef70e94a916e7b8; 0x4d44c869b056c62a; 0x39fe9dbd1b0e3284; 0x562ba776e57e96e2;
  0x3b7742ef660e7863; 0xf4808ae4e910355e; 0xaa17fea9429d8fda; 0x10edb260e5c1c804;
  0x450f47fd5d2121fe; 0xcaa2e18efb9a2575; 0x671856691d6eff9f; 0x3ce15298a8c8ab3b;
  0xe7d15b4ede92786a; 0x246ef12f79391fa1; 0x07360250bd2bc2b7; 0xa071ef44d3accdf6;
  0x10326e3be9c04e2f; 0xa38b00345d273a6a; 0xb16dd596c7c7ddbb; 0x392bdf581b6bd381;
  0xc0ef4c3e47178b81; 0xe851d96d12a37261; 0x8f210b96b3aed06b; 0x8b77ab3c7d72d490;
  0x093d5d4e8390e91c; 0xc4b2afec24df716b; 0x5369e850cdeeac78; 0x2ea7d4275259bd44;
  0x6fb860d837fe018e; 0x24a15391b1e48a4d; 0x2353e015b4253b90; 0x933a3ecd98b524b9;
  0x099454af5f8d57cf; 0x8710f7922a8ed8cf; 0x5004812d9dc965c7; 0x9641688fe5631cfd;
  0x0536f2016c2cf07e; 0xf1a91c6e6601c0c3; 0xa6f92cb559d7020a; 0xa42ce3641c1169b2;
  0x2069ff69323a61da; 0x38776bc4eaa5c3bb; 0x8d9de32e5ddf8532; 0xd62d20a72c53cd2a;
  0x8a8066e931f0a67b; 0x35b80463afa68b93; 0xb92f667ca28c2352; 0xf81343ce38edd7cf;
  0xe5acc6bcf0fc6a3b; 0xb1c6d46c8dc633a9; 0x520c59b1ca9606e1; 0x020acaf8250c4e32;
  0xd6e9f721e12d6f4a; 0x4a4d5aff191e2364; 0x517cf2dbce01e50b; 0x5b054021875ed19e;
  0x8c2ef00a262cdb6d; 0xda2dce6f9253ec13; 0xc2e9f38234ffb0f8; 0xc900cca454868b72;
  0xc80b1b5c802f4600; 0x745e3f00d68bc019; 0xd3eea5b7369e79b8; 0x2fff2d69e2a83bc9;
  0xe12e96e822893951; 0x299a5ff92ad1e8ca; 0xb76a1153c43e17f9; 0xea82393d4de19040;
  0xac3fa4b130051a1c; 0xb56d250d4d09cd3f; 0x1cdd8f7a125b7d0b; 0x6e665666764cba5d;
  0x29c2f403469f49bc; 0x776cd4768cab337a; 0x07aa69a6462557b3; 0x569572170110c010;
  0xfa96d57fa3acd8b5; 0xbdcbf9a6072bcf1a; 0xfbf8e5b204df8a0c; 0x0720e582dbec748d;
  0x58f5dad4cbf57d01; 0x1d1d506d68fed702; 0xeb1d664b278a62bc; 0x9e841b00dd3df7d1;
  0xc4e8622292043e1d; 0xc549a224f9d38a05; 0x37963ca3a3add9db; 0xd9dca0c64d351304;
  0xfa7a949fbc2d71fc; 0xe98f5f899852308b; 0x010015611011429c; 0x29b0ed94878d7efd;
  0xd1c185eb40588095; 0x55ca45de4d4dd2fa; 0x2c4431aa2c860575; 0x46c0fe6422a53c20;
  0x6acbcc785b263c92; 0x466837e5b32415fc; 0xb245ae9bc402fd2f; 0x2abd616f66acbb6c;
  0xfd3c232e9adbff02; 0xa07a54a9408b04d2; 0x21372cbf0e735585; 0x2c05781b45229def;
  0x8b4330a52afcd769; 0x8471ff7909f8617f; 0x269bac426817fae7; 0xa7e083bd76d224ba;
  0x08c3802ba2471510; 0xb28684f8982ee210; 0xa26c5d018db2f747; 0x74d2be1661eb7a31;
  0x3781789ef44653f3; 0x5fda1f8bfd85d426; 0x324efcdaba21b8fc; 0x0f52d3943d16eac9;
  0x662a6196ec5d8315; 0x1f9998ad58c117c7; 0xab2241c9d5253d5a; 0x6b5eb09f34fa552c;
  0xf9a1dbdb9e2e1a24; 0x768e6a986b66736c; 0xa60f5f8676fb5287; 0x58d1614a72edfd5b;
  0x33f3b3d5e40e78de; 0x7766b6fdb1c157a0; 0x257247859d88b944; 0x8cbcc257d4e702b0;
  0x19784b2c6c408741; 0x3b3d94d9a29f5c48; 0x6ea6b631eb0a3a8b; 0x212c72dc18d3a967;
  0x77f283983612161e; 0xd40451370e47ebf9; 0xe6932e0a70488c06; 0xedfb4910b7f3a246;
  0x49b3ae8b8073e93c; 0xbd70edf7e10b5c25; 0x396bf4c1b64c3bd7; 0x2f69fe3107c9bceb;
  0x32f18bb06d82aa91; 0x2e78e25ba45631c1; 0xa12472d72b08bb60; 0x91d40641932aca52;
  0xa80de966406c255b; 0x31fd35f8ba57877e; 0x5d027cbc217cd50a; 0xa720e9d49300eb1b;
  0xca2b0c8686509c67; 0x4c1d60dbec467468; 0xd7484c6bb8e13ee1; 0xd744686e3bd5a208;
  0x6f46250f3c31a43e; 0x0c007bc4a3f9bd6a; 0xe54d391c5793befa; 0x3105151b7ba8f2bb;
  0xebc27e0906c45b87; 0xb6b23e99a3fae6ad; 0x3298a71ef959fa8e; 0x7f30b7eb3d3b6438;
  0xde6dcb8e68b79616; 0xb8bb5b7e3d57f073; 0x8957728472dbf262; 0x090a2e2817e32c1a;
  0xa8018505bb459e00; 0xa016fe0a82c309fb; 0x8fa66d31e0d03b5e; 0x92ea85ea05ae6e4c;
  0x87a6f61e58ed0b07; 0xe5a38ea97b4572e0; 0xa907d4220a2655d6; 0xb343d4eb5a750dfc;
  0xa817698ca227d88d; 0xab098994073f24cc; 0x62f87b1a1e89f70e; 0x06740a7bed1d2a57;
  0x803684e07a910771; 0x4771e0904c89361f; 0x2d428dc4360e48d1; 0xdc23725cc920f770;
  0xe6435e56ee0186e1; 0x5d5f46f2c0c5e46c; 0x6a6e5b56706fbc4b; 0x877cbbe78f6771fa;
  0x2296cbf9e04ba96c; 0x208baf5f79ecd78d; 0x758a4b59c14e9da0; 0x76bc0649736070c9;
  0xdf156a3afd403c9c; 0x778530f37f23103a; 0xe7216c87d0241dc1; 0x249ae647a12be2c5;
  0x3b97304a5dc8df8c; 0xdb7b9881b2c7413a; 0xd7645d27664ebdcc; 0x1c76e85aa312cabd;
  0x38c6f3b7891e65d6; 0x368d4cc95047612e; 0x0f218c2bb16da409; 0xe8c49be8c8aa6a98;
  0x39b76e6b05c485bd; 0x1af7154cbbf396dd; 0x5ec503ae207de91a; 0xde97251c8732d255;
  0x6edfaa620110839d; 0xd49866921749acc5; 0x309d423ffba57c50; 0x4cc18e013579931e;
  0xe6f81d43029e04b3; 0x69c585559bf65c96; 0x7cc3dd4e95879077; 0xd31777ce76c4bb51;
  0x675bd00c00d7d2f7; 0x17e9df9120587050; 0xf65a3c31d1eaa4a2; 0x70ce61d8671fe9ac;
  0x3bffacf90da1eabb; 0x1a8ed5151e6b3b58; 0xb1bbfe185a1e1603; 0x1245ae8d65f9e5c7;
  0x5cbc68af5beb773b; 0xa2426c6710db748e; 0x3287d7d06a536045; 0x575d017359e31f89;
  0xf5ca8e3c7e68781a; 0x22fba253af9d7f1c; 0xc0ae53cb58b2cc2b; 0x7573701aa16288fd;
  0x048612afdd609e78; 0x43771ca62e68ebff; 0xdc4ea39019283ee0; 0x0a89eb868e9b44e8;
  0x7a66ed64ec6891ff; 0xaee2c7924d106f6e; 0x113612e41cc54f8c; 0x9721f9de78c1d6d3;
  0xd5dec3a18ab8aa71; 0x25e875b344f15980; 0x69bd6f31a26cf118; 0x79556cd5af2f2fb7;
  0xe9331d10bbeb4e7d; 0xc66d01827ce86b0f; 0x5ac1c80918728cad; 0x3c38288d2c3244cd;
  0x7161233020983a80; 0xe2632667dfe11a38; 0x2cb9035a0976abf4; 0x2094cc0e8bb893dd;
  0x8c43e241e67dba53; 0x89b97fa18db99965; 0x406a8855124fc85f; 0x6bdd88243179e151;
  0x4c0b1fb11be4a890; 0xc7bafd2649cb8728; 0x6f9b63bea94f6327; 0x848ab0a2fb195d14;
  0xc162f2089e1c1f3b; 0x3086355c5f8292c5; 0x04696e15cc35399a; 0xe5537a472108c6db;
  0x294e3763c1546d02; 0xbc32d57ba48e87d6; 0xd500843de30aaeb4; 0xdab2b4df6f9980fe;
  0x9afb1ea665154257; 0xf552083ca3a56c33; 0x95398bdaa205d52c; 0x07f0b8a62c140b26;
  0x8de8f715285c841f; 0x6b41e95ae9c84607; 0xf418ba9a51cf6a37; 0x6fefbbf471deeb32;
  0x436c6c2d5ca97d8c; 0x05f8f583e1ffafdf; 0x74e0535b8e8ed22e; 0x7d14f8a4a5bd59a0;
  0x2535c378459f67ef; 0x8171a40ff9db22de; 0xc938087b828a3aad; 0x8deba02d268e5d14;
  0x1abc8bd075ed94f6; 0xa65779a626efdde7; 0x58e63f51b7e31d44; 0x914b171b5f6628e5;
  0xe2ee16a106c42db2; 0x54f7059e1134cbf4; 0x13b5cc5c57d3357e; 0xcc61c18503327ca3;
  0xa1575c62efeb845c; 0x86cbad00f543261b; 0x368ddd817a2d2b85; 0x43058d3c3ce77fbd;
  0x10f5754d25ac61fd; 0x60f07fd076196051; 0x9b12498746601d9e; 0x71a72adf07ecb532;
  0x95571f14f5d09492; 0x0df9cc8a725ce924; 0xdbb5508c437913f3; 0xcc8237b1fb769f7f;
  0x7eb952bce215b2c2; 0xa20a867068910154; 0x96aedd2fb9d36c76; 0x3e83dee6eca834bf;
  0x377b670eb7dbeffc; 0x4fe736d9ae1b6b5e; 0xf631685bbd7e1819; 0x83a0bfcbeef80381;
  0xca61417bda0e2559; 0x06a0c0c53dfef9d0; 0x558ccb01ff3c6baa; 0x86dda2072b8aea1f;
  0x522718994251ede5; 0x68a61d6b5ac32d4d; 0xddda8ba237c45b30; 0x68eb2bf1ce8a20b4;
  0x8cc871e9e56cd175; 0x4af6389353a95004; 0x9cb82b4af73dcc82; 0xdfb7ad5059469640;
  0xfe1e86ea43691aee; 0x65254663a158fb2c; 0x986c1172980c0101; 0xe10274dcd9be3cd9;
  0x3e401437e3c728e8; 0xd1cba76ee8e665d2; 0x83ef81b6aefb12c0; 0x9c64cfa306fe0cc2;
  0xdfb3625e57031324; 0xfddec898c18379fe; 0xf4cf1b17b1ee3a87; 0x1b9b6b152a21b241;
  0xee26713dfda8c856; 0x7207a114e1e8adba; 0x1d904a0af58bfe44; 0x9f339c9a2b004a04;
  0xe5c5dcdcf641c35b; 0x380b01742829f118; 0xe1fa497b83d06037; 0x2e5f301f229ca445;
  0xb05f364c80716b7b; 0x5c82cc12a6d3f154; 0x2fc2791053b0ab4d; 0x7f9e36ffe13438c7;
  0x1ecfad339322f799; 0x314b3c0df13eef97; 0xd803c3861440e14b; 0x111949f35fc4a6a7;
  0x5535d7cdcbc28987; 0x8077d33a86c4348a; 0x3e6986f650f97747; 0xfa4b754042cdd879;
  0xab972e02bb7ec5f5; 0xe702c49136922683; 0x9fd3e0e4ae53bee7; 0x03377b4d4305b078;
  0xd1ac77b4b5ae1946; 0x2e81ba19c54ab70e; 0x90f08445eeec1d00; 0x97a76b6557551681;
  0x6afaad824df3d3b9; 0xdcd09c3648f5c107; 0x7e5701041dbbc716; 0xe00cd025bd8756a4;
  0x1a345f36911c5a36; 0x4c379ce64ec7567b; 0xdcbc9bbdb4a61212; 0x199d2dc01a9987ca;
  0xacad391988da04fb; 0xfc52c7a521e163db; 0x4dbe35d518b679d8; 0xf0bc44d6f31d52aa;
  0xe6c968c236252124; 0x0936fc7eab9ed28e; 0xc14c3d485db21e75; 0x98adc0f9c1424c56;
  0x7fc8463295234e43; 0x98b042b958073f63; 0x976d0d4bd78bc932; 0x062a5e92b7f7830b;
  0x6c80e54791947011; 0xebbb1cff722388a9; 0x8cbd63639688e17d; 0x579a863773447db8;
  0x1e890e66c01d1b9b; 0xafd0f8044864d72a; 0xede1287e2eccc60e; 0x3fd42329862c65be;
  0x1c13a39b0cf7ad32; 0x7c122eaa72caac97; 0x690f7ce020bad99c; 0x617aa3c1d9d4d1fa;
  0x2e63d792133d8877; 0x37d7807173d6eb5f; 0xd453ed3a553c9b38; 0xff0d3da2f00510ca;
  0x8b6cdc94cc84c7bd; 0x82033a30acd37f00; 0xa3535c0276eceb1f; 0x8cea3c36b6517c92;
  0xf0b75e33ca9c3530; 0xb16170239aba5ab8; 0x03d92cef5af8a32d; 0x258454891a26b8eb;
  0x47685b1c5ef97e4c; 0x6b6a32499ffd98a1; 0xab24eb349c84b899; 0x3b8e3b95742ebaf7;
  0xcfb4a761c72a0c96; 0xb3490921ca82e47a; 0x81ff332031d62d48; 0x1304ee275ff576e5;
  0xceb1060b7df7ed85; 0x362225a634e1dded; 0xa854d1bfe2a13048; 0x186e3650520a3701;
  0x26da0bad4e2b1c41; 0x9721f900e091124a; 0x53cbed749b85996d; 0x8425b13b7343b65a;
  0x040a19544afd273d; 0x82e97fc1856c2e32; 0x0a4e8fb0d86d46e7; 0xefa3a73137c9d39a;
  0x2489ebe9b5c305c2; 0xc7e21fe23a781083; 0x954dab0c8a9f1846; 0x29e15869eea62eee;
  0xc40dd7a6e53b4ec7; 0xec807d0e8df6ad4e; 0xc0e18e2197a39e82; 0x2c281db6153ee1b4;
  0x5c0e32211180b490; 0x417a02b01a128402; 0xd848a875a22c0421; 0x48b691aa011f0f2e;
  0xf1197a87123d4f07; 0x4d3777c824767230; 0x4b0ae8c7f542acba; 0x3c4f66cac97c0fae;
  0x3a0e4086c0b705e8; 0x63c9d66a93d0b657; 0x2dead660d2db354e; 0xfb00a7d31835a7b5;
  0xc0b96135cd15c152; 0x77b38681f01a2dfe; 0x5b2f229e4a25ada5; 0x8fa7f58d39d69552;
  0x17d2277008aff7e6; 0xa068e7047e3e948d; 0x88b90261e328316c; 0x20a83ff1eb5f6c18;
  0x5a159ab91f4dd89e; 0x4624646ac48b453b; 0xe5d697d5940c7593; 0xea0071b86e7dcb6f;
  0x33e3bd9ac1c3f653; 0x827cec481297790f; 0x7b33533d6f5ae94a; 0x83e871e90b1ae839;
  0xbcc316528519969f; 0xc0bc65f1a2edd846; 0x17cb61f44aba464e; 0x1a72ca170d28a308;
  0x2a25c07e11929ccf; 0x92ac0c61a4cf6fb7; 0xcbdbabbd3f2850f0; 0x3fdc5ff1c6a133c4;
  0xc0e74be2a4d8dc71; 0x3efa2443bba72713; 0x06b43090e28f29fc; 0xde2cc9cd2734ef47;
  0x8b231f7f988d47dc; 0x73e20bf4630ffdd4; 0xece644470568b58a; 0x572a7b188119524d;
  0x5b3280244d54d748; 0xac48ef81a35ea64d; 0x09097655a693d4ed; 0xd7cb8ca190d6c587;
  0x65a32b7fc74a8db7; 0x3ddf7b8af58a2ac1; 0x54d28c2fba733dd7; 0x27dda6a4947e3953;
  0x48f71904b9523590; 0x10bb90d993e5ba80; 0xa445d5125fc7c6cd; 0xa23824fe791174df;
  0xbadac7ba65c981e6; 0x0e6fa2013c167369; 0x5dd8e76159cae879; 0x171567a5cb92a94c;
  0x49058b71d376a46a; 0x66174cf682e34d04; 0xb7b470724b0107b1; 0xd66e1c55b770c869;
  0x7df1120685e9d249; 0x2d6cb90a7ce8896a; 0xb68612e8ebb31ba4; 0x47a0085820509d28;
  0xb0a7819a51499013; 0x654230c0072df037; 0x6005887502808496; 0x4a59ae217b9c8a9e;
  0x574406b63a8388c4; 0xa63b5d2322df3ec7; 0x5aeead53089933cc; 0xd93dafb2eb5a5187;
  0x903feef3e98d802f; 0x601bdaaa5f978c31; 0xe9ed8af1a85813f1; 0x4017582423a03421;
  0x0046faa6a4fc0bbe; 0xc2b653ea2cf7c22e; 0xdc20890bffc98483; 0xf058e43da9d92685;
  0x7323c459e4418f8d; 0x550ff9a0297ce38c; 0x5127bbc88aa68e14; 0x5c2da35eb1ff42bc;
  0xe839b12b89863ae2; 0x8b0f78ce669e1c73; 0x79d215c28fe492ce; 0x19844cb438095ebb;
  0xa2f7132cda36ab3c; 0xb1de51e82cde4576; 0xda8814d0785c86d5; 0x0e541a4046570864;
  0x7a5d5d7a54b21f78; 0x3ac1bb3b7f048795; 0x732258600437c677; 0x97c4a6cd62628ad7;
  0x3c0f605105720cb2; 0x1fbb9fa973cc50e6; 0x6cc38563d5772dfe; 0x92309cad53f99c4d;
  0x269c7869df273e2d; 0xa892b75aa46cb9ce; 0xc9383b0151edd2f1; 0xa9d7f1c8d5873daf;
  0x780fb5d8e56f76bd; 0x7275b1c8b2e0632e; 0xac92909d074a47a5; 0x5494797c44b9ecd5;
  0x18f0a82499c345c7; 0xde199272190b1fbd; 0xd4dda6823aea78ae; 0xc4c0a8ca2b600173;
  0x999dcdc70d87f09f; 0x0a88d4ddb6fd5920; 0x23f32efe0af32527; 0x60be9db68bf66be0;
  0x43349c130d7998b7; 0x8c1365b65a5c5276; 0x8b04dcffbd6ca366; 0x8704f582eade4ef6;
  0xb07d2c06ec5f06ce; 0x760967a0ad9d8e2b; 0x300ff96bc718541c; 0xbe66b485be74864c;
  0xc34699f21c99a58a; 0x9a93011de5a1b9e0; 0x9f9e53593e39176e; 0xe68d7f91a81c9a67;
  0x51499c516ecfc6a2; 0x055991450164352e; 0x79283610804f7588; 0xac1703dd9d7052d3;
  0x9d680a2cdf331094; 0xdb0c6dfa1d82a825; 0x2a98386521e10c29; 0x716ced86c91b5d0d;
  0x707a7d87a4943d6e; 0x72b507848b67d2da; 0x14e5bdf956d97b64; 0xb1df288ef18f124c;
  0xc60d0a037586aa49; 0x215b832edf108701; 0x29313d38666e03a3; 0x2cd92c1d0dec9d2e;
  0xb1bbc6fd258c17c9; 0xffc4dfd51451c563; 0x4d4997b27885c7fe; 0x1b8e942a61ffcc42;
  0xc45b689f6917cbd6; 0xab4e93a9603f9a8d; 0x234661470c41f821; 0x5e20898efc48c7be;
  0x46a8789c2c76edb2; 0xec9541ce675a9196; 0x3f7a7c5e977e9a40; 0xe988159435814add;
  0xe7927f42f8c21cb1; 0xff70e955dc98a76b; 0xe3036d7c37fc3621; 0x88de5016baa2fa98;
  0x62d3a4eaf9ac605c; 0x5ec4a5214fd8fe9f; 0x152fbc3ce1b7b9bd; 0x9cc5bbdf9426e584;
  0xc9833944d22f764d; 0x23cc73fb07e0d024; 0x4f2c00e148044692; 0xb318b6f95d7362af;
  0x107e0e83e39910dc; 0x59cdcbd8de0f775e; 0xcd6d6bee35c07e61; 0x549bd1a54e031022;
  0xb48a743f86e1ac3d; 0x32d32822d4f913aa; 0x66601dff22356294; 0xac25accc60f94ac6;
  0xd34a4a441ae71428; 0x58ad0bcd439c0e0a; 0x98322fd97a7823ea; 0x251ac7cf32f54b3d;
  0xf0333b977567f041; 0x23410c6bd94a1f1d; 0x12ce44fdcaa19728; 0x6846b4599421af37;
  0xdb04996dfa74436b; 0xda0b8b3733fb4827; 0xa56558ac86329219; 0x93edeea506974302;
  0x12bce0a28400c1bc; 0xb5fbb207d4f8a853; 0x78be4faf80d6d83f; 0xdb16447fe5c5bf3f;
  0x6492c8ec4486aae6; 0x1a33e784313d9086; 0x99d817a3549c466e; 0x3415718646f34f31;
  0xca44cd8ea99d3bde; 0xc931d065e1d44922; 0x8d0012cea7818a15; 0x13ca92122d5f369a;
  0x8d3b3489305a64d5; 0x183b0d426a9000a0; 0xd8da910c3b38a9a1; 0x3c2c786841109265;
  0x2795bbfee5df118a; 0x2d9c8a42fc09075a; 0xb6586322b66989f4; 0x8a25b2652fdf6ffe;
  0x012db2ebf7c97cbd; 0xf965ab22ad0681b9; 0x1f651099380074e4; 0x14eb2049b7abe5e6;
  0xa7ec9e37f0e5b62e; 0x175a08451f05b7c8; 0x3bf43b23e9163d65; 0xfd72c995e8881588;
  0x40217871aa8eb22b; 0xde226df2ff8b6672; 0xb22898e83486ef67; 0x007d7b7118d51999;
  0xe81af8fb4477d30c; 0x6cda0efee1bebbdd; 0xcdab660009891991; 0xc5dfc32b943957a3;
  0xfedfd164ef1cf90f; 0x1ebadcbf76ea25ed; 0xbfedcbf108fcb5d6; 0xe7f83d76e1a101ce;
  0xa174b36e433cdfde; 0xddea028a7851069c; 0x461e8125b9ed2e12; 0x236cc1f1be299717;
  0xf669e04e0826ead3; 0xd66c6bcc00b25f32; 0x69a8ac63c91fbfe0; 0x9ab80d747deb0657;
  0x209d829e7b6694ae; 0x91e0e07d5c38f294; 0x6b7427682c02e959; 0xb5c8830837550ebc;
  0x5bb3abfa7cc52664; 0xcb1359392c89b1d3; 0x5db8cff2380daaf5; 0x589895f6001b0041;
  0x7fb5b697bb965a13; 0x6364d0f805c71e44; 0x6d40507681c42b24; 0xa09a49e349c2aaa8;
  0x34d2e93d5df506fe; 0x7a51df377d216d8c; 0xe87b27898e68b13f; 0xc973d63026feeff6;
  0x64bd27ee1ab16706; 0xd4515b19974f75ff; 0x298d04b1a5cab410; 0x1a079f8d57b3f58e;
  0x13874188b62f59b8; 0x35015a3e235a91b4; 0x665c95fd8715ed0d; 0xdc39917421b394b4;
  0x0e8d97221fdaffe8; 0xc33c9a6ef1202160; 0xaa15707a2c1c6e80; 0x47997518370280fa;
  0x14dc63e705666ee6; 0x365bb71756ce76ff; 0x46024f7cbb07cdac; 0xf086703460a16d27;
  0xefbca55a8f8e8f2c; 0x99153d13588cef7f; 0x1c3af813a83fd683; 0xed79f8df546861fc;
  0x1e07916a49377638; 0x91b49350b8713f8a; 0xf8d6c4a0d128df02; 0x150ac9e406c9aa3a;
  0x66fa4d60674bae06; 0xe62ac81c23bdcdd7; 0x7327eba9f29f706e; 0xa583ef20ee8bf111;
  0x4055591a5a573c2e; 0xde529938afde0bdb; 0x250b013102973713; 0x15377275e22082bf;
  0xfef31c30b27893d9; 0xffff4f659469eb71; 0xbe754c71abfbb860; 0xdf317a6e45402141;
  0x666ee044ffeb68b2; 0xe8eaca66365e7429; 0xc713164c5f15115d; 0x8f20473e7b872889;
  0x15e6940a422ffdc1; 0x04336687d0941a8d; 0x1ab425ca7993b626; 0x744de7080e3f9613;
  0x16de0f5745e2e1e9; 0x29ca6a25de1f8968; 0xe93baa678676c234; 0xc217e7009ebd9cca;
  0xe7806f5ea0798220; 0xa54e7ce7d8e54334; 0x002fe6308cd734e6; 0x1f806b1e7005ed45;
  0x1cd1901c1b1546ef; 0xb2d21c66faa997d7; 0x680e1deb143c2e3b; 0x3715dd2ae94d060e;
  0x63a0ac9220dd96d2; 0x145262c413705b6b; 0x0e0faaca3aaf49e9; 0xa961d88d2b7687e4;
  0xe11b34500cd9765c; 0xb0f1704340eb913e; 0xe28c29ada30e2fc8; 0xb0c4ad7c0ee8ccc7;
  0x9aa0dee6305ca050; 0xad1ef11f92897752; 0x052ce3907014beae; 0xe6c136f1c683fcfc;
  0x18353c170e93f0ed; 0x7835b93f555bd42f; 0x3a46ba7fbe277cb6; 0xee2e4a8e77dd1495;
  0xc78f6cb1efe83342; 0xeb4354c07b931c6b; 0x4c1721775a526ed6; 0xc538e0c228a77c18;
  0x4ebbd4de38143b03; 0x47a1712e749b9139; 0xab14042cb90c8342; 0x086f7d88113d68a0;
  0x2b043b427241dfe5; 0x28f2115241be911f; 0xa43f1eeedb5b1934; 0x82cf893487da0891;
  0xb6a2557976840feb; 0xb091943ba3ac17a1; 0x9a5ad3367af41e6e; 0xbb2d4400b7951309;
  0xfe1ec9966749046e; 0x8cb98ff848377b51; 0xd2a4bb116ea10f9f; 0x94068b4a3574b7f7;
  0xc6c0a01059f5510d; 0x15661ac3ea0bbb95; 0xaa16c47f58171f37; 0x7496c8198a629556;
  0x00e76ee07d7d6416; 0x554a7864c4ecf958; 0xec03453a86569ccc; 0xb6ac5b1d149feed5;
  0x6bda3eb14676ae8e; 0xc1a0abe1819613e8; 0xe8112f6a17870699; 0x2b62018f3ef25834;
  0xa0c5f84d75c4e9e1; 0xbfa2bc2370c5d446; 0x5c7f5c673421ef3c; 0x42474b3dde078aa0;
  0x532d1b41b4214d1b; 0x76296403ae768869; 0x5607d79e786efaa7; 0x7f84321a748c639a;
  0x263427e7048cbc4a; 0xc617772df0f67325; 0xb6216de31e909380; 0x1082babddb7c2852;
  0x305bc46826b78f3c; 0x0d09ffdc9c0f2742; 0x4acd6a48cd640a32; 0x748186c4465c2512;
  0xace49a739f9984d2; 0x0f4778b7100b974d; 0x8bb9502f736ce080; 0x8392306e1e7e2211;
  0xc8b564d2550b9500; 0x783f53d0a238b164; 0xb9beab8f7079a8bd; 0x227b9e45ebd2b535;
  0x6d42e44d60757c49; 0x023673761a0e7679; 0x5e47b8c5f64415cb; 0x685ced203ca1cf4c;
  0x837375faf2d8b634; 0x03d43eccca12da6f; 0xc06d7f77984417c8; 0x6fa5737b3c16b3e5;
  0xacef11561d5054e6; 0xe7b6335fe4f20767; 0x2af09a2e491d6f70; 0x59e932fd36f5b635;
  0xec2489f97571fa24; 0xa6c8d3c151900f2a; 0xd0d0652056fc52c0; 0xf097e7fb304c82c9;
  0xdb4b632aa31b4138; 0x14686fc612d2aa39; 0x12510bd89495187f; 0x069bf2b0bd32211c;
  0x99fe43a09075757e; 0x6df9d767fde2520e; 0x6f860bed2a13eb23; 0x9723ee686d16f337;
  0x1484c3155d338440; 0x967cbaa14c93789f; 0xc5006afb12dfb0d1; 0x954af9ad092bc302;
  0x35a215eb102072a9; 0x9e6975e97fe4761f; 0xe342dbe9a1390931; 0x609de4cad9c33cec;
  0xf6fe73299a2c606f; 0x181474150c70b4d6; 0xfb66546e9fbfdd83; 0x8d88cedeaffa31b7;
  0x62ca1a45054b1501; 0x1e3cdc2239178933; 0x0eaf807b744ffc5b; 0x75313a4ae8904982;
  0x590fdd43104c127e; 0x6ed0337d5f8fbe32; 0x3bda5bf66d3bb2b9; 0x164899991bd92eba;
  0xb0b5d71e99f4045d; 0xa4fcdf1f0306b463; 0x68b5226061293e47; 0x3fb07a8de13cba1e;
  0x195e5a0de699f535; 0x6e0304fecdc21bea; 0x63d963041e39c11d; 0xb2262b71eee33533;
  0xb2df3ce5c60bf92e; 0x3e1d33badf9245f4; 0xa5b1427c350d52ec; 0xdeaaccee7684da09;
  0xf649daefdc8876c9; 0x421c28d796395cd3; 0x5b62afc35728b4d6; 0xc0e36b573d183155;
  0xd1cb5c294db2da8a; 0xcf6c831b6064450d; 0xbe403bd4fe727528; 0xcc4abd481fe7eb27;
  0x2bc7265795e6338b; 0x559a8d326e053771; 0x6a68c397be468885; 0x0f6db7c0729ea41f;
  0xb374e8d17cdf0d19; 0x5ad636bf7c0ed967; 0xa49f7610d84b05d3; 0x5ca1ab6eed506d0d;
  0x0cb51a49a560dfe6; 0xe677510e62a862d4; 0xe2ec20983660c550; 0x28f88da2c96c11c2;
  0xf4070c93d8a4a439; 0xa8103dc819296039; 0x7db3dd065f63bfe1; 0xaada100d6ab3bf55;
  0x59aa9389f99c3946; 0xf1fd41d27ac522c6; 0x514dd47b38c04408; 0xaa1cf58339817b30;
  0x5ffa0eb1b77f7a88; 0xe03843aa59246a80; 0xaf21b0f64f99a287; 0xfca94893a41bc081;
  0xab1ab5a0099940ce; 0xf8ee91c80ad6c16b; 0x41e01f815b581dfc; 0x2ff936edacaa2ad5;
  0xfc399791a7a607ae; 0xd9c0a7576d2870a9; 0x85bed9f59984045d; 0xe581a40e73f21b97;
  0x9b03bf8f8f7b392c; 0x2a7c618c70b2c96d; 0xd0411f4ecb707db2; 0xe97456585ebde279;
  0xa4b8edbe825f7b4a; 0xd435fa03db955ecb; 0x9c5c7fcf7e498ebc; 0xfa41672850a0b2b5;
  0x4e77efcfb1504fca; 0x67ec4d92937fc975; 0xe1f836cd7ebf9f28; 0x9a6fd095d5802e3c;
  0x92d60989bc09aa8b; 0x295b1d04a72a2c43; 0x6f58acc8dcd91c36; 0xc853b0691b5378cb;
  0x802240857deb9c3c; 0xf39ddd57c201fde5; 0x0db552ee8647ec65; 0xbc1d61bb2d6b4f72;
  0xe9d7d98b74218322; 0x5a38b11fe0120d18; 0x14ac97668920a4bc; 0x522e353e4e5e7a22;
  0xb4375b82efe1b8e2; 0xcdd6669f6add6cac; 0x9d7ad446e5990b84; 0x2327e3dfa5b0cf15;
  0x57f750937350f24b; 0xd37be93e4d8d0852; 0x309b0947e29a5395; 0x7514fbe4fe6cf895;
  0xac4bd39f193f29d9; 0x1f9148538559cb74; 0x9a91966d9d2b4ae5; 0xb75a307de4fffd61;
  0x82ce3327a97fe6d2; 0x6056a0629a44a90e; 0xd54256d8affa0081; 0x575aab5fad0094aa;
  0xbe7d14f623c803fb; 0x2a993b5917d422bf; 0xed0f2b46ad3d2174; 0x37a1a079742fa9e8;
  0x01aa4a6a09690a76; 0x12ba9a86436947e6; 0x4ff99845a0ccf200; 0x3099fde792bfb5bd;
  0xd3ba583eaf4fce6f; 0x4854fd736cf6519e; 0xe94c7f4979605780; 0xe9b74f6e989ab870;
  0xd01b9a10cf0e835f; 0x07b308ae72ed9339; 0x6e303b9ce4332549; 0x5483b8df0c0392d2;
  0x637a04613c45c4d1; 0x8b70b18d20cb8476; 0xd4c748474ad8f194; 0xd3f757faa4bf8f34;
  0x782cede941d5eadc; 0x3fe407542dcc28d7; 0xb40a3f85de0a5581; 0x64ceb92f2c4afe8f;
  0x4778811d62c7312e; 0x6f54e690cf9baa29; 0x08c734d8c3c852d3; 0x9cfb7ca55debfc2d;
  0xad2121e8e2b7347e; 0xb758640d6780c52a; 0x4761762a32aeaae5; 0x0646fcd42e7d8946;
  0x7be6f406e97ba4b7; 0x7197ad36c9c55b22; 0x993aa3301884afef; 0x208e3f29d668f6e3;
  0x3c152cd010ec2446; 0x01d14b94bd844f04; 0x498ee2ba38f64c5d; 0x42eea1cf3989c0fa;
  0xef8323044440a0ae; 0x777564b755df4276; 0xe3c3d5cc7f35557e; 0x00bdd6bf6f6fd9d2;
  0xce3baaf644c9f44b; 0xaf4a1da944cf968c; 0xdfdeee1c6a2320c9; 0xe577446c54d4530d;
  0x9ec42512fe26549e; 0x79aa1f8bc7224821; 0x197852b269875fc0; 0x891b1753fc33363e;
  0xa5c204a7ec64d924; 0xc73a639ccc55a46a; 0xea856232a7357557; 0x44cdea22996498ba;
  0xda283185c29b12cf; 0x758fcb6f0d0d3c4b; 0xb1dab93dfa24f443; 0xf44d4696eee6cb48;
  0xbf67caa656c8f1dd; 0xbe56a9eecedf6bb2; 0xb3658880ea63f48a; 0xa9f01ec2cd6cd6bb;
  0xf0a79c6f7ae64e4f; 0x28451b0cf4b95ee9; 0x29fc7c1825fdeef1; 0x652a6a261c7e1a54;
  0x2ae92f61394aef48; 0xd18ae43349fe874f; 0xb47af0a15f385c56; 0x23d061ecbd8cc7d0;
  0xe06273ca0e03f4ac; 0x1e1cd403d5f1c70b; 0x0d5ae084f7e28aa4; 0x90f77ee36ac5871e;
  0xf087cae49d73ba77; 0x534d68880d0472a6; 0xcb7de0d1e8e8b2d1; 0x7e996664d028b4af;
  0x393b0fe3f9d4dfd3; 0x0cf749152e8e5e0a; 0xc84fda88b24b652b; 0x3c460f94043bcd1d;
  0x5de9424269ab832b; 0x3b494ca146081ebd; 0xe039b0f6933b009e; 0xf5136fa9b7ecbbd5;
  0x521811c75f654e50; 0x5b5f45a377fee2db; 0x52093374211b061e; 0x7be83de25675e7bb;
  0xa0172e998bf9b7de; 0xb5494d9a34c41fff; 0xa02195f7b7a92e8a; 0x6b3766a2af21d4e2;
  0x975db6bd743d85c5; 0x525b72ebbd77085f; 0xc389310bc70b9f6a; 0x4d16b2e8ffe0424a;
  0xe60aab9f81ddbc9a; 0x9945613eafd23973; 0x623162f0de4eeed0; 0x3bda62a0fa593ad3;
  0x2d3ce2f0a8373033; 0xbdba17c40eb7a1d9; 0x2443fddcd63c1b69; 0x4295e2e3fa45e7de;
  0x34e4894516e3a321; 0x311541a7690cb4b7; 0x070c458a5c3d94a9; 0x3a15fe49eba041af;
  0xb3c053b01a0aa355; 0x85c6d7166104a2d7; 0xb39cc9eb4cebcc37; 0x60f3a2b8ee8ffbb3;
  0x72d2248d0a45cb72; 0xb85a5e96460e5c23; 0x318cabda7a047430; 0x35e9ea17a0979c77;
  0xb75a15f74fcbd622; 0x70a9f1d96a8307e9; 0xe740192d497c72ce; 0x57bb668ee995dee7;
  0xeaf0d49ddfb50cce; 0x8fbb6f5373b8e168; 0x428da4daaa1f1e3f; 0x51ea8e8a6eb4840d;
  0x55041633b4ed7c9f; 0xb9107bd868aef5ed; 0x5a327ae6dbae64aa; 0x6fc21eecbdde4a63;
  0x239106f45967cea2; 0x95880686c2b15c57; 0xe863d19563bff90f; 0x8153dab539b63dc0;
  0xc4f2efe7a73fda53; 0xc6f7aec23304198b; 0x34d07a585ac16447; 0xd145573520cb3987;
  0x37f82fe50c61ab9f; 0x9191b2ee7913e25a; 0x757b8d2daccbf290; 0xc2d55661a9bd71cc;
  0xfa0514d50f83980d; 0x47ad3d47689fec4e; 0x8b6c19192b748844; 0x854d74a45c9bd5b3;
  0xfb38cbe4e46f69d4; 0xe15008ba6341099f; 0x8fb4b1abe98c8bf2; 0x00c9ef9cdda5c7ae;
  0x2132f9fb839eb2c7; 0x712a610787789308; 0x3c2a7c1b0c01083a; 0xb11d996697b3739b;
  0x3dc532ed690520ff; 0xe9cd4ba67a90016f; 0x37f1b2378cb45f43; 0xa1c7f492e7d14310;
  0x17e42e19cf56116e; 0x8258c81c0e2f92a6; 0x6b6dd9a292224de1; 0x8280ebdf4b583b3a;
  0x19daeb685cec7cb5; 0xa5c74d80df7d58e1; 0xb6524ab25ccb86f0; 0x27657c588810f848;
  0x3edbb1d090d99ff4; 0x72f8a638d91c245f; 0xee92472ffe4f9460; 0x813f14cc6aa3bdbb;
  0xba7f2d0c6ec2fa63; 0x9996ac7e9c2619b7; 0x0e5684d5e5901abf; 0xb67c3fe3adb057ad;
  0xb0837cae3b12ec52; 0x201e2060b16185a1; 0xc8d50b023d14aa49; 0x9ffea23bc337f165;
  0xbe6190ab04fb4102; 0x74c01ab1ac7137b6; 0x518b67e535f20d57; 0xd96c353d38091820;
  0xe167103666710c03; 0x76d2f101046a78ff; 0xc78395e29864d7a7; 0xcefe4c9f354148c3;
  0x8fa30e21c0caf72c; 0xe4fd640712b2bd39; 0xdf52af5dcf5875dc; 0x1a08cf7a60b99c36;
  0x0449e8f481cb8ba9; 0x1572943a4a18ad75; 0x10b8be67ca7d0491; 0x345c42253b91636d;
  0xfceaa8a00852d8d1; 0x266f584508b58819; 0x25261d32d75bbff4; 0x973c7f6b815d20c1;
  0xfd67e592806da970; 0x7443784fe212cd7e; 0x74caedcdf77f984b; 0x8d36c0eedd243310;
  0x3a99e67b9d304ff6; 0xac7e11403c4370cd; 0xf80922cc3885c1f1; 0x0210cb3ad0d385c4;
  0x957c5a11a49fd280; 0xa8bb24e5990dc5ce; 0xc9c731a5db5381b3; 0x475fc7e4fdc5461e;
  0x7d0c8132caf1d071; 0xfe6cfdc327ff656f; 0x5bfcf0de1033051a; 0x6ebce370db755274;
  0x7f19a51b01b2e6e7; 0x2d98d68a6bc3b47a; 0xbf16d7f2ff7b7244; 0x46e567346d22a0e5;
  0x155d478268936412; 0x270591a898a3a292; 0xe45e4878dfc759ea; 0xe2a31120a76b7c79;
  0x47a0149dfecddcdc; 0x1155f53e37bc2f25; 0x17e81bb72d9b5e40; 0x0cd7b67a5528b65a;
  0x7e0cfb22331a2df8; 0x908bbde957c7d598; 0xc59e0e0dddbc1e32; 0x5181c7ed4bc8a27d;
  0x98fd35eb4e54fdaf; 0xb6f0aa8cacffe914; 0xffd965ac51505e05; 0xffd26281267fce6e;
  0xd4d8c6aa7204643c; 0x13139ad302418f2f; 0x3db783e7e8719389; 0x222e54b03a2c5056;
  0x7a75328f0dc52edb; 0x36e841968ef41130; 0xdf6f66c5deab7d3c; 0x40f34c24bde9e0ae;
  0x58c2d760b932f6f8; 0xf6e613ad2baad782; 0xdefe8415c0eb9027; 0xfab0cbdd3f16497c;
  0x4936ebd6e4372f15; 0x66f45b495c6c0fe7; 0x8469f93e8301dbbb; 0xf5d0a402d3686901;
  0xb6c57d4872bf673a; 0xec130ff7c50fa5c1; 0x40fb8ceb7f6fd561; 0x58d0b90c73f5bcd2;
  0x7ac51a2f6a1d183c; 0xd5d89278f4926c40; 0xfb2f04ee636d5b95; 0x4be7ea96b8e22d2d;
  0x5137f9d6391c79c5; 0x13fe33e116c4eb3a; 0x6a4025249f0603dd; 0xbe7a859a43bc0d0a;
  0x7716c86e5e0439de; 0x0dd728619465575a; 0xd1138d412917d934; 0xedf247c01f03ac35;
  0x12782e1448425fd6; 0x4c01cb3cfbf1f196; 0xce742f3319112a39; 0x56871847ac6b115e;
  0x69af80de8f03ff1f; 0xa99c57c7ad6ad543; 0x9f11dfaa97d96e07; 0x2ff8a7b32bee7782;
  0x2aed326bafc04fa8; 0x37eac32bfe631c34; 0xd17c60e656623270; 0xa5d161b0a916c40c;
  0x8bd7a07e7bd88394; 0x47c489ce4b70f98a; 0x504de0b1e055db33; 0x185a45b03b2e425f;
  0x152c9abbbc854d76; 0x847bf4c64e7d55f7; 0x878543b1bc51cbf3; 0xcde558e6bb015105;
  0xfc6acc1ada2aaa45; 0x406efdea0702da94; 0x4b29d11636517304; 0x8f81d788ccb5f400;
  0xa9fbef72ecdded29; 0x1d0a2bc1d04b018d; 0x4d4cbf39c989747f; 0x369427b420e0b9b9;
  0x73ba2e04e4fcbe4d; 0xf51f8099dbbd3f8d; 0xfe2e56c976cef11f; 0x365460c44240d497;
  0x0f8fa3aa18bf157b; 0xc66068812dbd5760; 0x022b732d3c50a984; 0x5885e671b2025ff9;
  0xac26482a9e6d1098; 0xcb7521657f48b640; 0x8585dd769d997daf; 0x3869e3f233e5b79d;
  0xa69ae7b679ea5a60; 0xc6ac24dc9c829cd2; 0x13decf942b404def; 0x4ba7117fbaebdb08;
  0x2f32b4e825b7b7ba; 0x823f75057d761a0d; 0x68725db44832af4e; 0x3703985ff924bede;
  0x8c96b49dd77f8b6d; 0x17161d82d7d23faf; 0x2ad97e0e15fe1029; 0xddce94c8e90d8451;
  0x33e8252ef9e2652d; 0xb54216abae637e7c; 0x6b0a3ec70294e1c7; 0x9ccf1c954fbd7c18;
  0x8ee4bccebbe18e56; 0xc75eebcc578fd397; 0x6480dbbce9661abd; 0x0c0d0e6b7a62ef18;
  0x1b09849647f5ca95; 0xee530d22caa97561; 0x80d4162045b49dbe; 0x06b33e3160900cbc;
  0x1a8d402128077877; 0x3f566ddc4ac5bd7a; 0x41fb34ba4ad7c2b3; 0x94f5046036224b17;
  0xe308bf247d963433; 0xd5b686f0d5febb60; 0xaac963316a1692e2; 0xdb389f81b53cb54f;
  0xc3f70effd9f878dd; 0xefd3c213592234b5; 0x093e2f3a09a11dd4; 0x94007e2cf7c55ce3;
  0x4944b3f024b82b3b; 0xa9adfb273f8e7114; 0x25474de69ff0306c; 0xeec7fca478fbaa76;
  0xb73135202a52cb61; 0xe6d848320ea9a98d; 0x3e77a26dfd19c83e; 0x32da215559240b78;
  0xce8e2852803b5ae6; 0x4d60d8d85fd36b32; 0x402378975f98458a; 0x913e7aef9115ec09;
  0x6751f34e851c33da; 0xae20f22bf8c46aef; 0x27b79786eef7242d; 0x9fa350c47d27273d;
  0xaa7db19ccf66a199; 0xb75e80daffc39267; 0x49da3e764758da84; 0xa90a56a14298f203;
  0x46fa34f6b7f4dff4; 0xa712060564b83a71; 0xaabee52447b06720; 0x2b71d1e34c3000af;
  0x8381cb570e2bb0af; 0xe906af342ac180d7; 0x8e5783c50900048e; 0x71a0edae4d4d5e70;
  0xf4a595e54115cae6; 0x4fa1541d26e57d2a; 0xb6cb3e8379029108; 0xf5d37c509d623d0e;
  0xf941fb361d90d3c9; 0x1246b560573eabdd; 0x9c6a1e17f4c7f816; 0x15378da60e2aa755;
  0x09267ad6f184faba; 0xcc410e6ede8b013c; 0xe2d78fe1fca5379f; 0xebfe9c3727de547b;
  0xd2e158c0446102ad; 0x9bdd09c1fde68635; 0x56da115f89a141a6; 0x4a87eda339dc4c95;
  0x311099cea9478d35; 0xe04bc5619fe176b2; 0xce9cb922211a298a; 0xbb399c9d69b1ed98;
  0xb67810ac7ea394c9; 0x96b2b33584f94331; 0x8595290d606c97a0; 0x838f42b1bca10592;
  0x1117e3e290d7279b; 0xc3bbd67e8e01caba; 0xb49dbd50aff65d65; 0x51a75bf27353e107;
  0x09014825c1f9d783; 0xf46d419a3819496a; 0x723e37140fa6c39f; 0x9be25afe7344d8bd;
  0x61ed152f133031e2; 0xe0a31fb4db384006; 0x6d539eb4c2f3cdcd; 0x855a0c9ae622cb67;
  0x177cc8f42ab8130f; 0xddd30836afa8cb72; 0x7901d3c136086b4c; 0x46fa67982a926b1f;
  0xd135589f3a22ffc9; 0xd8bb7950b6001515; 0x9a6e11459fbdfa1e; 0xbf2afffe3791aa96;
  0xbb7f243d29099956; 0x00538818e912f8c7; 0x6a4ab34881bd3669; 0x3eedcea7b31c5dea;
  0xec2b7fd125a94fcc; 0xe68467d38bd56a77; 0xe11ba243031093c6; 0x14ae496477ff6c23;
  0xd35ba1dff74fb065; 0xdaca1e922408d51e; 0x507fc42f60528f76; 0x1fd4cfd3e484b057;
  0xda7a41724049f9dd; 0xd7bdd5dcdba7a122; 0xfa309b27c36778f8; 0x04fd9c125256d5c5;
  0x67743adaf2179505; 0xd745e2801946fa3f; 0x4872a5b81185b798; 0x34e858d934df674f;
  0xa923818410526392; 0x5045a7edda9b6057; 0x7d4535d75baac299; 0xf98439ef3c11afca;
  0x31da7ec61a4cdc01; 0x45378501027093b3; 0xbeefb6fb16ab0f49; 0xc4c9ea291ade9f10;
  0xa73d29d90685c8ce; 0xbb16ce895ca8193f; 0x2a58130eb76baae7; 0xd8e74a563042cb29;
  0x480b52421a3cc8a4; 0x4229e4800e86864e; 0xc2e9ed69369e3da3; 0xeeb43d582cfa418f;
  0x12725b48ad4b95f0; 0x305715120e724f9d; 0x54456f0a419d9943; 0x23bbad772861b012;
  0xb611ba96a861fa3b; 0xbe0294937f7fe6cb; 0x4bcb413423222cc3; 0xb7d0687e92d90908;
  0x4f2eff1ad127a70d; 0x846ea74be0008be0; 0xaa277047af6497d4; 0x6ce9cfcbc0ab8dbd;
  0xc5fa4f566eb5a0f4; 0x4f99af1d6db02dc6; 0xb756df8c27568adb; 0x299fddf615b548c2;
  0x674db61f3da752ea; 0x6b12a424b27b5f63; 0x934eab54a33b8051; 0xb9ee243e613d1fea;
  0x92c7dc1e16e6fb3f; 0x4adac4cb78c1cc42; 0x3b63d2ce4b4c80b6; 0xf8b8f20adde61fee;
  0xb7aa79e28288567c; 0x34425f6176613f10; 0x591a087127829a85; 0xcda317a3965d594d;
  0xf7cb3681f78ee918; 0x2ebe6fffd7893329; 0x8b2f563fe21fa183; 0xae361ebc9713684a;
  0x1efd0db7ae66be16; 0x37158e274e434d6c; 0x173db04f34e157e7; 0xc96d506ba2a00b08;
  0x28181fb43ff02508; 0xd047320de0844f1f; 0xda3626a89101a0b6; 0x4128740832f66396;
  0xd97ded55c7b73f8e; 0x9f73a333bab8d904; 0xa5e6c20fb7805209; 0xbd49349b1ad35c0b;
  0x0b4ea55d993a13a3; 0x2e87d413f7a88f24; 0x6bbcd39120797b9d; 0x087d3b138dcf49db;
  0x0fd38e70893a6ab7; 0xd223dc9e0f408112; 0xb80998f8b75355bc; 0x0aebeeb5d35969f1;
  0x2be2fa2cca024aba; 0xe340a33c50f32b1d; 0x6cf4bfcd1d1bc3f3; 0xe62ff5aed0214a87;
  0xc33092ac2a4e683c; 0x45f2d93d23f78986; 0xe9669d10adb57463; 0x1b424e92b5e31543;
  0x1a1ee9818f51f640; 0x2810bc4ef4def2aa; 0x48cf1cffccac66f4; 0x85fcf40825d0aede;
  0xc909514bad7e159b; 0x9907150d285fe4d5; 0x7ef3272c3fab9be9; 0x982fbf1e95e6dfd6;
  0xc5c7fa73033ff37d; 0xbc13e1840a63ebfc; 0xc2333e686de41456; 0x4a78785fea5038fe;
  0x1ad159756e1e4fee; 0xb8571a0663940325; 0x4f930617b655823e; 0x703956dddb2d6fff;
  0xe38932329a53506d; 0x97e1b953bab15aa3; 0x435571b0a73205fb; 0x10ce719967656f9b;
  0x58c056a888a36d37; 0x3c7fe79c6b65c1b8; 0xb76ba5d6161bc05b; 0xfe216a1d2d4fb2e7;
  0xb7386ae7f9ac006d; 0xb7ebdfcda63d859e; 0xeada55cc75b0a527; 0x6571721ef2940ae5;
  0xa7aa2c759c936184; 0x6deb0a964826cd4c; 0x625b74236568433a; 0xa2d51b17bad17098;
  0x30e309edcda23cd0; 0x24e2ef99109b743e; 0x10919649d9cc699e; 0xcc7cb94dac81b5d0;
  0x3a1797c35818ed64; 0x369a963fc40a1401; 0xc18f9b166b832cfe; 0xf7538f1a82874319;
  0xb5bf66098c55a6b0; 0x7bc37ee96ee6bac2; 0xd2d513882cdfbbf3; 0x5ddb31b7f2014ad3;
  0x4936fcca1616d7f3; 0x3be98038b129e483; 0x92a17702f23ba1a5; 0xb30eb19f5fa5ca7e;
  0x01ea7feae85f21de; 0x0fc32c3a2999b00b; 0x466ab1af6debb90d; 0xca404458b382fcce;
  0x54ae6beb8a01781c; 0x1c7629153a469cf3; 0x2edb2abc89355b00; 0xabeb8aa153984b62;
  0x195b5ba4389fd1b4; 0x479d894165f17ed0; 0xdd1cfde743ff7c16; 0x8ea7a7d0ef9f04df;
  0xf6023caa83fce89b; 0x7f9971a0ff03d84c; 0xa7ee0c0d9ae2f690; 0x34895f425d9ff927;
  0x9009fb3a96ad9049; 0x7472615e8257f61b; 0x57e42f627c47d2c6; 0x6a518e4c0df19312;
  0x7130607dbfe1d966; 0x2723847406185930; 0x61262bcabbc079ca; 0x5621fb950353c62a;
  0x683c8bc3b878fd4a; 0x4b9ff890afd3f185; 0x41d36514b2f4d9a6; 0x769e24013bf11b6c;
  0x18a3641eee1bfc52; 0x30e38df2e2dba2c6; 0x93c4d2ca6c7663ee; 0x9a16971d8c90a3ff;
  0x118dbb3363577089; 0x855762f1c8546152; 0x8da30df3756627c9; 0xf4dd51cc95adc051;
  0xb984332f54f8ab1c; 0x2b9b255507c2d3d8; 0x95677cc0631f59e0; 0x717217975fc16c4f;
  0xe5343850af34a685; 0x1c83f6bf776310ed; 0x238350b5eb344454; 0x00c40f43194b0b78;
  0x56abcd7cb809cb17; 0x98b4fb798ee96b40; 0xc2b1781f02b1d646; 0x6b53277a9fd2e3a6;
  0xa7ccc090b5b14216; 0x63fb5a22ee706339; 0x511f14bba48ab811; 0x57dd96957cc6cb29;
  0x189354adf8184c4a; 0x75473bb863cacb50; 0xb3837494b8929ac7; 0xe5f9308ba9835534;
  0x961f217674b3293d; 0x4edd46263ef1d12b; 0x5cd9e8c54e07c0af; 0x62c8b249a748b67d;
  0xd3d1837d66ae4803; 0x9d08dc7b1c5aae63; 0xb4efc9e10de0d978; 0xf5c5b57379d92134;
  0x1639813cf175a09e; 0xc4ea2c16d681202d; 0xefe686224dacfc5e; 0x4848eff823b90acf;
  0x1aabddc8ba45a385; 0xc94c92ed44dd166c; 0x64931a25ce2f26f1; 0x9943a6b6f3363545;
  0x1d563e7afa5c349d; 0xbb87661054cd0ef4; 0x1ba5baef30029577; 0x4d1e68ab96c96e58;
  0xe7b9f9a540e55ae7; 0x51f3f6f76aa867f2; 0x0add661b93d8116c; 0xb7fb75c6dc18feda;
  0x1be255ee905509a1; 0x15f307075f9a42ad; 0xe47832f0989481a7; 0xc473e0deecbe2416;
  0xfc7a27dc24b8ad36; 0x8b29828a492b8abd; 0xc82268a88103a408; 0x32eaa98e2fcdd0a6;
  0xff962e73db3602bb; 0x5cfe2a2e57709513; 0xae06aba079ffef58; 0x3f07c5878a25fc42;
  0xdf83a73269a9f274; 0x47ff2a43d4ca4223; 0x14df64a91f8858ed; 0x4ab2d8725fb0a6e3;
  0x441bb3286f18d08b; 0x6bbde777c72868cb; 0xe8ebdaef8ca57ef7; 0xfeeaca6d413f180f;
  0x6c1ded67e7152a28; 0x746ff725117a72c6; 0x454e65b09e7521a0; 0x4c359a7a3c33f24d;
  0xee349c0bdc39cc8a; 0xf6c1675c4214556e; 0x0b028ce70a81a8c7; 0x4cb423ccaa227a48;
  0xfb8a4d9ca3e33c5a; 0xa86f250723490f87; 0xc75c96a32cac206b; 0x70848a8db25c75e2;
  0x66fe9840305bb44e; 0xc288590e1d940923; 0x81d1d04db916a6b5; 0x305122bd6d2a8b6c;
  0x0110c553120bcf8e; 0xdd0b29135425fad5; 0x9a49f20d5fbed94a; 0x356316ca257fb8e5;
  0xcf7f24245885d2e3; 0xaa791b72c993c6c5; 0x3ef5dab4470d573f; 0x01137a641614f529;
  0xcf83569414a7c801; 0x99aeb2f884bba2d8; 0xf0511b270c15bf4d; 0xe140d787dd5dce90;
  0xfbff9677304df0b4; 0x0976273ec0a2fd10; 0x2eae8f62515d7f1a; 0x22b25991770389cf;
  0xf1796a9e87c74d8a; 0x10b123b96590df5e; 0xb01eaf42f823b02a; 0xca2c73ee684ab065;
  0x1fa513946b66036c; 0xbbb4ccdce3b726cb; 0xa9db275938ad5c07; 0xa9d04c4b907d939b;
  0xf859d43c08f8bec9; 0x69371b9d753d4242; 0x3f5d716bc76576ea; 0xd1b1368a1e0392e5;
  0xef5eac7a5ef527ac; 0x35cd4b04be51bd13; 0x5fe56b0e00618372; 0x14a24f50f236799e;
  0x9efa62d3df712c1e; 0x830f300d15be0fea; 0xd37d322d6a250eb3; 0x65b26f18cdaa1082;
  0x87adc117c2207c6e; 0x745f02b283518fa1; 0x2f3560bf30599126; 0x98604225617d3660;
  0x08d27d77d2994c86; 0x6bebe08ea183dc3e; 0x226a03dc893fc386; 0xc554d976bdb9a4b3;
  0x135a6476bb89dabe; 0x67e626beda801dd6; 0x0b76ac687c780031; 0xfa62d129f2faa35d;
  0x79db911b4b263e9a; 0xa8bd712fa831d58e; 0xea66ffc30e96426d; 0xd1fe2505612731ed;
  0x3b11ee41c436c6c7; 0x68070ac5fa9b6f28; 0x2bf0831073512639; 0x5f020c638dc58c17;
  0xbe7cf7252ea912a9; 0x39c13a0cbd7fcf3a; 0xbdc1ad57ca571220; 0xf1eadbce2db5a37e;
  0x3b29e1b9f380356f; 0xf7d8baeb484aa1e7; 0xb9f980e01b365021; 0x2737bcf5b04af1db;
  0xea51fdbae8f4dc6d; 0x4c8ba9d18898baf7; 0x6803e7bd8a406e8c; 0x2a17fbbe680123b6;
  0xa30e596060624013; 0xea581c2bab8a65c5; 0xfe682a7133cbdbc4; 0x78a43493485b0809;
  0x2831a4548b03a9bd; 0x642b1d460b24c70e; 0xcc2d068ff7902ea6; 0xa2f22d74b03b08eb;
  0xbada8de37847e27d; 0xe7133a588c275859; 0x71a6d7f9db8d133b; 0x33095f7b5f138443;
  0x77eb0918d26c2a68; 0x6fe1521149e98e5b; 0x6e23e4c3b005a232; 0xb71eae700820cfc1;
  0x606b867588feed39; 0x5c10c49618829230; 0x573a373a4f44f822; 0x917ac75296b73ca0;
  0xd01c54e70803dffe; 0xca806c869491f598; 0x172c77f42b5ea117; 0xa535a845fc83ddc0;
  0xa512e3252c3ac0e3; 0x8d11310f1ae69f01; 0xc3e820e5a6c51f90; 0x0765576c7604f81a;
  0x39215b3ea1a92989; 0xfe27a687ac07790d; 0x3ab72565439fa73e; 0x70ed897bc3e06f44;
  0x8cbbac3f7f75b692; 0x1d9d32642e8adc8b; 0x2b8f3ffbb0c5781d; 0xcbacaf289745f57f;
  0x97359a82d28b02f9; 0xdbbbf93167778846; 0x124fa6f8cd02d5f9; 0x47717ea99db70abf;
  0xf13d4d5a88939520; 0x08f2fd3f3da26ed3; 0x0557e7730b4a699c; 0xd380beed752f2aa6;
  0x4508125afd771ec8; 0xeeed2742607918e3; 0xc0673786d6bf1bc7; 0xddf361dd9e470de6;
  0x38f9ee1c21c3ba5e; 0x0fa6f7247ace0712; 0x2e79e978821feea7; 0xb5a471c541235f23;
  0xa3ad29190f00c693; 0xbb077f522557512f; 0x59822fd89230123e; 0x99edee5497b3fe59;
  0xa7f2ad5b85e27ee9; 0x86bc1f104717476a; 0xfd7f00bb98fa4075; 0x0f95a66a6819a833;
  0xce10686613ebc7d9; 0x6b785f935165949e; 0x3633c06d42ae72f4; 0x5a3347337801aeaf;
  0x593f8bf7567aab4a; 0x2ee70e7842537af8; 0x053f2b478c6a8924; 0x4a0bf4a6d127f7b2;
  0x4ea476e6da65e0fc; 0x105ad0afdf9a2716; 0x82f3bc77540c496e; 0xf49f8a1404e1558c;
  0xc4a9be941c14a3fa; 0x08a7fff509b8207e; 0x6944c0813605d519; 0x0ca868956e50d25a;
  0xc30efba372c37cc6; 0x62deb057f4817b59; 0x11e7531173d7ea5c; 0x989fd1f01a07efa8;
  0xdb7158c5dac4d528; 0x73bec0b40801732c; 0x092e481a6c382df4; 0xbb6f741778141eca;
  0x7c0d838fa1f4a9c4; 0x78055e69964797dd; 0xd0ab5ceae1900b16; 0x01489aa738d78923;
  0x79954d2c4af31917; 0x73b39cf584ccb9a0; 0xd46e72516bffc338; 0xd60fe5551a85e4a1;
  0x45a05e228c6e5e9c; 0x5fe6e0f937148490; 0x206f8348827bb5e7; 0x80d94fa21e426481;
  0xe1b36919e8e1113d; 0x80d41c0d19c4ec0f; 0x44e4b639496f6ee5; 0xc080875106ed8ae4;
  0xa718feecc8a7bb90; 0xa5aed8a028417064; 0x92be8fd402cace15; 0x317dd6b1f617a448;
  0xc30e04442d7a2089; 0x8153dc42669eceaf; 0x20689c6e0066dfd2; 0x48df20ab99809972;
  0xb7dcf6ec66aa4dc3; 0xeffac6cdc8ce43b5; 0x50654a5eb6d220fe; 0x4cab6ed2b95c8f40;
  0x39f154d73eefd77e; 0xa6d2503df7504fe0; 0x11e56b3407efda32; 0x88390da340c3dc72;
  0x4fe94c77289b3aa0; 0x629873d9240fc3c3; 0x62468222857318b2; 0x0e27d483a61b6bf9;
  0x2ac4fd242ce1f26d; 0x002c6510510a26ae; 0x483b2fdce3406577; 0x690f60e079bf2838;
  0xef1758cb9f1bef85; 0x60bf8d5c5a69e216; 0x0fbc3a5c1d49f796; 0xdc401be601759884;
  0xc6f6092e6bf58642; 0x320bcda8cfaae231; 0xe11f84bf8e9d7241; 0x2a4fd0be18343c84;
  0xa7918476d358f9b9; 0x56d420fa3f0eb878; 0x9ec168d6f03bd348; 0x662bf88053733198;
  0x54102c8d3458d08a; 0xc7b54d731a4685a6; 0xebce78269ff415dc; 0xa65f8c2311fcc101;
  0xc649a871c43403cd; 0x69b9c872927a3e02; 0xa31bd385b739ae50; 0x3e3af6a22a9e7ef2;
  0x8687c14a07942ed8; 0x549d0e8c9561f459; 0xa7d02bbf65cbe1e1; 0xfa1e0b8d97f2b316;
  0x60ceeeed165610f5; 0xcde7db9f4db6aa81; 0x4c58bc07e2268445; 0xa3eff8967ff48b07;
  0x3d5abcafba85ab6a; 0xecde39e93564548a; 0x0519ce282b17f430; 0x4cb54c473f0e1859;
  0xf1f03bdbe19c9bc0; 0x053e1d06c5a5e2cd; 0x426908718d35237c; 0x213a5c41cd5d92b9;
  0xbc63574dd7b42ba0; 0x80b2dd7679b4556e; 0x24284b84fd30bf81; 0xba04551b74fc255c;
  0xf83e1fd3df85fbb3; 0x0c88b14149ee9f53; 0x50bb4114990cf9cf; 0xb4031b933f68e247;
  0xa0b9eb76e0cfd176; 0xd3886344b0143928; 0xb4d75dcf2a20d3ac; 0x63cd0b793afb8d28;
  0xbcb6950f56ab4027; 0xd85eacc8de35e71b; 0x1cb5cb9da50d8a99; 0xce261e76339e4591;
  0x251bc958993530a8; 0x44ebfa2483f600d6; 0x8c9935e0ca763217; 0x72688c8ee97bcaf4;
  0x52d08e43ea0ee4fe; 0xd57227cffbaeff28; 0x79014328a0acb0db; 0x791d30572a7bb173;
  0x1c39511ce542fe9e; 0xa8b56ec4ae3a404c; 0x0dc04b5d90678dae; 0x115816d766389a19;
  0x6dc198676ff3fba4; 0xb68dd7f8309219f1; 0x148383aff68f67b7; 0xa81aa2ab3f97cf74;
  0xcd773541be7abd97; 0xc9b0ec92a42fba75; 0x6854ea2a2e4dbf76; 0x9d6e3c997f7d6120;
  0x3c905e512bed429a; 0x6ba7e3417dd17390; 0xcb0c602099f21a48; 0x3e77cf10be22fee1;
  0x10e01d9a49d2ca58; 0x530674124eba6c89; 0x5d195afa0df0fdbd; 0x5ce687046f394d61;
  0xeb5f92052a4fde87; 0x7d5716f60d8622ce; 0x84465c6dced6810d; 0x377e544ab7a245e2;
  0x8d0cb65046f157f7; 0x3df5c530f11dc48f; 0x75dce5206a276365; 0xd52a8e56d50e2232;
  0xd8d6aee739019cf5; 0xb0763b8b071b1e0e; 0xd8d34393f9a9b4ac; 0xacdb7bb99300e316;
  0x9c7bbcc41182fe91; 0xa7179999c809d770; 0x08bea88408b32d2f; 0x08b9be97fa7a8a0b;
  0x980201b85ef297b9; 0xe37cd52e0647f708; 0xf6432b53a25b2039; 0x7851bf8a0bb6f0a4;
  0xef38f4ef9657bfe3; 0x3ecdf0f42e8999e8; 0x53e518e907c5466f; 0x570cd3da53690686;
  0x80b8de888a092afd; 0xb47544346ddd80ab; 0xdd7bb13ed4827d56; 0xb82c4fb7d1555e24;
  0x4bca6b6110643019; 0xd106e34757e55a2b; 0x8f9e304889f3756b; 0x322a21cbe23d283f;
  0xfe3d45bd217d4ea9; 0x1b80647083aadba1; 0xce0ea94358d1be6a; 0x4332ee0735ce9d1f;
  0xb02bae9259410ea2; 0x9c9e436a82cea55e; 0x6c1ef3c0bc293508; 0x0a856aaab104a970;
  0xa43468b213163b86; 0x798439beab2e17c5; 0x299593d5ab9aa8de; 0x1aa506571495e7a8;
  0xc2277505d8d9de61; 0xaa87198d8e4c6767; 0x9b1ee708397593de; 0xe6d386696894a30f;
  0x02826ed5146502bc; 0xe7c2b9983867a5eb; 0x56da24ce9c622cb0; 0x5e2e8489196238a5;
  0x82b2c3d681aa4dd8; 0xca2fee617d8f25e1; 0x55de611f356f9b1f; 0x8e2775016ba6c569;
  0x0ecc76265296eb7a; 0x6f86a0a211edb544; 0xc2c00ec2ad45c34e; 0xc2a51087374fde16;
  0x5830196c70e8cea6; 0x9a1dc7d2acd1e34b; 0x003c49d44b4cada9; 0x0c53ce1587353562;
  0x8498592fde18d8b9; 0x57a630d1a4f2fe80; 0x2e3c319b0d9f1254; 0x400a80f165129bbf;
  0x4789db4cab063c9e; 0xa01d45d6ca3f933e; 0x61aaab1475faef3c; 0x3af80e93ec3900d0;
  0x4ea6f60f415b9bb7; 0x22fc661d8ceb1559; 0x65a80678c624fbe0; 0x1d35daa8f662a162;
  0x655aa40d6942e7d5; 0xb9008b2abc1fb67a; 0xd5fa2bead513ac41; 0x6c11d221b5e438b2;
  0x8109eb8690534bf2; 0xcc28917afcb65eba; 0xbe93807c59336eb3; 0x00f7a11d9ca44a25;
  0x96bb238ed80be234; 0x631b4545fe1ac300; 0x80fffc8d4d95375c; 0xa1f395d041c36cb9;
  0xa290bec247b48393; 0xd28993076e5840c9; 0xacdba28e7fb9c852; 0x3725a02dc652fb45;
  0x98b13366c39f31b7; 0xee49dab2a16b8e39; 0x3a1830fa57e14288; 0xc3b6702a8564e17c;
  0x1b02cad7edc61e28; 0xfb19d76317fd2e23; 0x1a519bbace738614; 0xc149679e5f389df3;
  0x99decbdf1d16918c; 0x10d32819dd7b2b6e; 0x9a645d8edda77c10; 0x7da22d18fb009cba;
  0xef9fd75910aa3781; 0x1895e2aca2308069; 0x335424dd739cc403; 0x8808fa048a1fcf52;
  0x2bf60035279dd522; 0x30182c02a560517a; 0xa3518b88dcdec039; 0x11e46cf31d49f074;
  0xeeaafd16f603345d; 0x4d4bcd320239f017; 0x3de5bf36e0069f69; 0x459a8e6ef5b904f2;
  0xc6eb839057d9c29b; 0x107262d5678e09ef; 0x655688592ea5d697; 0xcf5483c01e6e35b6;
  0xba65900ee8f1db62; 0x299122c2d6bf484b; 0xfdcf3df94df8cea5; 0xc27786048a62a824;
  0x9674351e66721bcd; 0x4fadf6e3e03c1953; 0x9e67416225342be3; 0xb9fcbb6e261f0c53;
  0x74f3a489f5fd4239; 0x4950f2319b9fa71b; 0xc6b9b3cc9faf8d1c; 0xbcb4385e109371b9;
  0x30df7340db0166b8; 0xc899632c19ebe77f; 0xfd29dc2fbfe2e1cf; 0xcb128c8d499080c9;
  0x8bbbc72fd179737b; 0x5a1ae496e089cd53; 0x8c0cafb17f261fd1; 0x24bb1a098d87e997;
  0x869d4dc875c1dd7e; 0x60a09d27eb436976; 0x3fa832c5e9483b7a; 0xc5cf42260649c2b8;
  0x2ee4a50d1d988721; 0xb79a351076c848b6; 0xe7e6c652f1d8c0ab; 0xcee65a953f4ca07b;
  0xafee3d5e5641b0ca; 0x0485336cef08cbd2; 0xfc78b426ac26bfe3; 0x7faf9ca1795b3076;
  0xd7f38d5fce5af708; 0x6d8d91258fac7692; 0x94562394ae700d0d; 0x674e135eec80a43a;
  0xa5aaa6dd32764cf9; 0xda3594aeb1a8bf2f; 0xf69411075e925632; 0xd912a58b629be547;
  0x8575e6666cab90c9; 0xdba91290a548c67a; 0x8c60a667ed07b775; 0x421895c227f6dad1;
  0x684b5fe0b000aa4a; 0x879d545c487afe9a; 0xebdc0eb909cb7e9a; 0x3ad2693fccbc3d0e;
  0xfb339e855ea3bfff; 0xb9d60de4736c5316; 0x5df38febe61c90fd; 0x7f1a31e67e7c3a79;
  0xa6dff7195c8b35a7; 0x1534bdddbc742131; 0xd874b324bf1b3234; 0x56a32bf5a98804ae;
  0x26d73122e4ba42ad; 0xf3a880a7329a3ccd; 0x1691d135d62aa82a; 0xe15508a9d7953dfa;
  0x3a62167935cd5085; 0xc94925d1587bb380; 0xf99517709156d987; 0xdf119627cf567155;
  0x7fbcc9ad53eedbb4; 0x03091459ea5f2131; 0xff810e52ff51e6df; 0xcfa6a7d2070f3b3d;
  0x486cec90c391998f; 0xbefbed751209fb4d; 0x10dadf4ddd207c3d; 0x2607db3599f65278;
  0xa6ad993bba2e78e8; 0xa2e306510db7430c; 0xd71fcc953bb25929; 0x72fa0ecc1bfed8a7;
  0x7b85b405eeaabc50; 0xb3e0f1eb24d3f937; 0x7b721b75317d9fff; 0x0cd64ea5d6258a04;
  0x7c95f3ec1c665f11; 0x43eb4b52cf3f4147; 0x353590ef212e40b1; 0x5ad794f57431e182;
  0x9ef13c2b228be639; 0x87e30e269837af0a; 0x63671b7a0d34429e; 0x4f16dc3fb96553b3;
  0xe3a4bfd15b7afac8; 0x24db8ebcd26246fe; 0xa0823c8411ed3138; 0x2466f19439377027;
  0xb214f37ec22a0036; 0x6f9248f1b1695364; 0x56391c19eaf178e5; 0x272a1ec4ee85cdd0;
  0xec78f7c06cd72595; 0x80c7c8b9a0d6f5fd; 0xdee0ec81a67b5bfd; 0x84008ccf7049debc;
  0x57a81c6154f657db; 0x07878ea7b19d503c; 0x271c02846f2bb110; 0x0a3d08d2de9682a3;
  0x45df440bd80026f2; 0x4dee3d6e1427ecf2; 0xcfa7818c6b85ae4e; 0x268528e1c4a58438;
  0xfa0a300e6ff68c11; 0x5d6555f1bab39589; 0xd72f5067b7fed69f; 0x87b48294d302d009;
  0x4c01638476a1d66f; 0x0824da60c25dd3fc; 0xe0d8263bb85c7940; 0xfc745d542746ff64;
  0xe9bcc690153729f3; 0x7a73bc6f42ce108f; 0xd82a4ffdab1ec4c3; 0x4a10a18633e6e8eb;
  0x45ad5f7140cda756; 0x92c8883f9bc0cabe; 0x0d95951a709b0820; 0x35df52f9301d8886;
  0xf6635eaa59c9f892; 0x35403377a95cfaf1; 0xa886714a4b4adc5e; 0x3127794a9ca8e812;
  0x1905fcc9df80f267; 0x495a2dc1d6699409; 0x611cf0fe201a4720; 0xc31e4826f4a905c2;
  0x06cfcb15ee3d0415; 0xbe40697b003b2b67; 0x7b368e6f6f7ae073; 0x5337392f32261205;
  0xb9f1c12af5cde5c4; 0x32d4a6c559874766; 0x5fad4877b3176a90; 0x3a026fdb86b3d053;
  0x096e2630e55c734c; 0xf797a9a152e5abee; 0x75861c76acf3c4d6; 0x1d3380825ff2b2b7;
  0xaaae39138f95659d; 0xee9e8b9b0f1579aa; 0x5015d299879a8dbc; 0x2e3abd06eedd6639;
  0xc934a0d87ae6ad9a; 0xe22c1d5eb03bc8d5; 0xcdcd27a50c6f85a8; 0x7dcae4769b6fd754;
  0xb45cc7900e02330e; 0x2c828230e1cd84d6; 0xe3417f114658b2cd; 0xc521365141c13165;
  0xe28de30a36e2d779; 0x0b033f8beaca3efb; 0xe91631ddd0438986; 0x709c1a0b19ce6eeb;
  0xd53af0f6f6f0ea3c; 0x7cfa4387ec415e8f; 0x901f207856d203ec; 0x84a150e0de8ebc89;
  0xd88348048832bd8e; 0xc6f42d9fcc582108; 0xaebf5b69d4ed9bac; 0x4778696fa9bca399;
  0xd6d48bfa25d3cebd; 0xe08e190146267700; 0x30d54a112f7297b0; 0xfd25544bfc0e3069;
  0x8ad376c801e166db; 0x7bc5f81d57e20a91; 0x1d713700d60fefbe; 0x674d0fb478386a14;
  0x299e643eeaa92663; 0x8b137bcf3f086d2a; 0x805717cc18a0aaac; 0x4e9529aa1891c696;
  0x8af5e2a7577fc59d; 0x03e283e625c60b46; 0x2fb4ff50f489afe0; 0xd3f9040727c164e7;
  0xcf74b0e69a8e1476; 0xa08f4892e0c9d759; 0xd4f7ec0bb848c25c; 0x0b8b26da9531d707;
  0x979ee7a5a342a69b; 0x46286194d93db7ff; 0xb145775082349c04; 0x980a43f7d9f09ee1;
  0xaf7e0dfc764bf24b; 0x869801956f9bcd47; 0xc47ecf9bbc4423af; 0x338564dacd5c4cd2;
  0x429357cb08e9c406; 0xc75f137eec732933; 0x672cec0fda31bacf; 0x5690c49650936acd;
  0xe3a9ad82247b4614; 0x000452bedd157480; 0x516b713cbf179859; 0x80c2e78580539a7c;
  0x8b5856bfe169e960; 0x0b0d9960aeef8cf4; 0x330a355af3f43fa9; 0xb1bdf50fe5176f4a;
  0x8171ecfd86bf8db3; 0xd0e0795f6414f9a0; 0xab7b3f3a567016f6; 0x805caa9b90dae8bb;
  0xd59a3ac401db5826; 0xfb33975f6fce5b8d; 0xfa187da55775f014; 0xc5d36ec7aa1f7906;
  0xc55788a9845ce1d8; 0xb79f840fc3b68fc3; 0x12dea53544a74749; 0x895eb78bd0a0b0e3;
  0xe72612e1c7e9f2d0; 0xbbfce874c4bd316e; 0xabedd0b70130d95e; 0xd75896fbc05928f5;
  0x4390c6abf33bd0a3; 0x69497c0e95d740c8; 0x613950d065199d4b; 0x67516f504530b367;
  0xb868786da0dacfa6; 0xd79d542861f3de9d; 0xc36da718feeab599; 0x67186d779d3e2ec7;
  0x3adfb992e351095b; 0x276e4e361d29a41a; 0x35e8fb066f5d5313; 0xb8a052c6c97e276d;
  0x6fd0211b0c5aa9f7; 0x22039ed868b1d2c7; 0x42d9d120bb7b8b49; 0x3541c5624e33b1ed;
  0x5e9cbf0c8537daf3; 0x25c46ae9df15aac8; 0x869b83f373b8039d; 0x4f7554c1742d9b4a;
  0x257cf2f7ccdb7b3a; 0x3fb17790464d7b30; 0xfeb90d347c851d73; 0x1e2b8a62a304dcc4;
  0x353c821054f69953; 0x1aa537bc91090b1c; 0xb0494a8170416451; 0xd6b22bb0724c3921;
  0xd0c2f349525b63b0; 0x3a8e3da502e9fc68; 0x5cc647448dec17af; 0x8bbf4f99ac146cb0;
  0xd2710caebc54c9bb; 0xe0e10205b8805d0a; 0x75c00a66c236f0a7; 0x8a6bd6e60ffdc181;
  0x585b2fa4d32865d3; 0xb021fd2db468c76e; 0xd82766c15aad5af6; 0x13d1f3465d18ff7f;
  0xf3fdd9ab0ef6aad8; 0x34bf9f1404153ee7; 0x6fde9e3fae8a590a; 0x51a9450c433ec791;
  0x01b9994209445c04; 0xb7aaccb1bd6412b8; 0x623dbf96d55cc337; 0xfcdaf7f5fc434bb7;
  0xf7203f8493c3ef2c; 0xd6ba718aea5dcb92; 0x4b0bb2943fa11e0a; 0x0a65c01480881613;
  0xebc562911b708607; 0x6720b3bf5ee2ab94; 0x1f22e3c4847a5add; 0x0719a7c1081eea74;
  0x66c5930927458342; 0xacc25063831703d5; 0x4cdaf79e2ad8a9e9; 0x6d25d6dd5f2b493f;
  0xa8ea37cdf1adcc26; 0x27968206b138db07; 0x5d1c5f0a0332e86f; 0x25ad22060e422985;
  0xe7559f18e296eaf6; 0xf04cbe5dc2dc8e7c; 0x3e6ae0b648d03805; 0x956dc9837e18c492;
  0xe4814fea311d80a0; 0x7e6a73543a0fcfdb; 0xd96866c92cf4233b; 0xae9d926a905b6e1f;
  0x9b9087e4db9f7611; 0x41903ac1df57fa27; 0xece51adbf8e4a13e; 0xa352990497d8e6c8;
  0x7fdfee979248e3c1; 0xde82c0553285368e; 0xc024422a28c38aa6; 0x05253abcfc9cf87c;
  0xf4e2f607132fa87e; 0x26f5fe338da8a5b9; 0xedd6093980d7e1e2; 0x1122f790024e0261;
  0x2f8ebcbadfedf076; 0x6fe31a9d72b7d257; 0xb70b83a12da21146; 0xffc67929f33db526;
  0xf9aa3510535d4738; 0xf96101c4cf752f3a; 0x558b0cf9cd339446; 0x388b18782b851e43;
  0x3cf2ae4cfaf0b08c; 0xea4918523490df1e; 0x42c7f674ced5306e; 0x567485e3ab90527d;
  0x8e738003b1b2e29a; 0xf331ea422f16b80b; 0xc36bb527ab49d6db; 0x542af38c331f2fd8;
  0xa1a750be85c94edc; 0x4147572b67ea6052; 0xd0a8c5fc072cd3cf; 0xccda4783f409a343;
  0x72c3cc9d1ab82045; 0xb04dffdb704f40ca; 0xc90f5d196bf23331; 0x2f714a814a1e2b16;
  0x2e38e634a1e011c0; 0x17229b168b98727d; 0x8aa8e12c3499f2b4; 0x96c50bed600d69a7;
  0x85f5f735beb6e25a; 0xc7b092063dca1c5f; 0x46c09cbb859465cd; 0x69c2af4b8552262e;
  0xca67c218f66c97dc; 0xc1867b7e009ca090; 0x3cdd6c0c2ed126a2; 0xd0873b3e44f0974f;
  0xadec476e8c4390a4; 0x0d7c1cba8f6271ed; 0x301e9c424d0dacaf; 0x37901ef6d6519ff0;
  0x92d053606c47fa44; 0x7f64f700ef1aeae1; 0x10184e9574489d71; 0x697e91f10c740e21;
  0x9e9d6d6a553647e9; 0x19ca8d86f0bea3f6; 0x7fa4554b524c60cc; 0x9fd494ad9b9004ff;
  0xe1e2882af6f90659; 0xec59092932e0ac9a; 0x0ded6ddef3e1bfd8; 0xcdd156be35b54405;
  0x37e09816f625ec1d; 0x1390365880a76c4f; 0x7c1b501f499f86cf; 0xb839a66a34a52d8c;
  0xfc28513769380d7b; 0xf05ec17a0a6e0677; 0xf5aa22316e63ce6e; 0x587fea87989416c1;
  0xb139333a6004edf7; 0x57f768efcd09eb24; 0x3484aee312bf87e2; 0x663d74aae3796742;
  0xc8f96d84a75ea79d; 0x10d2cf298fcdea88; 0x890d0edd6873ada2; 0x975e5b41a4e423f5;
  0x79d31f9fde203e7f; 0xd99ddd4ad518e9a1; 0x1e2e42334433cda7; 0x7d0b05138daa29dd;
  0xd70f2b84ed63de46; 0x0d88cebedd70f869; 0x30b454f0cee54e77; 0x7a8016db176f1c19;
  0x5e49a64eda79c230; 0xd82b06caa7c3c9d3; 0x470d679836cf7e2c; 0xd68ae0413893cd37;
  0x27e9e0dbef681083; 0x065550b08ebeffb2; 0x9ef575c6965494f2; 0x75de80681f5e4ad3;
  0x5a7f676a75cf2a96; 0x240a2df911c4e510; 0x9e547235df445683; 0x71cf78740d827b8b;
  0x786360c244e738f3; 0x061fe2a05cbb18ee; 0x9f04efd86bb27409; 0xb5800c55627c4c35;
  0x6e5f99278e60380b; 0xf84eb7ebf1f4ecd6; 0xd603aa1cd702dc4a; 0x12573eb67046bd06;
  0x018f56f703125320; 0xca73ff2d1bcc470b; 0x1098afbcff76d1ce; 0xa970e3dbad6abeef;
  0xb2bc33200613195b; 0x9e656697618c41b5; 0x25280486e3c801f8; 0xfc2f869844b5fd49;
  0x47832846a0e54bfd; 0xd3ea8e6f4a920236; 0x3983a3c62f06731a; 0x49e105bcb1494f8e;
  0x9688a8b5bbaeca0b; 0xd8fab372497abcb9; 0xf929ab49bc65c224; 0xd0d3057b541ab64e;
  0x760aa1d2163c4cee; 0x0f0b35f1c25ba993; 0x4c34e352c39bbc64; 0x1c22d1b6aed17820;
  0xe37d443cc292f18e; 0x083c01547c7cfe3e; 0xed10e518dc800344; 0xb630d1dd3094cc5a;
  0xadc5fbf60f6ec5c5; 0x09351caf38b49654; 0x5da7be83ca0060d9; 0x36b955af9783cfcd;
  0xb5a32ba816b6e1e5; 0x18469cc5ca2ac7f0; 0xa787966213cbd2ea; 0xe8cda94161e3c932;
  0xe9010dc6c3518292; 0xbfe12968b16f3dc2; 0xd56b8184d6008f94; 0xc4547510bef2f569;
  0x3a92faac7e017091; 0xdcc9c1e5d7ac8876; 0xab1fd7f038ee0b33; 0x3152a9f9a65e4f52;
  0xf51bf32dcd942fe7; 0x565c449099117866; 0x6387a048f387b8ca; 0x79c75d39c9c2317d;
  0x1299a91582406ea6; 0x133ee1337d064ad6; 0xb719624274fbb939; 0xca0e00a9c8607fe1;
  0x6f7bb3c73e0c0138; 0x74de25735f0ec5c5; 0x786147c0fb450bd2; 0x0b638a64501583c9;
  0xa6f1f4ed7da706d7; 0x460b3646c020d8ac; 0xa433cdd8a7c5b865; 0xc9b58bc0eb353cd1;
  0xcc754bd9ba428661; 0x4393f3cd4404c86f; 0xd9bdd99f1745d7d7; 0xacbc9d6ed27fce26;
  0xf8b412ac9736cd8a; 0xc7a43b5e04d6eb71; 0xf9fa90dfcd004bbe; 0x60fa16327aca6c0e;
  0x808b7dfa11ac5f2c; 0x505211ebf964ff3f; 0xbb68703acdcff7ac; 0x24682aa347c4d129;
  0xfa0223b4214ded8c; 0xe10aa087b4061f6e; 0xa7ecc31c7e8f7ae2; 0x527263fbe91e8c45;
  0x5e8889a477d9b9de; 0x9ef5a40f9c915f3b; 0xbd69ccf74f9e9399; 0x16a37dcebfe62601;
  0x2e8648b21073f452; 0x9b1ddcbe473030b3; 0x3c46da45e4e94f7a; 0xcbd8c51a88105635;
  0x43437fc923bf6dbd; 0x0a7212a81a44d4d7; 0x13b0ed08c6538abe; 0x6f222e374f65a696;
  0xb40ebc4e1be10867; 0xfbabbce292b766f0; 0xf738b914a3586f9f; 0x3c627f85096b1327;
  0x88f0daa1f8e955ea; 0xcbd6af90c1bbd5d3; 0x03eb799428740269; 0x096656cc4ab5f8df;
  0x0bd0815f8f9331b7; 0x6aa1fc82c33c0ef2; 0xd920353ae664285e; 0xf98eebcb69187994;
  0x0c2e0d99823721d2; 0x88844fb820769a09; 0xb09a369f589a849a; 0x792fb52ac0f3185b;
  0xbe0baceacb627a1a; 0x2b0b27fd7e92d48e; 0x17f5d4d6e64b849a; 0xb51bdf1c882f9239;
  0xb5deb7d67ff10a45; 0xb3d15540133c063c; 0xc27cc3ae8db96123; 0xf1a8e8e8dd59defe;
  0xca52812025d48d9b; 0x687ff6ab9186ae0d; 0x1d238240aba45edd; 0x62ae5bc56e5c0c68;
  0x5d5fdb451b7aa56d; 0xcb32e19df2510943; 0x7b7c6f1d61bf3abe; 0x21930e4469d8bad9;
  0xb38c14e3b8434fb0; 0xfa09e40476b3b571; 0x1e13d9249cfb8b39; 0xb8fb4ab71b16960d;
  0xe4e5b7f732047a71; 0xeaba07565a111df5; 0xd4faab065d5b4888; 0x9128c9d60f661c10;
  0xd1328831b85ccbfb; 0x05175832b35b39ec; 0xcaaeddf598a26a8c; 0x05efef567c869b85;
  0x16e5351c1f0934cb; 0xae2c091a4ced167a; 0x6de1c859db2ee4b3; 0x476a2598fd578241;
  0x9a2ddf6c1fa3a30c; 0xf83c277858c35aa5; 0x914b1e478df39580; 0x8d81db88b9c62aa7;
  0x35e78c377121b527; 0xf6ea15f0a49f5373; 0xb87148902d8d67d7; 0x322b905ff3cd4921;
  0x925bc4a9c6cc1d00; 0xc7e19177e6171a5f; 0x03dea228abc5c1bc; 0xfee2918dab8d6f4a;
  0x44cfde4a98555237; 0xcc02c41fde23ba1c; 0x774eb772118d2170; 0x330e00a64b909a95;
  0xebf96261c0befbba; 0x2bc20c813bd2e12d; 0x7fe9b74be1fe8e2a; 0xe9e3859579a6e44a;
  0x60ceacc3bc01c0da; 0x5db437403c001e57; 0x6ac6f0da183a9c8c; 0x56cb0edbe2685825;
  0x65d71cca78284e20; 0x8436b7e90229c5b2; 0x68054261df011b0c; 0xcecefa655191e6ce;
  0x17629420d4055a9a; 0x65d6b764e1fb0144; 0x8de68109ee0a7bca; 0x0fba87b3dbd46543;
  0x81612010b6e9c9fb; 0x706699117a801e53; 0xfbbc1273352c2b94; 0x538413f8e7c25d38;
  0x7db864140960df2a; 0x879468ea3c0767ee; 0x2e95493c7725a8d1; 0x58d5b4c47d9e77d1;
  0x6dbf614e3dca82ff; 0x048f3c8fd2d05ece; 0xf020e704fe6208fd; 0x4010fed93b78c5b6;
  0x10380d8013c43586; 0xbc6fe65496dc08a5; 0x589abadbacb48420; 0xb12af287ad62bf14;
  0x04c5babf753e3737; 0xd07183aea0f39c24; 0x7270cbd7dd25fbe4; 0x1b8a73bff84e8fa9;
  0x3d3ab154753b6e8b; 0xe73c4d544f07ce14; 0xfa01302e200d712d; 0x99847118dfd2a7c1;
  0x0deb05bfc32f6a5f; 0x8e64845237490214; 0x21cee6c5819514bb; 0xf6503280a1be42e4;
  0xd72e3b1394f01182; 0x5b06100e55cd0857; 0x00d8d9bd3764db56; 0x7e8679f8c63ab452;
  0xa3aa2b80ec37e899; 0x5ec3790b7ff67542; 0x0dce187185805310; 0x37c147b638f36ac7;
  0x3d804e8ff8584f4b; 0xdf6f844a0ecf5e52; 0x9a85d4d9473914bf; 0x7cc850260e57c2f9;
  0xf7fcee97af1f0ffe; 0xb78a1f55e888284e; 0x4e9a506d1df08506; 0x49f82a45a4e605eb;
  0xe66275012f33cd73; 0xc1726fb0c7033b19; 0x3baac42be640b68f; 0x392114738ea42c6d;
  0x1608aaab18a0b812; 0x6a758b5406772b19; 0xada28d7a66bd0ed1; 0xcf76b8f9ff29afb8;
  0x0458fe2514091662; 0x59d5cdd0efe86bd2; 0x505e98a4198be4d6; 0x076b35212baf4e93;
  0xe537b0c4d70dc643; 0xfce0e9dd456cdbb5; 0x12b968dc90e11762; 0x4dbc2480a6229ab4;
  0x6dc839f77d2fd95b; 0xd7acb0a80bb12808; 0xf68e762af6d36709; 0x25e53276b076fc8c;
  0xa4cd80bac91e1c1e; 0x2e7cf6d3e6d99b5b; 0xa22131c1b96550c5; 0x1c011fb6b7ba05c4;
  0x1bb3d209b908fbf0; 0x9a2464aed7d2b29f; 0x6815e35105a15937; 0xbc14f68c3887795d;
  0x1e98be327cb47429; 0x02fd9c872b494fb2; 0xf9f51fa474db3cc1; 0x4c941ba4c39dc4ae;
  0xc8bed725264c004c; 0x30a0b576c79d63d1; 0xa48a90f71994a44d; 0xb1b8434e3fb7df80;
  0x54736c4e492c5de5; 0x518894a5a9c37318; 0x94a14e854fb97174; 0x382eeaa4c8d21dbe;
  0xb9c737839333f3c3; 0x6482a8ac2de3150d; 0xee07758b55c53fc0; 0xa322a6f30766fcb0;
  0x69481588308d6ced; 0xd28f1d439c4169cc; 0x04abb237eaafb528; 0xfa1277c0100c05e8;
  0xec8ccec6c1422f65; 0xdc8966deeb4cbd82; 0xf2c70bf3be1c89d3; 0x8597e63a56e39e4c;
  0xd9ab614bdd762ffc; 0x821ee9b08c802aba; 0x13367c637372b871; 0xb7198d63e22e7768;
  0x093b5c64f94aa087; 0xe31872263492fb0b; 0x7dfbaa32d4bef3aa; 0x8bbb44f9600949d1;
  0x4a64f9e11f002569; 0x6b195a1f4b75e5fe; 0x2c9381b98a82c9fc; 0x80862c82e3a2e869;
  0x8bf6b5ee99ecae11; 0x03a582906e8d5d10; 0xd65ddd1e4b1be7b8; 0xaecdc8b7a5ed291a;
  0x4a267d504b8d70c1; 0x3088b192b901c27f; 0xdef04137c85e68a3; 0xc0c8de90b1bdfaee;
  0x73e4ffadab17dd4f; 0xd6eeb6d977dea039; 0x3ff1248e85f64cfe; 0x68dba8c7eba87b6b;
  0x7b02d523b8a692de; 0x8205bfba78ad931a; 0x017e37f140d2ab4d; 0xe9f7355789ebfc26;
  0xa92eb560f1c51faf; 0x2c6416822a69f8b3; 0x785a7b2b84884cfa; 0x754bb97b7c728285;
  0x5947c463001e2f4f; 0xf8fbd47354fa5a88; 0xf9b275b2d1119bbf; 0x0d0bca01437c731f;
  0x7821bf03e3da3fec; 0x19d313ea879fff4f; 0x86f3e651a86df2ea; 0xe337eb9aab240235;
  0x95f0ebeadae8f2bb; 0x350932b75b245e7c; 0x47c8656a87dec788; 0x00a08420e41da9e4;
  0x5f9d13087d229680; 0x542f75262d562c34; 0x02ed558935e9d6f9; 0xe20cb21845ad731c;
  0xacede611cd8e87f1; 0xb84a1a4a79f40775; 0xae0bcd0a00ea6ce4; 0x1053500c0b166408;
  0x4a1f43853235053b; 0xce063a0d485c5abf; 0x3c155c30b63bbe82; 0xe3e25600c5afdcc0;
  0x2f526c55c02d6782; 0xc6f23cfdc1fe433d; 0x838639147153f7a2; 0xf1f6dfaa51305fb1;
  0x580dd61e6adbebff; 0xfd2e465118b7bcf2; 0x52993dd79f560da1; 0x7cf04560fe2c9450;
  0xb420dd2e735f67fb; 0x30de6a3ad4fe0b19; 0x5d85a36d9ce755ba; 0x37fe7d98143d634c;
  0x0656e108b9447a32; 0x86c555cb181a06ea; 0x9f701255f8162eed; 0x3e35bb6b8581e253;
  0xcc79d1827e4b29b6; 0x5f1a99b0f203a5f1; 0x4e796e0622325a26; 0x26fa1995d930c7e0;
  0x1f32023645dab512; 0xf288e196ddeede30; 0xc19a2fed8734f002; 0x8f42970f16b8c541;
  0x0c3506f1764a9184; 0x09ed4f2e9650c7eb; 0xdbaa4071633b615d; 0x1a139ea75f629c40;
  0xdc6cde61ac8cb695; 0xb24433b318360faf; 0x976d79fa79391fa7; 0x62556cddb8df6bad;
  0xe6522df81c77541a; 0x1bb5efc3709a4bf9; 0x5f3ffed759eb2f06; 0x51fdcced56abcf2e;
  0x2d66e69ce7fcf282; 0x6b69c30156776fbd; 0xa73baf5faf15c385; 0x225f13939edc9e15;
  0x774497d89819097f; 0xa038a5cef8d01e61; 0x99fabc69cec8206d; 0x2678ca1380d3002f;
  0x5da82d36413c6b70; 0x615add3807b10af3; 0x925ce729264840fa; 0x757404a18a686d2f;
  0xa210f1b68fc56d88; 0x59f8201b31537c06; 0x1c3948f69ca99208; 0x702eb52c1727eb62;
  0xbaf6058bfe4ae8fa; 0xaebcaddfefb1935e; 0x7c3846ba5a3d3887; 0x4ff13fd027e53fe2;
  0x7a68163912f10f82; 0x55aeb06238f249e4; 0xdf6df33d4d053f47; 0xb61721d65c637a63;
  0xc677613f51ddb7d2; 0x64f9ffd0ebf0a0c2; 0xe9d1d45e01545b1f; 0x26d40e4270e782a4;
  0x8b30dd15b8ccf4df; 0x27d0cc7061af296c; 0xf5cf1f6fe7aebbab; 0xa9e919e6b9e15c3b;
  0xb3e9496d74cb02b0; 0x4d98d0e95f164cc4; 0x6149b22d8b6328f6; 0xc75749383e928da5;
  0x0fdd93dbb05235a0; 0x8faab8c5ef0eee81; 0x9d7d957b018a99d6; 0x90281641e6ca2e2c;
  0x49aa140cdd45b258; 0x7958f01e9e952c62; 0x701318679bc29753; 0xe42d3a9f31889324;
  0x481e684d4bc08209; 0x3b66390780219149; 0xa2f22c97dd12ca5e; 0xeb8c3de9c66540f0;
  0x615a94d77e3600c8; 0xaed11e29b86c60bd; 0x4315e68e8b9ddf9f; 0x034a32d4bf5a7775;
  0xbafa63916144e236; 0xf8d7c5e6b2cace2c; 0xdc96ad0bca62d991; 0xebe8b6f1bfe8b4b2;
  0xa7831a2375597be6; 0x43ff57fe190a19f1; 0x7ca02f2be7f51f0d; 0xaaaea16b6fb00a5c;
  0x802b9580710ac4c9; 0x24c805f1f8dcb04a; 0xbb24c71bb7e4b5e9; 0x858c7ef44ee551a4;
  0xe9ac3fbc5261454a; 0x24357c3bf14c4633; 0xaffc0641d7da25f1; 0x96055d8259dc478f;
  0xfeb629418eb83e8c; 0xec28262d7163f462; 0xce8439e0cf49d15e; 0xb7bbd12a64fb4120;
  0x8e108b77ebfa2644; 0x4335dcd5e2aeeb75; 0xdd8f1befd03d6935; 0xfeab7ae058007ccc;
  0x869574aa674b35f1; 0xbd796a2156e8d804; 0xb8e0052a3e4bf8da; 0x506622815ccc2003;
  0x4c47563adde615eb; 0xd0d83bbc618fe58e; 0xe1c38bb8c469c116; 0x7ebededb42459136;
  0x3cd2025a556728b5; 0x41727652735b1535; 0xf34396af9511a5f1; 0x0823e3cb5f3256fd;
  0x900cc67e593bd293; 0xb58f2b673018456f; 0xa71e970b49e14401; 0x1a57cc218daf43fc;
  0x56a10322181dce9a; 0xae7a520e6d9f2cb1; 0x9ab293f96cefbe2c; 0xec4c2ab47f09adc6;
  0x2772bf15ea310af6; 0xa92aec3f30d37a7a; 0x975e9174c033bf4d; 0x31696c1ae4cb8879;
  0x17e863b7a9542b4c; 0xb15f5b2cbaeddb5c; 0x1590590a1764834d; 0x30f7b3b42d3f0110;
  0x7802592b90ac7262; 0x5e224cd304cce2be; 0x6519e535221b93ac; 0x006389d06482e268;
  0xc6e3348e7a1a07b4; 0x91c1394660ea31be; 0x74de1b1e899b3092; 0xc00956eed649e4ae;
  0xbd57c6b32e35620b; 0xfd00ecbc9c290d30; 0x16afa27737155ccf; 0x503a29ebf2c6b8d8;
  0xac9c8e45c143e611; 0x513da5a76cdf4a4d; 0x47c537c35d5fa56b; 0xb2471c1632583c47;
  0x2c8e182d93bec343; 0xc42b49b1d3330112; 0x472a2cd2dd6f8748; 0x99d62f8a3594d410;
  0x89e1ed801f4db787; 0xbf2030d935987992; 0x18ac2c111991cc9d; 0x130ae5f68ee62f4f;
  0xb6b73064e121e8da; 0x1687d9d57131237b; 0x99e09cc8c1882316; 0x98c35c9f6239c6c7;
  0xab64754d8909a6ee; 0x6548d3cfd254114c; 0x66aa341f09eb5ed7; 0x1d2a5fd91455b093;
  0xc6c5583e6bb8fffc; 0xebc1582fb97925f2; 0x28263654d08b39b4; 0x1f123252bf1799d6;
  0xa40c22f2c7ab9b2d; 0x2aaf302c28f28001; 0xc039990145373b59; 0xa06e56ab983d7d57;
  0x429d67e4428359de; 0x002b15e389bec0cb; 0xbb51018bd69cb61c; 0x1ae20cd157d27a3f;
  0x0d38afb870c016be; 0xcad11027e4da224d; 0xf2696cd45ce39a36; 0x9c2024e95e2c8350;
  0xad8190b471428d54; 0xb3794a57df008bca; 0x80cf840ec77c5281; 0x94e3bb74d98cdf4b;
  0x4200dd5874686c15; 0xbcb0a1e831c78582; 0x028c7cfd9ff7f77a; 0xfe9524051abe83a6;
  0x3f72d52fb9b2836d; 0xd68381ffdb89bb0d; 0x3c2b991390e147aa; 0xfd5de5b35bae9fd0;
  0x28bd228236078b88; 0x66d36582951d9eb1; 0x0ca8da51ce4142b2; 0x8c096894c4194518;
  0x46ad3dc22b0dc158; 0x69d52dc64a71bbd2; 0x51a9d6911a84a025; 0x48b488d9c2b78573;
  0x1617efc1ab9b1636; 0x6375701e805c510f; 0xccaa7989922b0f13; 0x42c228fc490ef4ce;
  0x21ead4ed6badced5; 0x680696a1ed5884a8; 0xdb02f1004ffdee4f; 0x88282c74f9e79fa0;
  0x7c1a6c6622232d7e; 0x1db9e1f62971d07b; 0xdb1483d1fbdb641f; 0xd33ad39f661b8953;
  0xe3465ced02036d6d; 0x06d29b9df47368ac; 0xfb7a0e033814cb8d; 0xdbf37309ec083eae;
  0xb27b320d48dfc743; 0xd71dc66177d12d81; 0x590ebed7fe7a1f52; 0x45b6c7120b454664;
  0x3414acca4a70c8f8; 0x5b1f8a22888fa7c0; 0x8dc1b8da3351bb0d; 0x76d32d437f2f16ae;
  0x554aba5f83d32cec; 0xd4f1b1ebd7c28af1; 0xfd7e9e5ef3b530b4; 0x759f1b214fc49961;
  0x18836f386b9adaf6; 0x11dd066042611a9e; 0x0602a375e32f97ed; 0x865d6fa84141d2d8;
  0x647af1e464edbcbc; 0xfee68e513d570b73; 0xa096d0cdd2714dfc; 0x53e8277307582701;
  0x92854f72406cda17; 0x51d4eb02c90bf85b; 0x182497f1fde29af1; 0x56d190e24f2be6c1;
  0x60c4ffde8e62326b; 0xa79e433bf3eacd62; 0x34e8dbc97c5e8958; 0x5e23308a0fc3152e;
  0xfdeefee0b222b365; 0xd5c90f64f76f15cc; 0x8b3445330f485952; 0x2b64271155ca8a7e;
  0xffa361100cff3616; 0x8505afa7def9b3f4; 0xfb83be8973e2a4df; 0x971a5144061f11b3;
  0x73df24d0e33b4375; 0x2d8891cbcbbbae27; 0xd759266b0d56937a; 0xa775bd0c7f4f1325;
  0x989bc3971b41690f; 0xeed200bb89026e07; 0x17bcce271ca4d028; 0x48ab9505e06b2e51;
  0x765e500730181cb5; 0xbcb31d370e22c9b0; 0xb71d919c4ccc73e4; 0xe9e79fa5eaf32ddf;
  0xab5a5c0a02f44342; 0x16147b0c792ad0d0; 0x1ffd4355abc7b6b9; 0xa04c028d037d8b0d;
  0xb126e5e8a2eb355f; 0xaf7b305a1496f5a5; 0x5131000d77d1633b; 0x256508eed6456e1b;
  0xc58277a690a3f666; 0x04c7af41b77c9d6a; 0x410e08511dcd825c; 0xaeb1d03149e79586;
  0x18ade1196d47f2e5; 0x7dae60de1c11e9cc; 0x9020432c1a347eba; 0x60feb3dba30a3507;
  0xb77369ca3cdcce29; 0xd75df7f4db9ad22d; 0x4aeabc2c7d60b4ec; 0xfa4a6b937a1f2f37;
  0xe39ec0098555d45f; 0xd284e10ced1c3d9d; 0xe596d4051b635d89; 0x328b2a059f8c9fc3;
  0x47217177bed2e52a; 0x62c383eea2334cf1; 0xddc9939be24c8260; 0x54efee4db9a3c172;
  0x25d8d4b1e01cbd67; 0xbef429f8edce52b1; 0xa0ab10b6195255f9; 0xcc8d2e85d01eb34d;
  0x2e231389c2b5cc64; 0xa0eccc09dc7087f6; 0xfb33264a884c139b; 0x934b8f8e2f07c29e;
  0xa03ec65591d9a79f; 0x47b1689ca3611493; 0x5e35a6ad5f83271d; 0x071af34c23057a26;
  0xe0ae6230a0a06ea7; 0xef30369f1311617e; 0xff7731c21eee1121; 0x4120fd1972418fc1;
  0xc536cb6b11316ce3; 0x7bf5c0e46d77fcc9; 0xe54e6359931cb18d; 0xe65032509681d992;
  0x12d275f203d024c6; 0xe67fd30a32f1bf72; 0x573f79e117cefa98; 0x5b645ba5019f0c82;
  0x7ed16c57f602c287; 0x2f45997b08eb5b95; 0xa614726883f5e1d8; 0x42a80df5096de588;
  0x9076590f5102d335; 0x8d2c435f052b0185; 0xa2337f776b479259; 0xd5bc4c23f49d9385;
  0x459b2776455d667d; 0x29c0d1a3711766e2; 0x93a290dbf18fb503; 0x167625c0bf41fcf8;
  0xcc15e6901208dc5d; 0x6c50d70b8a9eed5a; 0x1be3e8536f60486d; 0x5c524ab67aeac7e8;
  0xecdb0d390a793f87; 0xee96e985a3d72dbd; 0x72af0883aa47a00f; 0x76e58349a36604d8;
  0x36ab5b627df7605e; 0xf8fcc40dc9bea368; 0x96daf3daf20d6487; 0x6900bf1235115a93;
  0xb54970223232d49f; 0x0d751b0107a300f0; 0xb7ad110224784ac5; 0x22b38566cbbd5bfd;
  0xfe69aadb53a10072; 0xf6acb2d64208051e; 0xa15e325f7c16d561; 0x8f9282c5f01ca269;
  0xc899d5846e2e093e; 0xe2ceaa09b441f78d; 0xbbffc5f5050c0429; 0xf5fb2605bc9c72db;
  0x307e4fe050bdc747; 0x9edce94722050912; 0x60dbe60d12fcb1d4; 0xe5c0cc25294c0a96;
  0x130e3b023ae3e7ba; 0xac092c07dd876f3f; 0xb6680cb02a79d42e; 0x8f6e499c9c013b18;
  0x233bb3db162f6210; 0x26318d2cfbdb7526; 0x1aea757cb4a36dbe; 0xc88cf7aa73c71dd4;
  0x0989935c2c3b2edf; 0xb82d49f8bff94cc2; 0x6aef8efd37e0585f; 0xc00eafb80c27159a;
  0xaaa1f4a8c952be59; 0x085965f48ee4020f; 0xe4d24bd766a8284d; 0x2a8bb1aede92a6a0;
  0xf93fd0c636c156fd; 0xebb1dcaeeaaa2b81; 0xe3b4346d3688d2c2; 0x8ce6fc1d1afd77e2;
  0xf8ff7496ab99a524; 0x5f577a9e99c380d0; 0x0aa5821c05e78176; 0x287c0f5acabe7d5a;
  0xdcea09a86a809aab; 0xb32d1bf18e3d7e14; 0x481382c3e61647fd; 0xb1f2f45a495f10bf;
  0x215653045430b797; 0x9913ae39a3e1ee6e; 0x9b038ec725c7b1da; 0x889be8651273fe58;
  0x517f3463e9996a49; 0xea73cd632e8a80ed; 0x43e1d103868b57d5; 0x062e2faf42f8c9f6;
  0x2af0cb57f243effc; 0xfe50fca4991a55f3; 0xb6c58d4c83c87e15; 0x92e784c9929f7e0a;
  0x03452443e6f425e3; 0x3dd35e7c39df49a7; 0xe65dfcab1ecd76ac; 0x5d00d714e521fba0;
  0x44fae1397755ba89; 0x4960985c8df3c0ff; 0x1ed82e75958b1bfb; 0x542ec6014c62d267;
  0x742c6e242e3f432f; 0x425877336bd43a32; 0x47ab0ddd38261c47; 0xbf98d2c42dac899d;
  0xa03b5c575689aafe; 0xc2e77aea9502a463; 0xed562e5cdb664edd; 0xa37f855813f39b56;
  0x877513876b086d43; 0xb34655bf32f6b9d4; 0xb66c03de58a70801; 0x996d7e4255004843;
  0x075a1355c793189e; 0x90438ffc9d0f79bf; 0xfacdd44f094be18f; 0x6fca130632eca012;
  0x5fad76692517e7d9; 0xf029bc40ecb09652; 0x4222f94e87117845; 0x6c4ab668b0f7396c;
  0x1f2c4d46341db044; 0x5afa5379f196a579; 0x11314c0a2279b1c0; 0x995bdfae2ea7e915;
  0x46ac16ccf6ad4b8a; 0xa06781f53f2604bd; 0x08b4ab0fec8e2ce5; 0x15bf7c5921221721;
  0x9fd38a1ae08c6d4c; 0x69ea4e17d59aba42; 0xd2d3e0375834b697; 0x71f0f18d6229c60a;
  0xe32b7b6488541c44; 0x95063729277a84b4; 0xc529a0ac1434c000; 0xb3d8e220e2578fcb;
  0x5103dcc35612bdbc; 0xcd35f5fd6bd76560; 0x7aba76807f41a693; 0x8e65003c43cd6c12;
  0xdae0519b42840023; 0xd0a185ffbffb91e7; 0xf9c6797b7424e48c; 0xfe057c6c6bea2b07;
  0x4c31948566cf3f9d; 0x3809c3b4e48633e4; 0x55f8267dc2d62a1f; 0x86eceed6cddf5073;
  0xb10882be9e50a52b; 0x6ad2b1aa8edaa091; 0xa08eabbca0dfec1d; 0x48664abc109d0d7d;
  0x6627fd6e157f47f7; 0x08423dc3ca17b91f; 0x5337a8b2fee21986; 0xa0ea8e1e26aeb6d3;
  0x0ca05c40707e45ac; 0xdb8f8a7a37bb3c42; 0x8e9cbc0023b649fc; 0x5fd142efd377a3e9;
  0xc43ea98ca810fae5; 0x119fa4a551ba41aa; 0x687d34f600a2d0ab; 0x9d3facab8e6d014a;
  0x1e107164c16b9b64; 0x9dac20db23a1535d; 0xd301a755788f0360; 0x4f12ab5678ba010f;
  0xc529a1ebe8190f73; 0xab9f8ba8b95d2eb0; 0xe4763d92d12aa3de; 0xe5d0eda63bd3f99f;
  0xffbbc8ae26f5d5f8; 0x18d5182b944844a6; 0xfc00d4c00714637a; 0x61aeb4216c4211ee;
  0xbfa573ba34837253; 0x9628054aff58a673; 0xe0e933f84308121c; 0xa8e302b5e7881dd3;
  0x91c686ba3e5ced83; 0xf7157457cdd1c34a; 0x1326d206da3dd86a; 0x2485800c93866895;
  0x80b26e1d50852945; 0x3187fcae1d6a2908; 0xaf698eaa5316ea02; 0x0c02412bd6a19f54;
  0xf03b3526e2474391; 0xb85e70d0617abe2a; 0x58dc7a3ddd1f5b70; 0x3b0ba741ea3e5422;
  0x378e1e76c7b3399c; 0x8d3e4e099e0d2b03; 0x0f1b292063cecc29; 0x9e2080eb650a093f;
  0x2236459ffee8d0e9; 0xaff46e77291c8c73; 0xbacd4faf76d8a29d; 0x18f03e64fb7d82a8;
  0x8c24864f79920795; 0x88fb2b9afbf33ad9; 0x127d4866bb3fa478; 0x85c1c77973f9eee7;
  0xe05b54045771cad0; 0x550d92db0b41ee8a; 0xe41483a3006c8ebe; 0x4ef931ff4ae0af0d;
  0x1ab8dfa4c10c5612; 0xe4982636f99f2f9f; 0xa1ca4834d5cb1446; 0xa073a7f7e15d4fea;
  0x0a58e33b5d6dcd66; 0xc4f732b680185784; 0x0c39ad12deeaac25; 0x806b9e34cb30a039;
  0xd2ad2f1afbf7df1f; 0xd83d95540033388c; 0xabdda2d8714284eb; 0x8b8ddb359bd32388;
  0x670ed836392939d4; 0x639718b9cb6a66d5; 0xb1abd72ecb3a6b18; 0x41f4b16c601e1ff4;
  0xbd1fd01d39346f4a; 0x63209d291fe53f05; 0x21fd3c2c2176a68f; 0x053c79653ccc73b8;
  0xcc85dac645301699; 0xa81accec02bd8bce; 0xef8672ea09f4ff2c; 0xebe756f9f9b1bab6;
  0x75e1e856797b3f1d; 0x1719e77680153708; 0x1a62104b6ef93aa3; 0xa96b27c7e4cad5a0;
  0x91d89d7dac5c73c2; 0xa5303372ce2fee87; 0x5b94c2552dbaa0f4; 0x13fc9d4d7c925e3b;
  0x9490222f7646341e; 0xd6355b595adb73a2; 0x94ead8111f1dae3f; 0xbacade1085e87744;
  0xb3d30fe158cc13e5; 0x6a6e7da67f6cf712; 0x990adbe244d834e0; 0x44031f2dd4977fe2;
  0xb3613f3700a868c0; 0xa34923ae697d897c; 0x7e0062da616d2904; 0x0d2c6cde6281dea2;
  0x8915238a4fab37f9; 0x8d5a038ef92b2689; 0x76abec7a6fa601c0; 0x53a774d438c8d566;
  0x7ced12eafd6f6217; 0xebf64536b701d6c9; 0x60200dfb348b9699; 0x3f412cd00a597d4e;
  0x2d17d3ee7979647a; 0xfe2ed7bd7b11c176; 0x061dc056ca21a4a3; 0x1c3ae051f7d6c0a9;
  0x2a9da9ea53dd0027; 0x89c1d46b4ba088bf; 0x349ebac95ccc67e1; 0x236cabb1baa3d227;
  0xd8acd2e5061ff6a7; 0x771f6e35f855ac5e; 0xdb4f5a7512eee849; 0x84041f0af7d950f7;
  0x0a5387ea9536e6a8; 0xe758e5b6953f495c; 0x78f510bce7c174fd; 0xd8ed103fd99c3e56;
  0x8442688a564a7e45; 0x89406196035a6c55; 0x82b3eb602d34bc68; 0xe3ca96b9d4452798;
  0xc85a44da22366441; 0xfa747f5ce1967b92; 0xdfe6a3708a27b434; 0xe8b59cf778eba584;
  0x170409be2d842346; 0x50befbe97cc6ef57; 0x1d588281e9f8b197; 0xf8c9486e41d8a2dd;
  0x84d0ce732a7b15ad; 0x2fa0d493ac786ab5; 0x90c2faf2e6a2d0f8; 0x7f2da5418c49c939;
  0x0e1eeb76e063464e; 0x660583efd96ecf88; 0x2110c1b0627f4efc; 0x07080cd445885b6c;
  0xc9ae11440e2fb458; 0xb145ece24608d5e4; 0xef3527ae19b60e39; 0xe7c3438b55fe0793;
  0xab019a383c6d6a76; 0x00406256587a4c71; 0x6bd577044349d7f2; 0x402ea07ab07e7a50;
  0x447fc9671502ffc8; 0xf6a6f38562290518; 0xe08aae1c9fb41fa0; 0x198eccd654aeefb7;
  0x8e53a91ad5c92d03; 0x808636006a19f206; 0x1330c66657130e88; 0x50b3a58082390974;
  0x89e8906d5e459cc9; 0x431141a2f8f776cc; 0x07e1fef43b46718e; 0x4b2b1403c3118568;
  0x1edee7d6526ed8a8; 0xa1a68f16691be223; 0x35f1d5682f293a4f; 0x00d186d16299ef70;
  0x758452260bebae9d; 0x5db0516ed0815bcd; 0x902c603bacdf2782; 0x38e495f050627a20;
  0x5fa6da49d6d5dc49; 0x586822b983a2e8ae; 0xab0308dd1bf232df; 0xec4073cbc586474a;
  0xce3b1744336f1db5; 0x9cdf6e27984f1a7f; 0x992b1277fea7e953; 0xd634c882780a40cd;
  0xc143f2a021cf4303; 0xe92d56cd87a0490e; 0x2edb5f883dfe0ef2; 0x9a4ee08a34fa39ec;
  0xfe1146f77c005d22; 0xdc82caaddfcbb852; 0xa4bba626030c5d2f; 0x6816a7b2e1aca454;
  0x6faf190ce1fc6d3f; 0x80c49303555f1837; 0x97c15f479e2ec0f0; 0xaa09f52525f01fb6;
  0xcb24de31d7b36b46; 0x18263fc4e82d4ef0; 0xedbf12011489ae5c; 0x70d36b40a7968010;
  0x3d79abbb6f046208; 0xac19824786b8e632; 0x5e820626bea47a72; 0xe7dfb6d6020da3ca;
  0x3c80b6a08fa1655a; 0xb985c4297b6191c7; 0x7c4802bb0fb00029; 0x8d0a395c48fb5e40;
  0x261ecb4b44c00d93; 0x9010a3946b7f5cfd; 0xfcd676cb60f1f503; 0xe4a72f7165b7b1f5;
  0x65a44d31f1439f11; 0x8a3a1da013e00442; 0x5432e8c2e169927e; 0x468d5edb2ab6b59a;
  0xb1cca8d7721b2530; 0x02f63dacc34f6eb0; 0x1514ebcf6e7e2184; 0xc5cc9455222ee556;
  0xe4e90a520278eec8; 0xf53e9a1f127b00ee; 0x33c4d5a0be0aee8b; 0x18c48d5d9a076ec9;
  0xaf93b21a64202668; 0x598c5e30393511b4; 0x0efc90fdc3b8751d; 0x0691d4f0feb919d2;
  0x053021158d3e2600; 0x05f222e1b8b091d3; 0xd2687fdec21cb75a; 0x7aee04ed66e62902;
  0x2a908e3bfb1b3eff; 0x157297a36620d48e; 0x3a94c73b469d79d0; 0x465e2ab93c08e76c;
  0x4a0c63e17e3d702b; 0x07e4491dc54cf0b4; 0x28ad1e21c205740e; 0xd43a725e4c52ab11;
  0xdc1b293a54c46e02; 0xb0e952025328a79a; 0xccdb645d1f5b972f; 0x06089bddfe8fcc1c;
  0x8a32abb5e2ef5e7c; 0xf91d9a909668d2a9; 0xf014740b53fb6a12; 0x901668afac1379e9;
  0x5e3cc08365b4e1d9; 0x8b2ff7b9ca21c022; 0x10bebaac8275fda4; 0xfbe85ccf01a9bb44;
  0xd631d5dc749ebb27; 0x4e97bfe1fe02de45; 0x775bcb5f2377ef99; 0x2258228bad17da6d;
  0x1a3bd886e40d5a2a; 0x9c7b88838c2774cf; 0x690d0cad9fa5a81e; 0x844b6e9a2f2baec6;
  0x5246ee02f2bb12f4; 0x137fe1b7ba335f36; 0x31ae2ce966b3b760; 0xe4f0548ac3b40a37;
  0x5a7536475e626a73; 0xb9a7c2d81bc6cf95; 0xc9ad1d290b810315; 0x6e02de616d114f20;
  0x65cb6278370c06ba; 0xd49ae3efc6785083; 0x0c09b68e9f5378bc; 0xfebfbdfb61ae4887;
  0xfff7f65ae1615dc1; 0x9a6167b087c73bb0; 0xd033f67fafe86537; 0x6ba95195f2e0543a;
  0x52bab9b805193348; 0x963e1a74b4ad0990; 0xa55d843adef89c9c; 0x93aebb02c11fc5f4;
  0x3700f434da6ee0d3; 0xdf9f852878bff8d8; 0x194dc6f595c29ff5; 0x2e7991bc222eaa6c;
  0x72a85c243e628a04; 0x40eb5cad85067ad9; 0x69f5bfabe2f23403; 0x676d03cc523e7e2f;
  0xc136ba67466fe8b5; 0x47a63e604c9ce60e; 0x81b8da2bb593f68e; 0xf1217c8370d17382;
  0x79d8a789657ea20b; 0x952b7bd16816a421; 0x6bc4f11fd8cb03c8; 0xd5e730585c4b3666;
  0xff64706146e98e38; 0xfa1ec35586d4d769; 0x5ca7cc8a8a57d19c; 0x4c74b4c5e2d83829;
  0x0c4534fc3f1330a0; 0x4c36fbc216f7fdec; 0xe9b034b1f53a7b03; 0x0247a1940fe1f7a3;
  0xfac33b5b4d12e25f; 0x2b17da68046ce175; 0x15fce1aaaedd8026; 0x61c590d390a509e6;
  0xea9c504622e0c6cb; 0xe64f422ab722222f; 0x4f25e0ce4569bacb; 0x63687c6d63fb288f;
  0xdf5f18e69f3a84d7; 0x0df95345ed0c2afa; 0x5e3b32450cbe9d2a; 0xc05ef008820d7da8;
  0xe5d54f9a860442aa; 0xe1f0384478ac13f4; 0x992669cea455ff7c; 0x1adb78e8a8396eae;
  0x751ac362518492dc; 0x38ba3e4dbbea7831; 0x767424ab940bee5b; 0x561050c2941fb5f5;
  0x368e80db61097908; 0x358df846faf83074; 0x0913a3ebded11fcf; 0x55c66496db50f592;
  0x17f0b52700eee971; 0x81b6e5b96688e35f; 0x30e297288a8aee88; 0x4d60a452b0828730;
  0x56f9a325b8db93ca; 0xe51862f69475bf95; 0x7e843615799393df; 0xd1a18db129499196;
  0xbed6aa0853151f7e; 0xc10920ac704df1a8; 0xed8608632affc76b; 0x4f09f9b1f83c0fba;
  0x683f2122d1f7de45; 0x16e7e12c3e026c10; 0x91c5b1fa797cd718; 0x2807b07369565f52;
  0xf4d2d67fec3d127f; 0xd023718f572f8255; 0x1050272abc12b6c1; 0xe8adab075b4f1170;
  0xf0a96e31cbe1e146; 0x853f3ac165d8d1a1; 0xfa57169a4dc0090e; 0x74eee891ffaa2ff9;
  0x5e1988656464c844; 0xa52b14733018baff; 0x6c3bbef78dc9845e; 0x7b0bf8b97baa3915;
  0x072906dd169a4fae; 0x9bda4dd8736e7ab8; 0xfd3a8df1c24121cc; 0x241c8e2f6a97edb2;
  0x11554e3348226d49; 0xce63453225adce46; 0xbb034c5cf810f03b; 0xfce3ecd38374b1b9;
  0xb54643a528ce660e; 0x879650141ef5ef12; 0xd2364e207392853c; 0x3a066e0f7691641a;
  0x3f234c685d2529b9; 0xf94a7b25cff91544; 0x9a141a7c57899041; 0xe47821893f2d7503;
  0x7b494117cd2416e2; 0x23bcb1d8ae93f86d; 0xeef666e711c78729; 0x1b929b75cce380cb;
  0x698e7081cdd83f89; 0xc5a1db5165c14b23; 0x090bfbc6e2f73b26; 0x0c959eed41219202;
  0x4084d109f9690267; 0x75d9880f6bb335e8; 0x68150ce98e4f0b50; 0x01c887537a4858dd;
  0x670892cd7f9f653f; 0xf405a00e40556efc; 0xfbf1bbc55a3c4885; 0xe87729398bfbe6c8;
  0xee3b8d773e480619; 0x8f01a427739d91e7; 0xd96cd2a74906022c; 0x6749c6b2b7a80005;
  0xc35d3d555c3817d3; 0x43c8e6b841108668; 0xe1b6922f1785ae06; 0xe82d01b6a0726749;
  0x704fbd9cfff78ef7; 0x2d02b0e43f275524; 0x69fa42107d6b54e3; 0x26cc6ca59bb77af9;
  0x01cd34200b91a013; 0x87ab05fc92e1b8e5; 0x2cbeb3e9076a4877; 0x97dfada3efb9e9cd;
  0xa53492a2450c4775; 0x7b1c89965a04d945; 0xd4eb6641d22a016c; 0xe0629be5bc8e1ea0;
  0x7c8a3c992bc3a5f5; 0xcc795fa170063768; 0xb1ad1ae2bce265dc; 0x4b7ffab0b77d0d25;
  0xebcf1c0e404c9936; 0x5b28d976c145f3f7; 0x7808564e9a523523; 0x66928f2cb4e411c4;
  0xe3b3cef420f789e3; 0x5d016c00c8456f24; 0x15d5d28f176d12b0; 0x8ecba73195a6a0b2;
  0x77a968431a1a517d; 0x44d30fd85598600e; 0xdc3f75f428fbbd18; 0x490f1f1322fece64;
  0x67efaa8a9ac04039; 0x8fc35f3bd7f2e45b; 0x6f52dc9cf81accaf; 0x40ed7421206b6232;
  0x4f672be5b4bb252c; 0x7550cb27b9047fb3; 0x0259f72025459aa9; 0xc1e44b60654a2f80;
  0xe277636b786883cc; 0x239dd0e436ce9059; 0x6f765d77103b18f7; 0x83789f0b098c1b16;
  0x7fcb27c756d061e5; 0xd6c9ebf8161bf6b9; 0x33a4a8a5ef078b95; 0x38a47b9b4320102b;
  0x6bfd708c1fddbc51; 0x65a34cfcca801079; 0x41484a90236dda9b; 0x0e5ba95f4a61d749;
  0xfb27137ddfa2d683; 0x7e3634e53bed3019; 0x91a257bf1905b1d5; 0xd29fe42b99dcedef;
  0x98afed15bd77a001; 0xab6cad47decb90b9; 0xa8faf302e44f59e0; 0xc8294bcde0b17aa6;
  0x942c34f20a30262e; 0x42836a721dec580e; 0x74fa72792b14ad0b; 0xaa48602af8a9b785;
  0x10d2810ae93614cf; 0x0adfb9ccb85fb0ac; 0xb395c660e79f1117; 0x709e2460e74be3b8;
  0x2c29d6dd4125124f; 0x534e3c5ec1b98c26; 0x266dadc1b94bd9ce; 0x91acec0c59d3436d;
  0x3d821e950dea00b0; 0xd1e1b206c4c91468; 0x1f21528ba271da5c; 0x91ea09874406c766;
  0x21d43fd7dc83a97e; 0xb475f5a5b4a2c636; 0x077a6a941040c471; 0x8709df0ee045f2cf;
  0x389aaa1bca144e52; 0x35cdcdf622a74d39; 0x26cfdd24eee12c58; 0x3cf8f3deb9805f26;
  0x2f23e7ae74df4543; 0xb8c31835d158f839; 0x4204e1ebcc57c5a7; 0xd9fa5ed259000231;
  0x15bb13c9e082a814; 0xbab297dbcd57e028; 0x1dd58ed9be383f5f; 0x795e8fb647d068c6;
  0x7e8c976419473470; 0xb3e58e6232341486; 0xe155d5e7002baedf; 0x4fec29505ac80845;
  0xf8cf8b739ce29778; 0x53cfd6f3a2b57bdf; 0x472e4e5e4daa809c; 0x201970ee1f8e7335;
  0x1f23b1c222ac4246; 0x60f7aab80da2c417; 0xc2c96ce5217563fc; 0xfb63987d689dcc36;
  0x720d89a6efff5d5e; 0x0c37f57b6a890096; 0x748f1cde6c8a3592; 0x8c0dae76ab89ebd6;
  0x5b867c1ecdf7449a; 0xb202c0ab20b7c2c2; 0xeccc635c73026ca6; 0xb133506bf41b715b;
  0x06e48c3b40907b7a; 0xf652c425f4946a29; 0xf2cffad5e0a0f12c; 0x528de28fb7cf74d0;
  0x26099f3e3de7ed4c; 0x0355b2c238af2b4a; 0x2fb618b8ca96b7dc; 0x0cc134f31cabac5e;
  0xeeb70d47d6b86e2d; 0x95947f0c257d23fa; 0x95af14fc0199bb85; 0x55e6af509a9f2f09;
  0x476de871ac84ff7d; 0x53150f1de8f2921c; 0x0fd8def3dfac9fce; 0x836736d88911ab54;
  0x1a00f7f868a59b75; 0x216d6b80675f247d; 0x8b254cf7fb9d0ec2; 0xed55470f9a6da629;
  0x5e6de761599bb5a8; 0xcfd0889cf7713948; 0xd72f8660e22ff3f5; 0x765cd762e2d6f129;
  0xa0cc4341c0a2076d; 0x6d0a349ac74fc229; 0x33ff539d67c3127e; 0x830958ea1c08a9a5;
  0x6eff84fd7a219114; 0xd955c8b667cefbdd; 0x44bcca6b249db91a; 0x4062a01b7fac14f4;
  0xac9d587ecea5c3ab; 0x6b7979335e2188fd; 0xc73a8e7d64556268; 0x2d881f8e7baef7a9;
  0x2c061a77d88433dc; 0x0a9134985ebcbc52; 0x4c46c6b098501e76; 0x9e916838ce477b48;
  0x25653c64704ba214; 0xc951d40598e16c2f; 0xfd4af01f449092ce; 0xc85f2de42d9ea2a1;
  0x2425f15aff76f671; 0x820bfbf652d61807; 0x5e32c56b922b24ad; 0xff5035c22ed540a0;
  0x8fc388bce2dae5f8; 0xf84aab443d1b52ff; 0x08b5f27e66403cae; 0x80dcf75f3acc7901;
  0x561bfc6090df6c86; 0x44cbb053c6a2d5eb; 0x8cceb50ca857ef2d; 0xca094b8d82e08f88;
  0xe78c76616d783a10; 0x1a3c65ec1b435b35; 0x559130033267f951; 0x0fefd1d7e6f1daa3;
  0x8130e9b2340fe8a6; 0xe844ccd071624169; 0xfe2d7c63d731737d; 0xc077ea536ac5b48f;
  0x80cb2793051ab182; 0x9a9105528cdfdccd; 0xaeee4f9a2d51eecb; 0x1d98c6771176722c;
  0xd6f3643ac1154b50; 0xed7ba25429095f57; 0xed50ea129d566808; 0x0f57888787917e3d;
  0x54630b67781166c9; 0xe1af76649c83e61e; 0x7a8b861a433fb29c; 0x72fef53b2c6a67bc;
  0x23b34a244c28c8ab; 0x62c3a21f658b7574; 0x5b7216f6214d7077; 0xf1dc1393c5525721;
  0x40c0c68027d28c4b; 0x2996e9f9e4d4b0cb; 0xdf097e51045136fd; 0xeb287395cfebdc4d;
  0x24a9c3aac26a3e85; 0x60fb1384c8a78057; 0xc9a1a883a94556d8; 0x77dd6f28cc49f45a;
  0x222b158945a3c8d5; 0x0d3105c37b94cd19; 0x61a6b5ae6dd8f458; 0x92e4fbadce04e6cf;
  0xf1888f8be5996afd; 0x7f0102b533a7ea5a; 0xf6180b4ffc788c9a; 0x41113044718da0eb;
  0x877a62713526554d; 0xb64561a52cd90b10; 0xaa480c9abef9fd52; 0x3495feb5e53d676e;
  0xe82cbd8699cf2a65; 0xd34397570792c5eb; 0x1324dde5aaaa358e; 0x5c7ede5da8764ee3;
  0xcf5bd28f5731bd75; 0x114cd5964fda2eef; 0x0fa034b9befdcda6; 0x7c7c8032cec85cc6;
  0xb12df01f531ea96e; 0x1bbff79c66734d03; 0x123a4d2ea9e10e42; 0x1257837ad0ea0bb3;
  0x7cf7518536eb5111; 0xe70253af83b9d829; 0x21b8f895443a5d31; 0x9ff6b238d483cfde;
  0x19d2e6fdbc58ad5d; 0x0ed3fe7d7ebc8203; 0xb0f4cc42b569d49a; 0x5ca3466304c3f309;
  0x266e32077e971e2e; 0xfe57390f25b42bdf; 0x59cd6ecb4e42cfcc; 0x71113eaace5d03f5;
  0xc46767d45189f84a; 0xb59db8f1323d9a26; 0x002a380dab704275; 0xa06dd4baa73ff1ee;
  0xab96565a577cab49; 0x0c2ffe0b638a426e; 0x12c3cef571a0bce4; 0x0f355e9853db575e;
  0x54ce28c590501ef4; 0x6b32999cceab24b3; 0x834411a0a3a24390; 0xcd7ff1e47f6033ad;
  0xaf8b83d28b604c77; 0x6d85286dc78c30d5; 0xcd80d80b40865324; 0xe33b7d46c4d3c046;
  0x41d6fe8e6a17922f; 0xddcea0f383e2aa6c; 0xacc87a9ce7da42dd; 0xda5fb60f5a613a75;
  0x2c5c274eead937fe; 0x9917d4be0b64d8b4; 0x5e957d3bd45c6d19; 0x7042e47d48f81189;
  0xc5aea38053a83ce1; 0xff7a591cef43b8aa; 0xadcadada1003f0b1; 0xb34ca914123b2481;
  0x9fd0bb1cca4e941c; 0x2c83dab9f66e0c85; 0x1c24c4c35c497dd1; 0x5264fdb923859c84;
  0x5156f71f64aacce1; 0x428a34a8ecb5ddd9; 0xb9c372d5bf1a7c9e; 0x3679b64336dbf7e7;
  0xf33e3cfadba5b9d1; 0xde5d0ffb30264994; 0xa16a83cac60d7697; 0x68a968b5b98ea8ea;
  0x543bdfac42c54537; 0x69b17592e10dbda4; 0xa95554b3fe458073; 0xc04af5b1ab0ff010;
  0x2850c520ddf1e22c; 0x71c52c2ca0b132bd; 0x7d7ddafaaa80adee; 0x78804dce787b0c9b;
  0xbf069aaa26f6d32b; 0x2ce5353f7721e714; 0xa52928a76f405dfa; 0xce7a39d61b70c367;
  0x34b3c2ffff092755; 0x1572e8ea5a99615b; 0xe3ef7d5e21a2a650; 0x18901d7a2d15b184;
  0x8dd2f9456a93c4c1; 0x8cb5a3f2e4d95022; 0x09eea587c3b5d4d8; 0x7bf1f1f7b1ae97ab;
  0xbd6a979aa9b0ce1f; 0xa5cecd8926d698b8; 0xff267f90465fb43b; 0x3f397441a018d3c0;
  0xa73a861e7de6d9ad; 0xc6c34ed458576d51; 0xc25f9ce04e5caf78; 0xb7c7a235a99547d5;
  0x888f2ff3870fb35e; 0x2042dc41f99d433f; 0x00604b24b69030d6; 0x20a27e45c9ee3946;
  0x924bfd3ffec77419; 0x5b7bac3f8643c59d; 0x29f23425320203c1; 0x97c2b9ad04c965d7;
  0xb219169189cc3bcc; 0xd72e0ef1bb88f5af; 0x7ee2c608f9d4692c; 0x1d07cbedbdc2c377;
  0x0318e6ead6639948; 0xd8f542bf638a774e; 0x2db8a391af206c56; 0x2ec33a058eea4aaf;
  0x9d8f05c619681da1; 0x849a6770fb0f4122; 0x00fdedd6b7fb4b36; 0xc1f34279e755b98b;
  0x7ebd202ef850de0e; 0x09df1dd9d13c7a6d; 0xd2d7ceb8dc1a9f4a; 0x91a3865ac51df061;
  0x61eafa513c84e522; 0xe35ddf661a3c2c7e; 0xc0b55888431b9f3c; 0xc27aa40e00e924f8;
  0x4052254668152bcd; 0x1af566a0f17b236d; 0xaf49b5dd1ad2e830; 0xc12e20847bf473b9;
  0xe0405d90806924f0; 0x13e57e8ff8c68913; 0xf8f789986f694cf1; 0x15835cfc0d3ec940;
  0xe6214dda12eae6de; 0x690d7c55ee27451a; 0x5a3f7790addc9192; 0x5f4cc8e9d4298b6d;
  0xef930aebc839ab25; 0xdd3522db630c0ca7; 0x166d16ffeff72bba; 0x42a82a4c808bf20f;
  0x5ef1ee01304730d7; 0xde6a824c8d343114; 0xdf9b3fd2f8415079; 0xab2427796d88a2dd;
  0x8f9d6eb779816d1f; 0x1ff9698d1db1523d; 0x062cc860c65849a8; 0xa0903208db167e69;
  0xe284f78691663901; 0xc5c305dd97018b7c; 0xad6eefbb26959d5f; 0xf516b6ffed3709b5;
  0xe836e67df41f7e57; 0x175816e60cdf2e11; 0xd76fe420be69c158; 0xc051862f22496912;
  0x0d13ffcaa941d947; 0x69b2b2995f2ead97; 0xf9e5b50bcbe74ec5; 0xb226450da6bfd255;
  0xf3b850ef8d8067f2; 0x5c9d602c763ae0ba; 0x51a530fe7653a41b; 0x7952d34e99f9dfb2;
  0xf951a4bcfa5fb81f; 0xe45676b18360b683; 0x57bad6be891258f9; 0xccca236f07992e4f;
  0x5456702b97d48980; 0x8aef53b4a9107a18; 0x1a9085ec2493eb06; 0xbda315e1afde5e8e;
  0xeb568d7d35bde20d; 0xbe3fb8cb01063604; 0x2690e3a522ef1123; 0xc696a2b41444b0dc;
  0xd63347349cbdb4e9; 0x6d2a2b7258493da7; 0xec265251cfe82c2a; 0x03f5b462dea68823;
  0xf3632fb6c0d660b9; 0x470ad9fda9c1773e; 0xacd2cf06b6841ebc; 0x171ac9f0b148dfcb;
  0x8fa97ce11807eaae; 0x4c58cd3e88ba6476; 0x37829777cfc9083a; 0x2df3eca6c135719a;
  0xf9c00b12db21767c; 0x844ced49f62eea59; 0xebf8da968c27e84c; 0xcb8b303147ac09b8;
  0xf4e0a7ba53e67b72; 0x7f3ef120dd633e42; 0xe22f356f9b526764; 0x100e9b1199973807;
  0xa8d4c291902e9de1; 0x978a357558cbfae0; 0xe8b78b628f566f11; 0x208ebf642fa397f7;
  0x197111c8df69bfdc; 0xc5389d4136b0b503; 0xaa8a397f05ef4e9d; 0x663ae543fcd788d2;
  0xb144a3cfd3c0695f; 0x76175ff4d2723631; 0x1fc6d3f39f2380a8; 0xa47b7c8ed4f63182;
  0x2494a688627b5fb0; 0x287c54d7bb589b5f; 0x43e144a3a614e2a1; 0xd7fbbd5503fd3aea;
  0x3d0b97b1d32c3f55; 0xeffb7c436321046a; 0x2caaf49584cf98de; 0xbdb445bf7358692b;
  0x568aaeb1b85ddabf; 0xfafa3d6174649256; 0x193b87bda76a524c; 0x2c7a454dd2f06bee;
  0xdd0d963b707a433b; 0xb4d5d5a2fb30e1f9; 0x22a982ffe6237773; 0x77ab6f31f9cc5c34;
  0x55f41816038c8383; 0x0ca2931d1376a5a6; 0x91d8046adc577d67; 0x3aa5d912ebeab2fa;
  0x0855e4a6aad7cac4; 0xa2d6f786a8f7ab22; 0xe30174f46872b547; 0xeece0a3a58a5be04;
  0xc84e24e866f70cab; 0x1de2e9ae78ed8775; 0x5f150c954f32b5ed; 0x55e8fd6c20695e62;
  0xdd0eb5675de9d9d7; 0x32c744f35c8a7366; 0x5c420598203fca74; 0x5e5dc07b8296a10c;
  0x846a25971370aeed; 0x8cee910b59e3c38b; 0xa3a47bd305917a39; 0xccea061b005f103e;
  0xc43f0d42ebb41834; 0x35e3620be9f7dcd3; 0xc734bbe04ba0ba3c; 0xb5d02f683ae74911;
  0x57ccfdbaaf202596; 0x27fe69537ef7bdf5; 0x61133960e60b14c0; 0xcb5986f161534b04;
  0x22e4dd68b5cbc9ec; 0x9372ede3065a9c88; 0xe5916b068c638f8c; 0xbeaf683123c91632;
  0xc928f644f1aba3c8; 0x83c8dd3739fa9f95; 0xf6edc80286780d72; 0xa6577f79c3ef8031;
  0xda7f37d4ab3e364b; 0x46371337666b3e2c; 0xfdb4c0415d4e10b6; 0xe837da9f79776e0c;
  0x0a1664032397f62c; 0x5313e3aa4751dd3c; 0x1b1185507a54add7; 0x83400851f0ebfd35;
  0xd12aa9b7935f9674; 0xe9f828aa5b4aad5c; 0xd5a34e1293065ffd; 0x65e062fb8bf7e074;
  0xce162946b98af2a3; 0x34030bb0c688f64c; 0x7f6a1790a3a1a061; 0x3694db1f9a874c98;
  0x25b7d76a2e5f02e1; 0x6c8c0030287115f8; 0x60f492293a30bdc3; 0x599973b65ba6b9de;
  0xaabe6ac266f5a1df; 0x5c8ea62792888ee8; 0xf428b68e74e37342; 0x0ee8a5d320cd9f5d;
  0x03d5c032dd64469e; 0xdd7e7285fd56ae9e; 0x924ae35fe5edc620; 0x6d588f3986e3e846;
  0xae396bc3e58ede16; 0x2b3a772a1b11dcf8; 0x2b4de220e22902a4; 0xe4f2ff7f3601bde0;
  0x76df166799f636f1; 0x5891789ed41f8fed; 0x2f89fd53cba7d55d; 0xafc14f312ec16e51;
  0x93b1eeed16db379d; 0xbc6590665b0ec5cf; 0xb483642fd24b95a5; 0x289414af9d2c4ee2;
  0x00df66f9510eaba7; 0x23f527d27ca1604e; 0xe813dd341498f90a; 0x37bb75506e35b828;
  0x4e3eb793d742d65e; 0x6a9ebccf490d4641; 0xef75dacba9211f80; 0xf067ce7b8a999d30;
  0xf148d983688ead9e; 0x0a5e0e6921826629; 0x3dbf22d8c3d7fe16; 0xf85bc554e8e06c9e;
  0x74da7ebeabbbe3ec; 0x61738e7c0cd30be7; 0xc74d281e2b5dbedd; 0xca8168dad95e990e;
  0x2be74205075fa344; 0x2426963f5b065bff; 0x4b3b4fd18483b514; 0xb43e46c76d7ae5c6;
  0x0c7ffe900b497c63; 0xad113fd86db2547d; 0x9b016479a43514c7; 0x7218057747a07c72;
  0xf7add76752c46729; 0x5fa2293ffb4a3938; 0xd670acce424043e0; 0x17adbe6b8b3f816c;
  0x08dffe654b33d58f; 0x107d515f84d0e14f; 0x0bd9d9c7c5eced6a; 0xcd57c41f20ce0e8f;
  0xef7dbba9c6d4d40e; 0xec7fc16573ee95e5; 0xab50ae76ee77e00f; 0xa6f2d191c55c8e95;
  0x7dcd4811b813d043; 0x3005bf6cbbcd020b; 0x9f3dc27486f05e14; 0x2ce431d0e7c9dd53;
  0x4a77bab82f47bc79; 0x63c163325f4c5c15; 0x96fe43f6f372c4c0; 0x45e2043125c0582d;
  0x315f40f0addfa525; 0x2c620686c68c12bf; 0xc442af96e71c5cea; 0xc2e793c3aefd6f43;
  0xfc441770c4068c16; 0x2bc845f95b721338; 0x7503f5cba23656f7; 0x7628f3578bf833fb;
  0x78eb98a103e87ff7; 0xa5c58f5dbf258ce0; 0xb20bc8dd1c8811f3; 0x6a615d9acd9465ec;
  0xda1ccd317917e769; 0x25c9b9e87b4367b4; 0x9bd87175f0940a14; 0x98d52f408dd46edc;
  0xe0ee911b4f1b1c79; 0xd3d4ad182a917ad0; 0xa084e6dd2afe5f78; 0x0623123251fd6af7;
  0x3746f2ec393c4a0c; 0x838e9b995c44f9f7; 0x33f96d8ccaafe381; 0xb214d8e66ac85d27;
  0x6a675166077a216c; 0xa4baadb4bb8ee561; 0xbb1e0dc537cb7103; 0x5cac0a1c225798ca;
  0xff0f3c70a3985ef7; 0xce88e4b5dda6b8ec; 0x6eb5b0c59d836619; 0xf0de6ec59771c6a7;
  0x20b394c25a056d36; 0xec152912585dba07; 0xf5b950965a346d65; 0x0d7f6dc0c1ea1d8e;
  0xa014487b08503968; 0x39a1d86608e0f493; 0x445619373691b77c; 0x7dcf4a8d053be36f;
  0xb7fbc6fbc9c65d63; 0x2cd7176ac8f8ed46; 0x688b0c24edb18246; 0x3c944ab8662c35f3;
  0x0efec2b632f5a777; 0xe83f5a79222dc591; 0xca0dac5a87a8ee82; 0x6410cee8c0e6ba54;
  0x0bee47d44fbf3e11; 0x0dfe54743e80dd95; 0xe3e9bce2b0727a9a; 0xc8a814900248d5c6;
  0x04c4eb98c0211f42; 0x49b92606ea1bbd6c; 0xe4ab5db2f070014c; 0x66c38faa9daa306d;
  0xeb0054e6d9128045; 0xecef76338067218a; 0xfe4704b4d460db53; 0xb531f8c0c7368ade;
  0x52d829e9be056c69; 0xa7c0a56218526e10; 0x6bf511cb071c0d9a; 0x38995f6391b1ba22;
  0x4ec79c57e2a1270c; 0x644b9e3c98161c6f; 0x8762f2a5a081356e; 0xe1617d007620c4b6;
  0x8b994e9eba9a21b0; 0xdd787999458689ed; 0x782b045dfa4128ed; 0xea81cc1af36e2252;
  0xe01483183f1dd700; 0xc142117b571c5b2c; 0xaa4932f27bbdb5d2; 0x4050f14f9f55aeed;
  0x0df6a4f8006b84ef; 0x8caeec83387804b9; 0xfea07ac5f6036b2f; 0xf142c5e1b689b542].
(** TableVerif_static_w7_Ed448, include/table_verf_w7_ed448.h:38-263 *)
Definition TableVerif_static_w7_Ed448 : list Z := [
  0xc86079b4dfdd4a65; 0x199b0c1e3ab470a1; 0x14181844d73f48e5; 0x93d5242bd0452714;
  0x05264370504c74c3; 0x8d06c13078ca2408; 0x0508de14f04286d4; 0xc86079b4dfdd4a64;
  0x199b0c1e3ab470a1; 0x14181844d73f48e5; 0x93d5242dd0452714; 0x05264370504c74c3;
  0x8d06c13078ca2408; 0x0508de14f04286d4; 0x17df1c4564ea331a; 0x671961d62834161d;
  0x720e7c3ecf13b479; 0xd342cfe6da5ff1da; 0x60d92d1368c217b6; 0xafcdf0965bf0ae3e;
  0x55ffa716590db7ea; 0x0818762033a8e9d1; 0x2415c32a67c92a45; 0xb28b5999302174f9;
  0xd98d366ae207a4f0; 0xaa3d3950737f4ad2; 0x47968b2b0d7351a7; 0xd5cf9c39aa5d3cac;
  0xc59d41f91a5d116b; 0xea45042c25ad3e30; 0xb50edae9850767cc; 0xaaffdd49b432b740;
  0x8f2b798bca19bbfc; 0x12d3e9adc233008d; 0xa4ff2dad6287aaa8; 0x5e0b42f0ea3bafb0;
  0x0a7259870898d388; 0x634cb5597fcbdfc2; 0xc6e94f673841e868; 0xeacd0ef7a7086bb2;
  0xd22e4bda8eaf3dca; 0x3d0f765fc58d6488; 0x1a7df075e2c965e5; 0x80a212934b40a4ba;
  0xe24da5e893030d95; 0x59252dd4cef5813d; 0x7ed245c7dae75c16; 0x28c2b26437d4382c;
  0x9f6f3645321672c5; 0x5819db89bd7ef409; 0x322a5ff48a0008e1; 0x89fce45d3f2cf040;
  0x8facad972fb42411; 0x4e50f9e512faab19; 0x48e5a68830326f50; 0x3843e2cd9f1ba228;
  0x756002863953cca9; 0xce8e5afcbd579934; 0x90ff24a5d022985e; 0x36bae939f3589f28;
  0x255a2bcc417ffb23; 0x072f6f52f12a4c3f; 0x82887cdd778188e3; 0x287ebf3afd88eef7;
  0xb5cb565ce6792339; 0x106c60376d806a48; 0xd479d460464b4935; 0x43d541d08867d353;
  0x22dab61ce371c885; 0x82d57dadac808f64; 0x7dd59b2183c14092; 0x27b912ef26b6293f;
  0xe1089a0997374239; 0x37f8459f3f7ab668; 0x35323073e6978319; 0x2b6edf68125caecf;
  0xe94a2e7444a083de; 0x298ac16bda0a22cb; 0xf220328b5b8baca1; 0x3719d7c4430cae21;
  0x31229c6c9825793d; 0xdb13a85eda9f552a; 0xec6f91f439162e8e; 0x118fa4f210c97171;
  0x5b338e746237dd85; 0x12e547dfe71b1225; 0x29a24c5df53a3afd; 0x2b0a1918ee2f5c3c;
  0x55ae290d7a5067ef; 0x3113b49041d6cd82; 0xac088612aab8115d; 0xd5defd5f838d37cc;
  0x6deb0ba70aaef1f7; 0x3cffd8591ab68a19; 0x12757bda9cefbcbc; 0x170baa3c2c8f80af;
  0xb8f68ac818783686; 0x90f657622c572f2c; 0xea9638a507a2bc83; 0xc542cd3b1d4611fe;
  0x96d9d808720467ee; 0x2c98f164c3acf707; 0xff2cbd6cc87dd755; 0x27a88e17b86ed615;
  0x1029ff967973b166; 0x2ae1fe5b0c9bcb76; 0xc2c0b46fdd6c6fdd; 0x311e8c66e8384b1b;
  0x25448cc3cd94b963; 0xf7aa01fc8039d57b; 0x66c55fd2258a612a; 0xa30f113ecf17a438;
  0x7b2e49719cd1b6e0; 0x7ae6ecf16bda00de; 0x98f8db7be9713815; 0x258792ee532e91c0;
  0xfd7f461533bbb0c9; 0x08e2b69605778b4f; 0x632ad15bee090ddb; 0x430d06bf8c577b8f;
  0x0f07386a2d949221; 0xc646bf2ad8e3f1a0; 0x740b84462b8f1f9e; 0x67f1ae94a5f8ffed;
  0xb5c2dbd04add9bb1; 0xd3a97d1da90c4958; 0x9feddc1f312e8473; 0x8d6a85b135e0fa74;
  0x1a734308d6ffd086; 0xa83fe5b3d443f8d5; 0x54eee64e65591784; 0x736d29987e5eda9c;
  0x0b81545480991f34; 0x6d819c2280bbe5b1; 0x8db69c7e6f6527af; 0xf0287a48202e5c35;
  0x3aadd6ce71b7fe97; 0xd41bfdf35e74f681; 0x89c9a6c8b7c27c1e; 0x9cec0ed624ec4703;
  0xf764c22034430a91; 0xa4d18395d2c8484e; 0xd907d50d3b414efb; 0xf1d05754781613f1;
  0x0b333b9ccfac204f; 0x8626573e7fc35499; 0xf73619e38d2ba5d5; 0xff509af914476923;
  0x19d311c33550d164; 0xc0da500b30da87cf; 0xc2049368e50025e0; 0x1096475f362fbdaf;
  0x615280ac88e4bda8; 0x5b20ad99dd63e973; 0xc0860f252aa25e1b; 0xe6f08d40130c2eb1;
  0x31c9f47dc5085500; 0x9a6367dd69993a25; 0xd92cca19a12e89d6; 0x1236626ec35d5f59;
  0xd0c9ada4dce11559; 0x39b72366affceabc; 0xaae94354a8962a6b; 0xc235df5e92634032;
  0x8f73defced0c249f; 0xf8b01f182ba3d5a7; 0x4f7c28fdc3d955eb; 0x78c383c2aef70dce;
  0xa501db379360e671; 0x98d3f9d58ee8ba4c; 0x60358b153aabebe5; 0xcf2e9b102d9ce5be;
  0x18f5ce728fea6465; 0xa0ec04ae0ef0e2e5; 0x97039fb107636520; 0x893a7f953064419e;
  0xfe3b9a2359790a7b; 0x1050042eb20813a4; 0x36507191a42ecd30; 0xf41b36a38df4024a;
  0xd925808b0415ba52; 0xa6978f88d92067ae; 0x68a02355bd46e7b5; 0xdae2750af1d912c0;
  0xb50f9fe414ca6bf4; 0x1cd19463a2a5a63c; 0x47b6982702575839; 0xab2d6fab5c4b61c6;
  0xd5c8b012f969c1e3; 0x9b82a279acd57d19; 0x17760273c0223128; 0x8e6284c957797010;
  0x4bb4480867610404; 0x86621b36ff8c53de; 0x6444e8e5b19be15d; 0xed915245a83f68a1;
  0x8d2415901f361a42; 0xafadf01efee68024; 0xf6ea5d0da6f0936a; 0x32748576057a9662;
  0x8454e7625364c8c7; 0x35954070196640e0; 0xa83229bacd436468; 0x6620eb99e4d6f63e;
  0xb4f376d764262e08; 0x5a7099d29235a4c5; 0x0ecde13b3de9e91a; 0x72d6d622031324ee;
  0x7f0ced93fdde2b08; 0x48c078804d22315e; 0xbf2ccdc49ed2728f; 0x0a39ee286224d3a8;
  0x6c692e21ff583a19; 0x0218c161cdd0186e; 0xe8108e1fefe3e95a; 0x3abd38eecd482b90;
  0x0271033ae22dbcca; 0x533baf662632a4f8; 0xce743cf59291b0e7; 0x605fcdf4a968ddf2;
  0x72515d5ccddf71ab; 0x558e54ded6ea963a; 0x6fa934dd604c084c; 0x624d4ea6a80204f3;
  0xdc72696238ae4a76; 0xc331de611dbe43e8; 0xec9cc7ca9d338f42; 0x728d784901aae26a;
  0x39c9d3c252ea384f; 0x457fa39b09b9ba71; 0x5f5ce7ca29366543; 0x1fe5746d48354289;
  0x9f3341845b28ddc3; 0x33766d155d1df342; 0x7a4f63fadde9af36; 0x540765344f1ceb9c;
  0x9906d09d628b4cbb; 0x3c3db01985dae9b3; 0x0d222cafbff699bb; 0xcf9982016f98aa7a;
  0x8c9ce0893a0ebd88; 0xef7a43cfe0c42017; 0xb896f2fbd4879f0d; 0x495f65ec5ccbe803;
  0xa3dbc7f6b4857ca4; 0x517db2a7a332f311; 0xc6cb727da2eb4482; 0x294f0f0e38b2c7f6;
  0xa1668646945be400; 0x285031b615ebb383; 0x8123e939320dedeb; 0xd143114c17ff3e99;
  0x96f8968f94f8e7ce; 0xbafca72c442072e6; 0x0bcd8516c9bbe1c8; 0x8b6343517f5ab5e5;
  0x660246ff311d8e23; 0xfdc7e2caa24d9ecc; 0x82a5e66fdfdbb122; 0x42658eec4065f5d0;
  0x1b0bc810e465c178; 0xd85545eece6896dd; 0x8dc2ae1977e6d36e; 0x9b2f006d3f143e8d;
  0xb3473a0f286026d1; 0x06c8ca25242868e6; 0x380f8fdb9260bb54; 0x016214ccc9e4e6e0;
  0xa48e7dedcf0f2bc4; 0xf90caf0cba0b73d9; 0x5a2cdf532a29ebe2; 0x7345b1d701c18ffa;
  0x4489741285833292; 0xa7e12eb1c23c730b; 0x59ac2d3dfb7ac9f5; 0x510413d11136fadb;
  0xb0dafe936b9bab1d; 0xb9650f211179b48e; 0xb4e030fd2a9679bb; 0x2aadd45d25559a2d;
  0x1c643cecfe04c59e; 0x086e5cafaeed95ed; 0x9ac45f7e5929029e; 0xce3c4ee1867232d5;
  0xbbb74dddc43b6999; 0xc11562aa991a3bda; 0x0cffc156ec6cb6f0; 0x7f19562d7a3ff12f;
  0xfb8167132e59beea; 0x8b13e9d51da3c8db; 0x700bd9e79fcfdf29; 0x1b1250e94a5715d3;
  0x271d31a898984b81; 0xeeb2269957ed3847; 0x5a3d8b3b67b2b21c; 0x56283d3c7e387e30;
  0x5d6ce68b5387d859; 0x0d17a2ce10330ae5; 0xbd5472a868ee76e8; 0xb753c7776e9424a6;
  0x5f749a78e97a1c89; 0x1ed85508cf1c9676; 0x8ec2f4329559a30d; 0x78c971da044b5e84;
  0xb8d4f431b414de52; 0xeeb515dde820c558; 0x5955aed6f5e061ea; 0x82171fac74af3e05;
  0x18857e11fccd2459; 0x4298663171f7693d; 0x857e39aeb28c0095; 0xb225fcceec02b0d6;
  0x6d2e96615b8e99e3; 0x6f0e4193a5715796; 0x3ea956f7a9bf0afd; 0x2c85cc4d170c2ea2;
  0x47fa11ba08d2a018; 0xb9fed76a36af8671; 0x6af8694998892fb0; 0x5d5e60220a5e27ad;
  0x68852999275106ca; 0xc1e9a05021c4e198; 0xd3b73f9291ee704d; 0x7d65f5166e8ddb1d;
  0xf24b7026596cb55f; 0xa6a7a5fe86dfe7fc; 0x37c0ccf9e906fb5d; 0xd71da5d20409d8cc;
  0xaefbad3cac92ceb7; 0xf7512a86c79aa317; 0x5c015a2e22497996; 0x2dca00cbe8d495b5;
  0xf046650b3634b655; 0xdb15c3e58687fc49; 0x61e64c82d3f2cd32; 0x81f25a0f9ed4af8a;
  0xa5ae77f5cbc01088; 0x79bd7e8b2ecdf6be; 0x72aa28c369eb4a62; 0x620eea468725a987;
  0x1081dcbae21a6aa3; 0xcdc6808916f60133; 0x4a354a090ebadcdb; 0x666d4ab8d02bb286;
  0x631f191a3bdf327b; 0x5b60145c1c3d1fee; 0x35c6720db1074972; 0x5b646b80da5ebcf0;
  0xcb3ce6dd395434e5; 0x3496b1c6063229e5; 0x8a77e68684f58685; 0x06295b814f0c8571;
  0xae07780771262eb5; 0x76e3ac65c34695bc; 0xf343e33185d47d51; 0xbb1cf82c6bf77c1b;
  0xe2a47fba4babca8d; 0x80539d8aa4e7ee1a; 0x2bc4e089dc4eb8c6; 0x6b55d281ec6f5260;
  0x4c26428e67176f1b; 0xad9fcd7bc6292365; 0xf58ac3750cd3424b; 0x3abd5d47f7559ebe;
  0x86c67ec7f93ba80d; 0xac43ce27ff01c094; 0xbe3122c18dd2e1e5; 0xaa0ca1784af9afe1;
  0x521dfb8d09e480d4; 0x560289a2f22d60c8; 0x9a2bf0c78527563d; 0x7c0a9d2c6bc77c62;
  0x30821c87e63c50e5; 0x03fb31a0b6393c67; 0x5d5d7612df58a17b; 0x3360c332379b8f0a;
  0x33d020fa990a9fea; 0x4e7c4986d494c321; 0x8f95d155fe710cc7; 0x6fe8bd30746bbb43;
  0xa065fcf562061b1c; 0xde616664c91281eb; 0xe072b18eaed46df3; 0x4639d752280137cd;
  0x17a1ef7047cf550c; 0x120e168883de588d; 0x95bfdf4b60500342; 0x8a5d317e17187dcc;
  0xe5f4f4ea14cfc166; 0x4f1fed9b86322d63; 0x059cafcb9233af03; 0x982213ba421b470d;
  0x599f103d7deb48b5; 0x4d409d7d4f1cf8de; 0xeeb70921b524139e; 0x38782b5ebc565c98;
  0x4fde2efae0e3ac06; 0x9dd184712dfbb3d2; 0xc7676803c8355b12; 0xe0bb3506a7fb65b6;
  0xe430ab9840918d31; 0x7f5d65ed895912ca; 0xf7b478faa4a069ae; 0xa62464797886aeed;
  0x20ba89a0d3f6e1d4; 0xdb791adb8f0d54f4; 0xf0409fde4d0c82e1; 0xf2cd0324d38bbdc1;
  0x69bef17f68e27d92; 0x98ec3b854c6734de; 0x75e62796c03e4dcc; 0xf6e0271ec037dffc;
  0xe2dc399b3dbcbdc2; 0x0e2f9fe339a729d8; 0xea91fdef7021244b; 0x0e84c9cc9072e1bf;
  0xa47f99c5bbe6d5ad; 0xd819276495cc2ef0; 0x6ce229b6ff0d274c; 0xeca5afbb9c4dbbfa;
  0xd14cfdcf9f3f33d6; 0xa27aae2764ebe5fe; 0x48e25de3aa6d5082; 0xa1a719d90476b360;
  0xb2b545afa9388d73; 0xeb66847b35f19b62; 0x15616a2db2f1ef06; 0xcfb259daf7425086;
  0x9ef75d538eee3d0d; 0x50188e8cc72d266a; 0x0e6e52a74c51b76d; 0x27568b81b274160a;
  0x8be106c556f48422; 0x519c10f69adb2dca; 0x9c851b9678a2161f; 0xd0f4b0ac0fd44976;
  0x9fc78e6e6d7e2c06; 0x05090c0c88fcad18; 0x0f8772327279a005; 0xf809c212b40c8749;
  0x49931347a972309f; 0x4d9e9ec0d34cb1cc; 0xc22ea794a50b286d; 0x0fea68c97329afc7;
  0x733d3a8f968d3734; 0x71b5838dcf9f6d1e; 0x56cfea71674be1b9; 0xaaa89e2f1572ebe5;
  0xd150ef1a1c853ef4; 0x47fe980560b220b4; 0x425a4e2cca76c13b; 0x34ee3957aa20f7a3;
  0x6cc4067ed368e11f; 0xe644481ce42b76c7; 0x3288b6b38d2444e5; 0x31336f44d0baa718;
  0xb5c7c5e312f6f800; 0x8a181875b5919c91; 0x0f5ace2e1124edab; 0xe5ea80d3ca2e5f94;
  0xc85e266a8b679634; 0xf0bf0ca26c5e2c9d; 0x0258f6ee85a3bfb3; 0x888c5957d630c478;
  0xdea9740abebc7c08; 0x3d8d66bfd841e769; 0x86fe3465478c0028; 0x88c4946a41f26a9e;
  0x8907ee69520d2375; 0xbe93975870a13c22; 0x1e382a468a0ba859; 0x808b4af29f616b08;
  0x89c9f36092c86e68; 0x631583ebb0636db2; 0x9081b4feb8bb640e; 0xa4de6e74b9102801;
  0x4aa74e6fa845231a; 0x6099eff943b0eb0c; 0xb1437186c066db5b; 0x831d098de71c7b22;
  0x2fd942dd5ad39c76; 0x7ad46bd9c27aba2d; 0xf10bbf856b5fd5f1; 0xf2b6ced21ffa83b2;
  0xf972a529e51bea2d; 0xda391b50f24e4825; 0x00a10cb41316c534; 0xb61470f38bf57a79;
  0x6470421e68479afc; 0x6af958203d3e842a; 0xaf86c2f5c4c0eed9; 0xe0d5641b87d2d245;
  0x480489434f00448c; 0x5b232f0694ca0b4a; 0x205af55366448d6c; 0x5e2273cc84582872;
  0x9111a36a5e560bd1; 0x37122f68a8889f6e; 0x2a5beb248f92fc88; 0x03a4a94c4014d02a;
  0xab37a6e81348450c; 0x6c4073966c3806c0; 0xeb691ae9c656eac6; 0x2fea2b586933d17a;
  0xd9aa9d004105a858; 0xe28d4ab541b9cf98; 0x686b28c8ef72c0e7; 0x7404d08b05dfc99d;
  0x3a356ea305524579; 0x764e6f08dcb2efe3; 0x09afdd8f23ba6785; 0x7e2a654fffc838b4;
  0x14f7d63db9c6b1ad; 0x908347bb7598f6cf; 0xe4fa7e9914f6e1e7; 0x27db1ef0e7e32477;
  0xecfc5208f204164e; 0x893294e1672edb55; 0xf088b11a3503ad00; 0x8afd615212e411c9;
  0x0e2246424c0a6a1b; 0x201fb2f250e2f9a5; 0xad9c0c7fbff61078; 0xac0969bad4828b40;
  0x3b57811749c46d4b; 0x6b1dbd1135b4fe0d; 0xe3722c23d23bc5c2; 0x6e21a3fb7348b148;
  0x24bc60e1ac6909c0; 0xf675f0000a639903; 0xe67dd451dbd6c592; 0xd048afc3d77911f4;
  0x958910e331af4ff4; 0xba02489f31f68af0; 0x9812cc8b223c2b42; 0x2a32cac43a647a6e;
  0x757a5e78cf2cf872; 0x58ac28624846726e; 0x839e442a8859c61a; 0x24d41bebfd36deb3;
  0x64a141a9fe8c081b; 0x7186ae94f9db6df2; 0x10dfa0b2a3bf10ab; 0x15badbfcb3ce748c;
  0x07451e369c7a91f6; 0x50e39326611aec3c; 0xf6d9bdb083c550c5; 0xcea0331ac15e156d;
  0x02c4c631e13b7013; 0xc412d3979cd58cec; 0x09946922fbd5f9a2; 0xe000f2f2dbce592f;
  0xb3f56b8b2e4408a9; 0xbc61b765a2ecdd90; 0x8ef8b0d815a270aa; 0xd12029a3469f3d23;
  0x60bedeb6c68115a1; 0xead3ebfb15ac2463; 0x8cf4221e38861357; 0x63a34f21271baf5d;
  0x7a97a1fdc4871507; 0x90016ae3cc561f07; 0x8b87e0b250faf9ce; 0xefef092af66c636c;
  0xe0cb84f6254031d2; 0x2d8302e2cbc123c4; 0x18817cf88b7474ed; 0x8bac2e639559e59e;
  0x3c565be18ec13c03; 0x656d0c60c2e44116; 0x120544436827fc9f; 0x0adccfcfef04da6c;
  0x04b602ebd3127f1a; 0x6d35ba22f0cbd6ca; 0xff41e64c64f96d09; 0x25a238fa1ece4d01;
  0x9dbb91183903ff62; 0xa918553cf1f002ce; 0xb2a98dfd35d24dab; 0xd64969c66e06b7ad;
  0xa0bd6b81220b9898; 0xa555f12b5d85f422; 0x0a161f12578627d6; 0x99d828b638f29b5a;
  0x1a1721ca7f1d890c; 0x7c30732f775f020b; 0xac21f3e7cc2bd7c8; 0xf59b1dd85d11a753;
  0x4e256dfdef5d6394; 0x57272824ed03296d; 0x5fee37fe1a6a3e47; 0xe18a2578fd142983;
  0x7d405565cad83802; 0x6d0cb6607e7c2c48; 0x2b9cd65362b3e8f7; 0x629365f562702547;
  0x1ad908db6659ac08; 0xa978a202eff4af19; 0x71a3cb1108fa1c55; 0xb55af3c7e762b174;
  0x2f72795710f6d48b; 0x88fd485f447b8613; 0x6d32c39a05cd0210; 0x343bc406ba743a10;
  0x6ddb9abaa3ed36bc; 0xf5dde4d0979969d4; 0xbb3bd1ab4ed37cd4; 0x06f06125946ac7e9;
  0xeb4635e586a812c5; 0x5aeee8c7c611959e; 0x165991597272a026; 0xf2b415d7bb7e9949;
  0x34e2a0c84d5af940; 0x79f3a9bf99f3347b; 0xcb4e7486f40c1ac1; 0x33aa6d51b6ad90bc;
  0x1588246ca2c5d19f; 0x73c4024507f66871; 0x0092f07cca87757e; 0x9d1664e0dd5ad675;
  0x151a8ef49f338062; 0xd72d624f4d0fd31c; 0xdb1afbf0eae377a5; 0x4e325afbaab1a26a;
  0x83ce4f9ad50647ff; 0xe9f8b8473e34825b; 0x57deb79c8d69677c; 0xc91e870c564188f4;
  0xc4d92c685cbf542f; 0x100238a61e7353ef; 0xd988a8b7c94a8008; 0x2b4d33c23ec06afc;
  0x6834dc3e726da32a; 0x0ce2fff4ef27bf08; 0x4cc1651f0aa20c31; 0xd4d0b125bc1bd361;
  0x04afa543fb53b289; 0x8155a958ad37e1e3; 0xea354cf5b92164ee; 0x4660d490aa26d34a;
  0xeee1cdf9624a4b09; 0x438e96b00b09c2bb; 0x1de4475e2025af77; 0x1390b9d708746950;
  0x6efd160364959151; 0x4ae0d9e7616b9426; 0x532343e2c0fa7c6d; 0x0cb0818b736ff570;
  0xb5fba68df2462eee; 0xb87cc95990bf331c; 0x75598e900275ad6f; 0xd14a7db804774d36;
  0x629d8d5f507bbbc5; 0x8280c587ec71660f; 0x16b05b92946af4c8; 0x95ee2d2b6fc9b29b;
  0x863655c51bc22e73; 0x76d7930d0520f824; 0xf11d4d482eeb017f; 0xac28bf432a7c7e06;
  0xefc08ebfc81358e9; 0x0ff6c0e78a464fe8; 0xe32a39559148030a; 0x6855714d9d22f6dc;
  0x01d94cee52956e25; 0x911535277c3f33ac; 0x0990f3f4c4f98d33; 0x928335619f626975;
  0xb3889e803896ef04; 0xdcd8353c79be9567; 0xf381be46e62d3eb2; 0xa03d2a7523370e32].
(** Hints: a quarter of the base point *)
Definition quarter448 : Z * Z := (0xec3f991919216e84928f2b74d88478297ad8eecb9ced4b1efcdb9f49fa0861eac3677243b0a797651a9b5a413d5d2122555c43eb834eabeb, 0xfdc926159caa08539bf0603522d8c76dc012ddd69ba8c1eb6659ff062ee8242a1a9b1a789dc2cee72ebe60209d73707897d99add5b6d1ce7).
(** Hints: the images of the quarter and of its double on the isogenous curve *)
Definition first448 : list (Z * Z) := [(0xa50dd973d99e99334f4b749a1d6d2cf3169d70108cfd3303256706f42134da9ea3b629cbf5b7d49822b23254e364b14f530c0f019124548e, 0xa2a35d8c3cbf45f775c24ab64dfecd7f622d842437779fcd525294c2ecfbf89b8465cf19c906577bb5ed6aa966cc6a2fd3838ddc898c408b); (0x5c01c2de17ce9e299147d425ea20ea5fee5ef43d7126f542c3b2259f1f7802b3b0dcb39db310f16330006adb928a4a21d9a7bfeeddc3f35e, 0x650e37ba8677fa9b08964913b5de3fe8ec8c777edb898adf80c5f3a367747cf7813f774a908149175bbe961bb5cc61a6f759d569565fa81f)].
(** Hints: the images of 2^(16k+i) B, 4 <= i < 16, for k < 28 *)
Definition dbl448 : list (list (Z * Z)) := [
  [(0x8bf102b300cfc9b5d80ef62f3ec73965b91ba6b1ee27397e663224295b9282a509897a1113641a2de14c779f436d9bb50f005857085ab53f, 0xd9ae37a7f68ae16d70c20c8e9543d60a02518102bcbca953032b00232fcaafff63becaa73986d59642316387337c36bc9220d3e33af91aa0); (0x73bfe55e9356dc014533f8c26468f95bccdaffd246f72e3064806b8ae9d8a8672e6ba649aafb6b31af2c853e7a28f0efc7cc134b77931382, 0x132d7f44fdac5a849fb9aa63e7fce896eccdde7f6261a6aec1b48b4bf7d4e848e0ba7f534b319d572d48ff171f1c8b8ae012d09d0302dfc4); (0xa4878129d33643a1f71891e1352ac427d2f91f5cf8c763d69c52f12ee9139e54c4ce14ebf98c3b3a6b9959b86b58ae7cf7328e4d16d103a7, 0xe41bfd92f2c6ceba029f6569bd388d2844522d888071cf809f1a73896c65d07422c5d8532d5fb9d668b9876e77b0b7da57890603e86c29bd); (0xb1e7f34ff89deae1ac031da2af33255bc06e77bb8d5fb14d6b28e7a900c29cd0c2f416594505d530ace35f068e396cecfbaa9bb7f2da1f57, 0xb42bb97ec793c93791f1e8c5b6acf6e3215b6af06c97254b4e310238a28e3ecd1c01adcef70985168d68d7befcba07666d19c9318b319a61); (0xe6a0d7ffedcd4a02da3920de8379a481adb8baf4a697db5ed39dfdf07177a1903655ea8777f551ec2cf235a70990a89d689b9eeb3ccb549a, 0x8b528f5b195fa41ea3e7df1ff0b850d5f8722b24b1176a60ab92b93eeb8087096df06a91fe82739462d30d3c605f2c8e5df8cc2d655b519e); (0x907d91338d86a5c09a45deb591a13aaa6d9a613e9d4ef30ba698d4c4efa42fad77b8ca813e6647166f52fc95b8006f769f99b406d04cd811, 0x85bd74f32c4a09cfca1e7150b0867f0b3a1f8451402fcea30d1af7f76fe02b1ce427ac19a5033b35866d1bcad3ee468f487b73307a284211); (0x8f8c669078858792063ba243e46ee7174840d3a24f008d49924094877284774d7e4251639b7b3fdb9a74a9137f6753762436a6e959ccf864, 0x524fd818c43b25225c81c24d222802c9e3be4281081a7591c912e52da43771fea9936382839089d6325b401308289d88a13b68fab7103560); (0xff146c8ec9e8dc1d39a6ca2f2b8713cedbaa4afba39cb1420becfc50f9ca0a78ecd0bb7c67e683039d0b36b82bf7161b10aa622b55fef44c, 0x8a5b629207a24011df507cd3b347b3ec5aaaeced0084ff5ac83a99841bf2044b78efd734fda2c1bf6fcb998585277b2ca1bea38902b63ded); (0x643a69b83e5f90f6aef7964922831a1ef1c282af2e2db44e297cf7372914831fc88536e07e2784cd34c8450461b69237d8d15e9ee39c2d0d, 0x74b5c75db8dd022fce36c26bf1e1fc830c592bf35e1ab7e7b0f33d3587ff1cdb0afe4299fda7716af9eb3426c6b865ba99e702798609cc93); (0x6fb6512d85d68502b9c49af1bb53fc47acbb4deaf44f9d4e233a98e57ecdb8ced13229951f353b3a4d718833b5f14a49d67ac8a3a64be8c8, 0xff64d98fdbf75975a4bff11326e4e9007bb51712aff09ad5d18a90c2c4418ea947edadabd8d25781a134f61f9b6c6d9ed34e7d954611f3d4); (0x3567bfd74eccabfe57b90345973b7e44915a0b743506c386a952eee3720201a49bc47938a15247aa958e0ae4ee5c7fb0df5e0a0bfaedf84c, 0xa034c1f786f7a98ebd935139d9b77c926d41e863a255f4961792b07db7314bc65396900c32e1c227c12db4d5284a70f06afb181f3a77f6ff); (0x9b4ff5131bacf7a36d7764fd74dd9c7ec7acb398d6c2d8f12b2877baf1c497af3405c0e4b064abf72d5736959dec7b72a2b839d3ccb6c59, 0xa0aea697a76330a9272b8cff13c777a3995ec10f877228818ea1f02f1b5ea490bdcb108a9da5c52b19e896a4b7aa6ccd377acd5e04fcaefd)];
  [(0x728a032261824cf68845aa72ae7f146f3aa15fb34b7ccde39b71049f14258060745392bead955e21585c8b79cadcf8e103be7ac27f90915, 0x1ab11751e459c24dad46e74439b7282375b6e41c0ce06b845a14961b683fde83bdef4041ac97dfd513365142188555d20d5a92d754bc878c); (0xb0e917cceeee0bd41c88c84c5466960f346dc96d96714feee22a1d4432d3979efa06d333c9e0665f48a5240f2e5cdfc45206fa06518c47b3, 0x4787760fb9e773b165d53ae8a0384b9f3b76f2de23899b093c63f2d80c697b56013938415790ce27ba2d4da52a74a30a1e1195d996728ab1); (0x59200700c2c06ef28d023cf98b728daf2fcd3df58c3099ba620bdd5c579ccd1a7f5de47759cc01c4a4ceb962d566444dd28366cd9f07943f, 0x4de39f8bd01f8d4e2d7e20100d9ea2bfa5b78bf5a9a35fade76053ac0cb4a9ef783e9191420bcf51e0ba3044b496289b1579519d221d461c); (0x5fdc3c7b957ac158a3693ae77e4ef15b7dd07fe83ec57ca5df0b8ad087eb3e2a541900f6364b711393b2b10d8bf4c8902e5fb874e3ba53fc, 0x8a787afd8f760bba707cd69ba55685d5b6ee43914c30f55a19494f72cebb965802fe60bee7dfb932cb5177c67567a7dbba1ebff64defb5a5); (0x96534f82a1d367f32b376c4ebef25835f4a2fd18e05e95631411cac2d6335fa3fc112758b8b2f6ec62a3129e69417429bba6267111ccece1, 0x7ff94ffdbd4d954abddb239ffa276135bda64b0904d8487542e1d47ade0b8194735d80373877bbfebabdb0877dd9488d2d0a0ad52e42efbe); (0xc80607f19ba4936779230ec397e85dc7c70d003b353a508979249b8931de3d0762f3df247605a2acf5d5a71f71826ac15875968a95729f73, 0xffd230099af43ae9e5a3ead989064fb5f23a401557c754ad89c6580f7ae7a8290f492c43cb4dd4ad862f3c22d74e4a1b351b05460790fc00); (0xc52de43f7c18803411de2c53f585ae097872a1b12f427ffb805d9159b6ddefc1e1cfe209c5d11f86809e0fc9c5030acc349f94f0c501d7c8, 0x201016ee58dbf0ee7a32a0057870bd7827cfe43b8460fbc917288a52590d68cd7e759643dfe434d53f2906b5573f81c6ece977ab353376de); (0x8bedfd992c2ac90149df93b23747f1262bbaf6e1e4c404fa6881b12adfb446e7a62eaab761b100880ed90cc709fbffba4353ce61eb526ade, 0x46f6d0c7adba9936a9a3f8c239faa36ec6c4585185ef8ef38df2a1e197b441e3f28cb7e6663ee6f7f16166f548f9f83782d9cb0384f8b84e); (0xae09e5bafe8cfa2355544917349bd41a9fe8d91ce4894e9ef9c08c3fd4f2007c3692ab804aae5e9b7149b7f3372eb2fb5a27d013249db433, 0x3002059595d9895e1af6f030d350f4e40dd11535bf98d25f5996cd65042642bf638885f37199294a6591239f3a94364b5db72cf5351cb24e); (0x3e7415a791db4fd07535b98af965e36d7bc353372ca562715e1a5d998077baef7e4e2226a3f678f2cba87cd8c3569eaf603185f30cfc341f, 0xff8a58e345e16f3c08403682c4ed186ac16f613532c7fe825246a9de3cd6ae0ac4aac0f9f9ac05b35e34340c2fb94efb54e97c1c88e0e82); (0x96f4e186a026dd3b595dba94681ed873993f18b021d073b4ca4b84dbfd0a96ec69247c2b2aec8a19de3a28b65a52904edbbfb2cf8daecc5d, 0x9855c56a9c91f2cdc2b14395e390f2ff7af2f0e7be587737dec77fe458b2a8b4745305de734a4fbcb8fdd238f988f1a47365cbc81354e968); (0xe78ee4dc2ad97b0d7da7db9fd0f88658c566711888d0c9daf87a796045b08baf2d7a94ecd8d4374fbc7cdfae85fd80637c8c47676339c091, 0xd3b30cfad7784a2a2edde7b91191face8a129481ec8640dc2aa561f95ba66b2d90d6b0111a39f508d10ad81eefedb5ced122550fd673b015)];
  [(0x9c218c0812b0a00f79d3937e0e01d7a5bdba04c1e3f7f7a0e3b02523f14bf93ef5e102949da73f7014594fc8e7282d939668b52d6990bfda, 0xcaf1cea811094dda7b987116430e7c86db1e582bccbf3330998530d56e33498ecf317aec40a8b1692c255aa7fc86be3a34164395dd177cd5); (0xca844123a4dc77bb5e477e51042e438aaeee814df8e85e5a4f0cf922cd49edc9875c434df77a61892135a1ed561c7145a20db23b418edaa0, 0x15886f1103c6c3e33e1f83b44b0c5ed1a8e81ea883701033668ea1b3ab04a9790c8f0e6e4ec7b007afb1f838d7013b1c46e4305d7b767dc2); (0xae3df77d144ba1b8a369307c83d413095ed6de32e26a3037ec68822d91979a0c9c45de94aff9547de4d7b7b4eeb47c24d3986d50d2051e9d, 0xc9dfe3859447f0776815eef37640eb72ed944dd0f5b6a1be83aa0369b50f244b3d73e63265f4752521a32131c6871afb4dd4230b35ccf690); (0x8cb884d9a6dd01a97727d15bb4d1109dc1158d387ec745acf11b2a1cef5b12b7d0c79537519ff4dfe9884aa296670ad6209347513c432eb4, 0xc6361195e12c195a2407e969169250013e3a5e9eef42ac76722f47cf47dfa0db610f2b7465c069f587908192b364ec3429f950c920cd103c); (0x16c010b169be458b5703ee90b6caedf1760d99611beef0f1de54b717ef07f74bc616dd16e40a064759746322c9acce89907c62f613f357ff, 0xce0ca3d279808bcb2da293806cb1c62ba98cc15636bd6762a4a580df9905f21b76dc59e295f2efb88e64885c498f9cc4b43f991094a25000); (0xf787bd39fcec46d8013c12fefd9ce5353d1337f8d290f255b6ff7fc47a5a65846ae9739efcb9a844d5c59a6b2b7a7863ce0572cab365f93b, 0x9ad252f49a9691206a251c9bffe6faffe16d24c705243ade5b366158d684a9e4d0d69fbdb74eeaf112bf7011cc19376048ded7155c521b00); (0x448652f9f8b15c1fbb40e42f711cdafdd8739c2fbbb43af1d7bd7b749df142217f0aa7ec59b3ffeac1741d95d5b8ee73ca0af4f1b4d10a56, 0x6769537868ef3364dd266641376d1e604c1034f2f5d63085f77d8d49b79f4ae2d07f7beddf090c9def70aea4878a380c809995714018e691); (0x68cc51996da2a772be240bb2c9f707dc4fa368c998122afdfc60a5c4599815f830e98bf163cefffd0567e0aceacd695638765d9a0f15f26c, 0x32ec932f8a09c94b9394518bd9835b2107735966ddac1d3fa8c1c3b05b32d0222d133d21f27a268b1dc5ecf72f8fee013eb6a7d7b7681ae4); (0xccd40dfcd45e3ff19518265c377a58b4667c06309ca1331a14d7cc88c2c2e65a93df63fbd77ebc3cca1c42b482e0e5b4ffec1642f3c1831c, 0x4678fcc67b0e4c7ffcc4a4e0f512cd96ee2f192b7c98e9ca18a7a82df14ddb27370b42cc9278033416b9dfb9a7035afa871a42ab0e9c2e82); (0xeb0a9e75edc99b0916b428d9510e157969932f06b509280e05c2e382ca063c805506dc80fbe859f8d2981c409b09947f0de2424aa3e70bd2, 0xa1441698778ce251721ad4cd096ab2c68eb8ace7f2b06c62ef5b362d3ced0fba6eb61508618fdea70cc7fd219b7eaf979d4bcc171740592); (0x833bcdc0eb1786db0da13733e9a83fe53f0e8444592ab6a0418a228388a0d97a464f4500ee039a6ca2e1dac8669406bf564d850f634765db, 0xa93499c25c528377c61afab6ce2d3684318546bc9954ea4f437fd19080883668b7b58020dd05bff8491553e6289adc7d0348ba2cfe503c33); (0x94843f54e3db8615d4f4b29384e431b037adcf0f8e75b05077616173878e63b3e3dfe24d6da91b8dc606add30686b5c7152c71ce5594b71f, 0x6b9b3f239be8983c1ef9a831a855f99b5a825312d8db7ee1c1470930628f30900e6e5a008906e39591a1cae5c70c6c310286546a55821196)];
  [(0x698b8ac7dd14c390672be00fbc8d17275bd7d319f90613fa5386220ae3235fdd746ad65dd715316cd751b19cfa11acc9cbf1f85e8a13db7b, 0xcabc4c736dbeba748dacbf444ea6acf39e81eaa89d80a161c0ee500fbc8bcb23ccf2fb606bc90da187d8a3814554c07537bd7f035a28f2a9); (0xc20974ca32265173e2807fab5bf607da5f5c6f0cdc601f320bfe7a9977a1f89876fe717c76c696a8f0a2d50d18edc46787d415d03308f0e2, 0xbaf379d9320a9bb2fb0c226b87c91dfc6904398da67379824624310c3762e59d71ad4699047db7fe41b684045dd28eed1b4d042418a1a925); (0xa4b2a5ed8c4c767454b187b9ca390e085993d87a3943f1af481b83c40da7a6257f47ad616bcd83081ba28b63c1cb53e962f4f6d0c50629af, 0xbaa8549482dc3ca389bc75a907cf03e087c717cc38cbc2cde902ad6931f2d68bc56ce84bb41ea6e9065c7434a2c9262697b6253a306d5471); (0x103a7de442c8e9cf12879fb98969972c61b073592af7bd257fc836ec94b6447b957df79a94b29c81a4246dfdfb07324308b43f1dedb34b0e, 0xf2607a383847a90fe5c50c37678d8f02770acbba408cb0357a5c5d3b00168570f7d05252cbb40eb9949a930b2682a6ad31c1652ce9a6d569); (0x542392934b2deaf5ef818949e2d969c61e56fe84ef5aa5f2ebd26873e4a6320705d889522a77e95cefbaf8e27dd9e2ae3a6275fea30c9aaf, 0xa3e1b7b901e02e0cfaa981cb0c030f12eb33488e330f112992f4f4cc6967c4431deefe5c2c30e087f63b37c1ad3533f347aed3f189f65bb8); (0x7a5cdf4f028f4ec7ad213b737424fdbb9c637d440985783aebf15a70a22850c87f5289b3e0c25f6ac43d89ccf46a91bd45b43a68552a017d, 0xb06f674149dbf96fa8c40885bf04bc7b7cf7c386b4e88e97433bba2364dbd88aa2cadaab0ec05ff0491a10b9ec5bbbb9136554d527f243fb); (0x47ab7df7723208a2675d4bee2d72b8bcc03ebb6f3fa39d83e207d2dc2cf39185fa5c4e14d9873a0877d017165b327cdf303515a400ec3c5e, 0xc58642e117ab7234e1ba13d150fe855e775630f16c4514840e90773269417faccf0da69cd4f90d56b58892c64f53af46089f11807d8ce699); (0x4ee69084c4d9cbf14b83774909da5a7508f4c8f4368867613168bcff0e9dc38f502da369d9aafca78c7b42037d8653084b0590aeb6a69a00, 0x67029f859b99d5ab0c990d9690e0d990fcf71932ef2528313cc5ae714e0aa3249ed89c55b2a65243363dcf8c283107af478266a701e482eb); (0xcba7a25d12ba35e6b34e3415e9496321d395a8e2eb0a64637eba9002f3433c641d94d155c47e95317a4c74c2f42ba37496ca6d14727c8c86, 0x167d5f2f49620ef908ea7cf4252fb910cc6ad62f02280716ad45ce4656dc32ef11bffe5210f3a8b16d9324bddc44742187600338f9eae4eb); (0xfdffe9fd3de96e6a2d021df808fdbcafb425b0ad8a0a6f1188d5cd8ef1826f4976c9e250174a9c8089dd7cde10caef24c56fc1fe8677483c, 0xac6bfb8b69a3e30947612c3493a446cc54d1aad83d2b1d932402f895b8f3feffc0847826023c1649f62f7314c597d445401eed7e900515b7); (0x1ae5c47f937378267b9fb2d9ace19dc996f76d3ce7b008edac5ad9f854a8442d4fe4aaa4af38cf528fb1298b481e34dee5febedc9870d20f, 0xec875a065bf302d6d7448d1884cff8bfa140d8ba3be5bb0683d78a64e5f255935c9e1d5b120b6dccbd293cb7af040a697a07e28664e67738); (0x72af42d12cae2cf087ca45fd202823526012de0782c7a064abcdf0a4db8f449094e34255f96edf8cc03582583eecb3a64999678e700f725a, 0xe87a551bdb6ff6c3ed7e36b50b8504985d3c7e6107f54588f25dcf103fa569ba84831f7c67f7690345bbf6a0648650363b12f0df3f5b016f)];
  [(0x155eea8dcbebaf9d8e6e4ca8d3287d4b26d65ec98ece62a848cc5bf2ec944015b52f6821bc49d1bff7be35a3e3a01c330a66ba26e9500566, 0xd22c9614df8966a7fc55b6d453005673e317c981248e42f37268cddcbe6ba413882ec349b193c1b19700932ab811cbebea22c69aaad05e9b); (0x71727a753d46701582a9748be662c53bbc66792b877c031b1909dcaf279e56666e8b16481fabeb6d0a4f26d96d6ea3576dde815522e11d02, 0x7020c33da43ebf62f4084b40166bff2fc8db0e9a780ecf389e31e9fe81a2b49e99e459433365dc46143a1d9840300abb1b03609660ec432d); (0x4ec861dd88f09d7cbd76b21edbca3342003d036bec38655800ffbec3130912cfb8d22594b00c911d8eb3650865daea5e446c61cf6b5a9793, 0xdcf9485bbfff910eee6dbd9aa663bedcbf9433bf4d66b109eff988902a220d2f039d1ddd7a83397631d4887a7e623f4089e8cbc6fcbb35ab); (0x6587cab0bb46575afb4c89a29f9f8004272dfb3bbf6ce07fcac5659f0567bf8291c3427561a9cbbd1d9e0c724d7b8462ded540faf7a625e9, 0x784f1825892cdf2ba961a9a2601b8e751a656de110c6eb9ba1c19178a8d57f27db1fcca125ecf6b68f32ce8460e65549eea48d45f7b83f33); (0x37fc0fdf5a695ffee5246013c4af55989fff71ccd8da120eb147ff1a43b8e6fa7e177657accfc239fcdaf3857f51433c913b9de8a7253e16, 0x3f014640eb03cd293e65d4f2aadf808f951486d42db05ed9e1ae09ab13575f04c73a37ab489f7d36d5f5fa2a3ea365be8ac65330502122be); (0x9671f2e6c240758c9b4476f2a6e878de693176558bcf2103f7f8148932bba6acc4307b86de6052db61c42c87803b714a4017cd4d98dc9847, 0x65d13b780411628c89be9c620d685fad8ca3aeaac41be896fe9d71c6873b8fde9c258edbef3f63d6de380ff881fbe10c4b96c86a3b34d14c); (0xd45af363d22ef20b5054791d551733317784ec00578c1f054503d666a68df5b1d8e911c7d4f199e962dcab780d316ac3c2cc12da544a311, 0x3defd6cca55dff7e48894cacb863a17292418625e9496797c4dadc68c5a12524e8f82d55ffa950c89cdd9f2a04d40d974189bdd8bd0671df); (0xb5170d6d895c017ffd27e5ac91ad1302652814f1e4ae537d83e3be945d069d3a69b6535d433875c38864484ae12ae8978b023f89df099c7a, 0x585b963e4a2751e3a123855c600a29d475d8f4465c6db87342a200c3af3418aa2ee9a1c598017f27df41e8358f5b8d8f4a93cf73c72f04ff); (0x289fa773d6ca6f0684d8cdc68ca76f5add3beb43c3e1c2b594a02de5bf25ffc6c51c63792ef02d529674467065194ab17e88a9d72a9ce83b, 0xca1ed92dc4cf406b20e2285381f98da6d839719da7baba8a82ff1de83f81e93ceaf320b9badf6a271cdf0c398997b9d97d34eda306857a21); (0xb4fe44936f889eedc608a452c4ccc75d17bc4f42575cc562b0af3ac4247938b4ac49ba862e823a8f226d5935d951f68bdd8892ac3e640742, 0x5a8f9b0bb22e94a3065aa32075d8bbf532909eab39a2f8c7b9c87394fbaac434665ed2b90f06b5de6fbd07a48cb8e28308f9332e32e70d76); (0x28831a8505555a2ad0c8ead0f2365b908632368162fb6a3da629a0a10aeea59dd08f5f16cb49560ecdd275fc5878bcf777387108070f3cea, 0xddb8ef4f2890985a6d17913e820dea79f042070259849ae7ad5f64c6fc1b32608fe3bb780a1fd427a71be6ad215fd71e6ffbb1afe0e3382c); (0xd1a8f12abe1dc85bcd06bff185664ced2df76f688fba4261931f36817474192bca4d3cb635c0f3abe8ad1123432be79934dc49710c3b55b4, 0x5ee8318405d75dd0a6c22dfba8d4bfcdf7b7af419f04df93addd8955230fe04ee2f0b8ca06f649043d03839286544dc8da9c46c383ad7293)];
  [(0xc02a20fb882ee3a29a26ce97959b9facf8461dfaba4e3425148c980e82911d520e238b9ff69f971d1437abedb3ac2c3bfb2c295f68df998d, 0x14540f6264c976b0868e360e79fd32d697b5b3811ee0a21559f0315758548c09100de949b738fc9e5c5fd3fc3e879193321cdcf1e691014); (0x3fcefe97452eb9f816a898d13fe1f7acfd688c05877b83f6f1645691040de722e61c7b2f9d852d9f64bda8a235bfdd3da4b7805fd956b1db, 0xa9236c5b2bd70ecf36becf9e34df7216dd0a99be8373015b07ee66f1a0ba32c872eac3ece2215e214f16b4f239f6a18afc2fc4e1e3234fe4); (0xa6bbb1fd696cacf629135ea1bcc0fe01dd46a54f67cab3b80134152264e8b8449ea6d304380e27720d663b0acb3fb919e6e46ec9db70dc06, 0xa074fa7db62d218e665f2e78faf7ac05a74f6f294aa9f720af45d1984ca663e036730edddeed618e077e4beae30ecb4a2b8e86c02e1db858); (0x4147e843af41f4d07a801a17a838aea5153e0228ccaa610dab074fefb22bf67c678deb3a704776baf44f3979b11e65c1a1b01b95a474e0a2, 0x620e8c5776a68710ee1396d050b9bc5c93296f3cbfd6ce0b986d410541543a2ee44b5dcf111fe139d1a07a79318f37b9c25ccda5ee1dcb6d); (0x61901059f3c58f90da25d54d322b59df9138894b3ac5b5f5aa1ec4802c8f038b93b47a5110ea09d7ae2a3a1bb196ca3ac3c5d65ebda39266, 0xabe36ef6e517a8711f5b5e7a5adc020d2d1b9c3b2b777df53e8084298efb3330f39e4ea1aa689721d944e42dd80612fbd76ec6873b7ba30f); (0xdcec31d092db55b9012daddbc897a4f689f05faa2d41c5e4917b321ab9bfab9f0557dbd162c893d7fa9a07816c0c8510548989f7e67e47d, 0x330cca3e17d9e33aad361e921e133304117220aa82b048b3c58d9e4fc08d8cabcda4a7ea38eca110458e0113c7c3aa3f34a6ddc4f8fa48c3); (0x6947dd07a92f707f11bc18defb3184b7c40e53dfdb3be3e85deb1cb1f8c159184c1fa558fe8e831404464f448311ce030b2f6d2c8e8a36d9, 0x26344154c63b0f8384ef01aaacdd43ba52b758de4ec7cec2f25d4318d31e19d93a82bd26d14e0ffaae952e3ad116f77ea115262d07d8a21); (0xa5324c455d414484edf3ff69230c1e7c3c74ad50587d035f048f9963d53a04da71cb2ab862f22ebc4602ef5ff7672ab642331716cb636821, 0xa3880c6c1c6dc77292c35c10c88bad669920d6166d66eb8761d97dbf0b638ca5434501f85116090b3f0c6089b0329f264e85e83cd372694e); (0xc39c18cb67b8487360514d98c55e31fdc41624bebfa0b5f03e5b0230f7f0f1f5788169a6ccf2710f99847393faf55f79a2e685918f1547aa, 0x1dc8e1c0ee1fa810d182a1f9a6fc729efb595f661827251f4644247d4b932a6720aef30067cb4b5bf033d99b41a5b20418db5208b54b60b1); (0x706fa6b4fb768740be1fb034572c70179b75808439ebbe8a43c4d5c97843cd3a1d203e376e3ad11612d51e0ef53f21a43b928fa6e9b5b7b9, 0xfed9e642cc853bebe90bd0982a0bdc20afaef1d00354f39efac5d2f083e959b0720e9356264ee123acf96dd3bdf9c2c017b2edbbb2fb968a); (0xbc1ef03d739f6d7cdffa0cfcaab696b59bee2d68540b327a2470034f61b32d60dc72d7ab0590ef99f3036e853cb7a6913e0fe264f79e6e34, 0x6fa059f86984646182581ff7b8850b671f1ac22b32f2cb0ad498f91dd5b5b738659c0a6e73582b8536638736577cd56600eada43ab2c4d3c); (0x3fa2d9e53ea31b3fc7ce9a98ea95d836ccb62740a2eeac083e585111225df70684b4ec868a3c065a3d1dbc95467736f4caed9b16ac6d567e, 0xc6018e06f3ed9bb5d7e3bd49a9346aef6fdf0baf562febbb22fa7aa834f3fec7b30ab60e1399e4bf9fb4383f1c2d0eefdc3a30a0a02990c8)];
  [(0xcf0dd47e5628c3d4a6577bae9acfdb9b7b5413f734c7fac65dac13b839c53c1e7768b65a73e2ed904bcfebcc0c02eda22ebefad2a9d61ec0, 0x43a4cdd5996bee172eda41077a0caac994c538c4f66b2e22f6049a14a8642d0a5466f5bf80a17de25fc158d859741b5a63c9d388def1e163); (0x813740852211b409d296690975009d5c9fe733cbd57676a50a6f44329993af24e994ea1cdd4c9b439f2d1c97641f381eb116df8a3bdc96fd, 0xa87feb773e644d8a3d245ec0b6733207ebc3c106e0d40517c8ccad63c8bde43563ee5241d61c349ab1b976412f93cbc3d6a253b481ed52b6); (0x257f147b9da6bc59fbcff12872490ef14a0014c1d83ae395156a5e423351293a3695e1a196c37f07033cf81e9e6b199412dab9a623db79c5, 0xe2cddd26401ebb7fa55d05b23c82ba851a23bb71f38fae63dc997da5bd834afa8bcab6ea0a812dc301ae40a66fe3de3333666198f6eb1a1f); (0x63546df4db335bf0a548ee2f2b6d1c1901e3162046ce5740dd8760597daf4df269dce2c5697cc8cab7c141a95a80c943b6f51140fd370ad6, 0xbdd3fcc2577c909daace7cda29c140ef8722aa110fa433ed3e8cb1e59ac98ae309c463e0ab079c6a06996d27fc4ccf09b6dc1fd58a0d7a07); (0xe1b6556d4d20d736e1dfba34589d2fcb6411e6a2bebeb3fdd5655deb66d1d19090d62aac7c6384eb2f73cf95bdb41ba489a2ee46d6ca820d, 0x69d2fc1c0d277878b6ebcd803d5dda29339251032646cf5f70259c53a843841f70537e929ffe288b564baaf0ffeefba84002f3cb006306af); (0x69c802ea85f2ee4a87265d143e7dbcc31be5aa127180dd07067c42ae6be21e3bf02352de6c6c571feb1996b8aa0c11c0846748fa7e608675, 0x8c8987c49554024c4dc3b19681225a14866581ff8cd7bd32811ca4063a52c23720bcbb0b0fd2719dcbf4be41bad0234607bdc2c44ee93b30); (0x833be500801e3d324583df94e47b211df4159d7712711c672829b8efc93f917744bf0356c57b467f3258798099ad5a04625a3e7c6a009547, 0x16b7cc1a30461c9ff63fafac73d3dd15757d71b835f2a8ab7345fd619df5a5accadd85f54db56078b64b4ee27af05dfa327f3540e6d7462f); (0x35ad7b49ed0ce5b423d7cf4c08363e3bd547ce90ab66c576ff7b8f93aaa25e848eb46886f117566ff994eabdfca5f1880af29c42a4ef55c4, 0x84363d91d9454144f495ea873ca1930088e3ca9773aa8d10c842fb7e95c31f11b0b35d33312218f209b2c6c6284daab3cfd1d1eeb414049d); (0x3526e437ffdb2fe0c6301f7645b1dcfb9a73e81f3dcc8b93a9cd2adbdb73233fd26d8ed36c6901380a156fd7521c86e4d2cf9ec97fab9b75, 0x2d1ccd05b7726dc793b68bd270ee2ab75a5585b4622cfbf0700abad7ccc6bba4444da1e5a3fccaa8a6e317ab75c79b97235154d08286f52); (0xa262d63d1894b09663eb3c15b6d43c309d0b843c3b8cea5c3e985cda1b3c7a3c6437256fb1fd1d5248a514c9d4d76371dc71ac1d9e675485, 0x1578df1ae86e8dce23c7e284620a6a85e8e76cd93e4158584fa4e42cd25d4204bd86b994004c6d4fc28d77866e14f4dfd7fc2937a87d71f8); (0x65587ee9fbb8e0d94110074ba03e497468266bc4d0dc6aca5bc881014f585ff3d256184d599204466f0430cc16b23edcb28d296688299281, 0x28aa49db4cdddef6983661d3f84245774cce89b516af474e217b116708a8abe27f38f70b6597e66adb50a1902a9af62bcd31e537ec510ca9); (0xbba5b34d3cbfb919e7ddf4d8e59596dcd7f5e4772a46292d170415d000176e801cf1cbd6ea840ddf8a207d357eb8aa1dbdf0ec72e61f1ae4, 0xfee68394e0a67310b1fff25087fd31122b74499a72db193637a6c47d0d1b891fedbda5ea91102397719344d74cae282719a8b5046448bbe8)];
  [(0x4e1aa279b7f898db778dc8f9d2365b994c3bf6a9271521f9a455373723b3572d12186a441fea88ca6fa37a63dad4e01ad97f7ffe57cc045e, 0xcf01b8c8f13dcf7032704561ee19335e076624ded055096d8d349b0dbdc11a7ffd516a1821ffd4f82a948d544bee7257df6433562e7243d6); (0x1b88b6cb1f4024a7c26ae146413d5c2c7ef6b4b7b6a220594d326bce2eb731ea2a0e6db5cec3ded119e1d95f615b7522b0c5c2d9015a6135, 0xff977d0e6fa2e412ba0f522d32f6b574c1ef30fb299a37fad60d68be70a825b29d86273a5045d34ea45e7ac5c8e12c43cbe89a3de62bee92); (0x28912f078e2685af0e1063c11aa7456aaf71d92fcbb17f180923fcbfdd7680b05dc8030b7778d4d54fb48729312021cf627c4a4f2c50c1c2, 0x847d0dbf062aa6f9cce1f7e5d931a764794b99f77d4f1499a2f0cf31d5813211276725a2357bc52f67d6008f5247ef92a409a20bfd3a2b0d); (0x393e0cc3f5ab0f09c791fc212a858e20ae4d7f4b4993b44c6b96164edcd3062d665e75c6aa617490f04f6bfe8a0dceae933e5f5072cfa0a, 0xd6da1d3498b530b8ea5e1ec1a49c443aefb1893b94bb91ee44306ca54f448c872225f72f8d963b5ff591f352ebb44cad1be52fa4ab8ff281); (0x40c2b4081ef720ded0226a48ae100338750c7bd74b335242ffab3b140c3162be420cb182e8c5838c2d23a28bbc0002b446e29c1b9840bc87, 0xe4742ac3fe41db0418772e73716f157786a41d61e75b6ea9d685c92283b2d8823585719ff776164428a88af7b6cf23acd91f2f0df71d993b); (0xfcb0b3534fb8c2b18eca182c22cb3ba563f1a80b59c8fec84f568da518584623060216720a9e2bec19e24c5fe2ac58e982a1e92bd6b66316, 0x20de8415aabf34942ab0b340e12932f65889397a1e79f0b233a88ebd136bc1ab3c94a479f758daa9ecc5bbef9ed78aa012485ea8526da812); (0x2cce7587f2192e0e2f263e873a0c08908a26456da959375b59b7540c27efc99b042efd60e3ebccabcaf02032d6123055c4928b88b0097416, 0x1aa647ed22821ed81469e0ceca7df7e547cb8b321e37035fa249fff86a6175dbf45431d117ea37a53080bb44c329cdcac0ac1bfb2b83197c); (0xa9a5d7e0d5b53a8abb3ae9a73ed1a3043ed77aebe800bc9cdaea948b39423720a810ed94058ec9e5fe521fb2811789e2a87ae0e50eff5feb, 0xad9ba86562cd875e0c02a4d75938e534e4cc240417e76edc2072f1458cf3d307cb050dd8ead1b80808d2201c6415df65138736f4f0617489); (0xe84125027a780d7627a5d8fecc316af53bb2a70e69ca7618082bb82392101371a9bd8205d5d75584903ef95b019186798ce5c2b222c921d3, 0x986c5f89b7bf95149c9d815ca3563e313330f419ad222358818f028a8dd4ae910e140cfffe380893970c073f909e3fb3a4c24d66eec95795); (0xc47b84fa9c03d1f8d38d21502e9b56291dedbc69c285b7fee264f23bc6edff1a59d005e387646feab1ed58d60613fbabe0beecae6ddd9d88, 0xf12ddacddde650425080d910555cf78eeae00563a1b3ddca7dcf0c910acbf1352d7d94e49c2fa820c4c9353c92889ebaf4d24c58649d2900); (0x1906b829dcf7977b467ee413bf03e5f55261d53e7d6fa2d3ebce606eda7db828919c13d72006f8f0240eb675d6b7aced8653dab60bc87061, 0x17c7e801ee8b197916b0af2409d0bcfaaadac96e6630d81dde48567f6442d4c1d9c95a2a059ded12125ffe5e7b1f4d9a427bfe89087619f); (0x6a3bb40d00676a04d8e3ac8c0d6f79d68f9bb1c0b9bbbd282bbcc2202d93c98857e929ec9527862bdcb6ed6cf44032f47c2367d8ea50f467, 0xa9099c989de809aa8a71c4a93b477bed626aba5c435edb6218c677665887ed6925d60d4d972fd0d92fd076b67568e20d4c21ac1be95805d1)];
  [(0x99815f68b3d21d4c1e4f5ca6fbf677a1bfabcbd9b26e4b3e2ea698e8d004c96437cdba33ed86ae94163e79dd646338c8b8d77984083db5a5, 0xc3a99758ead73156cac748bb4dd686b4dd7b4ba4552fffbb8df01fa1d9c08f8d42568530d5379b9366f437f8df49851e14aad05b06dc1fb3); (0x242cfdeab221577a814a07df5bec4c82a8ae63dec96098af574a7bafd86362f51c9a42cdd36ee9e39f22bd97966db71fcdfef5884f9a2d56, 0xf28f6b9c835ecb5316977c8216d8d7b3c28a6ed3dcabf484d4fe807ca2665a2340358a616342dd7c138d0e1e118ff074b3f18f6be428a9a6); (0x6307eda2c69ec9c432b009a09b54a9f52fc3fcd1c940f1bd6fb5571aec7e414e0a9e13a9ecfd08635a56ebd91e4fb7aee891b85d55a61cfa, 0x5259521de1c0c461017462a1d2b361b97bb359a36c76ebbaa45e0d0273e5df21a91273441940fdef944a5713ef63be2146b6312c159a2698); (0x874fb251480697d69944ede11d0c704ff25bf2d474f33213639eecc8f51fa29dd201e2332c178f8c7148343bb9b5b388742bb5753080081d, 0x528583c8ca7b611719584b46be14f5c9260f90c145b1dcf52e62ed337a9cb7f7545c87489cdfde17b861679d4048bf9a4d3565055e6d4672); (0x3043b244562f53d3eb73642dc761c2c614de5120c2ec653f4e9f6138c1d698622e515693f9f88dbaba6f9ceb3cdd92a8a0b0c21b9813efdf, 0xd4ce2e25439d74b316e8218344cc25bbc0f106a0655c4926f1371289c3dd45c84c12150995576d9eecc232819cf3577ff28fd43cd457482b); (0x5a0321b5ce995d85820267e688b6f071930aea33c81953d73659370f7730a073886b51afef8fd90d895e56f84c4e82a5c388cc6c42e676b7, 0x37cb25ab1f91e9e130241b7dbdde5baaebb9f6b849a4bd5ea4707110e2a0c9b5f01d65be5c714e3dd3add0364ea7476ef81ca4f70348ace7); (0xe9607551d9f67f5a63c8ba7f25edbcf1f78c8566ce95eec27ec7c121d6466e61c8f9985752e95c8ec44fa4b0fd639b0025ebbf67a3c090ba, 0xc60f7e44e31c7cf0544b47f38e896fa00812617127e0354b255d134a4adaa96f05177a391684dd2fe50c0bcba8a576b59975a9446b19c01b); (0xa60c889f3ded62d932fcf113753d92b27f4df90832253d321ccf6a227884b9be3618b733749b34b7d9962481988dbe9aa5b65df15789357, 0xe5503bedba1a55cf4f106b50931d120b209fa14b4d28665ff2eeaceb1542308b1c526384f307a84d8a30da529e424eb2e925a220410e0ee1); (0x362e8ac2d4420a1b0253c9d7e3cf18614677d9f0a776a5fcd4818ed70d278a88e5c80d991f445eeac9fddf9a0532299f66ed18656c959a81, 0x46e88920115c05bb92bd106bfa89466773bf6d470ad6dce7e3bfbc07b5872d089e5297afab55b6024f6ed512a59bac1f62b49042a278b96f); (0xc3addf0f038de4228950ee5b76534bc654bea375711193a8687d07333743fd6356446606f4229ac05d10c60b1787735eb8187dca8fcd0371, 0xacd25d6b33c4ebead2d6b835bbf00c27bab8ef359379fc391c13d59def020380b2106b7e625fb04d0111cb51e72e3a227f62c8a4a077c12e); (0x95c9cda05262ef5bb1c3977b300b5f339c298752df6859fa235c799b879032de162e9a3aa132c35ca008b4db1707d319d49efea3d0c1dcfe, 0x25a6229a1b241b40699bc8e6d617b7810b0b24c9f86e52ebb8da0df417b8d75416b8ed6caaa2a9457913336ebfe135faec1f400b21fafe80); (0xe647900148a76a7363b7a58b7d6862bee91e77427cf84074016c270c3386eb48e84bcb8dcff4c714db062cf85186be15ef6d77f899a11db4, 0x591021f7923e2718d9bc381b848dd02fd47ece6e2c172675c1ff36b31fa3b69a00159265c6a1ad4be4ff1e2c7a05228519a0897efe31ec03)];
  [(0xedca6a23aa3315d86f04ca7ffa160f281212125bf657c9ab8627fbfad7041b0ad98c8006963d4e52681111d0a3b63380fbbe3148c4dface0, 0x2506f3d111a783b5f69c412d19be769015e546898c4cf78da379e80fe1c3186d558bfd0dd23775d2efe325ca2688297158adda0b711505a1); (0x20b9e6ea0298b663acc809bd9feaea5bc09debbea1f0e167d7660b0085d9e5071c760a59a095ed204b2504ff0017598fa13be9875209c09c, 0xa1853220a7015836245a9c2d6ffb0813c546a9d3a7484c52db0ad8f7156d2815f55d47c166e17ef8a5115f5dd9c4431ee1ba1e3bdd72590d); (0x81eec8e174a6d4d1f3a751ae3b0062d224837b8747f9d7f16ef41e7280c21188c569b05a359d111e7d9f78ad8cda301b1aedc054f305399a, 0xf1da1b545e32a108f86f1ebad7ffe0bf35e4d4e7e007d1d0bcf0f185bfc4eb3c807bb54cf663886dd495ec651b1e26e26bd874329a001175); (0xc7c75ff6b800899767dcba85198262c743e54e06cc72b3951aa0a96a3213a018c82c535bcecefa287e9635ec81d820860a311ee2944af5f7, 0xb11eba44e66cdc6515a24d26f821a0730b80f63622d293cdc3f0b4290a5d8045b4f31031c482f49c04a67aa697a02939909e4f3eca541524); (0xcd0fc818efa01c98ce161fc0eb8654c77a0ca4cda0904f74b55a377baffe3feb8851260c931e698fdcee7be3e663978883ea22795f149557, 0x4907b0170616546158ed5dbd29ae8deee7e3ff35a5152e8c018548847afb212489632348e021e35e5fe40a0dd08d4b8b3d0c6f0021d63f4a); (0xf155174d18263d706b41b4ad18b09fb22b0e69c1eab5d1ebf606818c2c9368fac482a12d02d11530141ae7c3ef97c2cecbb04587744517ad, 0x6cc203106a6b05ebe0a993a5ba3988fdebd780094048febf8f0f8544cb18d1ca5244e5b850f6676196856e8c9f7594441dffdfb1b458f8d6); (0x8cf9d292a5a69e7db3576c61a40ee8fd7a65b15b720a16844acf57971f0b6993485a32e9df7f42461b93282d2b243c458e1dcf6261dfcace, 0x1a5badb21140eddc49f770e86b51b66525591c15282ed7c000585953a82a75615ff9c226ef0b0a9a2a4294639a59ce72d24805c9d7884492); (0xff1beaf08e25a71209bd33316778eea789d06d8fbd53a6c364777fcb6d7701fb99e08f1112e4f854872b4afe3a128cc72edc720c512f3b93, 0x60e92379182c5a629ec1752098ef526340b97e06bd300bf03bc07e8661e8492491ac39086dc3ca64ede059cb2af79fa2c8393dc3e514f345); (0xf73a63be53ae1538c397175fe747067622c07936ea92c475067b0d3023b3616aab3d39d4f8b875508804ce32ebfe2a81a67c662474835d48, 0xc760cc3fab66503445855c8b8f378a3beab7ae381c0157d89c986c31de96922c20fc6ee441a26126c6b7ada9af8afc84ec349391a0dd702d); (0x6725d51e5947f79722f8ed92782cf6c4dd2fc7c1047a199a3417aec87b07900207911320bc9adc35c8a567cc4a4a41ffb780e701c7ed3b26, 0x79a32f9a01e6c09a38ed7284a6e416c977b16c07b27f704e1948a3064916e9cd95ddb50eae0d4718145187eba4ab2aceb51990ba30112c9e); (0x4e4ca12212348fbbe935ae422d60979b02b4c395a9dd9586fde8f5631ce2db500e176c866d25f76f11dad8e51f39463d39907031e164f651, 0xc4d390ac58fa4996d288ae33a5c2e8692b5c0af6db7a32a14d39b1a3ab54eb3bd70e1356c6e6fefaf92778626f584ace44b27e6d3916ea7c); (0xe927515f99d59e571466867c200591be78312780f82c1400481ad8aaa14a7409c134a509cad92772bd41ae97cddee969f1a98da365461bcf, 0x4773e296254c0d6aa2574d90c627901b9cbee78a2f403c64384d3de6f4e90381cce0e7a6e715d20d2dd5d43509f6c7a77457825418ffa780)];
  [(0x23d2ebf413442ef498c33abdd1ddb5adcdfa5929d5f1abb430f69b867e425414bfed90726d02b17be7a1c3ea4adae2dd4db05483fa4d4ee9, 0x8e1a5820ba4811e91bfd5414333010fe54b44edeaccd29b9fcd1388c35277447132b6f565e20424d214e306c26508c77e52f5d04fd29b7c9); (0x18ee14b5f64a08887efb0742650027717429c5bde89c804b8dcea137bf5137cff61efea3276c9921d8fa6179d356b6f04856478f9f1c4ad1, 0xf016c3a0b99578f2d62f29510f76875f84e5e35b907f074273864a93ac4dcdfed0a630a5d859943a7265453414e74b8229255cf9e690361d); (0x4aef33d06b43928c8ff14ae96ef0c2eba4f2077e1f4058795225418c7127ec354ebb264be24658f712674fc1ea5f2c2a77dde4123d6b31d1, 0x8c23dd5806b1ecca60c3b46c07315c947e49472909798dd82dda0ad635edc3f8d34433a521cba6c5dabe72a590f48c2c58ad73b6ae26ed38); (0x4275488a459c488ce7088fdafc9229120ad08db6e65706aca8d693a6d594cebed71097529f81cbf636f4fa4a9502f7fc27fb9cf5cb7d3855, 0xe0845e9970aa611c4eb69e1cdb7f645e97a0129ee754a7fda06f271dc9d92e16e6fae9683111855581356be672509b624aecf7915cfa71f0); (0xa99849152dfa9408d0f8cb5a070d00ed5fd9ad5339c250c234d61a6039ebefb02cd15ecafffc1d5e531255d14dd493ad189ac35a3b5d0744, 0x5568047fc8e655d382918e7a368ffabe7759fd53389f6482e2f5a9fba0cd6ea1ece0fb5be4c2e66fb6dae87ddc146c0cff413934f3422202); (0xeeafc15926e42de1b08a1f830f0637e4e5b41cdc5a096bd9f72d9a9a112d079385e6294f50c02da27ad12134dbdf35aec3b5bd0afc3a3ad8, 0xef807f5a94013fdcdff6a14fce04f3961e55256bdd1d6edbf03e71b46673ca931fdeb9e052b23492574ddbff3a0f70115d9da90cfa345547); (0x6517ff488d716b46c48423a6d393f8affa2058e10d3e188c8cbfeae3b2e37adc62f5ed3ea5264fc586bf9743089b06cc2255682a2faacd41, 0xe09dae9c01982b9599065e4ccf2b401b34991182e815a81495cf66a9798ad96e543257887a6f16504570900d0f1a1e4479cc466526714ce4); (0xa4c8617d65c0e908f5acd1debd8a9e9c029254be3a3e5e0bf17803c75f18f9ea980e4d49f2bb0bf3c8e12b9f8970d5ba131bb8eb8a909f47, 0x3a2166846de3a98e7fa7b0402af9d16ac29498b0d7adace8c3d6aad4ba5064613acd963d82dd18b1985cc5fc4bcd77513620fc6e85fc9f3c); (0x132018a07dabe75f00596d5fdd130e9146b40751b3fb90b528e3a7ddf493fd35a321d607684c3496cc43748e889ea26dc7ffd7ef8d5ae2f6, 0x735504b8de7be9c4e7490a9a865ad6ce2f295565ffd96025ab18dc4d723bca325dae9f32f44adb8f4f79174ccd00e68618b6bf013f07d52); (0xa7730ceabcfe8ce85b3c0170183eba441ece182cf24ebd8506bc311215d159979d4e9ae2972b7ca715bceb45cc715bd72eaed1d22a9f79a8, 0xfdefba10ae54fa92ba29d1100e5209c20fc8bf808fbcbc16843ce014ebdabd303d84a165043c72f2fbd2f2f52c1d6cdb326a9373e8a48d4e); (0x2ebb1cde7e58dbcb9ecfdb8bfd35ec71bb9b592d573d635b3d3e8fcd4e5f443a95e4a3434242d89809bc62b6321068334ddb535972c42ff3, 0x471708523a9da2a9e22d7fca32f6913d48274aeb039decc422681e504faa03c001d8b49edb993ff9d592cdfeaa7173738684698b180e043); (0x48490cd39e8e6217768ce56c7976ac1166d57ff2fcecf78d4818198345ffa60cac5ee68c5c1343db62f6a405da39b62a2ab07aa04e7c3717, 0xa8a0d94cff9dee8e71de625674ca8ee0f4973077d463f8dfb642e7f9254144af2562f0af73aec4bdc685f6338ba945b0d92dcf63e78db394)];
  [(0xd6390a8a6144a6f573f1ac29a92c61b97ca2eca714110328d427e9fb7c01415ff0c771ef7117bbb3984d3e56d7e2b7a93f0b35d1724d43e, 0xb51fd61dfd3de9756565a91e2e8b98998a27dae086d5c5ed3460aa8a289b58372fdc304aaf2f6fd245efa9014b9600fd50bcedc1189d4987); (0xfecc6258645c08d274dfaa00d365e82342f0281021ed8caf1ef333f4527f96e4616f695af6257f52384ecd276dfe91294655e746edcbbf1a, 0x99ba1c1d5b0c1e6e0275f97cb38520b47972a0e0d80d450bae00f715b73589d6533b332965de05e829c2a391b9330e4a1c1e2ca991a0c6d9); (0xa2e01387a38a91912b9b80a91e03002499898605cbf84a5988a18cf2f860619670bcd0cdaa091ea35f2f473b9cf7f3c858d2909cf8b00f3b, 0xcd5921509a8140a346a551109bff03afe8c929d2a98942c14032fc25d1efac600949213d72ec5307501b0611c354f0d3e67af23aea20c4df); (0xe7a8f68e1e523bf6845521b3ff3f31f9105b3478b6f302a78bf8716800da8a9bd10b607c5699f1bd2e85eb12ef7f156f9b41c818a7feaea9, 0x10b4f73128426dd1570d29a71e5ea4fb7a7443cea3389e9665a9c591283a277e72530b132eb8f2713d9678641c565a1bfad2882864326f19); (0x3c86dc5831ce70745dcebcc90676d09222adba6380149ad05bbfccac6ee5e73ee152fb0042e764d2bfa9ce5f4bc94a8dee9fcf50001ca366, 0xfd208834da52f64bfa6c113a271f313abc04c476e4267426ac44f9ca3291830f75594b5d2858b7462860a149a42b85faccff18ae3a6df6e2); (0x492d233badf0e4eac5746805a703487afc0f43d352794907085abebcabd28d029e6654729049168e9a8a00c72dca6087652ed4531ca98fae, 0xb0312073088e77907ef4f9dc0bd125f75ec8587f7ebe4eda88055268651409c79660bb79edce0fe14f6f016d447df741e78475b8cadf32f6); (0x504189b953aa038d517ab284814bdfa4b14109fac8cf09af75f9f18a99f069f9817303d0d6f895225f40bb99615f6c00792831d0e7377307, 0x9ee79a826182fb5df49b11043915737935db408bcabe2fb40d579e2c41dfdee6800dd4658c5281c9902dacd73ae2ec2e546e46ec411a7277); (0xf5a4722add5a84ce92a5a98dff5e3b443335c4d8ae12870f68a0bd7c2a5cf35f6f800e570af29cbbb47793d1597ea5e59abdce78d151c6ad, 0x24605beb9c1a60576e3dd73ef55f98ce18ead8572e3394b8b707d92f699308231b728194cd9194f0cf1c7de45b07a1e88a5d846f277195bd); (0x464cec0f9d3ba36106c6e3690407c9c7fea6a3399efa162eaf7c4384f5166a9cd9f194efb5118cb45543c3ec835f4db4374c5b132fe543b, 0x2278533b5dcf9a82a03667e0032b8c84951c0e30130632c72c7a9e37f123882ee04748c64527cbc5c79e051ff5102518ce8689bc28fe7bbd); (0x7889b870750acedf0d6d4756c7048c27b836217e55a790617623373c963673a7d37a461ad388c287fe627a6448a3b6793a941b62b785c64a, 0x8814b4b8e477bff8ccd0db712ce266f6a768f3937a12b2ed70afa9ac1c61926de3e51a5ae5d201575305bc86a2138dc806a5c0f6b393531f); (0xba4b8e9a9a0b8f2dd66806668920c6f24ce15178ed5cd0cae9fe4f1a286c4dbc7b9f4cd7a9f28bfc08f6cd9404a014a747b82eb92926c385, 0x59cf6e7f82d440e09592fa560470373aa7a21118c42c619644273ed50368b8c59a612fc55bc7779f5774e90a146c4a8c6c3b8e1d8dfd03f9); (0x15415f920708c15edd336e4c24d14068311c9c7c94709a840e8a3a0414832b3cc87d01893142ea2cb5d3677c8333397c2de6c71edbb1eca7, 0x67e2382e376459b2d508c83146868c7ee64735e01ce9c057a24e7088541534dffe52fd232ab66fab2fb872eeacc8c70d5b9c481ff62f9735)];
  [(0xfc0469e75fe31602a873f34c55356298ace87cdb70f6fe7379aa9d48732ea659296c3f7f5e2399139f1419403daa18089c57fca51aae632c, 0x43650e988309e3318387729d911af43774fd67a9a9b0376a9b3a92b8162395a68e276508f1851ee8595ce3f49cfa0904f63a3b69abc3c2f0); (0xb745b037302e7d59907893f07c8072bf78c91a965ecfe1e87786300dab2620f5928397593745e9b2ca31d6de1c037faaf76faecbaedce9ba, 0x10476ac5e74927df077d29e2794b5f2dce19016e38743c831959ae09ddafabf9e541de7c3f512dc4e887f7a2a0fe0a897defd441f589479d); (0x66b7f86f61455967c28450b32bdd6fbfa1e8be039c37c8eb8f2583be27b861ca58a1e747d1ae06fe5663fafe12a2e66b16389870dc38dea4, 0x4be1274f5b9bded7a6aeeab79016527e7a02f2caa8252453071c29d22a931b8a605adfcb0d262d03d6beb85c3bbb667f3d250d26bf500b36); (0x9a3da4d5f976782c6df8a8b4f94391c47604a84673a23a7b218c8aaf1150e5057e65f8adad1f729f026ec41e7ee84495341849158b685cb6, 0x15f5e2f09c9b3373e0ee58994abb00658a74ef7a03120e0d63cf21094290a19b06951c7a9b0cfc0d158f7383f99c0bb1562f593033139a34); (0x37b760ec0376480334b6d03fdd58bbd08f34d3acdb787afdde54a9019a00ff594c51cabbbd5be9ed2c89e46c53a870d3b3a13c0d50c8eb9b, 0xc796065601dc005e7275efcfab98a2ffe85598a46abffcbcd224b884f7378a9327525332336033b846d2455483e9a91430b52e2130c96e94); (0x99d4ae24d38ff137d7df614dee16f42b0e55a9da6865c29922fb73dd828499acd67af7da6fb458825cb04fa07ce4bafe7280eb80b02bcb3d, 0x35fca118ae85b43d573544df44401fb7d25b4cf7656549d6e94c8967beba00c3cb21bd09e6d31b70e3f41fe37d9295d9e3e9a2a26fea77ed); (0x9db2dc6cca639df89eb36ef16e389b3e67887c6cfeb5f694642e0048f043677f5e8fde847cdbb34121417b324de4450c52b9fbc7827d19b0, 0xda760d791fcb539ea562d1c090964f602fe532c95bca92282c2e25b9c7c3289efbf982894a575c866b619624146d538f05c67d121c2dbdab); (0xd48d32a3077cf58eec799ba01481812d080c74d44ede829a3390fcb0920c4a6d4581ded3d0ae250d3659b0c9a72348e1e165b42a9cd6ce5c, 0xa18edf9592191b7b2568fc6fca156e04c47b56b5ea2177c22a3026a3a3a148379f100ca84f6e258258b62a77b622370da778e9e3f19d276a); (0x9afdb4686d70cbc0d752ee37fff65cf23d34986dc937e3d8fa5915bdd303ecff0aff07a9ded9abe6464523c314ac9b597eb63cb1006dd6e, 0x72d7c2a1d79d05eed5b37c2f7435e65bcc82ae1573b5e955f6277aca20aa096605e9aac22fa2a0505448113d2204b74e26087d5ac226c55c); (0xe953bc41e87d7733a7be8ffd3937bf034153a2a800d0a6133221bab18315421238dc7764f7ef11ece0dbcbbf45fa47c6116decab3a8c6ebb, 0x3f2906cf9a2ad9e0bbbecfa0c875c7f683b91010492766c7f66f0dba7701f1d877067a4beb8085c4c600dbdd75cefc2993384bbecf83f93e); (0xc5f72c98418e92f0c3728614c9e5b5d4f1509fae04da367974ffd13d1101f13263c1e9ba73718154bf82d0b55b9a72d4d5dcd62ed936ee74, 0xd3594d05cc2f94ded63afb19517ae3513be3fd308115f35de36e19922ef99cf287d34850a4d3436f90c14dbf7c14eaa468b9a5d12ad879e7); (0x7102c8470561a1289a7891c2a8b78a9f70e052aba597acde0b45ba4247ed051dd09285ff0166bf3979f3275517a2c534efaf39df76c26f62, 0xb24af3b14f033eb1be0cfc19a231220368752ace2b00343c98eb923c763ffe315ec9d9dad12e6109defe5590d72f1db64cbb96b55285c4c7)];
  [(0xa4cfa2cb64038b08de6fcb93320ba2e5ed6e1a2fc4b4fa9aa469742515ddc9ee38b4540cc87b9d2c67fbbebfeb1166f05902759801e09ac3, 0x3885a55a6496444628825d4e61fa4bef9e0456a65db8c1660a0394e73c9fb6a8afe77bc91fb0bf77fa22d95003cd81b90131f94da620ebdd); (0x59007c700db36242b08ee82a8bae7b2c66dfbf941dc6880590feb4e2186e84caee88a29d3bca587e1d8a82d8d30c4e0d448e4337df988198, 0x3b72261e49205ee904fb24ef3c3e6935ab4471e04c374b16b7ff5221781a70b3844ac94ba4bf3e426b69103c7ceffe69e7f59d8831ef271b); (0x74d4a038f6a03bc1c1fa5b952158f076c4caeed55b1eebc36b8213669ea369fe8c20a52cf3c1d476ad4ef5ee494e560613bcc8b6b8b6359f, 0xe81eda2756129b216719a7e23d79a40341643f140486e79259ead3c8e000b7dce5f42e4ee81921ea52cd44379ee98c7c0cf0da934647e2ba); (0x2a0daefb0153d575d2b6cb0483640778e113b4b047c4bb6b4c16e29deb7b384205e95eeead924d0277be2730d2514d27ef8da9e1bf09e4ed, 0xc07ec9723b249d32249377a1f4cf54f05d67d6cc8d682432e133633de1785bb24c9ef605c32f59934de8c5630a027721ef05e476550d87ef); (0xc6d309947923a264b503c4554ea164aedb2c393ec7d8511e44d587f9de3524b92a8f9d80fa65ece72f0c7ebf474cd4ed543bdb93b4f8b78e, 0x708f72b42c9a73b0fad43168e33fa00acfd939ef18f0acb77ce5be0c3f5a7c8d1505d9c4405a86c940d70c5adc2447354e189a788747eac7); (0xa0edb8318ac842f217fdb31db5c0e5eafbbf6da655a9384964a0ba68af1b31adff8eac560a27ba0a6250a2fd9d59989fc73393f0004f4b16, 0x57d6f90be98b91a51a2c19837cef614083fe718c3cf7af9478c7405993637664d746abb994fc2d1d7896c5561ae87bd7729bdb4197afe593); (0x5bb1d833013c2deaac09a06969e766680555323f9d553c1756f46c056540d96290809e5ce0fc988eca1ed5fa4ffd43c8b4e9bdefd8e1e228, 0x617c3187d02643aa0cb8a0250723d52fe5eb36714c3a34153228429ea6abd82b3e36bb5d578ce07f89ed77bd2bd4c44176b9a021b174dccc); (0x3cd0a2adc1a2aed118861f9f5fe07cfb6c532ccd50e7c34b48c5a99891d909167eb3ef284be3fa1f1b0c46f7190d3c6aa346e2c94a4f4eb7, 0x79442a84291c2b45ed715b05b2434939b33291f0eb69b85827826ee1f4ab40da6bbd34fdafd083ec9cdaa8e14adfdcc3145d717e87dd30bf); (0xfe2b490c75d0dc06e028338bb8b20ac6768fe1219798c0ce429ccebc1e6f8bd92f955669f9972a9281b2e2c88f6919d264b9fceb0351aa04, 0x9ef3c0783939f6b2aaa47233b66db7defb97c45e8c5c0e6fda546bfb80d2a151184db46440cac87f17da57c5361b247d352a5c34a900c5bc); (0x6db4c7159d59ac75c3f8d599f7ebbcfaa584898883d4710323c0964d7dd8693cdd17bbfa655865daa0fb979acc5bbd69b12ddc399099b05e, 0xbaadafe74a9ec6bc064829b5915a88d0b94157816e7304f90be68b906150b353ea425b9c9c759812d62eccee00c8682362829d643c01b013); (0xafd749139c113f67f113416170462b2857f9fb678992a72de8f2addda97456ca0a849e542537f7a196e951f2cb0299500c5b595604a0ba5b, 0xddcaa86aa4e2afdaa61e90f2374bfc5ef2697adb8ac4d229768386d8a9c2f6a7727b71f9b868ad4438d2d78b2938609db2c9519d4074c8b0); (0x58a44dc7833f0daad898e7fa65e977aa7c11d4e5509b68fd6ed78461c5d2f25a8621492c33d454deb90f5e74d5bd3d0d4d250f83b883b1e0, 0xdbd1dac733cbde1a992f9a14d8c53e946b462e90381f0ca1d6a745d4b1dd5a72cdc520eea8c2cba8b698411a7ff21708969a5dbbef7084db)];
  [(0xbe63eec14854acb1437540911a7bbf4147714161113aae2f22580214035539c359b094a918544ba778ee8d40e4126b8e265aa3f7d376143, 0x5f19ed5a1e733d2b3c9e66daf3cfca4138243470c39f2e68d93b212add853e774d907ed2d9d4e444bc3ff5921b1628ee0768202d34d3cc); (0x679e1b9e2155ddf4f157e3b5f3c3a0c73db30749aa3740f661f81658086f5e81ae5df3c04ee26101aba13b1653dfe245c908f74bd62f77b6, 0x2d2317f5b157b6957e1bec38913aea142c74c5f46ad5ee21dc546abb4959d287b68114408b7f98d7cb6d905e5af01a134d29f71d82ebd57); (0x91015c9ef02c22169feb401a53154230351f21f2b6507c85d49b6da58cd61ddff36c8610fb36f5acdf839a0996c945906e9454b57747e3f, 0xc36a1308d76d2bae73efc845fde02bc324fba2b1059f4381c4ab8c6b3f60d1cdf062754f4f751b58e180a5b8d1026cb6d04f84e09403a74a); (0xecc6e95ecd8ca2d738c6bd7d7453f70812f498317354c64cefba46c86edf92123f863ddbd6e75d69a16bfdc28f75e7b4fc0aac32a7f2cf6, 0xdcc3405d76baf42cd90a793f6f139b9f06eb154735805805972e489e0030c9a20ee71dc75345392fb75615859b696319a8a2323ecff9af9); (0xdd926dc2c137e177a6e6ef7c97363a812fd07db2282392351745907e691dac7bf0e5c28ea42b64894482adc4929e69b1e5100893805ffca1, 0x132f7d1ea19ed8d2bba620a2090948c8272eb56e48506c1b702e6475209f32e0b4d929d94527f932330d50657db61837b8a5b6afcedfe7c1); (0x3fe14b6d107b62a7cbb4f95a98a87387e0be750289822855ea3c0c24ed50e4346c09f5b1a6bae7dfe1968f88a7336a9a26589472e6971678, 0x8cdb21c37f089809bb335c875bc1108a47eafbb192d11117efdafc4fc1b2579c45ce04b1196b3114f56389914b7f4a2d2b7f3cbc45317a10); (0xb75ee536636b223e726b69debb53ae0d7aa5fc33aa0921a422856abd7feeb3a576451d805fc35c19c2b135f1eee8dcc3c838059a6f5086d0, 0x1dde810916232c8b671c3d870654898d2c5b34518666fc252cdef20e20519b784fd4e49be278e88c8c4a592b4a84e6454195221db986e94a); (0x3b698a36755cdc7b8c7a977a6951726ac1bedc049869a990d94b5b4eb59edeb142e92a507d822e3bd6cbc1337136858f2630927b39cc70c1, 0xb6043f83ff7a3d70b485933009b2ce84db14dfe5e7f1d80ba9eba6c2e37a10b7b477e53dcfa9eb2f292f55d70e3aa2ea04c217db19d9b70e); (0xacf6cfa6c5da11a56d53645808b57486b2a42f23159d296d0b58c55dae9f0115c7072b8de4b9f7a9c1cba7767c53205624679870bf251662, 0x40c97b1ddca766c2080657f56fcc015d63e1a3f7fae46f7dbaa11089c2b8dea216e0419e22027a2619b9fe83e7bea27d617507b19162688e); (0x2eb05386de076a4216aae0212ef0548d7b3d5dd43af575021be2ced8a047f2e884e3cf44f447fd08f81196ac24a2c81441add3d3a1f2006, 0x5eafa9410ef2e142bcd3341142b5f9d9ecc1244b6bcbf994df4efd0d88ae26b728a071258bec5677bb17f4b7bf1454d452ebd6c22d44f19e); (0x8901ce49b47ff6c29b741fe71e8edd828ef4641095a32187b431acce5f7fa314ecf3628f9cafcc220f62e64ea0030d8fab382324a451f1, 0xdb22f1d6531388e949f8f89315d0be40686ec30aa9e340bac909f311f64ff99576c57b01f1673774bdad5c4d1bfeb36201761c6625d6844b); (0x256fa739addb72052eb79748d2d9d39442ced8364a2b257ee8a911959013b98168537139c4a7e152bdd01c087cb308e1689481132864af51, 0x940ac6d0cedfcfcc6a5ed935b3c6825d3b243f8465c576bdc34b2dbbd26b2694abfc2a6bb433eb7ba5108d39a17cb227469c70225040da11)];
  [(0xede0d9d824fc02a3ab44dc9c7e99a4641a398a876033ae0327d003f2e66565b8e74d5d702f2fcdda67259cc09adfb898217a03e76438dfd4, 0x685cabc8e619bace26e7ac810247551915234452a2e4e143cf0d2c4b47875705ee9d158dbb3a01b9871cce6d857834ac90392f4e7b4ad453); (0x583f4057e4f59f73f99e111e9c30eef9994d59e3abf22c73a35aa5d5735a525d198825908440fee786e5d27bc49ac9b99f6d42b14e6d186b, 0xa2b0ffe1ed592f0a3df0e86913eea22608a5d33fbf584af73cdbafba3528f70f87bca642f79aefa686e4347a4cad42cec7b147243612f3a3); (0x3bf5fa321716b57647d8be62400338e87f07cb03fe5de21867a7135f6869393a7d785e42c6794a80a9ddbe333e7d234dff6f676e8bd52735, 0x4bbec326674c4f6fca88708ff9be8d115e10db8f2a097e8bfedc98212c77fce1bae10778b36186d4ff68430e38f4b089b16223b1a6aee89f); (0xbe781a310bfe175ceee85f39210d6a17d5e7f4b0e5446a125df18d5db2f05e064e5af5fa370fedb33d2c190291477fbd821c7a701a073119, 0xff714f277c072ee2f64335987d28da3662110ac9468715965812ec112ab715b0fd019fccec52a11c5458c776684d64e1cfc8cebdb5aa67e1); (0x433b7ae4ca154fe2e1b9a1efe88efe70ccf4b7adb15239a7b2fe48f2646d251dce75db6ac769a0b4ab238b6c0f8b79b33e8203c8bdf4ff3e, 0x2f5d971587aaa43a99b1b0e3c7b3d898baef4e5ca426fb6d4d7003e635d1b27206261160846728b3080112b72c331906acd824ac3181b2ae); (0x91a5233b0aafb33762312b86441f43f7a3380650593ad5722b295e9c0579986c99bd3addb19450c8b944ff2284149568af735074033bfd18, 0x5a19f74298c34504471221ff6bb13d48f6e510ab4f2629e07f3849b8850eec0e8fe2d4bc19b32fc0859b1a7ec3945a5d0f55451392f9547b); (0xb799ad64385f3f01986c30d249c4e8e5a59f25522f1c85874ba1218a70a90dea5831f4b4b565ec33b9c18b4784368667ad835f62c9914616, 0x80957c9edd472ab23bd449b0eeb5d9c3e043919efb4bafbfcc8acff5d4affe33df7d0b8b580034743a90db1d42bbba56be6a4d300b3d5562); (0xda8632b2afda549866c4843bc034bd1f4809fbe16161b22cfc5f1fd19310ae66106d228a938bced1924453e7771a3ad3a84452d8895cba6d, 0x1a8f48c757e6070f1d0a0c59457255bd5208c72c4f012f047fbef0576ad7fd7d523f5dc12fef63bc45441ddd146c4ee1cae776fc121a3cac); (0xcb09ff93eff810efea1e4c73676d817d63b8deb177d2ed7fac33803830e210a88675ce14f3d9aca96f108ec7198c11f803bb35a9100fb2a7, 0x8568b160623fabb86448e2e911e07223dd060f9a2d73a08364c778d18c3cb0505ab5d8370237f3275a3d7199989e8cbe34d258e701b01a6c); (0xaed44995a8ce7125a99105221088c846029764a4aa3e3eb8fa259743da8211ffe43266680a6defe97fc8a5fe165a0497e20a262d81ad94a7, 0xba13968c6260a4bcdff2e0ad852485e5a55eb374ba23833fd6e8d275efc40b207cd3855330cdadaf24177a35e24fc958cac9013957789a9); (0x5bc2609eeda9840a91d0af4e60756c622e62277417cd2f268e2db67a22587be1d602d35601613ae232d6f2412c4eaad2e206b1f1ee5d26a1, 0x59ed1770382e46f2710bc4ac5ad0cfbeb4fea2314344ad1eaf58c4f6dc944fe2d4ee89ef163421b63d210f2e83886b4b4ff8bf87ce911d33); (0x3bb56538ccfe7d4068d05e3e1ce7d4d778434a3b0047a789ef2a1aeac2f15f4c493e902ab6ac3f7bb94fd877e059e477a092b120768321ef, 0xba5912434f01251b11520484f73770aa587ef9d046bd03d6de8e5cea3c02222587d0998f7723e8c55697b2a8f47a1a92c338ec53c5f97c3f)];
  [(0xbe73cf4e7c8f71323ddfca35998824bb0a1ac803f1fa821239758828cbd021bfb3317208b98cac81f30996799e8d70ffbb55c94a831993c6, 0xdf4496801607b72ae6fdddd52a6c0451a61717a2d69dd9cba374e4e54946d5b60c7c393938f9bdcfb305e9d50092980a8e578578c1bba2d6); (0x8e36c0ef23d84a48d25758058ae7729e1ea479eec086b484744fc49aea5d1d30d554c7b57a70ac4ecc8ee7743353978e578dc0c731b4682, 0xb6866177b89f094ba5f91069c7819107188113c489630475681e28dcc6fd0a1451fa3043274e931bee10c5cb9a9a00552cfe1d6972911b6d); (0xc502bf3f3170c301ecceda662929c6bd58c623e6d6b975bea7fbe8830e61b3c253ccb4825efeb5a709e4c10c657ccf75bfdd4ac0af71377d, 0xa50fa8b1505ab57d2b8a2eff5c2a99d94683dac6791b6bdcd07f63a4f0f0a1a6dba190432e8cba919778a20fd5fef5e3438fc230641015cb); (0xc0e2fd1cfdd6b9977fd5c857ef4a7e52d8020cc4078aae085bf60e2377fdd7bdc494229722d3cb9a2f6f550dfd5e0f82a5ad5e0417b8112c, 0x871ae4dec315e2e91a550e8e7b24a7f105692691c128f3cb5cc8d6a7bbe71a8bc23a7dd7b72449072710a17c9e1105fbc832a3ed34814d57); (0x7a853cdd7d38ec1e27d39fcaec1a910f023046a1a36ef01b5dbd3f1f0f5c8a1c2248e9fe85c90c263e2ad96e5ae6e32b30c1e672a8d11892, 0x1afc8fbfbbc4751102e424a3cc79a3d8c8f0f5f7c31933359559957c20492d99a31dc1c34cf0d910c0087146f18359bed55bd77ec1e2d277); (0x4dfee78d4b3a1a5107dd935e07ebe149025a03c62c212841e0d5eb3de6e9ddc410346dd7a333ab9476ed894ed718adadb10e1467b030766f, 0x4bb7edda07a7c97a464a7da3976d2c854b5fe1f7934f5fc32a3ca9a89c2e44cea61ee11a808e55f4e03887f916811bd270ad1e246419b7e4); (0x46ec1a498e4f1d78d68cd4137787133316c3b297781c08c105769b8623ed9d8dee1597fe423ee4fe78cf49e07f21c1ae7dead578f71dea7e, 0x73c30352799bb42b3b33da4f0122392c72033da4948ef41170e04e88aafd0b86dc10a5a59685028580fe2129a5a63c7f24f29adc162ed580); (0x46d3fe6a9cdafedaad09125cdb0441f3b0b9327ae51cdd79d553eb17e15ae0b99bbbac7379411e1af537e60ef70896045d049a931dcda195, 0x4e8df2e3eb6a3954654ee535e30ea8ae65a8c2c0293807cbac035fe69e508562c5eaca0ce7a31da917b082876cf2523931cb870f3e26b3b4); (0x7023e277290dcfbfd32054e42dd64708e20eea447a67dd6874654d0b79664466012a128b38619c602597d9fa6bf478e4466fd747cef6c215, 0x83db1e6cc02ebb4d7fe933b930776e4297b0c9c251898fa5ebfd415fc0730a3ad469e56b4dd423e9a207c66f4a2334f303847723729763bc); (0xc1270dd98dcb83c5c529d751a71bdabb6771b985e0884e555146d38c015f408ec33ac568af40462830ff43480c008ae57cdd6b49e68c67bf, 0xd7c46d708355ab274eebffff6f7fac84c5c621d8718040f493c347aa28a70a39817f48502167c7727d190b65183aefc2fde8682ab0bb359e); (0xeecc5cf247e4e766ce641179228537a8c6e3903e5088e78f3638a316b8c042c117c33e23454e0b86bd419d7a903162fe771267cf8e06955d, 0x3a8a92ceaba4eacf216ad6d8308bbc6a5001d43e7267b673c3eb8aba4452eb136bad7f13f11d0dd200df81c9c273a9a2a6c1385433f62b5f); (0x243f3626a9526e28ab2c9d7feab9f3d3d7fa8407c0e3fe49358a325f4d594b8e5cfafb01d68c83f6234571de6c36b3b6dcbea2d1d2ace963, 0x4fee29f918b3ac3835206f226d4412d3849ed9d27bd18ce7ce32dd66e64fe98a4e68dd32923af9ca25e5097553850a80578dd87432073f86)];
  [(0xab0f3deb0a95b8e1edf465123da92e129cfbda0a16d08d9dd2fb31b6165a566bb92e40d0e4114af3115a9c7694815afe338700e9a7bde389, 0x3d3632624ae86712f6394375171293af49c78afffc861f3e43bea3b2df4599e1a4a412304b9458a8158e7419a5c0ae5d5612f001499f7406); (0xb6a83d64535bac47595611cf949e7d8f7813a041f6c990115c882219c24a6e13d33b775f94e2130dd823a6716fee2bba04273460096b2c62, 0x86d1d5d28ecf795f20fdffd944fd3e3f214ff802030d7ce2fa18d27c23a6d14dde510b1f9a39d40109c0d296269d1cc250396fb9013628e2); (0x700a8929f58c544c569466c6dee1045acbfb9a2c285e604fed49b36992f8f3f12dd844ce3785ccdc1609072716e105348df87bbf853f5e2b, 0x8c0618a910bb96e67ab0db58dd7c6bbc68235c397619fbe627c37777f0e0b42f8974c3b6e059f8b2218dee3b2c75e219cd1a00f63e9a085c); (0xf092b9ece24c450cfa65eb61548968b54d2a616033cf844dec36a463370f1c11efc564fd1fdbe635902fc5f8966d37a5024a847db943c7ed, 0xd4bea93d8fbe5979bc1d1e60494f56e19187d75feeb97841de4f5dcac0c7d3203341eaf63a5a8662a8c16910c9684f5a47275cb042cf883d); (0x86dc8c0f1fb2ef7ec5bf61c53d877c07964ca90d1f27886ac51c6a75062a9aa592bda90fba9fb09aa2238e4b2157c425b445b3a6bd9185fe, 0x352c37a87970af626c061db39fc41b5527ad89c791120606c3f179d09970cd6d03e2ceb3f64423cf072e763d363c795f5a38039487d9ad89); (0x23f88df1f3355e46240bd6e223395b6793b5aaafa231765923b9670b56364cfb7b0d8fc31d82983ddcef7d0985ded200b9e9e988d9b84794, 0x2ea0cc0e5603cad1eaa1683896c17d7d6e02b3d7664c0640400aa7777f00c234c3a4f91bc48e9fa9352b439aca17b5880b9768d447a97547); (0xfaa78b6bc8894eb60ab4c26b7c22e83c8c36a479ad6cf9a5048c6c990ce2d10ff4f3a1f2ef03f05a2cda9d82ed588759e2c29934720b3dc2, 0x66705c6d8770369c2994a1edaa4a38599ebdf51362c0bfcf507953ad2464d2b225dc7f79f2c3cd4ca57e692c91100762929192452774bb0); (0xbfaccbf17dc71c1e8bd88bf4bf52d7783f7f7dd532dde06834849de9ab5b48eff0b28f03a77bc2ee196239d40a683c15470e3687c25015bf, 0x4da81fae4a2697ec989f72274a29af3f80094da4d0efdec611d46fa0faa3937e7bdc0ac7ea15832f9f60d790f60be7f1c79297df55843386); (0xf6c71a5ff207ef72098c2c9c5a125d3d655d46eed7942ec21f2369bc68fbba75ab01d07864fac86e80b97b10d7b3466c6a6c7dfe8c82331, 0x866af180d6abcc6ec609a5df59e3a64b5506f62381525bc9f7cc348ce24668daa589b5ada3ccb6eb2d4ea93ee264abaab8bc29101769c7a7); (0xdcfaa936bd38c467b67e5110bb5f1dc5e28ed0e75c3063bd08d4a57b5752d17f173ad6a4b4c42fedf2fad71ec3b030cd299c327212cbd90b, 0x10afed7736369437484ea891560a5fdee0314d12fe119778712ef3ac048654524a29112da3914099791342d8d59242dba5ff7b09fca57735); (0x604d7ff519bc056867f47babb67ab32e6c02dfed75d33f4a89010580496d6bb83da9963300aeb3135601c6d91c0f0974080951e63da8970f, 0x1893ecfae055ff16418fac4677563716113afc0a507a734b71daaca1fca173b34382e1b55ed104659a23ea95759ed5f3ba77c8a2abf0f512); (0x511133fc815262adc9db55e52b552bc14f7654bd8eb2697c2a301057ea77dcaa9fa31aea8517c3f96afe3b71eacc082056051cf8a325b09e, 0xcc0f9ef88faf67ac7dad85ea418702742030d288197f29424a66011b65dbc37e0dab96018a663d2e4c63e726b00752d743e85c1b3d438745)];
  [(0xa785e8684445f5b267fc16c38f1f57365e7d0c44f2b5618a1c7eba06d469b4f18e361438a64834fb9c6e7aafde6204268c3d7980dad2b4fa, 0xdefc332a9477169e6426b8b424dc08d0435c278874aabc80faba9569f0e58fe68296ddaeb7b449381400b597510366a1032974cdd19f84dc); (0x5964006dee1bd66eb4ce5e26450408eb4eed10d6e8ea5fffc021b1d8d5c53024ea0bf8ad16adc4c5957b258fccf18af75471760d652c4ab7, 0x34f44032fccb8a02ea4f87cd903a924756b3451f8500d585db52c292724a8dca955eceac81e3463f15674a7e170f2da5321d4fc6255c5162); (0xf7d42edc847fe9d3335afd3e47cc560878df1f200e5f4d563376d770d416f508c22b15a30b521c2ed9229c7fd20adb06af9ce73711f4534, 0x3a842b14b84af45c1775305b8daa6a25e9fc06b9bdcb34ac77828f148671d13d9d595a05c864f23909d353da63d76f5b0f0699f02492ac13); (0x5789a3cdfdeb384bd623a35ab9604e253c238c54f683853e191ea92d95dc373312f8ff27430c71fc40ca733c15fef33a00784b7d2c9c7c97, 0x52113363cb280e6b743c35456bca653395adda6d9db4574182ee41ba9171fc22fa81b7dc8d1c5c4760682ddc3e77615772f898505fb1ecc4); (0xfaa30c5595098b881f222761cea4a84ec5dd788de64059e697671e85f27eeb317db93a86301b15e1b072182ddbef1f72e870e1871a27dded, 0xf6ba9fa0a39168b2a36a387d5918bfc9686dc54752961d078baa52983addebebeff8e5c4d0c6d91e31dbc7f0bbb1efc797788e7a5bbf15b8); (0x7d7ec39c880adfe86cd756ce8f4383f93c5c7df59ee1a8c82586ef2fcc028e4c0d7153b5d861814669ae4282c744bedc6255d9fe39321307, 0xf2b690e40d3b4df8575868d496fbaa0a5b8138ab04faddbfb7808aa03cdb7017a6497452237e5766bd44c9503a5b95c897dc83c822b1a787); (0xd576fe2cbf35d9c924e0e8fc63a08c57e85e8c0000ab2a73b9d05c286914beef80d4a3e426fdc78c50fa582cf69f7e3dc8e264d53e82d4e5, 0xa5f230cd7e5b4c1adb66613fa7de62929205a83d159a3c745bf9c2179ae36dbc9d62a8f55f6710892321fb6a2d07116041968c2627b1f935); (0xb2ce3bde941baeedbe9d907e081a5aab0df035be63f32ac74f8165158ec9d86022e9e691ad3bd9e7a543ee8174b64eeb7d305cc6881da41c, 0xbe3cfcaf9693ebf3340ae2e2e7acc5025e6e1f93c712e97c8f76b93b48493886a39985e5de169950f0ae2dc6dfb4a3e2e23a56b8a43d80f8); (0xfc6643fe6ee48f097f75452abe1f79b40db7105c4105967f20616b93553ce8f108817493f118825ace34501c13b97582b293bce0797ad5fa, 0xbca6c76e53b55002663c58b710d413a5cb2556c54827a6035affc94679872a227fb836de02756599802eeec11101d6689eecf518f9073e9); (0x17daee4660c1920d4fe3f09eb6149880d3f7e01f997ce067954dd53359c93be088e5f0d5317d2fc8d1078822f77b6b63866dd4bfd456a354, 0xb6acc64c45727a92dc1c2b6138f414859bbca7d69fbb07dcde180d055f3d78b35d5235067cae3e6f438cfa41deeeac04dd06e27885540fb0); (0x89a57c7102a81be821a0eccf8bee776c14928dd0b5000672d1b307b552c6cb43c7247ee39d49933bc0b76b9c89bd3f31aac3fab422eef396, 0xf023278760f09f9cefb9c8e067fc33f4beca3bfa722b3207985ec6bf821edf219592d760af6f325df837117d6b6fd2e84917c095e5022030); (0x5149c1e622b13dfd1975d22cc409683c88691b813b87c4165c7c3ac7f6af7cf10712ef889ad781e8737e0a41bf79f094f0bfb034291b7cd8, 0xc6e09e23ce02c2628311ca9b4f53c29ec88b3f8e9dc52fff6391027d7cb5974633fc2266f96d199421908b527ad46feca9f844dae1153a71)];
  [(0x6f8784dacae31c1b58ccccab34745f87b24fe44d38d4fc005acebe6341cf35a5fe9323d916f1ac0f2789e04187eb969856b9563a590b1034, 0xdcd7d2693e39e54e764ab452fde40e97bf1d01b729751f4672308dce50476aecb4f1179310691ad66a097d5de176cfa2fffa2d9b99f0e469); (0x1000aa5658d3a4b7794cd095c5739a1c28e8557de7138f0a558ae422fab26eec357be661ad10d50e84dffadf3281c8732b66de345381ac30, 0x3439d23af9da29119cb3bd3300a2ec50cd43ad6c98af63964c21122b362c955e471cbb40bcfa5b6cfae51efde897a5ea447baafade3e14e9); (0x4f9f24ae6b4b7f5b874dc640866a44a9b03e5f62271fff38b5e90e7f6a78a6561b5560741397e92de866a6594a821f2d1655bb571b8cdfe2, 0x85c1eb6c3fad02749141fbeed64628325ac4af5cc32ca79deadf15dc2ae16bafc57c6c00039c7f4282bc27c03cbfc0c33def6868c85e7c66); (0x2e99754f45df066353e8757abfa821ad783702dcb5e7b4fe5b5c13ea28cd305fa11e65a8ed91164487c01d076d6c1aa0a71980f3dc8d534e, 0x4c4cc4eafc9b3c4383a8180e0761701608a11f8499176d9d2acce1b7e01f38707cd86831d76e284d6521a92cc997d68e6fbf9abc30a1d52f); (0x3879311dc52a411a63676ea1bd84c339226b921b97f81b92c4534ada8d5b6805ec9754a3eb2cdf79a50c21cd5b3acb565da40ce36dc4cdd3, 0xa1077ba3f8d94e373e9ee3f83757957412ed8cdaa04fa8b5bdd91f89e3caaa6ebe79a7d8df7a93b037ac8b882d03bbec6fc479fd5c9da30f); (0x94c725d53d5872b47c8cd4f7fc07b01f67422c26d0f3be39269b3cf09c30043e4d5a956a84e54b832643a193cfdb8cc9b1e31b24af93c851, 0x5532dc12f001e3ef3810aa314ce85e20360e1fbb86d5dfcd497409921f7ac7a87a9a0941edc403794573dbbd481981540e98bbd8352caae0); (0x874db168ce2f8e46336e38c4e2ec0fafdab39d924e5c2bbcaee90edc2b1aa6dcb939d6adc46d13efdd90f35403de3924057118475575507c, 0x8fa5f2bf184c99f859ae1156066bbab5a4e932433a53491e31603cf93c3ed4226b2ed36ebe15fa1a765ed0895bb1e52d3042de705195df2f); (0xe5658470c935eecfa4ad0ac0f3650111551b912ad4237f65fabd876af6c8cfa107e91ee655cac4edaa2aade5dfad371621aef7b9de7b0354, 0xa3da9617bab3b171873fa3b258fcf33e5fde2b4dfcfb70ae5e251b22cb99aab05ebd40b8e1c15d111260f2d61ea1f2d7d73fc2d30d39e04); (0x42db35f290da054bbf94e883c8b267a0791fc980d99ba3c8e6b5f7f31e5f45fae408e374e62cb40febcab9eb76e4fdcf1768568dc48d2d0f, 0x9b3d08256c95e08e10d61da27593eecb0c26f2524fa7c8309182c714926b4859e974b766298b89915395ed851053f36484d5c704653281e3); (0xb429aa89ec81da6130e5450a1789832db2193cf7461d239ff634283064a770ae0eead685624a8930e09b61fc8c454fc5752192af5b420f6e, 0xfe00051f51b67dca84342346602a7ed891a1a089139c016afe6d21046dd7ec1ec8d717fac75e0e02346788a3a36f949705406ef48b16e54e); (0xbeb3e1254c91b35f9ed1100dff2cf54a6627dc51eed23208c649e5bb0ee777f7575da844c2237309be3185ff07707952091326f4e960f9b2, 0x5f3bdf2d2bfe55dc46a7fd6ff74a065aaa2f3f26a0ea311ad43cbf1dc64b2aa372c94f24352610f991187a6e8db3d9fa78e21a89d9947160); (0x8a6a4bd5a7e06b85d60f105eabdfb6b0ead8063c5a079c316950ddf4a6a733816064ab0488e9b6cb155ace2d9782031a5d305415426cf6f3, 0x945593ec68f5ee6ae5ece8ba51c8d1a0738879c79abf6c6fba48f504d3a4f6ba926c781d40d3be7a9454842ae7a255caac1b92d30955ada4)];
  [(0x39fb4627ea16d8db09dadcceec6f6cabdb9b28ecb6ab4a25cd6ced817294bc964a97a99cf665aa5551984204b8890ec1b92d7bb225dd5f84, 0x5cae5fd5676a984745c1fd457cd13e67e0ab475563ba69f46e7341d9d3c5804024e2a5e759ee6b9c0057fd498e031a7e860fd5348280682f); (0x2dc8f72661fb1aad29c5cdfc9eb8164f90bf36fb6bc691d527a09c43e49724181b81da5e7f4130d49433605f5cd980746f55a8d9d96242d, 0xbabfa6e9a129a040d38105d7a372f121c2fc7fd62dcc4a33411a290d98dccdb7d16c20cf7aca341e86f2753a35546dad417d612d9f65a680); (0x865d727c1184cb1b0f51d3c0a40549e35c7cadffeace96e4b4722c62ec02ee54e77602132db174c446389f3336c2e65b601f7ec8faabe8b6, 0x9782e80a8fe2c9fcc827ebf5b47f030288c71a005b800b80b42dd196719f3ee898a4845f4bcb4afc1b3d50980fdbabd71c9a89a66ff95a30); (0x4dfd7ec02165d440a356790225e747553d7c1eb422a7898d87c45a87d9a3739961b71eabbf88aa16d6ab8f685e7d82d7ac1799477e8deae4, 0x13452921cb5e9924f59d231a49609b4e399a55fe3a1a83fac92bf88964661194e6a2d8cb79cb67fc4feef7b0b2ee57d39626caf30c577292); (0xb6e76cbcdc5c2e48ad557f97e3867657dc1725c4c479096e74122884f7f2be049ecc544d89a1c709451626641aef9e5fb50ddd63661fefe2, 0x23c161350f8a877962787128a7a480476abed2829eadd649d77bdf21bb485f550bc34a6de8f3f775922c70f7215d7e4dbca8f454b7be46ae); (0xaaaf7705853522b8c5cb84bfec524d13e49b58f7658c7dbcccf73fdf90e5d2476ee065d55e1aaeb352c5f0d2e42b118cfc1c0c7ac5f201db, 0x6ff607621adb70c6ccfcb1b917693e1dbe9d369c4f6e20aff03a02403a587a392123513e657edbc087b74123888c33f5704f9899ca66c1a5); (0xaee6d0aaf08daf3d5091c7d3ea3a6a32153ecd6d0db55166fed33067dca41acec9753d670e704deffc2fca7e31b36d6b5b1909a5567289b9, 0x40ce77bd2fc7a7db27518bd7dc87e4c62e0024446c0f8db945c3ea2240ba1ea1db73fd96faa2410c9ff1bae01e9757c31186bc7308130788); (0xb2a1a29549d2844c1320b2040788df1b76e6ecbcb830fee5b9d40b79a577e88ad9733c3081f8b07007ad1b21921fdc8ec8d34f5ff6c8585a, 0x1f2adc6de636422a395526bf3cbfd66a36931a16aec4fd7941601dea1c6a502d47d124a7d930fa9ddc7f01fcc0c32f4ea0c2d70f11fc409c); (0x140ebc1d2040c8ec304a7d38d1420b8cba0a0844ba6606adbc9ab1c776088f5d512c173014e5138194293bc035fdd9cdded10f9d9ca6ca4, 0xc226fadb3694b74214cea96574be3edb5b1ef1004c75c0d1a1d072e307a000412084b4d4863b400c5d5da2614ede5f2a4d8019c7f6406d7d); (0x29575c6670e7d32c464abd094c9fdcbd63fe4315e564cbf43545029e9ed4e482e9eb18ca896c6681d5ce634e20cadea40922b50408097a4a, 0x715aa94f8a8018169580f5d27d783d00e1eeafe6f8a408ef7bc1bbdd4b8192cc06eb4137e7ee2a8e1819c1f325b08035215811de143c2e5c); (0x49e7df78ecf69f9b28b28ae50f77e202fa732abc7fe9db27e09fad1516fcf4c0f0c73973945d542693d891b9232a7ef93960c64faf56433, 0x194b634768328a26040c7a93daa6c84923768b6df8fc3dec7d59fed15bb2f07b4066257836f52a6b115821a46e681a9c55c170ede28f3969); (0x66f054322be7329ac8a8e13f1a15def727f76051ebb9485b24fea44b09f7f633eec2423f51238600e6575fdc7e580a415e8b2bfa0af383e3, 0x40e1e28752dfb2fbb4be0720c2d79818ff285f0d46a5e2841e9cbee91fac1248a9adfc1c1a0448db191d221722bb0b54bbfb8564e0bdc4bc)];
  [(0x92e917f43d14975d4f64c247a2f123a4f5639463f8ea63b7a9474f9544623b4937c9ebdedd2277df9422834b5297b5849b5e13a99646a2a1, 0x983396c23fceeb23bca9d44fc552f80a48289847c0a270d88d2740a262d8d323c99d93cdddb92cf1c5b7fc8da7475fcde8f749c4832ced8a); (0xa8fa1845585882b199d84e461f0b116d3a1fd0d1c14ed40bff1ea92083ea28715a42e183f871380bc599c8a59f4cc62557b7f7a23dbad487, 0xfd1c857ea40b7373ba4fce17c63a5493ccbfeeec94f66b28117b8b313901231bd9aa14b2b8d8bfecc68dd2ee983bfdb5e6d516271f63b664); (0x1aaaf72e2466c8c80be9f400cb6a3a42c921b716df362fb2688f4e938f7501ab91fa532e30425c3ec12b6541afa48e8c869fd28ca3fefaa4, 0x92adf8c20b1cbb607294fea86b60211bb3903d334e801308d5d139b7cb40405f0209ed1733de36c808a081bd5bf3754c4c833805777ecf19); (0xb4defd4fb79169119a9e4269781e88d83a5db3fcca9035a0d3df5c4cbb85c53aec45d20cb624f782700e3295da496c30cd6a8d44944e96e7, 0xd7c63cd7c034b86e53e120f5bead6fdf96db6dbf74739ab575327a2d7896d8036dde5d7b1119b39db611bb937d42c130f4ea2c2a8048587d); (0xd4861ed1b5d6a1a8edcfa4a35c1099f6c0e93427861c399dabd4fd281a367e7ed0d518bdb2993713cc0f8cb447d27033e868379e8b334c89, 0x4539e9d14690994bdfa306328191b20ab1dfb86104612e6d3c16a80bfd0c2510d8a27b6ac0f8672ca19b7cb4b63c3f52cf447c236985cc05); (0x4079e7fc08f0a2eb0e26374214094f7f46669b13c704e1cf18a561850e07664a36ff54358d3eea83235d33b01ca4ce415b10c6fde62d40d2, 0x6209b828b07635f657a8692d47e8828b0aa9468811f16c4d091498c46df14e4c7f5fe803c40ce9d183698c1d1cf17b9f2c911c01e33ee9ab); (0x46de62e61d7611b7820f48af2133b22359c96fb1b6e2a3f730744c136ef274c929646b49319e4609f8fe1c49a5576fcc1188916f30696af2, 0x12d1d9a80858c94ea6453462645e48016e184bcee19ba1b1e81e7ea35115c6e6454550376f581c499c7b4602ebb93f38204a202793bd3c49); (0x454e4d8e3f81567d031c2a40b0bbaa347b738065303abcef129706351fa5e35acd01418c23e31c5af58baa6b8528495da11a35c1233815ec, 0x9543d7d9afd575f068450cfe0597b3361fb56c7bb761a1779d38dfeddb46b8c7d6e3e9540b9709159365a8957f95ce84eda29b7f96a020ee); (0xbfe0f670e337231ce3aadddc132312554d77a4e8b9f02cb7c488382e3dba49d87495bbb98eda3b79a83bd1246a874bb80ac4c8cda2ffc28b, 0x699e908344b3b4fd4980ea5b107651d73509c6061fcdd079370038ffbbafc2cbf9b22c19a53a04c4ff6bb084f5ef4223a50df9cf8edcaff7); (0x99dff8df81e705543831a5477da57d7e251c8fc9bb293fc3f6bbcbc04258ac8d5091ceef70bb75f02bce972c9908a59690276233ea83268, 0x11a6038d4fbe386d85d0b9f49fd10e3f1ebf82624dbd185766cc5ad0a090fb094ab2afb4c947a512a764d6dfc31204292220943940469c4d); (0xf12cb00b3a23b56d78f30ad029467895624de5e86ff355aaa52df19200e2b3dc1435c67066c63494b4f5f4c2f29dc58f1efd96e3a45bcd63, 0x2ccd4a9d6f275775ac31d753551205e43683bb9cb368426db25b2c046bca486920a26550e1af51e067f0342d9c3e552cdcbf8520beaa79d3); (0x769905fc7b0f09e1c866cdf9aef6b541f6a687beee528b552d0f95b94eb3b50fc9c6d38b8be12e0b380063d903343687d722777405014073, 0x6bc479b0de83ffab7155d6f346078d435ef69a2bb46bb2db467ed623c2d481a6a474396c76d326006f56df46b89eeada391c11f2c69154fc)];
  [(0x7435031fdb2b0a2711214ee9228c392acb729caa8e23b850877e61a682e1e9ff084e50d2faf5239c09878272faac6ec6d5de67a36444ed64, 0x612667411bd669312f72216d85b425693b46828e089c49101cef24dec7b2ded265b2fe1e4aba3f9314439a95ddde2ccf8095bf5ebcfe0893); (0x5f739a4801d5b121b366dec6701c76fbfcc4348cfef3db0b8596cef255d2d4ba27b48d7e313c9491ee7268d42c4c9a722158af44c1c078aa, 0xee1c2460da77bf2530cb2a7670f33271d4db9ccfa9b509ea643697b2a2f2559144f8ef05a32433d9169d4fc3e3aabf4ec9d465c396eef18a); (0x75c24ee5d5717fbcb3f30a5924f326b57d0136edf826f74f5034cfc495c7b72dd613ef6efc2c8a8cf982d6e94292d55e63d5d6c3591bc939, 0x21c7eebb976e438027aa4b01a2db9a6c953510a1adf857c1bdf1cca049e51dd1595d1871462563992aabc396c3eabe03e6a43f072aa1323b); (0xed279938daebc0779851ba7fa51d636828689803814034b571efba572b317f030bcd7d4e9e7ebd3ffd0a9bcb850f3a1ad7b56034a9831925, 0x813fe0c753f35433c29142e4bd2f0ed4587c3690ed9cf2044fba51b2be50cb475721f8c9107ebab35034bcc8a825033a1052d353eefd6b6e); (0x80b4c24ed84338fa54416ef4c12082e0bf1facd69d094dd2ab6cf992fad1db3f75a5f553ee29de4f4f869ea0962db23effcec48d519a7b4d, 0xefc0475c82e0a885797ddc80209be2d0f4789470be4ac14759f2079e20a730218d6f59fd53d1478f6e399a275665d22e5ebd917015638059); (0x8521b7d6a1bd45bd2291313e462ce6d11cea361835bd5df349b54cc4ce6d60c14b11b75e8a8c1b09c1d7c2366028d8c98fbe51fe7e54d3d2, 0x88de37352257d6a9b335356004e37b941a6f800dcfceef85424a50d5f9549d103115ae071c04a516c8e797fed84b5cc6408d4cb8c4a0e35c); (0x7c17759fabd71ff10d0c1b2f4c27049b486658874bf8dae62012bef01d5f27c6d16329d66c501004797f0b5c3119bfc3f9a629b81f4cd33a, 0x299793f4459f2d59c84b0eb4064029e5e4c310d5973cc563a832ccdddd525032c2871076740727f816346c1c65354603a372077ab5c43e47); (0x3b0b93c630797f681e6f25018bed0e64859e39df8b37dd87e54a4a9efcb083d228c163a715926ffa2b657502ec1778de8b3666085f3de3bb, 0x7fa254231402eb7ae9b11184462838435d11e9b41b4d86328b8b8a23cc399987ad23daa81bcd189d11414092c4a0eead6f19661e2487aae4); (0x9083129748179c0167bd7e75cba5be34fb3407e44bd4f845a3d4fe697588d8199a3ecd666d9a8331e56a5538ef76e70baba086e609941f23, 0xa98ff4984aa701318e09b4ceee02b5d975847ad9f02610580f89ce4a43fecbfccca7dc6fd8600918ebb43fd09564e3a28c41acb897339edd); (0xfdc4fe0f13796fd00801b0eab7af58740a1642c3f7e2421aa4fb3047fcadedec68d53a8c225248006d9c37124b200aa901bf89928eff9ba7, 0x339d9f5b9acd76cdb3da47703e20efc70229749a0bea4b8df98ac262617ec25ee1700fd737300942cbb03a6646f65ca379015a426940724a); (0x3e05c45b74c6aac63aa80d2fb227ff870f1a49d906252db76da22695ee76149033c83135bd1ebc78a6aa956962adb69dfe8657a072eaab79, 0x267972762d66e4ab86b5dee2e6a72e46675e0834e530ec09968a98811720d1a65d9466b22eabc2e433459227ac7b10d1d480eb28a6eaf71); (0xd82af523d011b345c85e7a5211bfec86822523e15b9a041951ee8ad2201b396f15af6447bdbcc8a5741312c1b4364dc2420c754629046663, 0x781b1b7c4fd28e8ae0eadc7aba53d526cc84e34e0b027899d7a6ef2e846e4907fc73c5d4055f1f06ea50db60e30337e965e43a41cbb0ae84)];
  [(0x4918ca58b31de111d953054b21dfaebf41c81e84ac34b77d4bc5f08558c061394f3a17ad722087e5fad904db64f988a89f4e6e768b2c2c8a, 0xed5a8aca09799ccd7531598f7f8b1f5ec9b62631df6e6a4f879aa854c2be168ae311546e07052aec1c612c3d5f8dfe78580bfee750270d01); (0x9e7df1bc12688d1975024f2c79b15e301e93198860327c0b1cafce5fb2ea2b36c206742402b9bc45d5cdc89a467efffb0a12f7257909c75f, 0xdccb7ef35a74af90e715c5a5a9773971c6ae50ec1c3a4c717e406c03d18d908d709b927f5c5e1b16a8b54576ec06a4c4e0ace49b2592321e); (0x426fdddaaaf78135179a3cc4dd749c728f02ef19b99f23193507d5375ab7505fe34c2afe0c654e64084d6aad2b0ced29e1db5bd1ed3fe832, 0x8ce37be9fb548ed92aecc735e278e63f7c6a68adb33f9f12f235eff92e1860982cc6a9354c4c083fd5b0762e433eb689bb4598b5c06e86db); (0xc327ec429b0aa4fe4b33492cb52583c6add10328b2db50da3bdc42120e3889bca71571e1cbdb5ac223e47cd10153f27b38429777250cfb2, 0x99de8495e376313f6ca8f73dfecc210c4dc9a583b121e62331915e6f80aa45973ded4c548ca71a03f08227b2a9154a341ed674c9d1000c8c); (0xc127e36b81f0f124aa03f3cc02457a89d2f1c723abb585618d3559942320bf99689b5d0fd9c2e1737864b76d32307c0a62a59b3ef6b50445, 0x6f07bc1b02f573f89ac3994f6732e37702667b00e58b55d6401ccffdede6af0c9bc20557320e5fc92b36b6bfbe6beb22ea87949324fb5df2); (0x42042d5b170ab6c496e28a3ec41c4e272b1c6039285c185ff26bde247a20a7ab09f393523bd8995a487c1bb0b626b2cc0dca9686de62a980, 0xabd096b98498e42c3516a5d8fb0272fa3bdca4b9a3b4c1d61d7d913cccd93bd682c90442daaee3d1b7fc67bbb2534c2eeee5752846fbb5be); (0x25d76431c49703b425b118bdd4b9721ae8025a94cf7a65166a3fb0f6294e6917a4fc50cbf49669f763492de2790d3d9f4ff187beafe75b26, 0x2ae33427582f32ebc51c2570d22f3d509e4e5a5f0b94b700272aefd530aaf77e4449a3f814647910f0bbc41b3261c2b7294cabda3f0bdafa); (0x3466868a7b8425bc7773ba808ab4e092dce17bf8a49695c0ed7951b47acf757274a5fb9872ad81614f0d0cad563616a4a023916a7f3f04e7, 0xa329c5e3aebbe5f10488fcce7f174619f2ce3302110fdf7c8beac00bfe9e9c2c262545daa8808a4015f1bb0bec874d4145100b9e26a5e59d); (0xcc4538c4e7fcf5dea7d62238a31b00fed32c24e64023410f1966f6b2badf46ca291c92da93a59140dd931337dd58d87a23dfce6d20de293a, 0xfd3f4dcb53903940977bf1ec3a20867ad46b993f000d2a65fdb255d81942ffc6ae66e7b912ef11748cc662c529ca727b03d80b5b42adea07); (0xa7aa06c06b67f7b8dffc60ed8125071d5bfc39aa548e38bdc0a962000f6adc9af2ac15e63283e280668daeb541b88f2b8e90de952640d26b, 0xffb1c68adffe939d2ccb434ab66f125d9a5e0d6057a7239936f460c638d1ce26c3cabaccfc57815ac95a1e75bccb277350942ff458324717); (0x461e60ee97c339167c0c4732b2387b69b5303a295f7bdbd46f30ceb5c326ff45035068abfd351b8912daa9fc0cab253e9b8756d3feaf450, 0x1d7ad47242785beda717d4a1521f28babd7e439b8e57ee2539ec4e69fbb760fbdb1a759e6d1e39369776f324b95ac80a148031ba5632a45a); (0x97982f987dca234ddfc1ef64c3e3a3f00d2f1c08b0a21292b90fcf3a507f3fce14fc2e210896979d81bc6b55c00094bbac9199e8368c03d9, 0x415616453714b8803b5d6c65e945c1467746b9b80b88f67e4f215cc2cb108e1ad711aea95018e90135931fb13b69059395f6dde89d72f907)];
  [(0xc0d093bd220dda692bc58257af88abce19f69aa8b032b6bf7a0b5fa296fb5ed9e2fa36abb201fe60014394e7780e013b08038b34c526c943, 0x559aa2753f808225b6484c8c212dc5e419ce371e0b9c15ede5304a5048fe06db7b20e3d6673b3d230f83d95336417ebce1864a650d3e4567); (0x4ffb46549a8f921274bba7077d13bbae297bfa908c337710f9957a8327a57a6453f4cfb43dd884f5c603e0e6cf060a01d60badc1144ec2b5, 0x6fc17b6f47d659ddc67931d7f34a5460869374f082f8a9cee0816ab49e2a856c277939e72c8822cf70cf8723c4a77c5ab986b324adfd67f0); (0x3ba0f63aa5332ba6b9c5a0faaded199c3f21f109fd36f9b2b3d5009ccae71d6798a445ae8a755fdf2c233528eaa030a9bac6109bdcd93ca0, 0x8f9da4f063e34bc65ba2447ab5bd1f5957e6cfc9d15ce8046996db4eaf58e9b7fb971f271d7c66015b6f9df4a4bc5ec2f560a2a10e415805); (0x975734994bd3b103284936161c46143527aa1744ca961ca1e74d633e4cc4878abb8b221d683088ff7a4f8955b1a43247aee25234141d566a, 0xbefa2fb871950748a1f50d5061b4da23b1f7e8e0ba0dd95706756e6253b01bf5e27cbb5038ac9d20ae88b9f21a2016551896a5a9e474846b); (0x1d47eab2dcadbff69038fdc6b06f0fdbabbb51eaf4b96df9f3dee1a993b9b7b3dd15cc7160e10dff3c2d63d8fbadef157da199b8b3ece6a1, 0x6db7904d8730b2de90862539cc1fc2f958c4d3dae92b4b1c0cd4010799a31addcef7788ab454ec0d347fd8f33620dd9bf990c19459c37c89); (0xca581e4854cc4f350ea5740cf572e1edfc9efd997475d2850cf39b0247e9db360c6d5c4cd8fc9bfb93afab2b551360f1f07a95c10184089f, 0x8fbed2328c27cf7f47c7071e0fa99193bd3dbf50ed312c13a819cc103a5da784c19d2f4e8ffabaecc4bdc1c28c44a8f6218571a46c449953); (0x4673da4f0d956dd8246fff9a13cb669e35985b0af45a66250c1e406f644664c9470c4c36abd85af521dedb53682a7240ab18ff4003a4a2b9, 0x39e905a1b3af54453bae1b25fc5d09f8416e1220fce948df28e26879ae39e3cff867bb1410959df0e2ecaa9ce71a54310fcd0f4683a61011); (0x3e3043453ae9dd35cc5b29efeed63ff4bbaf8a1aac7e6c1eca43ecfb313c60e534f90a76f72568411f45e74e9fa5aa290c0222f88afa1e4b, 0x6312708d2387d0f15e1aa00f4ff325bbd7e74aa6cd030bb638ff4b21a9d9fdb3c31057ed997f674b24607661ff47f43245c9f7a28f2a0d1f); (0x23ec4ab39577e9046aa13f7126307be65364fe0bbc3e6adc2b0a36caf3c0ff79b480cbfa82d18f88e25499058dcbffc46c9ef998e4fb03af, 0x15ed9de7284bfe6239e6a053a9d1463e1d46e8b198180b6083bc59f1f986f55052f2178965318c860ea15d8f75bd07d216987323bd8e5525); (0x47d1f9578a924efff03480aac7ef8d12b1cf3388bf08705355c9adf26c03b574ab1325ac3e86cb331adf901c5ef4af0274ced229ce22e41e, 0x2fe5f53747986f839399f8fa0b8a1d0d9f13577450f48be1aeace3fb56d85bf97ad13589b48d676c482471a4f6eb73c30b8bf4119b256a30); (0x7a15cb94109cccd1b950c6eacc14233ecedc3bbbe8c31ea2ec8c866be0008376bb8c818f8ec042a71591f22f6f48c9caa45ba7fc07e51b82, 0xe255d3274c040fa985ca95619a359819564e135eab251ce65d9d41709ccd4e81b86e42a0662f95ac33050cf75ca4263c8d12c229b8d041b9); (0x87059e5d4e4d99aa887449b159a3c006b65d018175e0d9ae279c778a2064b721d8841a2ce11cd6147b64206a979cb9a62a4685595e0b2787, 0xd489f82df2e5177aca5536adb470768894a1352980828077cf66d86eb7d18a0cc1528cefec0a82618028700fe66c7a7dd41aad51fbe1563b)];
  [(0x80185b9ef7780e172ce0f34a0702920fffcac25e890a0414503781ed8e1e81b6d484de556f8b8218ca5ec7cb14a99b22372a7915fc632e0, 0xe3b74dbea59638267f16a179c003d0c4bc9d602da9349c2c78a465e6bedbc929ce6a33c85507db1f4e31cbf7f0efd0a9385a55e07742487c); (0x2961c899ea8cb9268bdc1c27f306aecc4887e0e6f6345545c6fd298ce6c57646ac2a79c6588c67c657a34d2dc2b860e205a7997dd801ce84, 0x529fa5c132e3ff26e2dc00282b120262225478fd7763cf2326f88b15b25ad24574b45de45ea4b63a0f80c4158adc4a2a51e61804d194bfa0); (0x8696f72e91b7dfac973431850ad8e02cc3a379c9234662edeea018b8394f929d3530a3bd276793e289bd75868818440c0e6caecdcbac32f9, 0xedaffc7332c2d007e3c84875d9c184eec292466c2bbea93640059474bd79ae053f67172366e744be5964e273100067f5dc9670723831aac0); (0xed1b3022c47b399e9776ebf87a36a1c1f4fb18b35972f2d3245aee16471ec0cf4fde8f699d1f4110af086c97b24f127f4b322b7090dbae31, 0x195e9f15d233c38893f750b5f5aba286dde47a136cca9408beea66f562478cc8d9417730ad08ef81c5c3abb8245794b17dbe46f7d84447cd); (0x3c13cbdf044e9cb5ef5b2fa4462d8d77ca4bf9002c3db94a9d85b96e9ba28da9cb25696b97dba69aede7193229d659105777ec6bb1341589, 0x964a09b4d0e3131e12f81662742922afb9582f5ed7ed0d4203fa6a3f1c1152f485f935827e5ad95cbcb5bde2d0f8590a77babb0f6ff5af6b); (0xa29102f1538158cf56590ceb33ec6db77946c4bafba59304c58a66eaf52a366982a2f8bbfefa312653ab187f594f5d2058b439c2fa6c6905, 0x98fe98ef2cb30aed43f801a5cbaf7b53f92e062667bb7ed9ec6c68092cedec1e74394f19b247dbc73aa1fb0e5267cf01266ccb3a97a6f0e2); (0x6fe0ad132a97b2cc5bdd7d9d615469a27f3e7ea6040f2a9a452d80f4a173cc04c343659e1911aa182d4dcc0ed9ffe055fd1e2e45cdddc4d9, 0x6e99977d98caca5d9a770ba9059b0575efae24056e5ff43f8ad09e06178e2cd111568e29689d15858ec0dccbcbc1c56d46b70221959574fc); (0x937ed14f513528c32c035d17a501c64c1a411e6b275fca7a34333060b2c05ad05c871f3dca561888d7a928929f839858923a32e13e056ce6, 0x8081caa65aa478e2e91a2534acc779333070f4411785102f4e0bd208f3e9f1d28f5c19c32b0be99e2317c0d85394d221d5ccee8a2fb3c019); (0xb7c27a27e4ca7a86dcd4488f768871636b2d689bd74b0e56e1a75e6a71dae4f96ae56c9c8737f00b9536d1a975cbc4720bc9a5c1a39df183, 0x7f6edd8643ed3850c2790180d7a1e28fbfd028c7cc07bf4ca7f778f7d77adf14e8e5a1d3872cbcb3cb9bc38955a5d18ddd0830f91bf3ae83); (0xda27488937596b62f2a53102598486158d023a4d209f9b7a1e68abda346e7828f3c2694e93311341e31a1a5138da776aeaf255b43b3686c4, 0xfea5585907ebe2b1d31c1f24d1aea3a75045c82be0e63f1a7f4b997e2b31a894fba1381c0f02729c1bb74ab36fbf4a14ffdb0f61a07a72d); (0x8b965f818c9b0e044fd9ba39b38e7ae9a034fd0477eb0a060ee0d09d56eba72d72c1b460b3ff2015059d3fb9abe59357e69aa08052d83bb, 0xc1f6ff5ec87c7a32a239efa41a494f85884f130507a413faf1bfaee319daaacc4e268e09121bb271626585e603720af98cf621e02549738d); (0x81c0a3c5bc6a2a9a6436c9afbc7966016155ff35b83f1b40267000d0eceb2d07d6899abf0c529e3650976dda33e22c37c04c77508ec32b6a, 0x2bc4caefca1e834c517f6e959181cb2b50d3c72f403eccc5b8384538e6e29c8a99a4ee0f434746733951918ea9d68db41ee7ce0a322043ab)];
  [(0x21f44ada3fdee02c0aaa7149519a0b884a867a69936118c99125f6fa00bef0f93064fdf52ab06754a09d96f07cee451b88bf0d048af2c15, 0x3eccdc95ab0b867772995593a85d70ec65bcf7a7eb19547a2592f5196a5ebf45612438337e2f9bef4c7c4859d159069d735bfc413ff869ab); (0xf369bcd593eeee62738f08ffe5bd391a6a5e2496d4c06f9579b0c8a7d7e36fc67d9940343369e0e5cacee7b67cdccca0ef7df0213b0ef1ac, 0xb219bb4f4d19477ee32dfd6a83fab5f7c2a0c276a88b9a54db26aa1a33e2f59aea7cb91ebb150f18539153eda0a65b726aaa98807f1d0320); (0xe6fe17b1a5ae86e2f4381aa8334d0efc2840bc31c6338ff91eac0a3a756d867ea01705ef75b4cdb1151d547102e1b9acb1ee48c4256b4610, 0x45b35b180b1b63e7ff1dc0b96d7f79add0df4c26f70d7f0a335313739dc54bfe2f1ecdfd846f3484bc0db619a14f7f5892077f01474f3718); (0x9fc37b66e32a76f6562a3d8fe5bad8dc03ff103f0e1e892396c6953a6751dde830a14a949ff6c2555b461548402247c4a351cabc138332d6, 0xcb0c75d48cc3d1ce1266c576279f448ed59577caeb2a81768bd3d069cd7c500b16559a7a399d936d1530e1eca9fa4d304176ecd72a2646db); (0x1fe505a99a3a9e829d1ffa461ecc3e1e1924efb2eadf72655d2662ebc03527d00292d1480c9e8ec59d0e85c76c278946c4dc9a373068ab85, 0xcae675403c8b920e3cb14d580f8cf6829ac99b62205f3c8eff616bb8826e2c449f2043dfd594f83bdbe64c8ea64a32b5dd115de09e387bae); (0x1c86b9ec355008b59bc886906d985816c4596e1fb4110bf690954a2b0f4475e23be96d0c8fbc55acaabe6ad32e8f177b9ebbab14991ec863, 0x3dfebd5c802b34c4bbdfb9dee078a5bdc03a2cc9ebcb16b9ab1c39bb0d181bdb47c793f5dad2cd5570ffaf4093646944a072424386f5bff9); (0x3e22c3e02d404cb42a4fd70c8317ed27def28b71f37686069a13209f0b363ce97922b1f5786a8cd2f46f0700f85862085eebe50893e1ab31, 0xa022d85d25caa39ea537f5a1ec2fa5b3f0b98c1664851322719714e8698b8ab1377a02490688c2e6b011685a962ed6df8ad513862b426f51); (0x7828ab61388c91625365392afa1847f78074aa0dc4d464fbbf2e3988dce9bee1cf8e5d843da2308a97f0214b07b8edfb1eca2e414491db52, 0x7018b98621c6ab5cb94215e7a661fc2b09fd9de80da36c2789f530cb8dee6b3066c319d50b05fe6dfbc94cf08ec5f8a13db4b99ec363cd4e); (0x43ccee8b3eeabd6e79b0dc1cb88be83beb89f74d2d9b34b7d73cd8f76c47efd81c9cd4d41917101d608ba157ca49cb7c78bd1cf905eaa9f7, 0x87461e2d1f58516855b51cfab1b7febd5d4ea8747a30d7952661b52681d59fc54a6c76d0120d563ff8223ad516d1e10d92d73a42d5e3f1e7); (0x4507e505609667c94ce657e9c3326eb578c368482e2ef0b8a6710995a5565cc3ece4825a16c77fef91d3636cd38797e2aad7d1697b270a74, 0x9dd918ca88199d34f4f1ca8e1ef1ae425e9105cde80d779495ae595aab9ffd7b2603800676fa9f84ec219d2cf2abd2dd1981919dd15c4021); (0xdc6a6170c3191e8c8ea2ae9cd1d24b02fdab911bb44c5303861ccef54f8559976c61d1138b55c5d8f6b6b78733e9bbeac17951c61d6e6ff8, 0xa26ef4f8e3acd8449960353b7303f38b7dc4da5dfb1e439cf860860eb2507a05084234758b29e23117139b262ea4b7434e71e6c84cb95a55); (0x49baa9600a493c823183c01bcfd95eb8c4f6b89472236e1a44d8e72234237ea09bf7506772204e20dd201d1afc24f93adbafbf4503481f26, 0xab46163d9e7af9dc607140f6cdc47d09869f53aa4381d281e5a7c25511dc55153d0bb615a6970b9675444fa296029d6b45666af3219a381f)];
  [(0x404fee69ebc815d3f7d3c3b504cb2b0a5e64184c7b39f4802e39e4eb66d25e4c0f3f1de7a7480948a7fd1c4c1d8ff85ae8d7f3a93eb67a73, 0x8a5ae971dbfdc7f3242117c14580a4694798f5aac04059b2b0b6e5b08254352f1ab53580544754476069983872b3caedf560c6c660695283); (0xd7e899509644a64fb10e5b622840d9b532d715181e323464fae5f66c75790d6fb9ee891b8249376d4b4990b4cf216e562f123ebf63b85538, 0x6ffdb3f46444c3569741148537a853f86a3bd6ab2e4400d699b348cddef5f9ed34fe3e912e2fd6578284db02acbff186beeaea46aa7dcb0a); (0x81634eea55fdf449234d4b85d68cb6206f2e57cea932c7bbc9e952dd08552e91556d7b0a2c226d52df9f10b95287ac4f9a4d5f902e4b0cc6, 0x1c287c78defb6458267aae9fd0d7a822051a8e43f89cf52ce292f96e30e0dce937703de4618d89beb4666a3d822441982230c9b57c64e937); (0x1fabd79150da65df44920157f56727882c167092dd2079492781e73b49d0088c8b1618fcbe6a95e4fa6a081174e6e2aecdc4d7478c31d1fb, 0x5d74d1328cd707eadb591342f64e28a6a7954bfaa56d6956a5c28abe905df44a5981ba23516a30684f9f53e66d510453abcbe7028392feef); (0xba568ef72d326eabf5180012c40271261a6e0184a53a7bdefc8ce66518ebf6f7d77bb45a3c7d983c2e037e88fa78e14cb92e5ef7765db2, 0xcfe050dd4fa8c7ae2c90ddd7fcc3ff455b5f7719e7edcc23e0b0da3f5fdf276ab5bbb56d95abe3d3f6fd7f079ad3cdf07036bcdad87026de); (0x13e3d29fd1877badbfcf5b8bf51249aff809d6ac73e7c343004b6174b0d15d8fb73937cfc1b26c2b9e69aef0ff44a5727fcc6aa53e724653, 0xffe489c4e0188f84e777ebe2e373a37c18e9b947d9339482b9150b3a274eaabcae8e7bf2206618aa02ee94e55abc3a0bc0280ba7f96c19dc); (0xae9ddc921ab2ea995145e601304216810846dfd10f06c1f925416d1191ef462bc0f99417714b3cf035f377982e11b350aaadb79a92b76d91, 0xb2de7066034b8dd501bdd42303b499573070023aaa9736a998e91b6d846fd8230bcda5c9d68c04043a88786a57f43f56e0c185eea9bbb893); (0xacb9acfdef176a800c532454ba1ff36853a9ed8aab0943a5bbcbaa35fbe3e3988b5d979c4997c12ac25ec9e58f3311fedf234f0b02bab274, 0x24d1a3212518585a8557bd3b9ad768f5f486cd17d511fec9c439a2c08c17d86f30d8c4aed2edfa18ac8e340748857b3905937c291b855ca9); (0xd8e0b92d7a370e679f2eecfb66af0aafe4d6a0a7a544f0a09f47fc52d119cd759ef8637d7c3101201aa7e6efbae18f5c184a9cfdaf40d557, 0xbbad459bfb1c7f7569abf5105b90ec398bc85b84d3937666bf53c1cbd4e5a0dc7d867b591c445d753cb65261d3d26cdc69df3469b0129512); (0x92bf83a766121e01ba64b501d5ca5154bee88d0ccd77666e0af39940ee9a9c55f561d0ca544358381d32dde75841ac713eacc6f26a242120, 0xca81ea98121035fee99c0600afd0708a4712a4a9671a864c127b21513241d820f23ff645e1b55f5537fe2b79a03b90d8e97fa62fdfe5637); (0xf9b619a05e6971899279de0d85917e16396e76cd615c3c5a62a44ee1df1ece6c4e612b9c1cfea0db62ba48e77b8d2bafe2f975fac1809727, 0x2d74f429c81b26892fd0473af3ff8ff363b053e760706352e6e5c55cd567c114bc5b02d258e038b3adae2b917f4b639e2f07d1f86f19e59e); (0x487d92899e7e08a669c0392e20b5ae57c2465de25339fe5c712029b60b3900553a829cf80696a77f09d92d90615cc7bbd424b45af0a3281f, 0x265c4b7175d4862bec5c85c577e4dd996ff1b001075f0366b9a02ce5ab1252f50f43a3bcc773eebc07a378c268c3a8102038e83fa9de86b6)]].
(** Hints: the signed binary digits of the order below 2^446, and the images of the partial sums *)
Definition digits448 : list (nat * bool) := [(0%nat, false); (2%nat, true); (4%nat, false); (8%nat, true); (10%nat, true); (14%nat, true); (19%nat, false); (21%nat, false); (23%nat, false); (26%nat, false); (28%nat, false); (30%nat, false); (32%nat, false); (34%nat, true); (36%nat, true); (39%nat, true); (41%nat, true); (46%nat, false); (48%nat, true); (51%nat, false); (55%nat, false); (58%nat, true); (61%nat, true); (64%nat, true); (66%nat, true); (68%nat, true); (70%nat, true); (72%nat, false); (76%nat, true); (79%nat, false); (81%nat, false); (83%nat, true); (86%nat, false); (89%nat, false); (92%nat, true); (95%nat, true); (97%nat, true); (100%nat, false); (103%nat, true); (105%nat, true); (110%nat, false); (112%nat, true); (114%nat, false); (116%nat, false); (119%nat, false); (121%nat, true); (125%nat, true); (132%nat, true); (135%nat, true); (137%nat, false); (139%nat, false); (142%nat, true); (145%nat, false); (147%nat, false); (149%nat, false); (152%nat, false); (156%nat, false); (158%nat, false); (161%nat, true); (163%nat, true); (166%nat, true); (168%nat, false); (170%nat, false); (173%nat, false); (176%nat, false); (180%nat, true); (182%nat, true); (186%nat, true); (190%nat, false); (193%nat, true); (195%nat, true); (197%nat, false); (202%nat, true); (205%nat, true); (209%nat, true); (211%nat, true); (214%nat, false); (216%nat, true); (218%nat, false); (223%nat, false)].
Definition order448 : list (Z * Z) := [(0x9abbd51f01943b9731eacced410c494c73c5b1901a672183928620be8473431b4f6683893b74d7e5805373f7bc520bc914eed8386a7277fa, 0x1e7e61a52ef14d262b5d4f0a98483167e21b9e9df1b999a3be822a89600c2bd429e4eb01f28855a492fd182c25fb1da9d58072c747ebe1b6); (0xffb5289260812c02df9d25d97b87a3184026277bdad91c55e4d6d67cd664517e3f4e2421cdf9ff08c2a4817a5f2059f7d9bcb74e9320b941, 0x9a8ac92df20f2d7fcb5b0b63db92e45ed08d90c03c2679b05bb9b5a459ee6359d0c27f783a486a0b30332a7199ab3451872a148c31f880a); (0x7131f35728432b7173789954d5e9efc4ff5d47aacd49e83049039b8d0d2534ed488fc2291f8ffb24341b2ba2b9f535b7f183d4343d22123a, 0x65bcae60f867f7670c3691acf69055eed58182a8d8b94d590aeaa7edfa0925b630ffdf5b1947e5feb20af47a12ff778fc45fa7b1dc8d54e0); (0x6f89f197b0d196756f186de824e8e413068f33b9a79b2437579d5863a8dca9ffd727b88c59777f616665ac66a6da6f0d2dda1bd0821c6bc8, 0xb3071e183dd7c6184a570337df579738404c820db560bda83cda3a997a3c4485997f798c8995ac3e3239c561b74b5e41f83310ef6716fb16); (0xeafc0c5206caca0b16a6eaacb91fcb225255bde177191b0c7f8fdf7b13f161ac8ca3d30b55d995fe7de9725ba673a1d7cc4fb47fdac36cf1, 0xead48caf0ac447dd1160043eef6247087b31f2256d65780a9b740248ac688e4a110438b75bf685260cc05e8c1156cdcc172a86c7a14f3db4); (0x95340c558a425e58a437386b12dc1ac8ad3d11cf5042826c32d666969912e05bab05a44be612bc54f39982fffe2515c9c2ba2284bd3aba76, 0xf9aa07b1f0fb578b0c60ced45d218a5e5dc90d14144e5410761d550fa7963815d7d4b15b2ed31a8059b8dd2930a677565427fc3c2366ed7c); (0xdee8a29dcc407338565e11cd96ddb4d15cf4d1c8ca5bfb938b0c966bb8e07a81c8053703b8f165c21f39a6f7449822762396c5b30b3a4413, 0xedac899152904270588fdc67365d3ac2cebdc7e63b513222a51aa5df8cde9fc89ec44661ece1d409cc7dbe3c127c76d9c80e7b98d8e50009); (0xd5d50fde92472a14f99729786c449aee5893160c111b7cfcd23b3f1f6e640dcaf18c619df1e390a655cd96726f696a595ce7781aee47247a, 0x5a562ac20ff9caed361321094e1a80b74df707fde9097ebb4dbb9e740e8995a9d0434f0720eda23a81bd7b97d89013315dc374cea6dd56e5); (0x2cbc129b668dbf2e9a27ad3e36af34a5d20191f34eec83c0f63279de28e91cf97555d23354c3ef15b83a29a2bd581ce2d8614803a80ecf85, 0x11b88fd97de83f3272194eb29f1f513a34e6db7e9b2d384917eb4db6d35ce681ea17968872c152d23d5fb7749e17ceca0d8a5eaf7a0cd229); (0xbab76582702cd33be26e6aaf7e0b9ffe502d7d02fe58ba38b09a613b4d1efad3efdacc385863bfd801961516e2244b8a524714b8043c18ed, 0x71203ba8641b05ffb5bca47b491ada40f78e3eafc24f251d0a18fa7d9b90d2ce52f390998fb542d423546dcc2022309700c07a1394788497); (0xfa7dd160377825891fe32632c464fd4a5810e4398297cb4bb242451a9950f12255b3d1a1a75ba0ff4e56347a91e79eb9bc27555dca53c0b1, 0x1f3d322f4b8a8fb211e66cd2361e7b9194f1f41c4adae673c774e71514270553cd273016e67e9fc18cfefa65bb44cbe7eb0089fee237f04a); (0x1c393e9335b8fa6c74de0af618762ce0a0fa926620b0b65aeed1120bdfd4e5edb30d1ff26359600ad7e08e7c67dfc01815fa3308d44facd4, 0xec608e2082354da37b70ddde0d5853dd2b81971f926f9a675a5d925ba7881de270480e7b05038e6be28ac2024927c4308c3d2ae841de04da); (0x757625a024962a5cd604cbd7f354e546821de9189d57814b8db6356396da0ec06850d225531944f3ae5279e7ded533f5c4df7401d084b045, 0x287bbd6432beddce67736749433c1fe3e9145239e5961bc6bbd1aa980d7f55bb615193a5dd1ea12fc5fb871d1e549009736f8d933d995e31); (0xffb811294c94292291a157eefba6a830d15e5e53de447fc90a162bbd23aedda6e43c2de3fa7002596329551c4b2247f6955c95d7f2e6e9fc, 0x1a7f6a6c19324dba94c2910f848c8191f4a9f95cc83d9e703e30fbe574c0d2de35a1743310c1d0b492847f0ddc1e612b471a6e0271bc7bda); (0x223e517925b3c040573bb7c79d2deb4046777b88684075464a6611374a2f9e37b468d5252675deb351802d043d6198cea379f29524fde3e0, 0x70c3d7dd0bc9f81b0e67918999d0a2e53c398aebfe8e8d3a111b7a615f949468a0fffcbbe06b60c4ce328e74a0b719de1ee2d8428af82c54); (0x17128a0fed4a84ce8bfb92a77c3143ccc587394e47bb96702ef827fec0b63cdd3b1db342d01a21d78f1b2316619e4c15c1a72f8c41fddf3e, 0x7a7e50f82f4a2b063fad09ed8447b54d00558ffcf5e8e1bb59ae8aad46f15e575e96aea320dc278751e5c2ed308c684ce59495ccd493ce80); (0xaefe263850b7861e32ff750b9c9ad72f6915ccc7fe5ede224b76cb4219c5091ce619449531ec5d4c6aa54745a58907baf34367a0cc0269a1, 0xa0001febe1a28611e69434cf8e47c7d3b5e21f3a7383fee1bb021e9987b64f79edd17d608596fb69f2724778745adf3dca518920c8fcbc6a); (0x49d50d7cb0d85af7cb4046dfc936bf009ebf1bd3fee667aa794f59c8adc74539115252feedf8abd97b9acef48d0ea15764e6f4684e9da33e, 0x6cf259a8a6ac84a667d86c164b7ff006ffd64d06a2a5fd975e3aebb4bf6980c754d821ec96452d5d852730ff218a15ed62f3340a66060bce); (0x8acb4fb1a6f9cda146c6100b11c071c9085a22a748fc4748e9008c04794c9a4ef11797ef115c88fdb743be7083715c050f0a6d1d4fb46a0e, 0x51b911e5e962d9283472289e1f87d15e3ab868585899c67d8c6736840b08757ee07de98807bf2b98171c1510b4ee732ff539b67f5cbbc144); (0xeccc6c363fadf7893997e5c17056e79bbadd2d6c760a1052ec47a61c56a1d6571e89831ca468602fa440b99e0849803e215daef4c086bf0e, 0x893fb8a418460cc5a3dff41f953414083b0ee55450f2a64f09c1f012d500cbbb82a6c2b03f5cdd875079c51880c12e2809943ac114c7c327); (0x63192311fb10587eb38cd31826adb87f8b211caf4aba0018b2143f89871b569464e1ccb89419940ec963a8e92b3d856cfa65c64df866eb40, 0xbee423d37bca18de3e06e36433263068f37b20bb3b0cecf73da5c379c86bc2cc3f78bbe08e7cd84bdb8e1848edb46d8eacf61ba0c33b1e0e); (0xb516ec83075925f1ffa4830ba4ecd69ecff3bda3984cba3180e570071f0860135295efbf51aafadfb87b5dc3d687090b84f8a5614a2d33d0, 0x9ae9b0b569647e36f977bb485e64fe67644eea811b9e645dd93b9e61e011285104a34e97adc185732af1e54568149ffe9b6fb034b98bb52a); (0x731f6aca632c7a5d7101dfe8a03332223c3f4c7a563001c3630037f582a4d0b51d81a0668aa7ef8504bbabfe0b6e99512a9a14efc1b0fc0c, 0xe2ec17a8179498c0d5803d3ccc298432b2a4783227fe51fa175f9561570e53d629996c7b23c3fcc9fb25796bcd0947d7aba42fa9e33db86f); (0xe9a0ab99ad8d46bb8f9aec403142785ed54a4b1fc471761f5538e219c901b9f758b88006016c63be6b54485f5a7b2047b0fd653be750a531, 0x4adfc9505dda1cbe39bd7d604ec713a45d3d78b26d4b57cdea27030c53a241c0a8936670edbba1090a63f53d4b67e5cbbfc2ba010165490a); (0xcfdf9cf0d2fba6927978579c31d9a8250de3eef07c03f3d3d7c96eca9b7081b2c336aac08e6245b21135923df56633791db61d38ef2643e3, 0x255f152ccec692945f7ea87c2e0a0ae5433bd910cd64937ace5f86c5202d94ff78a67c4ae71906973c9bc2fc0f599c39971bd87b8f66b26b); (0xfb362a9e69d4fc082f9ddce735fbb4b8131d2e2578251a8384e38203c4f797481e89f614384087a39728521811ad8649ecb16eedaa730fa6, 0x2460bb27cc5ea478d08dc44820834fc7e7de95ddfc9ed0cb4c78170ad98cff5ac6364575d889a2ba5bfee8a2a5d60176492e7101bea1fb2e); (0xa77c6153e766d63448307a5d88c23b482e27400bd06871fbe03063d0df9e3a4da307a1fe63478532c62c0641355db2c6853cba2e6de4fad1, 0x9c8888a1b8d62fdd870348d3d181b574856a842696d747d9e88016034580ebcf2bbdf2c293ccbbca9e2ff566f766809327c1eb9c60b435f2); (0xfed1caaae19da2386c9e74f626f31564724def83e4b4a5dcd0a4ff8803d069acda525858dabacebc292486d84e84fa092438e51dc0850315, 0x9ad2f2ba1c7853485ede65d925f8d1959df1395e4530ff8a12bd27e316d3ae70e197ab0f48207a24fd7bb9765502b1842908e34abbd8cea0); (0xb2c6d6e81f3fb99989e6ed3a387e9fc5055c923233107c821e509e3bebfa6e38b90bb0fc8423dde7697c6ebe06108899b2aa46a0dc8707fd, 0xb031f7f7a8f7f76c86d3990b3ca9ea398d718b5cdc5aa84eeb1dd495fc7d6aeb7264b292e1e092f5e224e8ae2b5c73a3b0295b8c804d8197); (0xcddedbd89cf3b1c0036d3dbf333452aca9e168f4f9f42b341871bdcd0a0304dd56dc253b8b36250c23644e0ff2497cf4a8f54ee24b3e78ea, 0xa0725bd79451fcf1ec16bb2d396eed763cbb23c25326dfcf3a3b84109928027562da7530a1b3da6ff57f724fccbb45eb58f4ff41fa1d710b); (0xf265bd0c924833bc69bafe52a2cfdc24e3a302a94939d980165462e4f9ae87e602cbc686078ad867709163ba90158fdce3ed7c36b4231a06, 0x99938af9065931a6dc4f808f551fee36444539b9d9535123813fcdb14736964342417a4c003662017f42428b8b23360adc7b28ce3570db28); (0xc7f5446d63c10693f295e618241d21ac3d338080c46a3b09fd491cad6034489c5372d2bf73a95bc0b7706101ec5895cdeec076bb0fa66108, 0xa769f89e520d1fafd8b51112e8eec59ff4e31a9d1c80c2cd8bbfcdcc810644f4a297489668f04db1cdd111796338d5b4023025fd2bd14e8c); (0xf7a7d3a1738991940ecd2349cb76a92565d2e106acfd2c095680b0495276c75f7ce0847b7cfee4fd06908a19e30725c68751ae4f2daebfc, 0x4b6ad1975716e3ad689eefd9ca87288398264f8b66ff1c136c682903b7513b368645479fb62769bceed556a9bd656854598799ca82e00895); (0xcf333fb1c1ab526522b7e25f8ce7686a6083fc9e959f1d9079ceb4c4ce3b7271cc86c390892de779ce6486f510a91c33567174b6ebcfa9a3, 0xab9326f3053c5f7380dae8849c5422bb74c5125e2fc1bc4c79fe9216301c4c229e0bc4d16f1ea8146faf8b124536c33eeb96e2532efc098e); (0x97d2193c2f75ec469638b03f551be5e0b58e0838f06bb379ae0baf64db2ec9ff8f935fbc6783dc413a19dd10f0e537cc834adcd295a2bb2b, 0x2ccab73e11efbb0d4a6575e27ac0338d92b9a8b96b273a089cc4c9bdd0da9bf182724c4ab79066d0e76d20674368860f6ece4a4109ce53af); (0xad73a7622d1d69c36de7cc0b7223d841b0c080ecc97ceb10fdeb1ec3b5bf2f11f2d8990e1c58f347fb1aeb14aaf473f75e298c1ceeef2b6, 0x855da6acc25a9e8fbf686cf96d16e0109d0b24f994e6f6642938ec37536aa4cafb63d767dfd61a0bc0d1ee37bb1b9f14655cb0f64496181); (0x8de4c0ca991ab2272765edf6ef1991328a752c2f5636e7ed9da4999c620d13b232f454f4b1e4ed6ff2d739609fc84e3a24456106d0d9e17c, 0x6317c9cc541b8edaa5f31070a5817eefc51efd86481516643d7ee00a8f4c83cca22d3dc0593346b76d599826d5bf8270f0453e1ac895d125); (0x9225a897cbf7043fcba988837b09371b78d6d7a81c6d954fadbc7a0158ec7ecb2e751edef6904caed3c447c2f85817c7c6f5753816135562, 0x1e3f5e289fed1afd74210081cd5bfa52643363b90cda05adc6467f8536f7f71d78b35b3f25276c1e5335826db37e8e3b59aafd87bb1b3c70); (0xabb6d244e1c79bd69b551bfdfa8603b73413b87635c26e3ee06ddfbceef3c75c83e619074ae34da0f19840bdf6d9e40e76bf361270429492, 0xa56605ab461fa8ff4d3a8dc0870ccf9441c5c7ecc136349587b7635f681085f5f1ba431a21b4503a364cd8b9d8412cec2247a3c9ea1613b); (0x73f1a77a0a00081f56f9e44e727117b82cbef89011d246decd68d7959741a42b8b6164eaca355fb61a6cf8b56fd55e0b7dd6732d06d78810, 0x4a9d06fad2bf12625bae40f8595b2601b781b21c3b65fe6a44f3ce2b5921f894b9a08d0d1f19ad715a2c69d6e2920a9074e157809f2b7b33); (0xdb1835510290be9e9cafeb63ac7a800104677563c56e12c0bb86817b151c12760d17991f2fea0c49808ce850438b3ec6c4d4509808bea2b0, 0xa43a8a26f10cd66ae6bf4ad03808efc45b381a1b16a4a5197998a38f745ed861174fab6c7d371445ce658cc0425a9d00f75af9f3fc4c2f57); (0xce0e815d3bc8f5bd98aed8dc2c926294221883e86086de1090072916e8f35878a531929ecac1a39e76ba861a665d142b347def9d5a4681a9, 0x44904db5bb6fe9f48ac6fc37e75d6a539df10eb57c2f1ee08eded1e1c6b07d7030c185dda4508539cf2a48822faec3c7ab8c67c2406cdee6); (0x18ac87f81ebaff4bbc68bc32e3b65478c5d446178b95177bba99e4f35c08254c3f0340a7b62219a20fa76a140830c10b791f9e1ffd42c513, 0xd80c86ae371bdd6d2652fa1625f8dc574569ef18dee2458352726c22be14ed260bba3616fa39c7d155edc5454ebb78581902a273e3bf61fb); (0xf2107b7c5bcb8492e78e045fa93054b17ab21e69659d3f1c99bcf5b925b593645091b5c6f1af6616ef8834d0cb8dc52dd8e4550b8e00fb5, 0x1f14817c183143ea27bd8e8793b9d423ca7c9455654c2d7b246b0d56dedf4960fa30875583bd33db792be2f899a1ba3027d053f0d7c9132c); (0xb026f3739c49aa926aa29a1618a9de65b85631297c17dc98fa154cb02085940a77c5e7105ad148f77bf2245ed20a9787489ce29fc042f3cf, 0x86a2fcd072bbc0f9187beeb225389dd9244680651a3d84b62c28ef86f5a3eb19954b590c69f2a7c5f894accebd4179f138cab8c012132f94); (0xa5934958e74b87ed3d9bdacd5797c08d6b6abfd14e8520b39156bf6eea476df7f5afc5b154330a5fc644d7f7f1eb56af343227c8f99c780a, 0xe44297d195c77fcb0d7e74d3653fff8add19c46ff5250f7629cf1e34515bba8e5bca65d16a86bce433508bac401c33505931e91d0fc1b5b0); (0xb171eba2f771c13ea21e85aa025532c2e549c9300eac82583e74ea5e103cd8ad6f420952991b09f9fd557b0c3d131f505a28eacbb1fa01eb, 0x328d9e5a022cd47301c3138c25ca9395d6a5b9fe7bf166f54ee84cf1d4873133352cd73348841bbc35dfd2c7d1af86ef1ec2e3ecb714c5fb); (0x4b789fdc74a09a731e50c3b31746e5f7ecb2bffdb630b43735a1fca223036c72d4a22a7c577f4ee527f169ca6df6305b9789b453b681dc7f, 0xaf1bc8add48a946f9f18bc9b9af33f08bfe09cf887cb0fdaa6133fd2b50c819907b6b2a06e8bd3fb7a2e23a9e70c8a419fa42052c9a43b31); (0xdf9a9d52b8e13eb6e7f3ff267b4288762633cea0325900d11a5e8489a559928f9315e564fee7c6393ec1e95f19ca83c57acd609be8e8eeb6, 0xf2bea717abed877b8c9d317b51c9563d5142868ada2727471388683ac01fccd7802d2b48892a70b39e24482a4c7e22627b2e8b94e4479f14); (0xf7ef6e47915278d4ae87f55176c2c45759f3f35a91701e28387629eb50f918e371da2ba8f155b58c22ce496225a9cf7520914346ba0af2fd, 0x650ea88187cb24d46dc688d350f5cde509e26ba964f7169b346a78cf5ffa0fd787e1f60781a33d23c892e313f454b8a2a82a7b19279766c0); (0x5a00a51d5ab60dcb0903749a6a592f6ea8af4510721e3b6c31fa93fd4c173c317787f17d078a17a285d6fa7f1e1eb3ff7cbb5fdc6dce159b, 0x531f08285125c6a26872f3b2bf6167ba8b851bf7f521f7c4e69df1275412c125e7df7bcf187f07e92a8d0842aa07f885e7789d18cc33e154); (0x81cef7f4b74d1d69f3c62b2b8b96ee6f672e43d32325de920497c363092e295ea7934eb8333720cbccdafcffa3873ca23b180f56f94f7f70, 0xc83a9ef0ff398f8fb8fad6f85b51361da7038186c8c0a87e53081c7e0f7f70ea8fb4a023061a923977492b33ff0d2388f2cd03e2d1b0eac9); (0x709faa75dc2df30d9e1e6df0f3440980ee793cab0c9e80de528fec46de4b5551eb987fa15e82d4a720c46488f4a921036342df047192948, 0x4898a9e529746d44838977d9f4562fd508a83ebdd0b4307b4bb8a23869f53ca723aa8ab4049c83fdebdff0598f745f7f28b1e3a1c1f48d29); (0xbb8711530fe15f86b14379108988bd06b4bdd73fcfe5552a9eeb61af224563a50177c56df87491ef23675e38d53fc8a2fbd1f0be8c9569c2, 0xf3d886ba84b2f685453f5da9ace75b9388d45d5fd9fde09cf3eef74cf13096097c7d38a04b1f44961532d82ef6de97a3ab8aaaedabb16e3a); (0x94772de7edfe36809f85d819287d255d7ffd667cd4c0c318aa7a24d39773231cf69d987ded17211c6d83cf55bcf823ca20cef61963b99d09, 0xeff62929d87585bacbf5cb7192e76eefc5e2060bdc7ed1b13da64ba20e61976cdb178f6ecd3b3050c45d85e91d4580bb2f264c9859f17a9e); (0x1cc3968d39021cdedec7ffca159b916f5131579d8a09db6d1cc6b8a86de4104d1403e517290388e56217515679648bce9caf80cbe0aa5150, 0x279895e614d97de596b713df3ae40d71076121a1dda0f8525741ed043674f0bd25705310e662d71b67c9c96f779bb848a21e84d29be99202); (0x43f59560983a127bff2d2a0e152b3a8afe6b90e2aca30f0fae1ea082ea0679d9ca6c2d28be0ffc85c9609316160a72ee0b2b6e2f5bcb83af, 0x2b2eef7329e2b8df5b8da7893160edf5ab6fe82de88f91489e630bad4c4530914a6d7db82bf3d9510284624578df08dee67d5bf5a35a7b79); (0xc9a6f706184acb0128819598f804ece04c4cff2f8ef50b067ef648562f881122aa4f04301e536c557e0617b69cded886ec9caf9d7f4d6113, 0xeb51acedd63535121c174dbc6e56d2ba8bec81f20998e1e05ce4e8c0de4c2782a94567a6a58fd96050a63f8098796ff251a44c5614c59aa0); (0xecc7eafa517ab12e2f7a848fb33781a9886d5ce8aff9aaab899379560e09a145c3aba763f910bbbc0c7fd473e666d5aa41ff2195e8f8e6ee, 0x3979fb1befb8ca87a60faa73924413dceaf5422734cfd413919cb38a8ad699228aa37e1131c2ef90f0f1de3c37ec5ee6247ebc37628cd139); (0x45d68593735a34321da6cb088dec56f68d9b6e4e71f7beac5466867c0e14db5b298116551149eccd365eaeedddbce04fb2c948708469acb1, 0x885e83db3128ecab315d88ac3607c8da50beb32dba6697e2688deea712d5bb6f72c6e9a546f0db1f79ab7bb2c06d16e44358ccf5d6e5fb7d); (0x7c1a51855888e60afc29c67f5790f33f24551cfc05dfda34ba2b83d8b22ffc99b5ea39dc43e2cd4f489a0a157b280f7f85f9591d1853a8d7, 0x410950231f11f6ec182a3c2c951cbddc88e50a98dccd9e4d5ece37251cfd54a24580990bb408e1b15b67923247ff79773a1bee7d9656860e); (0xa120e679b0fd70cb046d6ce6e5543ea8b9462a8e5018c2b0476fe6c78c5161b4af336a253fdf712a4a1e3bc1eacc046b261ece0ece904e41, 0xb8f7d4d027cb6392371bb3933dd8518d2cf065ca467bcf8dce3c4510f60ef6f25685665d54c01afe16663cb32516df463431bb7f8d9e99b4); (0xd7ae3089e1751f90da5e16c0a747696f0b475f72fbebef722510bc25d71136e51c25b46115aa2dd0669a6832b274f9948fe7af2cad50fb68, 0xb99171e6a741bb0650fd828a80efa1db593577090a706cf133ce2d321090b029f9a9638a85c5129b7af8fb5c1273d9510dddd464e76a6ed7); (0x446a5cc0a07eca39dfc2d356f85caa52ffec133caee265cfae166ef547af0ceefa0d238c70c195f6a9e3e2aedd331c1079f19e16e918dd1e, 0x2d4ddd83a40c351709bbb076f4d7f82ef558aa598423b0afd7493b9a1aa8b9e1b13e3005461ae2dd338a6314cf65675e48ce8689fa3a4b54); (0x98dadd1db29b4ec4586d68b61cf252a427ed23e0bd4ab11ff8b40c3bdd6ac8f6cabf77992e5dd861249b66cba02e9d484698a3796123c52c, 0xbce8101ffa8b30dcffe0be8b15e2ff821914baf7fb8f43f2dd0f3b7ffcb6a98a9099887f4c38a448942aa3350134bb124865677619dd7be6); (0xc2c488556f992310bda4f6860cf08dd72adf5d258d16938bd62a2d1a74112ba76718aba72b1d2a6c8ef6ff6bbe747cca5e5e0782228c33f4, 0x12dc46c48e50aa927f4c52b58681c374ca5470693f47accf2c0caf950ca18477baa6b8f50ade774499fc7dec315c3935b6a0a21280d23ff9); (0x5bd77c52111b17a4aa0066cbbde827d3924d04d291eb95f508acbdbf9c305fac62c712f7adc74e3bdeacf3c3e7aaab21c21a0e6919835178, 0xd1960bdcb1333235b45ce280b9a76962b0628202df337bd5767b8bcdbeea7f0312028dd7072e76970bb387bc3fd2888b4d9ef6e4a21213e8); (0x938f0d80f91b8f6411e9836dc5a8bd90a21b0be2cef905613d140df481fec447936db9b6a066ba840f30ef79be03556e53584d536b858834, 0x4522ada64783c2c2ab047749626eebc257d856fba2c5328cc4cf2b94a15196ed5efc1cedd2334b028d8590dacb4b2f09c90b699a25019cdf); (0xe6f07146dd175ddddd1653467b8be0e857c2aa2e96c6549a625db3c4d8375c262deee0b170003753f4147f825eef2a8791fabea9f85304ef, 0xa91ef4e926975ae7640640ad1312e49cc11ccc457147c8a6499f901f3383a2ff863c309531f20200441b6b866c57217e9c90cd7357bd24eb); (0xc241320575b5b8d8202ceca9f0810d40b1e5da8739f9e3c433ce1dc40ff94842975137b1e663ed641493c12832dfbda5cf8babfd0b6f293c, 0xbd26eb3e4f36e11e3bfdd1541c93dcb5ef448941be9de6f7556aacd68e640ebeaaab1e8171ee206a1d6cd21e311abeff7aa3b98f5814438e); (0xd6b735ba85e5e18b822c6e1d38b304df87bbfffb061cf9a005f91c5f823dc0cb2adc2ec44bc1a1110d157632dc345e39adc6ecb4228155ce, 0x5b84bf45a549d877b7a9d983a075594bac78275db26fb9ea5c36a660109ca66b340bae3721c99204bb3fa10b6b7a05935217e1272c076858); (0x6e32eee9efb99aa45a647cc4abd58480a99b6c3c9511c1da21c4b4b0c4c8b6343c4d18908905dbb0b231f863bea6ac8cf21e0f9cb3a08384, 0x9b624824e196a8db750646395a3085adf970695a2971a6c9ff50a40b38e34c4d8593da48aab3e35e73d6edf246b41f244e96b2045b3eaa73); (0x6c874bfeaf217d35ec948959433abcfff2949416c84e544dc89233add268a9a0b5cfc17dffb8d5e237a42c24e6b209007fb0529827dad73, 0x4b94ef982aed5c28743a97d1533f7d51ae22dbc01dfb125b53ac414f6d4710d2c806f22acc1400290793156995eea1675da8d06daba1d2ed); (0x86cd8f7f73c6cd758e0749dd5c779e6865f6e1ce4045b08347ecb4ddbbbc8661856e7ed687aee6a7fba324dc9ec064877b0ef1c823c113b9, 0xc216f03f9f8b71d9f9856460cc70e7039e5562214fd349e63c92896db84a7b6b29b4416560b1711802c24d5b00c7b9e2328304b85ab0a69a); (0xd03ca117ce781b4c07dd03e82cd006e892d7502eaf32e566164648717142c8499bbe06af4b4ca30bf60b70dc5055ff7689a0b2e7cbbb7d4d, 0x30b44170123959eb53d0893571826df50baff4fe799727254a0bd0cafb0121ced753cee2a7a7f3230de7ceef5e7b205afeb06cc99ab54567); (0x6147fefe8ad9b0a8f452fb01b2b182cdf185eac7746fca33c011f9f5368a3b19b81859b82ddaf4832276539974a127962a3942b518fa33c2, 0xb294b3704b91b32ebb0d6c987f7066b2512efb6d6be7063d31a4eb1626a14606df0eaef7d94e9d1fc09eac07024a3371f4870befa81d6055); (0x4d94b0c441ef1cde2cfa5c0f837c3b0e43c40250dd422e4a8267b06aa45d11f298886617756676cd4ad915a9e82cb1700914f85c8f356c0f, 0x48127f907bcd340635cc368fddfa214a4a387a4fa422447259a7d23dd0352dea28d8018cd34e5a4d4799e9404d3d32aeccd1dd92104f9b85); (0x51f893a7991543b7cb997a7d5eb403855904d120c058e95887a9e399aa89e7342cb0d3e96e4491cf77b1057ad66fbb3962024d4c4d3f6eb9, 0x3b9d5c11577757129ccbce006bab811f2879afb720818b32c3ddbc35a645b979500ebaacc7879a0ec000455c48d86e8ac0ddee8b7cfec54e); (0x6db4c7159d59ac75c3f8d599f7ebbcfaa584898883d4710323c0964d7dd8693cdd17bbfa655865daa0fb979acc5bbd69b12ddc399099b05e, 0xbaadafe74a9ec6bc064829b5915a88d0b94157816e7304f90be68b906150b353ea425b9c9c759812d62eccee00c8682362829d643c01b013); (0x0, 0x1)].
