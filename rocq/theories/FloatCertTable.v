(** Neighbours a/b < c/d in a Farey sequence around the rounded power of ten of each exponent -1074..971 of
    double (zeros where the power is exact), found by a program and checked in FloatCertProofs.v: this table
    is not part of the code. *)
From Verif Require Import Base.

Definition cert64_tb : list (Z * Z * Z * Z) := [
  (0x31184923f8387443, 0x32e082374bb128, 0x23c6d74a70686ec2, 0x25134d7b84f905);
  (0x78a5f7b8d90951c7, 0x3e838e972ad199, 0x478dae94e0d0dd84, 0x25134d7b84f905);
  (0xf256f5e34c4e641, 0x273d75d76c90b7, 0x12cd6a678eaea7c1, 0x30b659db641976);
  (0x31184923f8387443, 0x3f98a2c51e9d72, 0x12cd6a678eaea7c1, 0x185b2cedb20cbb);
  (0x56b31df31595c3c5, 0x38277e50415b74, 0x259ad4cf1d5d4f82, 0x185b2cedb20cbb);
  (0xc1df2b1c3d0b834, 0x273d75d76c90b7, 0xcbe710eacc64ba7, 0x2945356686d778);
  (0x24fa56723467bc0f, 0x3be0108aaffc73, 0xcbe710eacc64ba7, 0x14a29ab3436bbc);
  (0x49f4ace468cf781e, 0x3be0108aaffc73, 0xcbe710eacc64ba7, 0xa514d59a1b5de);
  (0x72511f1ad4c1dd5, 0x1cec287dcadad9, 0xcbe710eacc64ba7, 0x339682c0288d56);
  (0x1b0894f2075e8751, 0x36b769dddf2184, 0xcbe710eacc64ba7, 0x19cb41601446ab);
  (0x1b0894f2075e8751, 0x1b5bb4eeef90c2, 0x3485770f60eb1e9f, 0x3526f64f03d76d);
  (0x4f23c422c39667, 0x190738edb4a17, 0xc8103efa575ea68, 0x3f4551706b3991);
  (0x9e478845872cce, 0x190738edb4a17, 0x192dbe5936c900e7, 0x3fb3e9a8c50ba0);
  (0x1ba6dc7a4ce5b41f, 0x22fadbf21919fe, 0x1a6a4d69c1d75a83, 0x216a68633dcfe7);
  (0x507b774dd0946925, 0x32e7d65c4a5ce6, 0x34d49ad383aeb506, 0x216a68633dcfe7);
  (0x119490569d621a29, 0x37993108dc3b2b, 0x5092611d7c1ccfb, 0xfecfa6a3142e8);
  (0x283246bf1286014d, 0x3f8fae3df4dc9f, 0x5092611d7c1ccfb, 0x7f67d3518a174);
  (0x50648d7e250c029a, 0x3f8fae3df4dc9f, 0x5092611d7c1ccfb, 0x3fb3e9a8c50ba);
  (0xf1247e275dba453, 0x3b946fa3688be5, 0x5092611d7c1ccfb, 0x13e83904bd93a2);
  (0x1e248fc4ebb748a6, 0x3b946fa3688be5, 0x5092611d7c1ccfb, 0x9f41c825ec9d1);
  (0x37524e1e2280498d, 0x36ac7f17a13e7d, 0xa124c23af8399f6, 0x9f41c825ec9d1);
  (0x301d2b64749f9f1, 0xedc0d0e261739, 0xa124c23af8399f6, 0x31c48e8bd9f115);
  (0xd141ed9f6cd93e7, 0x20504dcd000427, 0x142498475f0733ec, 0x31c48e8bd9f115);
  (0x1a283db3ed9b27ce, 0x20504dcd000427, 0x2138b72155d4c7d3, 0x290a6e2c6cfa9e);
  (0x34507b67db364f9c, 0x20504dcd000427, 0x55893289310b176f, 0x34d584e3368176);
  (0xe480cbc79b7f7e1, 0x2c1b6483c98aff, 0x97855326e0e67f9, 0x1d3f5775a373c6);
  (0x26086eab617e57bb, 0x3abb103e9b44e2, 0x97855326e0e67f9, 0xe9fabbad1b9e3);
  (0x26086eab617e57bb, 0x1d5d881f4da271, 0x38f919103d9b27ad, 0x2bfd33da1f5c54);
  (0xf4e0898bfc22aff, 0x3b15a23b99d0e3, 0x3c9bbadc59f5cca, 0xe9fabbad1b9e3);
  (0x1aab3ba210a0415d, 0x337a52b6077f46, 0x793775b8b3eb994, 0xe9fabbad1b9e3);
  (0x1aab3ba210a0415d, 0x19bd295b03bfa3, 0x29d22a59271db485, 0x285cd515d57986);
  (0xcf88da3057a4363, 0x3e97d056398506, 0xba205c05abba97, 0x3822e1a9fb423);
  (0xcf88da3057a4363, 0x1f4be82b1cc283, 0xe6cce5b10d1b891, 0x22ce1645bc76a6);
  (0x285de9a11bc63f57, 0x30b2f34dfafdd6, 0xe6cce5b10d1b891, 0x11670b22de3b53);
  (0x453786573d69b079, 0x29c084c9dbba3e, 0x6211230d5f0d219b, 0x3b278fecb9f591);
  (0x127339a2a38975c7, 0x37a561d21a416e, 0x377765bd4b353c9, 0xa749c9ebef7bb);
  (0x127339a2a38975c7, 0x1bd2b0e90d20b7, 0x1962265a4cf01d59, 0x26474d87cc1872);
  (0x3e48999f940308e7, 0x2ef657acf32cf0, 0x1962265a4cf01d59, 0x1323a6c3e60c39);
  (0x1097ee303cb93a7a, 0x3e8ed97da972af, 0x513a14542966c45, 0x1323a6c3e60c39);
  (0x1fd2d200047c7f49, 0x3bfce6e4adcbad, 0xa27428a852cd88a, 0x1323a6c3e60c39);
  (0x3e48999f940308e7, 0x3ab3ed982ff82c, 0x144e85150a59b114, 0x1323a6c3e60c39);
  (0x45583177fdcbaf3, 0x146ca01063dfba, 0xba37ee60aa03b2e, 0x36d901b2b67da9);
  (0x45583177fdcbaf3, 0xa36500831efdd, 0x1746fdcc1540765c, 0x36d901b2b67da9);
  (0x359d937094499301, 0x3f2a98f60a065a, 0x2cf28d4194901d1b, 0x34f448edd8167d);
  (0x359d937094499301, 0x1f954c7b05032d, 0x59e51a8329203a36, 0x34f448edd8167d);
  (0x11a855a283d64885, 0x3401ec8b68e2e7, 0x11fa9ee70839a53e, 0x34f448edd8167d);
  (0x23a2f4898c0fedc3, 0x347b1abca07cb2, 0x23f53dce10734a7c, 0x34f448edd8167d);
  (0x23a2f4898c0fedc3, 0x1a3d8d5e503e59, 0x47ea7b9c20e694f8, 0x34f448edd8167d);
  (0x720974eb59cc927, 0x1a3d8d5e503e59, 0xee5c12674004bc0, 0x36d901b2b67da9);
  (0xe412e9d6b39924e, 0x1a3d8d5e503e59, 0x16065875299d14e7, 0x288b4788835e01);
  (0x1c825d3ad673249c, 0x1a3d8d5e503e59, 0x40c9e44d6b49cbd1, 0x3ba1f7d1ba0c86);
  (0x5b3ac3ef7b0a0ec, 0x1a3d8d5e503e59, 0xd78d616b6142385, 0x3dffdec7d00d7d);
  (0xb67587def6141d8, 0x1a3d8d5e503e59, 0x132c8255adc4c471, 0x2c1eb6131025eb);
  (0x16ceb0fbdec283b0, 0x1a3d8d5e503e59, 0x35628bcf7be889f9, 0x3d6baf1700707b);
  (0x2d9d61f7bd850760, 0x1a3d8d5e503e59, 0x4c313ccb5aab0da9, 0x2bd49e3aa8576a);
  (0x1527194e7300358c, 0x3cd77f6630d379, 0x61d922a52a13475, 0x119710dc581911);
  (0x277fcfcd6ae3d2eb, 0x38ce58fd9c8f56, 0xc3b2454a54268ea, 0x119710dc581911);
  (0x3ff61876b568a4bf, 0x2dfe3d5b2660bc, 0x586c611fffed7693, 0x3f954e377e79cd);
  (0xf098724205f0117, 0x36108a2c4ee902, 0x4e474eea880f6c4, 0x119710dc581911);
  (0x229b5adec262dc27, 0x3e3666ced7a6a3, 0x9c8e9dd5101ed88, 0x119710dc581911);
  (0x3ff61876b568a4bf, 0x397dccb1eff8eb, 0x1391d3baa203db10, 0x119710dc581911);
  (0x8e0da8c03e0f523, 0x27e6bbd597dfda, 0xab0f92e9e22e5ed, 0x300c9878209d7b);
  (0x8e0da8c03e0f523, 0x13f35deacbefed, 0x1561f25d3c45cbda, 0x300c9878209d7b);
  (0x11c1b51807c1ea46, 0x13f35deacbefed, 0x3004820147e8ab43, 0x35f3591c4236a1);
  (0x23836a300f83d48c, 0x13f35deacbefed, 0x6549a1495f2e6a15, 0x38e6b96e530334);
  (0x115b55a41c3960c1, 0x30c0dccbca4593, 0x60d5c2ea66e2699, 0x10fffd98bb235a);
  (0x28c40776dee0e81b, 0x3940db9827d740, 0x60d5c2ea66e2699, 0x87ffecc5d91ad);
  (0x592ee8ec12521ce3, 0x3ea068fd8a3254, 0xc1ab85d4cdc4d32, 0x87ffecc5d91ad);
  (0xf6a701c8de45cbd, 0x36206a312ca0a7, 0xc1ab85d4cdc4d32, 0x2a7ff9fdd3d861);
  (0x1ed4e0391bc8b97a, 0x36206a312ca0a7, 0x1b852879dac0a9ef, 0x30503217803c84);
  (0x3da9c072379172f4, 0x36206a312ca0a7, 0x1b852879dac0a9ef, 0x1828190bc01e42);
  (0x6d41e64df5cf501, 0x1df851256c8265, 0xddcebb01c06bfed, 0x3cd7daefe79280);
  (0xda83cc9beb9ea02, 0x1df851256c8265, 0x1b852879dac0a9ef, 0x3c643e9d604ba5);
  (0x292d6543997a93f1, 0x2d2e47e1666705, 0x370a50f3b58153de, 0x3c643e9d604ba5);
  (0x525aca8732f527e2, 0x2d2e47e1666705, 0x6037b6374efbe7cf, 0x34c9433f635955);
  (0x5616bf48d5ed4d6, 0xec25a69729dc5, 0x133e57a4a96594c3, 0x34c9433f635955);
  (0x189fc39936c46999, 0x21c5ced46afb8d, 0x267caf4952cb2986, 0x34c9433f635955);
  (0x3f1c72e2898f931f, 0x2b478909e72a71, 0x4cf95e92a596530c, 0x34c9433f635955);
  (0x10ed3a242635614b, 0x3a09e37359c836, 0xf6512ea211e109c, 0x34c9433f635955);
  (0x10ed3a242635614b, 0x1d04f1b9ace41b, 0x1eca25d4423c2138, 0x34c9433f635955);
  (0x2fb75ff868718283, 0x28e71a7c881eb8, 0x3d944ba884784270, 0x34c9433f635955);
  (0x6c54a74dc155a1e, 0x1d04f1b9ace41b, 0xddcebb01c06bfed, 0x3b6acbce482511);
  (0xd8a94e9b82ab43c, 0x1d04f1b9ace41b, 0x14a23624f81c1a0b, 0x2c37dec3fa8496);
  (0x2fb75ff868718283, 0x3320e11baa2666, 0x14a23624f81c1a0b, 0x161bef61fd424b);
  (0x2fb75ff868718283, 0x1990708dd51333, 0x58fbcc4258a9b699, 0x2fac5fefd2557e);
  (0x16f4b898d84fc9a9, 0x3d7e649f31991e, 0x840e275300b3d9e, 0x161bef61fd424b);
  (0x27767d83386644e5, 0x34db21b1960eda, 0x1081c4ea60167b3c, 0x161bef61fd424b);
  (0x27767d83386644e5, 0x1a6d90d8cb076d, 0x487a0757f8933b5d, 0x3089803ac849b8);
  (0xa78e0f9a1c4f9f3, 0x2310d3c66691b1, 0xe7ece44cb50a579, 0x3089803ac849b8);
  (0x237090380eda995f, 0x3b5593e3cab68d, 0xe7ece44cb50a579, 0x1844c01d6424dc);
  (0x46e120701db532be, 0x3b5593e3cab68d, 0xe7ece44cb50a579, 0xc22600eb2126e);
  (0x57a8ab9f25a4077, 0x16ee73b7b47f43, 0xe7ece44cb50a579, 0x3cabe0497a5c26);
  (0x1973e3b8b0052667, 0x354463dc71ad56, 0xe7ece44cb50a579, 0x1e55f024bd2e13);
  (0x3671804246a67159, 0x38f82212f604be, 0x1cfd9c8996a14af2, 0x1e55f024bd2e13);
  (0x706cb95573e9073d, 0x3ad2012e383072, 0x39fb39132d4295e4, 0x1e55f024bd2e13);
  (0x1511db23ee23593b, 0x371e42f7b3d90a, 0xc4dc9fa6a5fbee3, 0x202fcf3fff59c7);
  (0x2dad6f18c2e2d701, 0x3bbef0bbd9464c, 0x189b93f4d4bf7dc6, 0x202fcf3fff59c7);
  (0x2dad6f18c2e2d701, 0x1ddf785deca326, 0x5ee497026c61d28d, 0x3e0f479debfced);
  (0x11903aaceca1e84b, 0x396e99d9c68fab, 0xa8cf9bee99f066b, 0x22802622121068);
  (0x23207559d943d096, 0x396e99d9c68fab, 0xa8cf9bee99f066b, 0x11401311090834);
  (0x4640eab3b287a12c, 0x396e99d9c68fab, 0xa8cf9bee99f066b, 0x8a0098884841a);
  (0xe0cfbbd8a1b203c, 0x396e99d9c68fab, 0xa8cf9bee99f066b, 0x2b202faa969482);
  (0x1c19f77b14364078, 0x396e99d9c68fab, 0xa8cf9bee99f066b, 0x159017d54b4a41);
  (0x3833eef6286c80f0, 0x396e99d9c68fab, 0x26a6f139fdd546e3, 0x277f58d788ecf6);
  (0x9d200b0916c9246, 0x322cec33ab4093, 0x7bafd0b992aa7c7, 0x277f58d788ecf6);
  (0x13a4016122d9248c, 0x322cec33ab4093, 0x7bafd0b992aa7c7, 0x13bfac6bc4767b);
  (0x2ad4f883ee591be1, 0x36b5f8bb7c5202, 0xf75fa1732554f8e, 0x13bfac6bc4767b);
  (0x49c0ecb25303bafd, 0x2f1aa8c9829f7c, 0x1eebf42e64aa9f1c, 0x13bfac6bc4767b);
  (0x261cdaab522e5c1, 0x79b4ff1f9b286, 0x1302efd8dafc2257, 0x3cb5ce60f5d3c9);
  (0x261cdaab522e5c1, 0x3cda7f8fcd943, 0x2605dfb1b5f844ae, 0x3cb5ce60f5d3c9);
  (0x4039b6077e7823f9, 0x33460309e994d5, 0x3b761ab214325877, 0x2f785b10ecbb92);
  (0xcd8579b194b3a65, 0x33460309e994d5, 0x814bc45af056ee3, 0x2041bb2cf95686);
  (0x19b0af36329674ca, 0x33460309e994d5, 0x814bc45af056ee3, 0x1020dd967cab43);
  (0x33615e6c652ce994, 0x33460309e994d5, 0x21c56b7be19be3ad, 0x21b3705033200c);
  (0xadadd715671d85e, 0x36296d505d27e1, 0x6c1157f2d1f2d89, 0x21b3705033200c);
  (0x15b5bae2ace3b0bc, 0x36296d505d27e1, 0x6c1157f2d1f2d89, 0x10d9b828199006);
  (0x322c8b4486e68f01, 0x3e96496469efe4, 0x6c1157f2d1f2d89, 0x86cdc140cc803);
  (0x5ab30c3f95a1a037, 0x3891b8ee5b4ffb, 0xd822afe5a3e5b12, 0x86cdc140cc803);
  (0x14749314f3909373, 0x3fca429e7c3f99, 0x2b3a232ded9456a, 0x86cdc140cc803);
  (0x275e02790b817959, 0x3d6223956adbd7, 0x5674465bdb28ad4, 0x86cdc140cc803);
  (0x4d30e1413b634525, 0x3c2e1410e229f6, 0xace88cb7b6515a8, 0x86cdc140cc803);
  (0x8f4415fc1d73409, 0x22e77fd4bbd1ed, 0xace88cb7b6515a8, 0x2a204c643fe80f);
  (0x13c2ca2b3d3c49b1, 0x2683e61c7ddcfe, 0x159d1196f6ca2b50, 0x2a204c643fe80f);
  (0x13c2ca2b3d3c49b1, 0x1341f30e3eee7f, 0x3efced592ad0a051, 0x3d623f727ed68e);
  (0x3360bdd8ed34e17, 0xfa58cc67ce36e, 0xa20a69290c25f6c, 0x315918f3c3fe31);
  (0x3360bdd8ed34e17, 0x7d2c6633e71b7, 0x17775902b0580cef, 0x392bdf57026fe8);
  (0x244f8878eba5454b, 0x2c3b7c71fe1b62, 0x1de370bdcdfea91d, 0x2468b60ebfa9ab);
  (0x601669f487a29785, 0x3a867447beb75c, 0x3bc6e17b9bfd523a, 0x2468b60ebfa9ab);
  (0x7431b4b6254410f, 0x161dbe38ff0db1, 0x10343db74e03cbe0, 0x315918f3c3fe31);
  (0xe863696c4a8821e, 0x161dbe38ff0db1, 0x25fd8f9975008f0d, 0x39d929cf6093a2);
  (0x1d0c6d2d8951043c, 0x161dbe38ff0db1, 0x4309fcc6fe519349, 0x330a5320af5782);
  (0x4057559ec537eaf, 0xf4ee78a4dd191, 0xcf697c5d8030980, 0x315918f3c3fe31);
  (0x1906f7d39cfd858d, 0x2fa2e7c956b972, 0x10fc0d1fc456882f, 0x2054003f08e7e1);
  (0x1906f7d39cfd858d, 0x17d173e4ab5cb9, 0x3aff121325aa95eb, 0x38257423b4449a);
  (0x3379114bd0f988c, 0xf4ee78a4dd191, 0xc28b380a8bf235d, 0x39dba54e218959);
  (0x66f22297a1f3118, 0xf4ee78a4dd191, 0x15cf66bedfeded01, 0x33e42df6857f06);
  (0x22adab11d42c4f31, 0x2940fe85909114, 0x15cf66bedfeded01, 0x19f216fb42bf83);
  (0x4e4c788f94082933, 0x2e92963e0b080d, 0x2b9ecd7dbfdbda02, 0x19f216fb42bf83);
  (0xfa8e4e98401a1d7, 0x2e92963e0b080d, 0xc4d03aab7d89654, 0x2495466c37ad75);
  (0x1f51c9d3080343ae, 0x2e92963e0b080d, 0x1bf5e8943bda382b, 0x2993ee55215ac1);
  (0x3ea393a61006875c, 0x2e92963e0b080d, 0x3b47b26743dd7bd9, 0x2c134249963167);
  (0xd331760f8d65093, 0x3111ea327fdeb3, 0x9d736222cad4510, 0x2495466c37ad75);
  (0x1a662ec1f1aca126, 0x3111ea327fdeb3, 0x170a4d83258395a3, 0x2ad3984f5bc614);
  (0x34cc5d83e359424c, 0x3111ea327fdeb3, 0x170a4d83258395a3, 0x1569cc27ade30a);
  (0xd3f2d4c9d991678, 0x3d8e8df8c80ff1, 0x343b56782a37fb9, 0xf2b7a4489ca6b);
  (0x1082e2b4203c9631, 0x265d041ea8ed2e, 0x170a4d83258395a3, 0x35887e6332b799);
  (0x1082e2b4203c9631, 0x132e820f547697, 0x2e149b064b072b46, 0x35887e6332b799);
  (0x5f9d4322abbcedd9, 0x378a0248980daf, 0x3e977dba6b43c177, 0x245b8039439718);
  (0x148112a95e386c17, 0x3b8d0a1362b9db, 0xc84b2bee240c04b, 0x245b8039439718);
  (0x29022552bc70d82e, 0x3b8d0a1362b9db, 0xc84b2bee240c04b, 0x122dc01ca1cb8c);
  (0x52044aa578e1b05c, 0x3b8d0a1362b9db, 0xc84b2bee240c04b, 0x916e00e50e5c6);
  (0xb656107f0e0098e, 0x295f49f6c0ee4f, 0xc84b2bee240c04b, 0x2d726047947cde);
  (0x16cac20fe1c0131c, 0x295f49f6c0ee4f, 0xc84b2bee240c04b, 0x16b93023ca3e6f);
  (0x3c58da4c888253fd, 0x36c56d310fd4ce, 0x1909657dc4818096, 0x16b93023ca3e6f);
  (0xd39ed59f3b2f592, 0x3c0563c9b79e2f, 0x2f3de08f433a2c1, 0xd66233a4ee67f);
  (0x16158774d04dddd5, 0x321be6bc5228d6, 0x1bfd4386b8b52357, 0x3f8209f6a10f55);
  (0x16158774d04dddd5, 0x190df35e29146b, 0x37fa870d716a46ae, 0x3f8209f6a10f55);
  (0x2c2b0ee9a09bbbaa, 0x190df35e29146b, 0x4e100e8241b82483, 0x2c47feaa6511e0);
  (0x13b8d5d40cf15ba1, 0x37efcece3f3fcc, 0x4b9634186b90468, 0xd66233a4ee67f);
  (0x13b8d5d40cf15ba1, 0x1bf7e7671f9fe6, 0x1d2b9c571a636471, 0x295e0aa16e8665);
  (0x13b8d5d40cf15ba1, 0xdfbf3b38fcff3, 0x4e100e8241b82483, 0x3759fe54fe5658);
  (0xff153393ac3be81, 0x38859f47802940, 0x3c7829ad22d9d20, 0xd66233a4ee67f);
  (0x1780586edf1ef8c1, 0x29a8f2de0efb1f, 0x1f0f5da4837a3301, 0x370f16185de19e);
  (0x2f00b0ddbe3df182, 0x29a8f2de0efb1f, 0x1f0f5da4837a3301, 0x1b878b0c2ef0cf);
  (0xceb5123c5d27401, 0x3940e3df114d11, 0x306021574f14a80, 0xd66233a4ee67f);
  (0x15fd576424a65381, 0x30b9a6c6ff0047, 0x1c095b8f0e88e881, 0x3e1fca014de6c6);
  (0x2bfaaec8494ca702, 0x30b9a6c6ff0047, 0x1c095b8f0e88e881, 0x1f0fe500a6f363);
  (0x48040a5757d58f83, 0x27e4c5e3d2f9d5, 0x3812b71e1d11d102, 0x1f0fe500a6f363);
  (0x1197791cea1ea934, 0x30b9a6c6ff0047, 0x133d9f00997993e7, 0x354ae91e21e054);
  (0x232ef239d43d5268, 0x30b9a6c6ff0047, 0x133d9f00997993e7, 0x1aa5748f10f02a);
  (0x599b837441f438b7, 0x3e0c610e87785c, 0x133d9f00997993e7, 0xd52ba47887815);
  (0x28767e392692e9f, 0x8c177f0659808, 0x10b6371d07106548, 0x39dc2b7544c061);
  (0x28767e392692e9f, 0x460bbf832cc04, 0x23f3d61da089f92f, 0x3e3ce76d778c65);
  (0x28767e392692e9f, 0x2305dfc196602, 0x47e7ac3b4113f25e, 0x3e3ce76d778c65);
  (0x28767e392692e9f, 0xaf1d5ec7efe0a, 0xde00dab22eef3f3, 0x3c0c89715e2663);
  (0x28767e392692e9f, 0x578eaf63f7f05, 0x1bc01b5645dde7e6, 0x3c0c89715e2663);
  (0x23565300fd1973c3, 0x263ba52a0e51b9, 0x1e478339d8471685, 0x20c2ba33ced2b4);
  (0x46aca601fa32e786, 0x263ba52a0e51b9, 0x64f4293bd279fe0b, 0x369d0243f5bb13);
  (0xa1a26de15834f19, 0x1b533306666764, 0x1430d50bf6e532cf, 0x369d0243f5bb13);
  (0xa1a26de15834f19, 0xda999833333b2, 0x2861aa17edca659e, 0x369d0243f5bb13);
  (0x5add7b0df1181a55, 0x3d71cf058f54ec, 0x50c3542fdb94cb3c, 0x369d0243f5bb13);
  (0xa1a26de15834f19, 0x2227ffc800013d, 0xa175feab89bc5fd, 0x221e9bff28ed88);
  (0x1e4bada6e3a2642f, 0x33374dc7947801, 0xa175feab89bc5fd, 0x110f4dff9476c4);
  (0x46aebb387fe08e5b, 0x3bbef4c75eb363, 0xa175feab89bc5fd, 0x887a6ffca3b62);
  (0xc1e4575f4a75b46, 0x33374dc7947801, 0xa175feab89bc5fd, 0x2aa642fef328ea);
  (0x183c8aebe94eb68c, 0x33374dc7947801, 0xa175feab89bc5fd, 0x1553217f799475);
  (0x2253ead6a1ea7c89, 0x244537a387063b, 0x3682aaac13220883, 0x39985923009ab0);
  (0x44a7d5ad43d4f912, 0x244537a387063b, 0x3682aaac13220883, 0x1ccc2c91804d58);
  (0x1363a256543ef870, 0x33374dc7947801, 0x53e7755238c07e1, 0xdda166d72db92);
  (0x2c05bc01cc09f8c1, 0x3a2458fe4de5ca, 0x53e7755238c07e1, 0x6ed0b36b96dc9);
  (0x2c05bc01cc09f8c1, 0x1d122c7f26f2e5, 0x3682aaac13220883, 0x23ff37b5e060ae);
  (0x49bf955d92b91d9, 0xf381611b41753, 0xf18e8002043a19b, 0x31d94e23533c40);
  (0x1850daabd29ac54d, 0x2824bd235db573, 0xf18e8002043a19b, 0x18eca711a99e20);
  (0x3fba9d57c5792c35, 0x349b10ac328483, 0xf18e8002043a19b, 0xc765388d4cf10);
  (0x3affaab1422db14, 0xf381611b41753, 0xf18e8002043a19b, 0x3e4fa1ac280b50);
  (0x1678dd56488957c3, 0x2e5fe6e7c81cfb, 0xf18e8002043a19b, 0x1f27d0d61405a8);
  (0x2cf1baac9112af86, 0x2e5fe6e7c81cfb, 0x3c0aa2acb1565121, 0x3df3cf52d21fcf);
  (0x68fc5d59426900a7, 0x3629db1d4d1e65, 0x7815455962aca242, 0x3df3cf52d21fcf);
  (0x11fa4aab6d3aac9c, 0x2e5fe6e7c81cfb, 0xf18e8002043a19b, 0x26f1c50b990712);
  (0x23f49556da755938, 0x2e5fe6e7c81cfb, 0xf18e8002043a19b, 0x1378e285cc8389);
  (0x47e92aadb4eab270, 0x2e5fe6e7c81cfb, 0x330d7d56fab8fad3, 0x20ec64b6ca5042);
  (0xaa5c778880cb8a6, 0x2255263e2aaf5b, 0xa35e5de3224fef7, 0x20ec64b6ca5042);
  (0x1f8174cf423e7043, 0x32cb58998fd77c, 0xa35e5de3224fef7, 0x1076325b652821);
  (0x48590c480ad26c1f, 0x3a521103923c00, 0x146bcbbc6449fdee, 0x1076325b652821);
  (0x64d175ca6d949a7, 0x1965ac4cc7ebbe, 0xe1eb45fbd70b447, 0x38e94f7c31dce7);
  (0x64d175ca6d949a7, 0xcb2d62663f5df, 0x1c3d68bf7ae1688e, 0x38e94f7c31dce7);
  (0x2f24aed56f6d4583, 0x2f80e8f7aedf42, 0x228a801c21bab235, 0x22ce12d14ae963);
  (0x96dbc9116490de7, 0x2f80e8f7aedf42, 0x6414a68dedf8880, 0x1f83a32f69f129);
  (0x96dbc9116490de7, 0x17c0747bd76fa1, 0x15f05162d4081ee7, 0x374417ab4160ca);
  (0x12db79222c921bce, 0x17c0747bd76fa1, 0x28cbca85009a3ab5, 0x33628051782006);
  (0x25b6f2445924379c, 0x17c0747bd76fa1, 0x4e82bcc959be7251, 0x3171b4a4937fa4);
  (0x78afd40dea0d7ec, 0x17c0747bd76fa1, 0x122ad2c264b7b2f1, 0x3934e35826012c);
  (0xf15fa81bd41afd8, 0x17c0747bd76fa1, 0x2140cd4421f962c9, 0x345ae627ea7037);
  (0x1e2bf5037a835fb0, 0x17c0747bd76fa1, 0x4e82bcc959be7251, 0x3dce21cdb85f8d);
  (0x608ca9a4bb3dff0, 0x17c0747bd76fa1, 0xc2208281903d301, 0x2fc1a7b25811d6);
  (0xc1195349767bfe0, 0x17c0747bd76fa1, 0x18339d5cb06b92e1, 0x2fa1485503788c);
  (0x18232a692ecf7fc0, 0x17c0747bd76fa1, 0x3056c7c5df3b12a1, 0x2f9118a6592be7);
  (0xcfee779314b5799, 0x3ff0c9e0739b56, 0x34a30b3859d6d, 0x102faeaa4ca5);
  (0x181fe0387b49e253, 0x3b590b5e4570c0, 0x18267499e2551d2d, 0x3b693b0cefbd65);
  (0x181fe0387b49e253, 0x1dac85af22b860, 0x304ce933c4aa3a5a, 0x3b693b0cefbd65);
  (0x181fe0387b49e253, 0xed642d7915c30, 0x6099d267895474b4, 0x3b693b0cefbd65);
  (0x4d32cd818a86077, 0xed642d7915c30, 0x136704e5fece6d44, 0x3ba9f9c798eff9);
  (0x4d32cd818a86077, 0x76b216bc8ae18, 0x26ce09cbfd9cda88, 0x3ba9f9c798eff9);
  (0x4d32cd818a86077, 0x3b590b5e4570c, 0x526f407013e21587, 0x3f5f8a7d7d4705);
  (0x4d32cd818a86077, 0x128bd38d75b33c, 0x107ca67cd0c6d11b, 0x3f5f8a7d7d4705);
  (0x4d32cd818a86077, 0x945e9c6bad99e, 0x20f94cf9a18da236, 0x3f5f8a7d7d4705);
  (0x4d32cd818a86077, 0x4a2f4e35d6ccf, 0x41f299f3431b446c, 0x3f5f8a7d7d4705);
  (0x4d32cd818a86077, 0x172ec870d3200b, 0x9546150934b8d50, 0x2cd3b6f00793c9);
  (0x9a659b03150c0ee, 0x172ec870d3200b, 0x17cde7d8dd44aeb5, 0x393008214079f5);
  (0x134cb36062a181dc, 0x172ec870d3200b, 0x34c0f4e97136f17f, 0x3f5e30b9dced0b);
  (0x269966c0c54303b8, 0x172ec870d3200b, 0x480da849d3d8735b, 0x2b467c9558068b);
  (0x1077fd58403d8581, 0x3174a52df479a1, 0x5a96c1044c7f8b6, 0x11009fd836acf5);
  (0x1621696885057e37, 0x213aa28315934b, 0x217441890e956fa3, 0x323b425b4c4040);
  (0x2c42d2d10a0afc6e, 0x213aa28315934b, 0x4db7145a18a06c11, 0x3a5843b0bbb36b);
  (0xf561aee98e253c3, 0x3991a68363eccc, 0x48789a69d6cc6f8, 0x11009fd836acf5);
  (0xf561aee98e253c3, 0x1cc8d341b1f666, 0x18652e3bd3bbe1b3, 0x2dc97319e8a35b);
  (0x40207766405a1729, 0x3c2ddcbac19e8e, 0x30ca5c77a777c366, 0x2dc97319e8a35b);
  (0xcd34b14734537d5, 0x3c2ddcbac19e8e, 0xa507b3a4da81be7, 0x3065a95146551d);
  (0xcd34b14734537d5, 0x1e16ee5d60cf47, 0x14a0f6749b5037ce, 0x3065a95146551d);
  (0x19a69628e68a6faa, 0x1e16ee5d60cf47, 0x217441890e956fa3, 0x273e4bd7539232);
  (0x334d2c51cd14df54, 0x1e16ee5d60cf47, 0x54c16ddadbaa4ef7, 0x31b614490a9860);
  (0xa42a276c29dc644, 0x1e16ee5d60cf47, 0xceefc9b8959e31b, 0x25ede0df8f4eef);
  (0x148544ed853b8c88, 0x1e16ee5d60cf47, 0x17319f124bf7a95f, 0x2202679e780f1b);
  (0x290a89db0a771910, 0x1e16ee5d60cf47, 0x54c16ddadbaa4ef7, 0x3e23995b4d3e78);
  (0xfe1beb6a93d3775, 0x3a38201a35fea4, 0x9470c6db7fcaa26, 0x2202679e780f1b);
  (0xfe1beb6a93d3775, 0x1d1c100d1aff52, 0x226fd79219368bc1, 0x3f1e77ab930e6d);
  (0xfe1beb6a93d3775, 0xe8e08068d7fa9, 0x44dfaf24326d1782, 0x3f1e77ab930e6d);
  (0x5488ea0c100710c, 0x1835b87bbdef89, 0xa993015e83cc669, 0x30906fa5058ec4);
  (0x152a4d576a3da881, 0x307df04e40b6eb, 0xa993015e83cc669, 0x184837d282c762);
  (0x34edcac4bcb8176b, 0x3ca20c37821a9c, 0xa993015e83cc669, 0xc241be94163b1);
  (0x5f528b1c5dab310f, 0x36993dee43d4b0, 0x1532602bd0798cd2, 0xc241be94163b1);
  (0x658aeeb6272e885, 0x122cea327fa99d, 0x1532602bd0798cd2, 0x3cb48b8e46f275);
  (0x283c6cedf7d24661, 0x399da512e2f7a6, 0x1b8b0f1732ec7557, 0x2770bae0634e09);
  (0x283c6cedf7d24661, 0x1cced289717bd3, 0x37161e2e65d8eaae, 0x2770bae0634e09);
  (0x513bf22b528ba04, 0x122cea327fa99d, 0xed9b1406e06a44d, 0x352989b2b91b0e);
  (0x2328adcb42a98c5d, 0x3eee993e5be0c1, 0x19012f85d8581855, 0x2cc1af0bdc3724);
  (0x46515b96855318ba, 0x3eee993e5be0c1, 0x19012f85d8581855, 0x1660d785ee1b92);
  (0x40fcc1bc42094d0, 0x122cea327fa99d, 0xcd1cb328bf659e5, 0x395d7706278d03);
  (0x81f9837884129a0, 0x122cea327fa99d, 0x19012f85d8581855, 0x37f21aced344ed);
  (0x2120c7bd609941f5, 0x250f8280a97745, 0x32025f0bb0b030aa, 0x37f21aced344ed);
  (0x42418f7ac13283ea, 0x250f8280a97745, 0x532326c91149729f, 0x2e80cea7be5e19);
  (0x105fab6883a00bf1, 0x2dcb208c143a0e, 0x10a0a15b69db7d53, 0x2e80cea7be5e19);
  (0x105fab6883a00bf1, 0x16e590460a1d07, 0x214142b6d3b6faa6, 0x2e80cea7be5e19);
  (0x31a0ee1f57570697, 0x22b32f76e43d90, 0x4282856da76df54c, 0x2e80cea7be5e19);
  (0x9b9047726150d03, 0x21fd815b3a1985, 0xd4d4de2bb15fddc, 0x2e80cea7be5e19);
  (0x17065259e12b0adf, 0x283f28017c3bcf, 0x1a9a9bc5762bfbb8, 0x2e80cea7be5e19);
  (0x31a0ee1f57570697, 0x2b5ffb549d4cf4, 0x3535378aec57f770, 0x2e80cea7be5e19);
  (0x87e78a809110761, 0x251e54ae5b2aaa, 0xc12c2139e11f83a, 0x34c2754e008063);
  (0x87e78a809110761, 0x128f2a572d9555, 0x182584273c23f074, 0x34c2754e008063);
  (0x31a0ee1f57570697, 0x3637fa29c4a031, 0x20a3fccf4534f7d5, 0x23a8cfd2970adc);
  (0x6341dc3eaeae0d2e, 0x3637fa29c4a031, 0x20a3fccf4534f7d5, 0x11d467e94b856e);
  (0x14eb7d806efbba62, 0x392303e14cdfcd, 0x687328fdaa43191, 0x11d467e94b856e);
  (0x29d6fb00ddf774c4, 0x392303e14cdfcd, 0x687328fdaa43191, 0x8ea33f4a5c2b7);
  (0x57895cefd874cfbb, 0x3bc537c8ea9967, 0xd0e651fb5486322, 0x8ea33f4a5c2b7);
  (0x11086e116bedeb9d, 0x3a269c1f1975b6, 0x29c7a9ff10e7a3a, 0x8ea33f4a5c2b7);
  (0x20b34dd11244c8f9, 0x37d1e9ed7e0300, 0x538f53fe21cf474, 0x8ea33f4a5c2b7);
  (0x4a7af7d0232c6c99, 0x3f91c4c9560c5c, 0xa71ea7fc439e8e8, 0x8ea33f4a5c2b7);
  (0xcce9c43463080bd, 0x36a790d4b049a5, 0xa71ea7fc439e8e8, 0x2c9303c73ccd93);
  (0x174086c30a6a69a5, 0x319d4a4df68b9c, 0x14e3d4ff8873d1d0, 0x2c9303c73ccd93);
  (0x174086c30a6a69a5, 0x18cea526fb45ce, 0x29c7a9ff10e7a3a0, 0x2c9303c73ccd93);
  (0x174086c30a6a69a5, 0xc6752937da2e7, 0x6acfdac12c39b0e5, 0x38fa565aba707a);
  (0x174086c30a6a69a5, 0x3e049ce1742e83, 0x155cc559d5a52361, 0x38fa565aba707a);
  (0x2e810d8614d4d34a, 0x3e049ce1742e83, 0x155cc559d5a52361, 0x1c7d2b2d5d383d);
  (0x43ddd2dfea79f6ab, 0x2d40e40768b360, 0x2ab98ab3ab4a46c2, 0x1c7d2b2d5d383d);
  (0x50741a273098995, 0x10c3b8da0b7b23, 0x119542876c1a96d9, 0x3a9f3ba098b182);
  (0xa0e8344e613132a, 0x10c3b8da0b7b23, 0x25b249113840bd2d, 0x3ed70f84634f07);
  (0x2fc0cc561e53d057, 0x27cd642f376515, 0x4b64922270817a5a, 0x3ed70f84634f07);
  (0xe17a0bafa8689c8, 0x3abad255b7ac73, 0x1815973b467e723, 0x645f27b206ecf);
  (0x159e5ffd808e0d77, 0x2d0c475eaceb3f, 0x18a112e4e95ddbbd, 0x335239d9cd5a0e);
  (0x2b3cbffb011c1aee, 0x2d0c475eaceb3f, 0x18a112e4e95ddbbd, 0x19a91cece6ad07);
  (0x751ff8a9bd35ae25, 0x3d03cf12b0792a, 0x314225c9d2bbb77a, 0x19a91cece6ad07);
  (0x129bad1617be3f31, 0x3077ea1c6f9b8c, 0x9da078ec3bf24b2, 0x19a91cece6ad07);
  (0x264fbc339f3c8895, 0x31e511fb1e7acd, 0x13b40f1d877e4964, 0x19a91cece6ad07);
  (0x616be98c35b764c1, 0x3f703460e940f1, 0x27681e3b0efc92c8, 0x19a91cece6ad07);
  (0xf531814a61836a2, 0x31e511fb1e7acd, 0xc0a831334722e13, 0x27343f52b1732b);
  (0x1b5d9b27da8a64b5, 0x2c8ca8a6e7f6fc, 0x1815062668e45c26, 0x27343f52b1732b);
  (0x1b5d9b27da8a64b5, 0x1646545373fb7e, 0x4b87a774ac531d01, 0x3d7a93a6256ea9);
  (0x1503b9a2d759d06, 0x55869543683d1, 0xf8b82bc4167df7f, 0x3f43f1ab59471d);
  (0x1b5d9b27da8a64b5, 0x37afd2d0a1f4bb, 0x18bd23f37f9f2aa9, 0x3257697c6b70ea);
  (0x36bb364fb514c96a, 0x37afd2d0a1f4bb, 0x18bd23f37f9f2aa9, 0x192bb4be35b875);
  (0x70c99c0fbdc03c5, 0x23dc8766a2c017, 0x8d8451941e19372, 0x2cff002834ed19);
  (0xe193381f7b8078a, 0x23dc8766a2c017, 0xfe4deda3dbd9737, 0x286dc3c76bd698);
  (0x2c1745de2d2da64b, 0x3813694a58ab63, 0xfe4deda3dbd9737, 0x1436e1e3b5eb4c);
  (0x582e8bbc5a5b4c96, 0x3813694a58ab63, 0xfe4deda3dbd9737, 0xa1b70f1daf5a6);
  (0xb475c67f9600608, 0x23dc8766a2c017, 0xfe4deda3dbd9737, 0x328934b946cc3e);
  (0x267397aa307da347, 0x3d2121c3462636, 0xfe4deda3dbd9737, 0x19449a5ca3661f);
  (0x463d555eabf8d1b5, 0x37d52b3e46793a, 0x1fc9bdb47b7b2e6e, 0x19449a5ca3661f);
  (0xbb03ab5764dcd2a, 0x2e747470a21a0f, 0x50660bfc14b5851, 0x13f8a3d7a3b923);
  (0x1ac35cf4ba2fd61d, 0x352f2ffbc6a2bc, 0xa0cc17f8296b0a2, 0x13f8a3d7a3b923);
  (0x1ac35cf4ba2fd61d, 0x1a9797fde3515e, 0x2edcdff3bf5d3761, 0x2e903bd5870a81);
  (0xaaef428b60b884d, 0x35136896e1b24a, 0x4051a3301091374, 0x13f8a3d7a3b923);
  (0x12b9288eb81daf35, 0x2e825823149248, 0x80a3466021226e8, 0x13f8a3d7a3b923);
  (0x12b9288eb81daf35, 0x17412c118a4924, 0x22cd915abc41fd05, 0x2b39cfe92e0247);
  (0x58544b4430a1a93f, 0x36da65f1f326d9, 0x459b22b57883fa0a, 0x2b39cfe92e0247);
  (0x12b9288eb81daf35, 0x3a22ee2bd9b6da, 0xdebd3bde4e73202, 0x2b39cfe92e0247);
  (0x12b9288eb81daf35, 0x1d117715ecdb6d, 0x1bd7a77bc9ce6404, 0x2b39cfe92e0247);
  (0x2e90d00a81ec1339, 0x2425a37f8d6eda, 0x37af4ef7939cc808, 0x2b39cfe92e0247);
  (0x5aa5d3cdfb5551f, 0x15fd4aac4c4800, 0xec8dc29f16609ee, 0x396228bc6f2921);
  (0x5aa5d3cdfb5551f, 0xafea556262400, 0x1d91b853e2cc13dc, 0x396228bc6f2921);
  (0x5aa5d3cdfb5551f, 0x57f52ab131200, 0x40cdcde4a54d7cd7, 0x3ee17b67823b21);
  (0x5aa5d3cdfb5551f, 0x1b7c9d575f5a00, 0xbd3e354c11e6e58, 0x396228bc6f2921);
  (0x5aa5d3cdfb5551f, 0xdbe4eabafad00, 0x17a7c6a9823cdcb0, 0x396228bc6f2921);
  (0x5aa5d3cdfb5551f, 0x6df2755d7d680, 0x2f4f8d530479b960, 0x396228bc6f2921);
  (0x5aa5d3cdfb5551f, 0x36f93aaebeb40, 0x644977e2e8a8c7df, 0x3cd1bc675b1461);
  (0x5aa5d3cdfb5551f, 0x112de2569b9840, 0x140eb193c821c193, 0x3cd1bc675b1461);
  (0x5aa5d3cdfb5551f, 0x896f12b4dcc20, 0x281d632790438326, 0x3cd1bc675b1461);
  (0x5aa5d3cdfb5551f, 0x44b7895a6e610, 0x503ac64f2087064c, 0x3cd1bc675b1461);
  (0x5aa5d3cdfb5551f, 0x15795aec427e50, 0xca58951b37b0163, 0x2fef52a6666231);
  (0x5aa5d3cdfb5551f, 0xabcad76213f28, 0x1ef56fe046ab57e5, 0x3aac001c87a159);
  (0x5aa5d3cdfb5551f, 0x55e56bb109f94, 0x3deadfc08d56afca, 0x3aac001c87a159);
  (0x5aa5d3cdfb5551f, 0x1ad7b1a7531de4, 0x8fbf4cec93e2349, 0x2a90fbeb55c29d);
  (0x5aa5d3cdfb5551f, 0xd6bd8d3a98ef2, 0x17a246da72319bb1, 0x37fcd4beff518f);
  (0x5aa5d3cdfb5551f, 0x6b5ec69d4c779, 0x34eeeaf1c4188c81, 0x3eb2c128d41908);
  (0x4b985fe542ede0fd, 0x2cc53968139b76, 0x4043a56b838336bf, 0x260f4cfe3ed3fd);
  (0xb54ba79bf6aaa3e, 0x218d9e1127e55d, 0xcda5448b3e70af3, 0x260f4cfe3ed3fd);
  (0x182f0ec27351b531, 0x23ce7587b35cad, 0x19b4a89167ce15e6, 0x260f4cfe3ed3fd);
  (0x31e3b753db1fcb17, 0x24eee142f91855, 0x33695122cf9c2bcc, 0x260f4cfe3ed3fd);
  (0x9ac6c4dc7ba487a, 0x23ce7587b35cad, 0xb32061cbc36a92f, 0x297090301006f5);
  (0x1358d89b8f7490f4, 0x23ce7587b35cad, 0x14de726a83f0f1a9, 0x269f82dbe1b1d1);
  (0x28374b061365829d, 0x2536fc31ca873f, 0x29bce4d507e1e352, 0x269f82dbe1b1d1);
  (0x7bd23716c9506c8, 0x23ce7587b35cad, 0x942bd406111677d, 0x2ad916da273187);
  (0xf7a46e2d92a0d90, 0x23ce7587b35cad, 0x10ffe0b1cda66e45, 0x2753c630ed471a);
  (0x2ff46e777ffa8965, 0x377858a02a003a, 0x10ffe0b1cda66e45, 0x13a9e31876a38d);
  (0x51f42fdb1b4765ef, 0x2f660f688ba3aa, 0x21ffc1639b4cdc8a, 0x13a9e31876a38d);
  (0x997494b199881e1, 0x1bbc2c5015001d, 0xed12ecd681bd8c8, 0x2ad916da273187);
  (0x132e9296333103c2, 0x1bbc2c5015001d, 0x2b970aaeb4e55e6b, 0x3f06cde53318ef);
  (0x265d252c66620784, 0x1bbc2c5015001d, 0x3ec59d44e816622d, 0x2d617d1aa40c86);
  (0xdf4ad13e4adacdb, 0x3272499b9dc284, 0x4e1b19e80574555, 0x11a550ca8f0c69);
  (0x217b738de60ac22f, 0x3c83c662ecfa14, 0x9c3633d00ae8aaa, 0x11a550ca8f0c69);
  (0x35023a07e767d783, 0x2fe733fc058973, 0x1386c67a015d1554, 0x11a550ca8f0c69);
  (0xa9a0b9b2e47f7e7, 0x2fe733fc058973, 0x8ecbaded3151d6d, 0x28535ff8c5b49a);
  (0x153417365c8fefce, 0x2fe733fc058973, 0x8ecbaded3151d6d, 0x1429affc62da4d);
  (0x2a682e6cb91fdf9c, 0x2fe733fc058973, 0x1e20d2152fa50d3b, 0x220871fc3431e0);
  (0x54d05cd9723fbf38, 0x2fe733fc058973, 0x1e20d2152fa50d3b, 0x110438fe1a18f0);
  (0x10f678f84a0cbfd8, 0x2fe733fc058973, 0xd2a591ce5984d63, 0x252de8fa7cf33d);
  (0x21ecf1f094197fb0, 0x2fe733fc058973, 0x1e20d2152fa50d3b, 0x2a8a8e7b413e58);
  (0x43d9e3e12832ff60, 0x2fe733fc058973, 0x1e20d2152fa50d3b, 0x1545473da09f2c);
  (0x78b69f5981c63a1, 0x1aa1ecbe64ea47, 0xf09fe29ff6c45f9, 0x35168ab759474e);
  (0xf16d3eb3038c742, 0x1aa1ecbe64ea47, 0x1e20d2152fa50d3b, 0x352d321a118dee);
  (0x3c4e79eb90169bbf, 0x353885cb6db13e, 0x1e20d2152fa50d3b, 0x1a96990d08c6f7);
  (0xc14d449305652dd, 0x354f2d2e25f7de, 0x603ff43ffc4e8ca, 0x1a8b455baca3a7);
  (0xc14d449305652dd, 0x1aa7969712fbef, 0x181cd2d12fe02471, 0x3532dbf2bf9f96);
  (0x30467b63908cca2b, 0x3541049072cbba, 0x181cd2d12fe02471, 0x1a996df95fcfcb);
  (0x60802105f04d130d, 0x3539f0419935a8, 0x3039a5a25fc048e2, 0x1a996df95fcfcb);
  (0x1351f5b4dd2e0453, 0x354818df4c61cc, 0x9a28ff9d630c185, 0x1a9259aa8639b9);
  (0x1351f5b4dd2e0453, 0x1aa40c6fa630e6, 0x269715a8898f875d, 0x3536661a2c6a9f);
  (0x1351f5b4dd2e0453, 0xd520637d31873, 0x4d2e2b51131f0eba, 0x3536661a2c6a9f);
  (0xf79e6ddf7a9d0c6, 0x3559cba46c58f9, 0x3d80ed6e584338d, 0xd405372b32146);
  (0x22cbdc92d4d7d519, 0x3bf9f55dc5e99c, 0x3d80ed6e584338d, 0x6a029b95990a3);
  (0x2a7bfa409fe03c33, 0x249d24683c8571, 0x322c17ee6ae8a34d, 0x2b3d4e21961614);
  (0xecec29bc4f52f6f, 0x3fcec700e26fbf, 0x1899f89289b47d2, 0x6a029b95990a3);
  (0x1ca55e6e326ab5d1, 0x3db81f428442bd, 0x3133f1251368fa4, 0x6a029b95990a3);
  (0x2c0599c9c87b8405, 0x2f6c77f0a20af6, 0x322c17ee6ae8a34d, 0x360ca1a9fb9b99);
  (0x2c0599c9c87b8405, 0x17b63bf851057b, 0x64582fdcd5d1469a, 0x360ca1a9fb9b99);
  (0x15e16d45e625e035, 0x3aedb4556f05ac, 0x275cc0ea75ed950, 0x6a029b95990a3);
  (0x2e7b65d86fda5d55, 0x3e97aac9775605, 0x4eb981d4ebdb2a0, 0x6a029b95990a3);
  (0x5cf6cbb0dfb4baaa, 0x3e97aac9775605, 0x3366fdf5be980ff5, 0x229bea41687354);
  (0x11f1c061a727b7b5, 0x3c68cdf817a5d1, 0x1f7d6721f7f1440, 0x6a029b95990a3);
  (0x23a84a64c29f6df5, 0x3c0522be1eddc6, 0x3eface43efe2880, 0x6a029b95990a3);
  (0x2b87a42d409bbef5, 0x24a2bb1868ff86, 0x3366fdf5be980ff5, 0x2b42e4d1c29029);
  (0x3fb8490c1548f31, 0x10c23dec5c4d9d, 0xbdade593f50e031, 0x31e30e8b1c20cc);
  (0x13d1e77ac1f9fe93, 0x29b3c531ea5e03, 0xbdade593f50e031, 0x18f187458e1066);
  (0x337ead4ec344dd57, 0x362c88d4b16636, 0xbdade593f50e031, 0xc78c3a2c70833);
  (0x62ea26b3c0885e1b, 0x3407cbafe6c381, 0x17b5bcb27ea1c062, 0xc78c3a2c70833);
  (0xd0a3fb8e0045b7, 0x224bd24caa2b5, 0x17b5bcb27ea1c062, 0x3e5bd22de328ff);
  (0x188660ae0ca20619, 0x204047a956e5da, 0x2f6b7964fd4380c4, 0x3e5bd22de328ff);
  (0x188660ae0ca20619, 0x102023d4ab72ed, 0x5ed6f2c9fa870188, 0x3e5bd22de328ff);
  (0xa76437543743a36, 0x226504ce21888f, 0xe101d38c92dcbe3, 0x2e3bae5937b612);
  (0x22fca4235016404f, 0x3982dbfabd6398, 0xe101d38c92dcbe3, 0x171dd72c9bdb09);
  (0x22fca4235016404f, 0x1cc16dfd5eb1cc, 0x3f1cde94e271d815, 0x33df4529fa8cd5);
  (0x6ff540710047343, 0x1cc16dfd5eb1cc, 0xe2192637252b140, 0x3a1257e44de395);
  (0x6ff540710047343, 0xe60b6feaf58e6, 0x1c4324c6e4a56280, 0x3a1257e44de395);
  (0x6ff540710047343, 0x7305b7f57ac73, 0x3886498dc94ac500, 0x3a1257e44de395);
  (0xdfea80e2008e686, 0x7305b7f57ac73, 0x77803dcd5972d25b, 0x3d62c7af3179d0);
  (0xdfea80e2008e686, 0x23f1c97cb65e3f, 0xcb452b75ea971a7, 0x20a159b1d2c804);
  (0x1bfd501c4011cd0c, 0x23f1c97cb65e3f, 0x28b1a2d39ebb3eb3, 0x344276559fc241);
  (0x44aef2efdecd0bbf, 0x2c1a1fe92b1040, 0x516345a73d767d66, 0x344276559fc241);
  (0x11dda81264274523, 0x395bdf14b9692c, 0x28a76f1795516bb, 0x828566c74b201);
  (0x26315f9e2ecffafb, 0x3d4f493c2f7c9a, 0x514ede2f2aa2d76, 0x828566c74b201);
  (0x44aef2efdecd0bbf, 0x3720a7e375d450, 0x4ed8ceb5c42166ab, 0x3f48fe4fea8651);
  (0x9abd8ad9da0ddfb, 0x26cffb0a8c704e, 0xa29dbc5e5545aec, 0x28c9b01e477a05);
  (0x9abd8ad9da0ddfb, 0x1367fd85463827, 0x1dff9039684993d3, 0x3c31ada38db22c);
  (0x1357b15b3b41bbf6, 0x1367fd85463827, 0x31574194a38b4fc9, 0x3180d4570d113d);
  (0x757de11118ab408, 0x24d645f6d16697, 0x5ffe9a514db83f7, 0x1e18d6d1c6d916);
  (0x14afa5c737f0ec07, 0x33e2b15fb4d322, 0x5ffe9a514db83f7, 0xf0c6b68e36c8b);
  (0x2caf4c5b8b5efbe3, 0x380a2f81a142a7, 0xbffd34a29b707ee, 0xf0c6b68e36c8b);
  (0x38af1fa5b51603d1, 0x238b4d75425799, 0x50aec63a088413ad, 0x3297b8de25c424);
  (0x12494851fc65ea71, 0x395528033051a5, 0x4ccbaea7716032c, 0xf0c6b68e36c8b);
  (0x20af791161a7f3f5, 0x333d351eed4ba3, 0x99975d4ee2c0658, 0xf0c6b68e36c8b);
  (0x3d7bda902c2c06fd, 0x30313baccbc8a2, 0x50aec63a088413ad, 0x3f3da715af352d);
  (0x49e00a5b0b262b9, 0x121864db04ef8c, 0xe94eb042ba5a9f7, 0x3925b4316c2f2b);
  (0x49e00a5b0b262b9, 0x90c326d8277c6, 0x1d29d608574b53ee, 0x3925b4316c2f2b);
  (0x49e00a5b0b262b9, 0x4861936c13be3, 0x3ef1acb65f490a95, 0x3dabcd682d6b0e);
  (0x49e00a5b0b262b9, 0x169e7e11c62b6f, 0xbaa559cefb7bb2c, 0x3925b4316c2f2b);
  (0x1984578e01cee357, 0x3e8097335f58bc, 0x10485642a06a1de5, 0x27e21921992d4d);
  (0x1984578e01cee357, 0x1f404b99afac5e, 0x2090ac8540d43bca, 0x27e21921992d4d);
  (0x1984578e01cee357, 0xfa025ccd7d62f, 0x5aa5b09883775aeb, 0x37823eee71037c);
  (0x248bc531a5a707d, 0x6fe5844ee5540, 0x12aa2294b2bf91e0, 0x3925b4316c2f2b);
  (0x248bc531a5a707d, 0x37f2c22772aa0, 0x279d017c7fd9943d, 0x3ca4e053e359cb);
  (0x248bc531a5a707d, 0x1bf96113b9550, 0x5182bf4c1a0d98f7, 0x3e6476651eef1b);
  (0x248bc531a5a707d, 0x8bdee5629ea90, 0xf6374879444f199, 0x3ae54a42a7c47b);
  (0x248bc531a5a707d, 0x45ef72b14f548, 0x210fa56242e453af, 0x3f44416dbcb9c3);
  (0x248bc531a5a707d, 0x22f7b958a7aa4, 0x421f4ac485c8a75e, 0x3f44416dbcb9c3);
  (0x248bc531a5a707d, 0xaed69ebb46534, 0xc4f906c769d8e14, 0x3ae54a42a7c47b);
  (0x248bc531a5a707d, 0x576b4f5da329a, 0x189f20d8ed3b1c28, 0x3ae54a42a7c47b);
  (0x248bc531a5a707d, 0x2bb5a7aed194d, 0x3386fe04f4d0a8cd, 0x3da0a4bd94ddc8);
  (0x413b67f792ef4bbb, 0x270261cf91bacb, 0x3ca9ef515e3a6ac1, 0x24470754a4a17e);
  (0x10b37550145a2987, 0x31efcbbb461fff, 0xc21fca9dfa5488d, 0x24470754a4a17e);
  (0x2166eaa028b4530e, 0x31efcbbb461fff, 0xc21fca9dfa5488d, 0x122383aa5250bf);
  (0x45cce09dc7a42cb5, 0x342d2b5d1e891e, 0x1843f953bf4a911a, 0x122383aa5250bf);
  (0x111311403d221ade, 0x3fd116bd76a647, 0x9968ac4ad8b485, 0x23d5fa1d8691f);
  (0x17aa90a77471dc95, 0x2c3a1958e1954e, 0x18dd62000a23459f, 0x2e7778fab9fe6d);
  (0x17aa90a77471dc95, 0x161d0cac70caa7, 0x31bac40014468b3e, 0x2e7778fab9fe6d);
  (0xd3daf50ce1cc9eb, 0x3ddc66c1a18db7, 0x53670ab532a8955, 0x185a6c4e4933c6);
  (0x1a7b5ea19c3993d6, 0x3ddc66c1a18db7, 0x53670ab532a8955, 0xc2d36272499e3);
  (0x348b91fa3c0e427f, 0x3d5f3ac2ac4793, 0xa6ce156a65512aa, 0xc2d36272499e3);
  (0x691723f4781c84fe, 0x3d5f3ac2ac4793, 0x3ef87350e2635529, 0x24c63874e870bb);
  (0x86c89ba51250991, 0x1899024dc3d6d8, 0x14d9c2ad4caa2554, 0x3ce20ec3b7016f);
  (0x86c89ba51250991, 0xc4c8126e1eb6c, 0x29b3855a99544aa8, 0x3ce20ec3b7016f);
  (0x86c89ba51250991, 0x626409370f5b6, 0x53670ab532a89550, 0x3ce20ec3b7016f);
  (0x86c89ba51250991, 0x1ebf42e134cc8e, 0x9f0fa5bfc6a7c9c, 0x24490c75f32a97);
  (0x86c89ba51250991, 0xf5fa1709a6647, 0x1c4e7e7249fa02c9, 0x33a8ade68d90de);
  (0x10d91374a24a1322, 0xf5fa1709a6647, 0x3e00a55b8e8e290d, 0x389399d47b94fd);
  (0xc43b575926a19ac, 0x37f4bc2dab3b13, 0x24aaeff87effcbb, 0xa74b582ac6228);
  (0x1ad219eaacc43013, 0x3d2f16ef016c27, 0x24aaeff87effcbb, 0x53a5ac1563114);
  (0x37eee2d4e1785ce1, 0x3fcc444fac84b1, 0x24aaeff87effcbb, 0x29d2d60ab188a);
  (0x6fddc5a9c2f0b9c2, 0x3fcc444fac84b1, 0x24aaeff87effcbb, 0x14e96b0558c45);
  (0x1574e1888a368cdc, 0x3d2f16ef016c27, 0x24aaeff87effcbb, 0x688f171abbd59);
  (0x1c54ee872206830d, 0x2864f5a2025219, 0x20ea4c8631e67c83, 0x2eede713ae0f72);
  (0x38a9dd0e440d061a, 0x2864f5a2025219, 0x5994299475f3829d, 0x3fdbe92bd959d2);
  (0x112a4e06d4f870b0, 0x3d2f16ef016c27, 0x69542813d2e18e7, 0x1776f389d707b9);
  (0x17bf908812268997, 0x2a53053c6c39f0, 0xd2a85027a5c31ce, 0x1776f389d707b9);
  (0x32149a8d06deed33, 0x2ca076280d24b1, 0x1a550a04f4b8639c, 0x1776f389d707b9);
  (0xdedf613e862b384, 0x3e102b9a1d2485, 0x844b7f60839201, 0x24d70eba0eac1);
  (0x18c82786d32dad99, 0x3735377728332d, 0x19d0be859434d19b, 0x3982a862c91dee);
  (0x31904f0da65b5b32, 0x3735377728332d, 0x19d0be859434d19b, 0x1cc15431648ef7);
  (0x4b610d933a902ccd, 0x29fb45d4466112, 0x33a17d0b2869a336, 0x1cc15431648ef7);
  (0xd6c111f7077cf59, 0x256063fd048b90, 0xa537f68a1aeba3e, 0x1cc15431648ef7);
  (0x22130ff0b3d543d5, 0x2f71862fe6d4bf, 0x14a6fed1435d747c, 0x1cc15431648ef7);
  (0x36ba0ec1f732b851, 0x26196d30a5b1db, 0x294dfda286bae8f8, 0x1cc15431648ef7);
  (0xda139937b221b22, 0x2f71862fe6d4bf, 0xdd6620785cc66eb, 0x302a8f6387fb0a);
  (0x1b427326f6443644, 0x2f71862fe6d4bf, 0xdd6620785cc66eb, 0x181547b1c3fd85);
  (0x2918d52e7c109d2f, 0x23c366f0d56922, 0x44c5993d87a96b05, 0x3bd8aea29966a7);
  (0xd9697e2ac333f2d, 0x3b1fa56ef8405c, 0xdc11ea5e7eeaf01, 0x3bd8aea29966a7);
  (0xd9697e2ac333f2d, 0x1d8fd2b77c202e, 0x1b823d4bcfdd5e02, 0x3bd8aea29966a7);
  (0xd9697e2ac333f2d, 0xec7e95bbe1017, 0x37047a979fbabc04, 0x3bd8aea29966a7);
  (0x449b127a4bedfb31, 0x25504bff2bbb5f, 0x6e08f52f3f757808, 0x3bd8aea29966a7);
  (0xdb89d4ba8c9323d, 0x25504bff2bbb5f, 0xdfca81da1f5185d, 0x26095532cce1aa);
  (0x1b713a975192647a, 0x25504bff2bbb5f, 0x296de2b4f3877cd7, 0x3854f698922c34);
  (0x36e2752ea324c8f4, 0x25504bff2bbb5f, 0x296de2b4f3877cd7, 0x1c2a7b4c49161a);
  (0xd749279af9d4c1d, 0x2dbd137e6d3a59, 0x598433f0d953cf2, 0x1304aa996670d5);
  (0x1e3d5c36d85d02f3, 0x336589a550466c, 0xb30867e1b2a79e4, 0x1304aa996670d5);
  (0x1e3d5c36d85d02f3, 0x19b2c4d2a82336, 0x349e69330eb1f6bb, 0x2cb76f6c0e940b);
  (0x93132226c15d375, 0x270ef9452b87f8, 0xa86150a362397bf, 0x2cb76f6c0e940b);
  (0x93132226c15d375, 0x13877ca295c3fc, 0x150c2a146c472f7e, 0x2cb76f6c0e940b);
  (0x93132226c15d375, 0x9c3be514ae1fe, 0x3349864b44a43271, 0x367b2dbd597609);
  (0x93132226c15d375, 0x4e1df28a570ff, 0x6fc43eb8f55e3857, 0x3b5d0ce5fee708);
  (0x93132226c15d375, 0x18695bcb3b34fb, 0x165a72f1caac71ab, 0x3b5d0ce5fee708);
  (0x28bcd736a2d81895, 0x3617e23e3aa87f, 0x165a72f1caac71ab, 0x1dae8672ff7384);
  (0x5179ae6d45b0312a, 0x3617e23e3aa87f, 0x165a72f1caac71ab, 0xed743397fb9c2);
  (0x12e2d2fb749a2618, 0x3eb1be122921df, 0x4787d638eef49ef, 0xed743397fb9c2);
  (0x25c5a5f6e9344c30, 0x3eb1be122921df, 0x4787d638eef49ef, 0x76ba19cbfdce1);
  (0x451113afd1bf51b9, 0x395194adb41603, 0x8f0fac71dde93de, 0x76ba19cbfdce1);
  (0x872d3dee4d3ead3, 0x230eafd7747f60, 0x8f0fac71dde93de, 0x251a280fbf5065);
  (0x1a54c96d2091128f, 0x36a17ffb799015, 0x11e1f58e3bbd27bc, 0x251a280fbf5065);
  (0x2c36befb5c4e3a4b, 0x2dddd4059c703d, 0x23c3eb1c777a4f78, 0x251a280fbf5065);
  (0x4ffaaa17d3c889c3, 0x297bfe0aade051, 0x4787d638eef49ef0, 0x251a280fbf5065);
  (0xffeeed190c1b527, 0x297bfe0aade051, 0x178b09c43caf7f7b, 0x3d0ece2eb2f106);
  (0x1ffddda321836a4e, 0x297bfe0aade051, 0x178b09c43caf7f7b, 0x1e876717597883);
  (0x3ffbbb464306d49c, 0x297bfe0aade051, 0x3788e7675e32e9c9, 0x2401b29103ac6a);
  (0x102d13cd9c22eeda, 0x347094fe02481f, 0x7ba3feeb74f0407, 0x190d1b9daf449c);
  (0x205a279b3845ddb4, 0x347094fe02481f, 0x7ba3feeb74f0407, 0xc868dced7a24e);
  (0x486e8f2527dabf6f, 0x3ab3dbe56e1946, 0x7ba3feeb74f0407, 0x64346e76bd127);
  (0x9d98fde99fc5712, 0x27ea072f2aa5d1, 0x7ba3feeb74f0407, 0x1f5062851b15c3);
  (0x1193cfcd514b5b19, 0x239d34da22ddca, 0xf747fdd6e9e080e, 0x1f5062851b15c3);
  (0x1193cfcd514b5b19, 0x11ce9a6d116ee5, 0x307ccf882e876b35, 0x311efcf22c84a8);
  (0xc3e896e4c84ac4b, 0x3e0573f143dcbd, 0x2aaa32f82635767, 0xd81c81809a6de);
  (0x187d12dc99095896, 0x3e0573f143dcbd, 0x2aaa32f82635767, 0x6c0e40c04d36f);
  (0x207cfc6b20335ecb, 0x2924100aa92b85, 0x25d242ca24fa0d99, 0x2fe4f416adfef4);
  (0x40f9f8d64066bd96, 0x2924100aa92b85, 0x25d242ca24fa0d99, 0x17f27a0b56ff7a);
  (0xcfecb5e0ce1591e, 0x2924100aa92b85, 0xbd4ac0e0b375b5d, 0x2574422360a658);
  (0x19fd96bc19c2b23c, 0x2924100aa92b85, 0x25d242ca24fa0d99, 0x3bde311c597eb1);
  (0x3fcfd9863ebcbfd5, 0x3281209381551b, 0x4ba4859449f41b32, 0x3bde311c597eb1);
  (0xcc32b813fbf5991, 0x3281209381551b, 0xbd4ac0e0b375b5d, 0x2ed152ac38cfee);
  (0x198657027f7eb322, 0x3281209381551b, 0xbd4ac0e0b375b5d, 0x1768a9561c67f7);
  (0x330cae04fefd6644, 0x3281209381551b, 0x255b03108ab60e7f, 0x24f4e4f4cede89);
  (0x2bd2230e40e44c1, 0xd8c3b9eb27692, 0xcb4cf588635a3b6, 0x3eda6033c42d8b);
  (0x2bd2230e40e44c1, 0x6c61dcf593b49, 0x19699eb10c6b476c, 0x3eda6033c42d8b);
  (0x57a4461c81c8982, 0x6c61dcf593b49, 0x320fd26910ebb235, 0x3de8b63ef3a18e);
  (0xaf488c390391304, 0x6c61dcf593b49, 0x5de1f57751cffe45, 0x3a0cd25cdebdeb);
  (0xaf488c390391304, 0x21de950cbe286d, 0xe64fa633d12c4d9, 0x2c8096be2c4759);
  (0x19598326cd4bd7dd, 0x272f95e57537e3, 0x1cc9f4c67a2589b2, 0x2c8096be2c4759);
  (0x32b3064d9a97afba, 0x272f95e57537e3, 0x362377ed4771618f, 0x29d81651d0bf9e);
  (0x81389e2ea68853f, 0x1f3614a062a0b2, 0xb83fb8297423714, 0x2c8096be2c4759);
  (0x1f1b80e818ecf367, 0x3c1ba10e5d97b2, 0x1707f7052e846e28, 0x2c8096be2c4759);
  (0x1f1b80e818ecf367, 0x1e0dd0872ecbd9, 0x2e0fee0a5d08dc50, 0x2c8096be2c4759);
  (0xcaebb4a5a1c9b47, 0x3d43e527916c8b, 0x93662cedf682c10, 0x2c8096be2c4759);
  (0x15e51e193984c757, 0x34e23df2ded9f2, 0x126cc59dbed05820, 0x2c8096be2c4759);
  (0x15e51e193984c757, 0x1a711ef96f6cf9, 0x24d98b3b7da0b040, 0x2c8096be2c4759);
  (0x6688e5872a2f0645, 0x3de9f9d53d4722, 0x3abea954b7257797, 0x2378dadbcdda29);
  (0x8c20c0a1701e956, 0x1a711ef96f6cf9, 0xef46d22441be8e9, 0x2d26ab6bd821f0);
  (0x118418142e03d2ac, 0x1a711ef96f6cf9, 0x20788536721fbb95, 0x310474af5b7df1);
  (0x230830285c07a558, 0x1a711ef96f6cf9, 0x31fc9d4aa0238e41, 0x25bac9d4657575);
  (0xb0597094a63e05b, 0x29989317e8d176, 0xcfd0215c73fe4a2, 0x310474af5b7df1);
  (0xb0597094a63e05b, 0x14cc498bf468bb, 0x19fa042b8e7fc944, 0x310474af5b7df1);
  (0x3b0ac9476dab6a55, 0x37b4a8a99c5c11, 0x24ff9b34d8e3a99f, 0x22e85f1da7f356);
  (0x5d39633c77d84e7, 0x1b7c7d863546db, 0xa6401ab05ccb6e8, 0x310474af5b7df1);
  (0x103797decd4a3bcf, 0x2640791ac86266, 0x14c803560b996dd0, 0x310474af5b7df1);
  (0x103797decd4a3bcf, 0x13203c8d643133, 0x299006ac1732dba0, 0x310474af5b7df1);
  (0x5a36ce487f118f0d, 0x3532952bc408c5, 0x39c79e8ae47d176f, 0x2212589e5fd792);
  (0x7e796892f0cdcaf, 0x174e5d09ccbc07, 0x10a002ab3c7abe40, 0x310474af5b7df1);
  (0x188799346b879aef, 0x242968dc941cfc, 0x2140055678f57c80, 0x310474af5b7df1);
  (0x188799346b879aef, 0x1214b46e4a0e7e, 0x42800aacf1eaf900, 0x310474af5b7df1);
  (0xb3aca4507f235ef, 0x2963117816ca85, 0xd4cceef63956500, 0x310474af5b7df1);
  (0x188799346b879aef, 0x2d33c313b9243b, 0x1a999ddec72aca00, 0x310474af5b7df1);
  (0x310f3268d70f35de, 0x2d33c313b9243b, 0x3321371332b264ef, 0x2f1c1be18a5116);
  (0x827d326481a1852, 0x25925fdc7470cf, 0xa39d7d0a3bd4763, 0x2f1c1be18a5116);
  (0x1a897e1d33f17807, 0x3d206dcd39995a, 0xa39d7d0a3bd4763, 0x178e0df0c5288b);
  (0x2efd2dbe7b6c06cd, 0x361e44d761f538, 0x1473afa1477a8ec6, 0x178e0df0c5288b);
  (0x57e48d010a612459, 0x329d305c762327, 0x28e75f428ef51d8c, 0x178e0df0c5288b);
  (0x14033b982d76315f, 0x399f59524dc749, 0x6f6b68e207fa40f, 0x140cf975d9567a);
  (0x280677305aec62be, 0x399f59524dc749, 0x6f6b68e207fa40f, 0xa067cbaecab3d);
  (0x3cea9adabc6b4eeb, 0x2bd967c189e480, 0x4ad807f6fd6a9709, 0x35dfe47c768fbd);
  (0x3d3aa4dfeaf7e1d, 0xdc5f190c3e2c9, 0x11c1176a3faec63b, 0x3fe66137633afa);
  (0x19686c063d0dc275, 0x2db9222c758046, 0x11c1176a3faec63b, 0x1ff3309bb19d7d);
  (0x3cea9adabc6b4eeb, 0x36cfc1b1ec5da0, 0x23822ed47f5d8c76, 0x1ff3309bb19d7d);
  (0x30fbb71988c64e4, 0xdc5f190c3e2c9, 0xd297e3fdadc2ee5, 0x3b370f2c16358b);
  (0x1658b094a4815d91, 0x324471ef30eef3, 0x103939b1736893c9, 0x247e805e6d0c2a);
  (0x2cb161294902bb22, 0x324471ef30eef3, 0x103939b1736893c9, 0x123f402f368615);
  (0x3cea9adabc6b4eeb, 0x2241d90f33ba84, 0x5d5d0e3da33c767d, 0x3481193e6a4099);
  (0x11e08d43b6cde474, 0x324471ef30eef3, 0x748f30f9801a18f, 0x147be77e6fd7bb);
  (0x23c11a876d9bc8e8, 0x324471ef30eef3, 0x192980534ecf8603, 0x23602cb6d06357);
  (0x3cea9adabc6b4eeb, 0x2ad24f5300a925, 0x325300a69d9f0c06, 0x23602cb6d06357);
  (0xe4d3dcfc5718390, 0x324471ef30eef3, 0x1202e16b6c16c43b, 0x3f4e36d17080e0);
  (0x1c9a7b9f8ae30720, 0x324471ef30eef3, 0x1202e16b6c16c43b, 0x1fa71b68b84070);
  (0x3934f73f15c60e40, 0x324471ef30eef3, 0x1202e16b6c16c43b, 0xfd38db45c2038);
  (0xa276ff5d19f383, 0x2c9c8d21c8e4b, 0xe34176f3d7b0f29, 0x3e670f99214b56);
  (0x1347cf6a264aab41, 0x2a5aab1502ded7, 0x1202e16b6c16c43b, 0x2790e242e6508c);
  (0x3892803fb8ac1abd, 0x3e231c3676071d, 0x1202e16b6c16c43b, 0x13c87121732846);
  (0x7125007f7158357a, 0x3e231c3676071d, 0x1202e16b6c16c43b, 0x9e43890b99423);
  (0x8384bc38cff6db6, 0x169239f38fb691, 0x1202e16b6c16c43b, 0x31751ad39fe4af);
  (0x1a3b2d2ef91631f1, 0x2403aa6397cda0, 0x2405c2d6d82d8876, 0x31751ad39fe4af);
  (0x1a3b2d2ef91631f1, 0x1201d531cbe6d0, 0x480b85adb05b10ec, 0x31751ad39fe4af);
  (0x6936fcfa3ff8af8, 0x169239f38fb691, 0xd144d8fb1171c01, 0x2ce4b611dc14ee);
  (0x1a3b2d2ef91631f1, 0x2d0494fc7dc108, 0xd144d8fb1171c01, 0x16725b08ee0a77);
  (0x1a3b2d2ef91631f1, 0x16824a7e3ee084, 0x3463c84e5b4469f3, 0x2cf4a5872ceafb);
  (0x542bfd94fffa260, 0x169239f38fb691, 0xa72eda309174ad1, 0x2cd4c69c8b3ee1);
  (0x1a3b2d2ef91631f1, 0x3845ba3b9d314a, 0xfb5ad7c5916ed31, 0x21b380480d7ab9);
  (0x1a3b2d2ef91631f1, 0x1c22dd1dce98a5, 0x39a68827ab440c53, 0x3dd65d65dc135e);
  (0x34765a5df22c63e2, 0x1c22dd1dce98a5, 0x6e1ce2859d707035, 0x3b0e0bd0bca254);
  (0x13f28163a2403977, 0x357d68a67dc040, 0xc915796adabf0f4, 0x21b380480d7ab9);
  (0x13f28163a2403977, 0x1abeb4533ee020, 0x2d153090fd981b5f, 0x3c72349b4c5ad9);
  (0x13f28163a2403977, 0xd5f5a299f7010, 0x5a2a6121fb3036be, 0x3c72349b4c5ad9);
  (0x1ea0790099cfb51, 0x66a8e34d0d577, 0x120879d398a33e26, 0x3c72349b4c5ad9);
  (0x13f28163a2403977, 0x216e61680e9828, 0x2410f3a731467c4c, 0x3c72349b4c5ad9);
  (0x13f28163a2403977, 0x10b730b4074c14, 0x4821e74e628cf898, 0x3c72349b4c5ad9);
  (0xd7fed489c3db855, 0x38902050e6b9b3, 0x672941b06028122, 0x1b03d3333dc2b1);
  (0x13f28163a2403977, 0x29c9f9c2123e32, 0xce528360c050244, 0x1b03d3333dc2b1);
  (0x13f28163a2403977, 0x14e4fce1091f19, 0x2dbcd1cfba4a3dff, 0x2fe8d01446e1ca);
  (0x27e502c7448072ee, 0x14e4fce1091f19, 0x55a1d496fecab0ed, 0x2cd964eb2c8ffe);
  (0x15997ba76062c088, 0x38902050e6b9b3, 0x925c38ff20ed933, 0x17f4680a2370e5);
  (0x1ebf3f37527199bb, 0x2842442d85154c, 0x124b871fe41db266, 0x17f4680a2370e5);
  (0x43564d771aacfe87, 0x2c158a20e5fb8b, 0x24970e3fc83b64cc, 0x17f4680a2370e5);
  (0xb215647a30514e1, 0x246efe3a242f0d, 0x87c92a80c676ff9, 0x1bc7adfd845724);
  (0x1ebf3f37527199bb, 0x3252d538e65a9f, 0x87c92a80c676ff9, 0xde3d6fec22b92);
  (0x45fb1116b14aa36f, 0x3944c0b8477068, 0x87c92a80c676ff9, 0x6f1eb7f6115c9);
  (0x734f47e1988fa4f, 0x1d7d12bac31944, 0x87c92a80c676ff9, 0x22b9997ce56ced);
  (0x734f47e1988fa4f, 0xebe895d618ca2, 0x182e19ce3257da41, 0x317822da46f98f);
  (0x3791281a7e38aed1, 0x38d76788f7bfe0, 0x305c339c64afb482, 0x317822da46f98f);
  (0x734f47e1988fa4f, 0x24dc576973df95, 0x559113a04d0f451, 0x1b5a54ce34a69c);
  (0x13c2fa3637e2e8ef, 0x328981d08e32e3, 0x559113a04d0f451, 0xdad2a671a534e);
  (0x2cdf05a67496c62f, 0x396017041b5c8a, 0x559113a04d0f451, 0x6d695338d29a7);
  (0x3791281a7e38aed1, 0x2386a0b59ad7ec, 0x42434a8e87da9773, 0x2a5d35e9280193);
  (0x4b2268c79dd642f, 0xf02e11af35af7, 0xf644900837f4cd1, 0x3133cb1cb52b3a);
  (0x18c89619773a152f, 0x279cc6a94df094, 0xf644900837f4cd1, 0x1899e58e5a959d);
  (0x3791281a7e38aed1, 0x2c6848e3018de7, 0x1ec8920106fe99a2, 0x1899e58e5a959d);
  (0x8b6a3424623212f, 0x22d1446f9a5341, 0x75b4f94eaf3d2d1, 0x1d6567c80e32f0);
  (0x18c89619773a152f, 0x3183f853a16cb9, 0x75b4f94eaf3d2d1, 0xeb2b3e4071978);
  (0x38ec7bc7d967fd2f, 0x38dd5245a4f975, 0x75b4f94eaf3d2d1, 0x75959f2038cbc);
  (0x57fd9173c51bd2f, 0x1b77ea7d96c685, 0x75b4f94eaf3d2d1, 0x24bec1ba11bfac);
  (0x125b01c363974d2f, 0x2dd74b5a9fa65b, 0x75b4f94eaf3d2d1, 0x125f60dd08dfd6);
  (0x2c11531bb2226d2f, 0x3706fbc9241646, 0x75b4f94eaf3d2d1, 0x92fb06e846feb);
  (0x3ac7f245880a12d1, 0x24b32e53167b0e, 0x497e916f5df1b873, 0x2de2dec19aeaf9);
  (0x2ed9dc19add6d2f, 0x9241d07892b4d, 0x11a43ceb70c512d1, 0x37128f301f5ae4);
  (0x177f786ea67fed2f, 0x24ad649f98d8bf, 0x11a43ceb70c512d1, 0x1b8947980fad72);
  (0x40a32dc8bdc4ed2f, 0x3272086ba0af78, 0x11a43ceb70c512d1, 0xdc4a3cc07d6b9);
  (0x257b167af178a8c, 0x9241d07892b4d, 0xf4c8b83c1ad8845, 0x3bb315f49e0650);
  (0x13fbee531fdc9d5d, 0x26fda801d82e75, 0xf4c8b83c1ad8845, 0x1dd98afa4f0328);
  (0x27f7dca63fb93aba, 0x26fda801d82e75, 0x3744682a0166c2ff, 0x35ea6d7effb009);
  (0x1dfc11fbf460870, 0x9241d07892b4d, 0xb8d094443217765, 0x3857a162b3314a);
  (0x16cb9002bec5aa05, 0x379827c7f51a8c, 0x130c0dc340399925, 0x2e740ac06bef3f);
  (0x16cb9002bec5aa05, 0x1bcc13e3fa8d46, 0x26181b868073324a, 0x2e740ac06bef3f);
  (0x62fbc70fbfac0e99, 0x3c5a14b26935e2, 0x4c30370d00e66494, 0x2e740ac06bef3f);
  (0x78eb83358312f81, 0x170a26f98671f0, 0xf3cd7cf66947a84, 0x2e740ac06bef3f);
  (0x260867d2255a2489, 0x39f91e3d2f2837, 0x1e79af9ecd28f508, 0x2e740ac06bef3f);
  (0x44821770f2831991, 0x3436947ecd8bbb, 0x3cf35f3d9a51ea10, 0x2e740ac06bef3f);
  (0x10b9819186fab1b7, 0x3fbba7fb90c4b3, 0x92ac95e2ec98236, 0x22eef743a8b647);
  (0x19e44aefb5c433ed, 0x31554f9f9cbd7d, 0x125592bc5d93046c, 0x22eef743a8b647);
  (0x33c895df6b8867da, 0x31554f9f9cbd7d, 0x2c39ddac13573859, 0x2a222371a2b9e2);
  (0x78eb83358312f81, 0x23ffdce5e21207, 0x8d85f88d0ab0b45, 0x2a222371a2b9e2);
  (0x17f5cfef810d6a47, 0x3910ee9eb36ef8, 0x8d85f88d0ab0b45, 0x151111b8d15cf1);
  (0x29a68f01226380d1, 0x319989082b146d, 0x11b0bf11a156168a, 0x151111b8d15cf1);
  (0x5eb8cc360665c46f, 0x38665f194f95a0, 0x23617e2342ac2d14, 0x151111b8d15cf1);
  (0x12f1c271347ac0e3, 0x38665f194f95a0, 0x106fbbb20e316c31, 0x30eef982c73b15);
  (0x12f1c271347ac0e3, 0x1c332f8ca7cad0, 0x20df77641c62d862, 0x30eef982c73b15);
  (0x12f1c271347ac0e3, 0xe1997c653e568, 0x54b0b1396d4071a7, 0x3f0891491b207d);
  (0xd5f7a100aeab77d, 0x31c42ce9840ac3, 0x592486129900966, 0x14bbc9f61f7045);
  (0x12f1c271347ac0e3, 0x233ffb6fd1bd84, 0x1e165333879ad3af, 0x37fbc565f12dc9);
  (0x12f1c271347ac0e3, 0x119ffdb7e8dec2, 0x3c2ca6670f35a75e, 0x37fbc565f12dc9);
  (0xd992a52180bb95b, 0x3f4192a5d7cdb2, 0xab1303e38de0f1, 0x31bcc3e369183);
  (0x12f1c271347ac0e3, 0x2c0ffa4bc62ce5, 0x1447e878fb9682c5, 0x2f2bc689fcbe68);
  (0x25e384e268f581c6, 0x2c0ffa4bc62ce5, 0x1447e878fb9682c5, 0x1795e344fe5f34);
  (0x4bc709c4d1eb038c, 0x2c0ffa4bc62ce5, 0x600ef23dcd818651, 0x37daebee455c7f);
  (0xb196d0f2addb35b, 0x204508a946fd4b, 0x1447e878fb9682c5, 0x3af6b82c7bee02);
  (0x1632da1e55bb66b6, 0x204508a946fd4b, 0x2a7ac2975151e97b, 0x3dc064bf84f44c);
  (0x56e076d3fcc8b6e7, 0x3f253b09097771, 0x2a7ac2975151e97b, 0x1ee0325fc27a26);
  (0x623054453a93fd, 0x164d649848325, 0x118c7d31bd72563e, 0x3fc69334271659);
  (0xc460a88a7527fa, 0x164d649848325, 0x22cefc01e8be59b7, 0x3f401f103911ed);
  (0x2b3f233fdbc71175, 0x274aaa1c755a42, 0x29b661eec6dcc181, 0x25e5d3d2f0d71d);
  (0x991e1709ee799dd, 0x2b792cf902e3b1, 0x809201f89fd49e9, 0x2480fd896c53f8);
  (0x1b2ce300c7cc7da3, 0x3db9abbdb90dad, 0x809201f89fd49e9, 0x12407ec4b629fc);
  (0x3659c6018f98fb46, 0x3db9abbdb90dad, 0x809201f89fd49e9, 0x9203f625b14fe);
  (0x6cb38c031f31f68c, 0x3db9abbdb90dad, 0x809201f89fd49e9, 0x4901fb12d8a7f);
  (0x14221593eaa42287, 0x39298c0c8b832e, 0x809201f89fd49e9, 0x16d09e75e3b47b);
  (0x243455d2fe9eb659, 0x3365647c297612, 0x1012403f13fa93d2, 0x16d09e75e3b47b);
  (0x243455d2fe9eb659, 0x19b2b23e14bb09, 0x4458d6512693ddfd, 0x308350b3f86f84);
  (0x8dd99b288c9f727, 0x1f76d9ce76c825, 0xdab5e103aea5f99, 0x308350b3f86f84);
  (0x1f6691754c7e4de7, 0x37b8822872ffe7, 0xdab5e103aea5f99, 0x1841a859fc37c2);
  (0x3ecd22ea98fc9bce, 0x37b8822872ffe7, 0xdab5e103aea5f99, 0xc20d42cfe1be1);
  (0xc8f6d621e98ebf6, 0x37b8822872ffe7, 0xdab5e103aea5f99, 0x3ca424e0f68b65);
  (0x1a3acb7259834b8f, 0x3a2e5384b4c5a6, 0x1b56bc2075d4bf32, 0x3ca424e0f68b65);
  (0x1a3acb7259834b8f, 0x1d1729c25a62d3, 0x36ad7840eba97e64, 0x3ca424e0f68b65);
  (0x347596e4b306971e, 0x1d1729c25a62d3, 0x50e843b3452cc9f3, 0x2cdda751a8771c);
  (0x1418af036427dff0, 0x37b8822872ffe7, 0x102e73f0a76f5b97, 0x2cdda751a8771c);
  (0x28315e06c84fbfe0, 0x37b8822872ffe7, 0x102e73f0a76f5b97, 0x166ed3a8d43b8e);
  (0x5062bc0d909f7fc0, 0x37b8822872ffe7, 0x102e73f0a76f5b97, 0xb3769d46a1dc7);
  (0x65e4672521048ff, 0x161244ab34a692, 0x102e73f0a76f5b97, 0x381511261294e3);
  (0x65e4672521048ff, 0xb0922559a5349, 0x205ce7e14edeb72e, 0x381511261294e3);
  (0x26bb2e53a0ef002d, 0x218f19bdd67416, 0x40b9cfc29dbd6e5c, 0x381511261294e3);
  (0xcbc8ce4a42091fe, 0x372dabac03a06d, 0x532ed16328fafa3, 0x1685f7683c20cd);
  (0x1c5554273bcfa0e7, 0x3d5fc8f25c016a, 0xa65da2c651f5f46, 0x1685f7683c20cd);
  (0x1c5554273bcfa0e7, 0x1eafe4792e00b5, 0x31210880060e5f73, 0x3535dbe16a2182);
  (0x69cbb0ce7dada141, 0x394ad269e31176, 0x31210880060e5f73, 0x1a9aedf0b510c1);
  (0xfdb1b2528dd2e93, 0x2aeec81298d091, 0x8517b56b74c4c38, 0x1685f7683c20cd);
  (0x28cf8d294ec2133b, 0x37405725a6997c, 0x10a2f6ad6e989870, 0x1685f7683c20cd);
  (0x28cf8d294ec2133b, 0x1ba02b92d34cbe, 0x4a157a842bf3441b, 0x322622fb0f6d8b);
  (0xb2d5c27a393f7fd, 0x25d493e801a4a0, 0xed11880d5970d9f, 0x322622fb0f6d8b);
  (0xb2d5c27a393f7fd, 0x12ea49f400d250, 0x1da23101ab2e1b3e, 0x322622fb0f6d8b);
  (0xb2d5c27a393f7fd, 0x97524fa006928, 0x4671be2af9f02e79, 0x3b9b47f50fd6b3);
  (0xb2d5c27a393f7fd, 0x2f49b8e2020dc8, 0x761eebd9ca40e1a, 0x1f3bd9070e9b3b);
  (0xb2d5c27a393f7fd, 0x17a4dc710106e4, 0x19f139a2dcdc1431, 0x36e0b5780fa21f);
  (0xb2d5c27a393f7fd, 0xbd26e38808372, 0x33e27345b9b82862, 0x36e0b5780fa21f);
  (0xb2d5c27a393f7fd, 0x5e9371c4041b9, 0x72f242b3170448c1, 0x3cc9ec944fe3d8);
  (0xb2d5c27a393f7fd, 0x1d8e138d41489d, 0xe0c2a041b574829, 0x252510234edcf4);
  (0x2466e253627f3823, 0x30209b9ee8b717, 0xe0c2a041b574829, 0x12928811a76e7a);
  (0x56d9eeaae055b86f, 0x3969dfa7bc6e54, 0xe0c2a041b574829, 0x9494408d3b73d);
  (0x115ec955601124e3, 0x3969dfa7bc6e54, 0xe0c2a041b574829, 0x2e6e542c229431);
  (0x115ec955601124e3, 0x1cb4efd3de372a, 0x1c18540836ae9052, 0x2e6e542c229431);
  (0x115ec955601124e3, 0xe5a77e9ef1b95, 0x498f7165cd6e4587, 0x3cc8cc1611afc6);
  (0xd1491daa3d22d1d, 0x360af339672ce2, 0x44a377abc3ef7c6, 0x11b96458445d07);
  (0xd1491daa3d22d1d, 0x1b05799cb39671, 0x15a900d01c501ca9, 0x2cbeddf4f7f378);
  (0x2fd2248563f476e3, 0x3164e8972f902d, 0x15a900d01c501ca9, 0x165f6efa7bf9bc);
  (0x754d49dae4390a6f, 0x3c94a0146d8d0b, 0x15a900d01c501ca9, 0xb2fb77d3dfcde);
  (0xecbdb3eef1e9039, 0x26353119f1934f, 0x15a900d01c501ca9, 0x37ee957235f056);
  (0x1d97b67dde3d2072, 0x26353119f1934f, 0x15a900d01c501ca9, 0x1bf74ab91af82b);
  (0x3340b74dfa8d3d1b, 0x21163de98645bd, 0x5e92b8ee332d766d, 0x3d0d88a2a13de8);
  (0xd6c6d551947da89, 0x2b54244a5ce0e1, 0x12ea24fc70a2b149, 0x3d0d88a2a13de8);
  (0x1ad8daaa328fb512, 0x2b54244a5ce0e1, 0x12ea24fc70a2b149, 0x1e86c451509ef4);
  (0x489bda50d5c21b6d, 0x3a97867305305b, 0x12ea24fc70a2b149, 0xf436228a84f7a);
  (0x6f4b677fdb28b5f, 0x1c10c221b49167, 0xbf56e8472f025ea, 0x304028a994fbfb);
  (0xde96ceffb6516be, 0x1c10c221b49167, 0x12ea24fc70a2b149, 0x26287565a4c6b1);
  (0x20d391ec6c07c807, 0x211c9bc3acac0c, 0x25d449f8e1456292, 0x26287565a4c6b1);
  (0xc2148c27a29fde7, 0x3d2d5de5613d73, 0x891006777b3cc39, 0x2b344f079ce156);
  (0x18429184f453fbce, 0x3d2d5de5613d73, 0x891006777b3cc39, 0x159a2783ce70ab);
  (0x31f592bb5b6f6079, 0x3efdea386647ba, 0x112200ceef679872, 0x159a2783ce70ab);
  (0x31f592bb5b6f6079, 0x1f7ef51c3323dd, 0x543994593a3e915d, 0x35191ca0019488);
  (0xfb1911d7ca02f95, 0x317803f9f77ffa, 0x6da66b92c8fd694, 0x159a2783ce70ab);
  (0x1d665e8fd5bfdcbd, 0x2e562980ca30a8, 0xdb4cd72591fad28, 0x159a2783ce70ab);
  (0x38cff97487ff370d, 0x2cc53c443388ff, 0x1b699ae4b23f5a50, 0x159a2783ce70ab);
  (0xcf3ce6d0466a68d, 0x3308f1368e27a3, 0x57b8560f0731210, 0x159a2783ce70ab);
  (0x1d665e8fd5bfdcbd, 0x39ebb3e0fcbcd2, 0xaf70ac1e0e62420, 0x159a2783ce70ab);
  (0x33547413978c24fd, 0x329001744ccf14, 0x15ee1583c1cc4840, 0x159a2783ce70ab);
  (0xa4417371e4f3a99, 0x329001744ccf14, 0xba9fe4ca37d0da7, 0x3972c41ebb6443);
  (0xa4417371e4f3a99, 0x194800ba26678a, 0x1753fc9946fa1b4e, 0x3972c41ebb6443);
  (0xa4417371e4f3a99, 0xca4005d1333c5, 0x2ea7f9328df4369c, 0x3972c41ebb6443);
  (0x14882e6e3c9e7532, 0xca4005d1333c5, 0x61fc6d4625805b99, 0x3c5362f80db38e);
  (0x14882e6e3c9e7532, 0x3f3401d16002d9, 0xf7da62b2e93947b, 0x2faf629afa7fc9);
  (0x29105cdc793cea64, 0x3f3401d16002d9, 0x2405d4996b3209ad, 0x3771b2362d4151);
  (0x4d163175e46ef411, 0x3b52da03c6a215, 0x480ba932d664135a, 0x3771b2362d4151);
  (0x50a88430e0ae0b7, 0x1365c703fee3d4, 0xe68bb7091473712, 0x3771b2362d4151);
  (0x50a88430e0ae0b7, 0x9b2e381ff71ea, 0x1cd176e1228e6e24, 0x3771b2362d4151);
  (0x3ead76055327bcff, 0x3c4b23f72cfa46, 0x39a2edc2451cdc48, 0x3771b2362d4151);
  (0x50a88430e0ae0b7, 0x183f38c4fe9cc9, 0xa84e1197169ff1d, 0x329840752d885c);
  (0x1499f19f8d7fc08b, 0x318b58ff9560f7, 0xa84e1197169ff1d, 0x194c203a96c42e);
  (0x33b8c4588c698033, 0x3e31691ce0c30e, 0xa84e1197169ff1d, 0xca6101d4b6217);
  (0x5dcc48be52117ca7, 0x3864d4c90725b5, 0x1509c232e2d3fe3a, 0xca6101d4b6217);
  (0x623006deeb78065, 0x1272a47124ff70, 0x1509c232e2d3fe3a, 0x3f3e509278ea73);
  (0x623006deeb78065, 0x9395238927fb8, 0x2a138465c5a7fc74, 0x3f3e509278ea73);
  (0x623006deeb78065, 0x49ca91c493fdc, 0x542708cb8b4ff8e8, 0x3f3e509278ea73);
  (0x13a33492fbe4ce1, 0x49ca91c493fdc, 0x10a60412496d7491, 0x3e8f3dc89fdbfb);
  (0x13a33492fbe4ce1, 0x24e548e249fee, 0x214c082492dae922, 0x3e8f3dc89fdbfb);
  (0x13a33492fbe4ce1, 0x1272a47124ff7, 0x43d2439255741f25, 0x3fb6680fb22bf2);
  (0x13a33492fbe4ce1, 0x5c3d3635b8fd3, 0xc9517af847efbed, 0x3b19bef368ec16);
  (0x27466925f7c99c2, 0x5c3d3635b8fd3, 0x18db188b61edfcb7, 0x3a60006a7e452a);
  (0x4e8cd24bef93384, 0x5c3d3635b8fd3, 0x364fe767dbc531cf, 0x3fc6f489648187);
  (0x58ad836914959a6b, 0x3410de2072b826, 0x4edbe91f96a33363, 0x2e4d0abd172853);
  (0x13b305f083b4cd17, 0x39d4b183ce47f9, 0x9e16ba705c2660f, 0x1d0190930478da);
  (0x27660be107699a2e, 0x39d4b183ce47f9, 0x9e16ba705c2660f, 0xe80c849823c6d);
  (0x4ecc17c20ed3345c, 0x39d4b183ce47f9, 0x314777880d2c003d, 0x242abce6a84233);
  (0x5e7533ecd2170d3, 0x15a9f49d2605c6, 0xddb840f3e635b4b, 0x32d9f4d265285b);
  (0x5e7533ecd2170d3, 0xad4fa4e9302e3, 0x219e5b5d49e82769, 0x3daeef20f82b3e);
  (0xbcea67d9a42e1a6, 0xad4fa4e9302e3, 0x450a4ed618b0cc5b, 0x3f56667c351e48);
  (0xbcea67d9a42e1a6, 0x3628e388df0e6f, 0x45cbdc656544127, 0x14027d41e912bc);
  (0x179d4cfb3485c34c, 0x3628e388df0e6f, 0x45cbdc656544127, 0xa013ea0f4895e);
  (0x339757bcbf5fc7bf, 0x3b2982d959531e, 0x45cbdc656544127, 0x5009f507a44af);
  (0x339757bcbf5fc7bf, 0x1d94c16caca98f, 0x3c50d3496c084a0d, 0x229560bd26ee3e);
  (0x6d41353e1362707, 0x139382cbb82031, 0xf8d8ee08ddea955, 0x2c969f5e1b779c);
  (0x1d35b588504af763, 0x29ded27ac5dbff, 0xf8d8ee08ddea955, 0x164b4faf0dbbce);
  (0x49f8f9f12e74981b, 0x35047a524cb9e6, 0xf8d8ee08ddea955, 0xb25a7d786dde7);
  (0x57675dcb42b526c, 0x139382cbb82031, 0xf8d8ee08ddea955, 0x37bc4735a25583);
  (0x150404bd4209fbc1, 0x25a7e500ad3ada, 0x1f1b1dc11bbd52aa, 0x37bc4735a25583);
  (0x150404bd4209fbc1, 0x12d3f280569d6d, 0x3e363b82377aa554, 0x37bc4735a25583);
  (0x2ac3bde953dc63, 0xbf904b6182c4, 0xe2aab52e39bafe6, 0x3f75a06f1321bd);
  (0x2ac3bde953dc63, 0x5fc825b0c162, 0x1c801a63b08b3c2f, 0x3fd56894c3e31f);
  (0x2ac3bde953dc63, 0x2fe412d860b1, 0x390034c76116785e, 0x3fd56894c3e31f);
  (0x543ad6b2f17bcb67, 0x2f29d04a44b9e9, 0x53e54f371ed412a1, 0x2ef9ec376c5938);
  (0x110be2a1484a3125, 0x2fb97c82cddbfc, 0x10b65b2575a2785f, 0x2eca082493f887);
  (0x110be2a1484a3125, 0x17dcbe4166edfe, 0x216cb64aeb44f0be, 0x2eca082493f887);
  (0x110be2a1484a3125, 0xbee5f20b376ff, 0x53e54f371ed412a1, 0x3ab86745476f86);
  (0x110be2a1484a3125, 0x3ba7dba38152fb, 0xd5eaf512ae8604c, 0x2eca082493f887);
  (0x1e6a91f273329171, 0x3538f1e40aa5c1, 0x1abd5ea255d0c098, 0x2eca082493f887);
  (0x3927f094c9035209, 0x32017d044f4f24, 0x357abd44aba18130, 0x2eca082493f887);
  (0xce6de3dcd8e30bf, 0x387066c3c5fc5e, 0x939aaedb02c5fe6, 0x285b1e651d4b4d);
  (0xce6de3dcd8e30bf, 0x1c383361e2fe2f, 0x127355db6058bfcc, 0x285b1e651d4b4d);
  (0x3927f094c9035209, 0x3e81dc456322ed, 0x1f5a34192de6f08b, 0x2249a8e38024be);
  (0x724fe1299206a412, 0x3e81dc456322ed, 0x1f5a34192de6f08b, 0x1124d471c0125f);
  (0x167974b6a96fa543, 0x3d7250324bc19f, 0x2382fd8a11dd2d2, 0x61175819d268f);
  (0x18b1a48f4a8d7815, 0x21c1e2d9f47417, 0x1d2204408cc91db9, 0x27d3585b919aa6);
  (0x4e854d5f21e40de3, 0x35ab8f07bd416a, 0x1d2204408cc91db9, 0x13e9ac2dc8cd53);
  (0xdedb5ff52af5a1f, 0x2f9a1986201adb, 0x79a27209d0ce1cd, 0x19fb21af65f3e2);
  (0x2375931f426b960b, 0x3c97aa5dd314cc, 0x79a27209d0ce1cd, 0xcfd90d7b2f9f1);
  (0x32a9e1607c8559a5, 0x2b4966069c8457, 0x41de2fa1b69f1d3f, 0x3846f6de4f7e48);
  (0x10297b8f60b362b, 0x450b37f839684, 0xe31b688440e8d6f, 0x3ca320b6fb4b31);
  (0x10297b8f60b362b, 0x22859bfc1cb42, 0x1d6604c97e285109, 0x3ecb7a76bd1673);
  (0x10297b8f60b362b, 0x1142cdfe0e5a1, 0x3bcea14bf25bd83d, 0x3fdfa7569dfc14);
  (0x43e35f13a2b58995, 0x2440872ad2948e, 0x41de2fa1b69f1d3f, 0x232c5a4af1aeed);
  (0xe62bf97e5607a0d, 0x2668e0ea945fd0, 0xc5d9025f94a0db7, 0x2104008b2fe3ab);
  (0xe62bf97e5607a0d, 0x133470754a2fe8, 0x271ddfe3d7f4957b, 0x343871007a1393);
  (0xe62bf97e5607a0d, 0x99a383aa517f4, 0x5c9e7f5f9549a503, 0x3dd2a93b1f2b87);
  (0xe62bf97e5607a0d, 0x300319253977c4, 0x9e47351943b3e2c, 0x2104008b2fe3ab);
  (0xe62bf97e5607a0d, 0x18018c929cbbe2, 0x222ba63b0dd6f665, 0x39058d1dcc9f8d);
  (0xe62bf97e5607a0d, 0xc00c6494e5df1, 0x44574c761badecca, 0x39058d1dcc9f8d);
  (0xe62bf97e5607a0d, 0x3c03df6e87d5b5, 0x5096922e24f4c87, 0x15033a41e185ba);
  (0x1cc57f2fcac0f41a, 0x3c03df6e87d5b5, 0x5096922e24f4c87, 0xa819d20f0c2dd);
  (0x21cee852ad1040a1, 0x2342be47bc4c49, 0x2be1ba9871aed9af, 0x2dc45b68ad0f26);
  (0x6f7f8b3dcbcf5af1, 0x3a24ebfc12d3dc, 0x2be1ba9871aed9af, 0x16e22db4568793);
  (0x17bc160ce871a793, 0x3de2d2e0fcd78e, 0x8c6beeb49efc523, 0x16e22db4568793);
  (0x294993e37c5131d9, 0x35d39724d4f35a, 0x118d7dd693df8a46, 0x16e22db4568793);
  (0x4c648f90a4104665, 0x31cbf946c10140, 0x231afbad27bf148c, 0x16e22db4568793);
  (0xd33fdbf5c852169, 0x2b08430aba4215, 0x705658907f3041c, 0x16e22db4568793);
  (0x22442e5a745e2dbd, 0x37d76613deec67, 0xe0acb120fe60838, 0x16e22db4568793);
  (0x4c648f90a4104665, 0x3e3ef798714190, 0x1c1596241fcc1070, 0x16e22db4568793);
  (0xf8211915a78fef8, 0x3f2e58611dfc97, 0x192709258aa622f, 0x6679184925529);
  (0x1a832591c721ae41, 0x3601a9808f285b, 0x1da806b67876729f, 0x3c693b05217d84);
  (0x35064b238e435c82, 0x3601a9808f285b, 0x1da806b67876729f, 0x1e349d8290bec2);
  (0xa9adbd3e940ac1a, 0x3601a9808f285b, 0x8724f0ea5f51a6b, 0x2b03c08bb56914);
  (0x1535b7a7d2815834, 0x3601a9808f285b, 0x8724f0ea5f51a6b, 0x1581e045dab48a);
  (0x2a6b6f4fa502b068, 0x3601a9808f285b, 0x8724f0ea5f51a6b, 0xac0f022ed5a45);
  (0x54d6de9f4a0560d0, 0x3601a9808f285b, 0x32ddbe5e4af7cad3, 0x20614cd1be4150);
  (0xa35ed4756d697d4, 0x207fc93ab473d1, 0xd8d45b251606655, 0x2b223cf4ab9b95);
  (0x17c332f9a836fe29, 0x25d10317b007b3, 0x1b1a8b64a2c0ccaa, 0x2b223cf4ab9b95);
  (0x2f8665f3506dfc52, 0x25d10317b007b3, 0x32ddbe5e4af7cad3, 0x2879a0062dd1a4);
  (0x780128a135ce9c3, 0x1dd72c4c36a9e0, 0xad76af50de6b844, 0x2b223cf4ab9b95);
  (0x1d2ee8742f2a5a4b, 0x3a0dd31ac6f085, 0x15aed5ea1bcd7088, 0x2b223cf4ab9b95);
  (0x3a5dd0e85e54b496, 0x3a0dd31ac6f085, 0x32ddbe5e4af7cad3, 0x32980807b9460d);
  (0x18003b537129527, 0x775cb130daa78, 0xbdd5df6b314a4dd, 0x3b0188373b0e11);
  (0x18003b537129527, 0x3bae58986d53c, 0x193abfa29d3bdee1, 0x3ebc6dc0c1e34d);
  (0x18003b537129527, 0x1dd72c4c36a9e, 0x32757f453a77bdc2, 0x3ebc6dc0c1e34d);
  (0x18003b537129527, 0xeeb96261b54f, 0x666b023fac0210ab, 0x3fab272323989c);
  (0x18003b537129527, 0x4a99eebe88a8b, 0x147bcd3fef339cef, 0x3fab272323989c);
  (0x300076a6e252a4e, 0x4a99eebe88a8b, 0x267bf9be84129ac3, 0x3bcf4d19050b90);
  (0x6000ed4dc4a549c, 0x4a99eebe88a8b, 0x507c61908a1aeb07, 0x3e8afeffde4f95);
  (0x6000ed4dc4a549c, 0x17501a9b8ab4b7, 0xee5aa258929b7af, 0x39e16013f5c50a);
  (0x1ae5c7cf41be60e7, 0x3440caa585973c, 0xee5aa258929b7af, 0x1cf0b009fae285);
  (0x38b11c1a5411d045, 0x3711155cbdae23, 0x1dcb544b12536f5e, 0x1cf0b009fae285);
  (0xb569f387736c341, 0x3711155cbdae23, 0x71e15da23e5e8dc, 0x229145786b1053);
  (0x16ad3e70ee6d8682, 0x3711155cbdae23, 0x1274b5129b1cac1d, 0x2cd12d6a945f3b);
  (0x2d5a7ce1dcdb0d04, 0x3711155cbdae23, 0x2921f383898a329f, 0x31f12163a906af);
  (0x5ab4f9c3b9b61a08, 0x3711155cbdae23, 0x567c706566653fa3, 0x34811b60335a69);
  (0x122431f3f1f13868, 0x3711155cbdae23, 0xdeba8959ea05e03, 0x2a41336e0a0b81);
  (0x244863e7e3e270d0, 0x3711155cbdae23, 0x200fda899091966b, 0x30a9246563dcd2);
  (0x4890c7cfc7c4e1a0, 0x3711155cbdae23, 0x200fda899091966b, 0x18549232b1ee69);
  (0x9ca000092c43333, 0x2524742165910b, 0xb22ed447ee6b19c, 0x2a41336e0a0b81);
  (0x1394000125886666, 0x2524742165910b, 0x14eced4511aae4cf, 0x27b2d3c7b7ce46);
  (0x3c14ed475cbbb19b, 0x38fdde0541782e, 0x14eced4511aae4cf, 0x13d969e3dbe723);
  (0x7d4cccd42368f5c, 0x2524742165910b, 0xd182077cf745573, 0x3e1a9d51e5f2a4);
  (0xfa9999a846d1eb8, 0x2524742165910b, 0xd182077cf745573, 0x1f0d4ea8f2f952);
  (0x2c6b53acd84e92e3, 0x34ab1b75df0db4, 0xd182077cf745573, 0xf86a754797ca9);
  (0x469b949c77373dc9, 0x29dc350f690383, 0x60cbd58c161fe8af, 0x3962dc63e2802c);
  (0xe1f1db8e4a4a5f5, 0x29dc350f690383, 0xc112336ba4404f1, 0x23c50f96f66bca);
  (0x1c3e3b71c9494bea, 0x29dc350f690383, 0x284f5ea8838d50db, 0x3bbebcdae43968);
  (0x387c76e3929297d4, 0x29dc350f690383, 0x284f5ea8838d50db, 0x1ddf5e6d721cb4);
  (0xb4c17c71d5084c4, 0x29dc350f690383, 0x66b17532b9bc28f, 0x17c838f4ff84fb);
  (0x16982f8e3aa10988, 0x29dc350f690383, 0x11b72f1a48ec4753, 0x20d2370234443f);
  (0x2d305f1c75421310, 0x29dc350f690383, 0x284f5ea8838d50db, 0x25573608cea3e1);
  (0xbf7134b42134523, 0x376b3223382269, 0x71612d7505e82ee, 0x20d2370234443f);
  (0x130d26229271c811, 0x2c1eb492b63354, 0xe2c25aea0bd05dc, 0x20d2370234443f);
  (0x130d26229271c811, 0x160f5a495b19aa, 0x2f65717fd3ebd3c9, 0x36e1914b8f5de9);
  (0x130d26229271c811, 0xb07ad24ad8cd5, 0x5ecae2ffa7d7a792, 0x36e1914b8f5de9);
  (0x3cf6e06ea16c19d, 0xb07ad24ad8cd5, 0x12964a755e10874e, 0x35ce4f9c3dd4e9);
  (0x79edc0dd42d833a, 0xb07ad24ad8cd5, 0x25a37097f0824f5f, 0x367a58a9d0ca89);
  (0xf3db81ba85b0674, 0xb07ad24ad8cd5, 0x4bbdbcdd1565df81, 0x36d05d309a4559);
  (0xf3db81ba85b0674, 0x372661b763c029, 0x2f4927c7d985abd, 0xab1a89de41205);
  (0x1e7b703750b60ce8, 0x372661b763c029, 0x12324a9825f36131, 0x20ec052aa3e917);
  (0x3cf6e06ea16c19d0, 0x372661b763c029, 0x30adbacf76a96e19, 0x2c09337103d4a0);
  (0xc49259f2ac2abb7, 0x3791e75fdf99ad, 0x7475109a8c7c07a, 0x20ec052aa3e917);
  (0x139076a8d38a6c31, 0x2c3ef64541c162, 0xe8ea213518f80f4, 0x20ec052aa3e917);
  (0x139076a8d38a6c31, 0x161f7b22a0e0b1, 0x30adbacf76a96e19, 0x370b804d44c9c8);
  (0x57cea8211dbe467b, 0x31a53b49434595, 0x30adbacf76a96e19, 0x1b85c026a264e4);
  (0x7d362a9ee375e7a, 0x161f7b22a0e0b1, 0x11603027bdcbf431, 0x311ed436a875b0);
  (0xfa6c553dc6ebcf4, 0x161f7b22a0e0b1, 0x2106f57b9a3ab125, 0x2eaee53df51b89);
  (0x4ffb45772f86e801, 0x3886ab52ebdece, 0x30adbacf76a96e19, 0x226730304afe1d);
  (0x1166fdbb21071cf4, 0x3d7e93767bedc5, 0x379a33b25f5973d, 0xc47b50daa1d6c);
  (0x22cdfb76420e39e8, 0x3d7e93767bedc5, 0x379a33b25f5973d, 0x623da86d50eb6);
  (0x459bf6ec841c73d0, 0x3d7e93767bedc5, 0x379a33b25f5973d, 0x311ed436a875b);
  (0xe01c33a24c30000, 0x3ddebc3f215869, 0xb1ed723acab7d9, 0x311ed436a875b);
  (0x1c9a3d98f76414cd, 0x3f2b99636f3970, 0x163dae475956fb2, 0x311ed436a875b);
  (0x386757722710ceb5, 0x3e491153e0e646, 0x2c7b5c8eb2adf64, 0x311ed436a875b);
  (0x70018b24866a4285, 0x3dd7cd4c19bcb1, 0x58f6b91d655bec8, 0x311ed436a875b);
  (0x1310a81633e1ce09, 0x34a20581da26a0, 0x58f6b91d655bec8, 0xf59a25114a4c7);
  (0x1e2f7f39e08d4b99, 0x29aaa51201b817, 0x294e565d8d38c929, 0x39044763165cde);
  (0x3c5efe73c11a9732, 0x29aaa51201b817, 0x294e565d8d38c929, 0x1c8223b18b2e6f);
  (0x126e0d3f92ca5e9e, 0x3f9965f1b29529, 0xa29ad6a1176f6b, 0x23120f09e1b1f);
  (0x1455ddc37610acdf, 0x23166461c67343, 0x159b1370b83f8bb5, 0x25478552648e62);
  (0x28abbb86ec2159be, 0x23166461c67343, 0x3e46cef7a460e573, 0x35ba270af8ba74);
  (0x82258b495a04526, 0x23166461c67343, 0xd78babc229f468f, 0x3a1c68ec34f0b2);
  (0x1044b1692b408a4c, 0x23166461c67343, 0xd78babc229f468f, 0x1d0e34761a7859);
  (0x208962d256811498, 0x23166461c67343, 0x1dbd6c254ddfd0db, 0x20124c6bf075ce);
  (0x4112c5a4ad022930, 0x23166461c67343, 0x5ed031c9fae1fa0b, 0x331f8a97beae2a);
  (0x176ffb0a0cc8d197, 0x3f2fea6f16a3fe, 0x5f2af3aa92cc35f, 0x10092635f83ae7);
  (0x2f3ab7f4b17bdf13, 0x3faa41a37bc7cd, 0xbe55e75525986be, 0x10092635f83ae7);
  (0x52ead354a888734d, 0x37e2da22b23c41, 0x17cabceaa4b30d7c, 0x10092635f83ae7);
  (0xbd337aecd91145d, 0x27d9b3ecba015a, 0xbf7853bd721f91f, 0x28540b211f2529);
  (0xbd337aecd91145d, 0x13ecd9f65d00ad, 0x23c242267bd5069b, 0x3c40e5177c25d6);
  (0x17a66f5d9b2228ba, 0x13ecd9f65d00ad, 0x3b68b18416f72f55, 0x320d4c821b1398);
  (0x958bb4e36668c7c, 0x275f5cb854dd8b, 0x726da07b25dce1f, 0x1e20728bbe12eb);
  (0x107f9555e8c45a9b, 0x22bfe7a209783b, 0xe4db40f64bb9c3e, 0x1e20728bbe12eb);
  (0x1ecd49654d7ff6d9, 0x20702d16e3c593, 0x3b68b18416f72f55, 0x3e909fa2a1d87e);
  (0x3d9a92ca9affedb2, 0x20702d16e3c593, 0x7903444eb1f71d07, 0x3fb87ce834b1d2);
  (0xd32ddde53d0487c, 0x22bfe7a209783b, 0x1833da762397d29b, 0x3fb87ce834b1d2);
  (0x1a65bbbca7a090f8, 0x22bfe7a209783b, 0x1833da762397d29b, 0x1fdc3e741a58e9);
  (0x32999632cb386393, 0x214e130b11e892, 0x3067b4ec472fa536, 0x1fdc3e741a58e9);
  (0xb6fd867ab108622, 0x25a390cff8978d, 0x93df7212707c7c5, 0x1e6a69dd22c940);
  (0x201da7f07d28d409, 0x34d8c5be89fc2d, 0x93df7212707c7c5, 0xf3534ee9164a0);
  (0x4979470221596fd7, 0x3c736035d2ae7d, 0x93df7212707c7c5, 0x79a9a7748b250);
  (0xeb1db006d11e32b, 0x3c736035d2ae7d, 0x93df7212707c7c5, 0x260504546b7b90);
  (0x1d63b600da23c656, 0x3c736035d2ae7d, 0x93df7212707c7c5, 0x1302822a35bdc8);
  (0x3ac76c01b4478cac, 0x3c736035d2ae7d, 0x93df7212707c7c5, 0x98141151adee4);
  (0x758ed803688f1958, 0x3c736035d2ae7d, 0x93df7212707c7c5, 0x4c0a08a8d6f72);
  (0x101e324c8f499874, 0x2970de0b9cf0b5, 0x93df7212707c7c5, 0x17c322b4c32d3a);
  (0x297a5bba459af8ad, 0x35526f65fe8752, 0x93df7212707c7c5, 0xbe1915a61969d);
  (0x4e72383ee1ba17c1, 0x326c5a67c270e3, 0x60ee26812fc9a74b, 0x3e4debc2240780);
  (0x4994917fe4f1507, 0xec7a6589dad0c, 0x127bee424e0f8f8a, 0x3b67d6c3e7f111);
  (0x4994917fe4f1507, 0x763d32c4ed686, 0x24f7dc849c1f1f14, 0x3b67d6c3e7f111);
  (0x4994917fe4f1507, 0x3b1e996276b43, 0x4e890221368d532f, 0x3f19c05a0f5c54);
  (0x4994917fe4f1507, 0x12798feec5184f, 0xfb5006d0ae910a3, 0x3f19c05a0f5c54);
  (0x18e7929d07873ab1, 0x3206701bccc679, 0xfb5006d0ae910a3, 0x1f8ce02d07ae2a);
  (0x31cf253a0f0e7562, 0x3206701bccc679, 0xfb5006d0ae910a3, 0xfc6701683d715);
  (0x9f63aa53636177a, 0x3206701bccc679, 0x5bec5c7d4b2f929, 0x1cd9c054c66cf0);
  (0x13ec754a6c6c2ef4, 0x3206701bccc679, 0x5bec5c7d4b2f929, 0xe6ce02a633678);
  (0x2d97b05cad8b5711, 0x393ce030fe61b5, 0x5bec5c7d4b2f929, 0x7367015319b3c);
  (0x5b2f60b95b16ae22, 0x393ce030fe61b5, 0x60ee26812fc9a74b, 0x3cd8183b972f53);
  (0x123cacf1df04893a, 0x393ce030fe61b5, 0x5bec5c7d4b2f929, 0x12081834fc0416);
  (0x247959e3be091274, 0x393ce030fe61b5, 0x5bec5c7d4b2f929, 0x9040c1a7e020b);
  (0x48f2b3c77c1224e8, 0x393ce030fe61b5, 0x2a381fab92bc0b9d, 0x21207625be31e0);
  (0x62550d261de050f, 0x181c6a0b402fd5, 0xb7d8b8fa965f252, 0x2d143c84760a37);
  (0xc4aa1a4c3bc0a1e, 0x181c6a0b402fd5, 0x1ded7e06cf00017f, 0x3ab4bd531b4cdb);
  (0x189543498778143c, 0x181c6a0b402fd5, 0x2a381fab92bc0b9d, 0x296893af2dbe58);
  (0x0, 0x0, 0x0, 0x0);
  (0x0, 0x0, 0x0, 0x0);
  (0x0, 0x0, 0x0, 0x0);
  (0x0, 0x0, 0x0, 0x0);
  (0x0, 0x0, 0x0, 0x0);
  (0x0, 0x0, 0x0, 0x0);
  (0x0, 0x0, 0x0, 0x0);
  (0x0, 0x0, 0x0, 0x0);
  (0x0, 0x0, 0x0, 0x0);
  (0x0, 0x0, 0x0, 0x0);
  (0x0, 0x0, 0x0, 0x0);
  (0x0, 0x0, 0x0, 0x0);
  (0x0, 0x0, 0x0, 0x0);
  (0x0, 0x0, 0x0, 0x0);
  (0x0, 0x0, 0x0, 0x0);
  (0x0, 0x0, 0x0, 0x0);
  (0x0, 0x0, 0x0, 0x0);
  (0x0, 0x0, 0x0, 0x0);
  (0x0, 0x0, 0x0, 0x0);
  (0x0, 0x0, 0x0, 0x0);
  (0x0, 0x0, 0x0, 0x0);
  (0x0, 0x0, 0x0, 0x0);
  (0x0, 0x0, 0x0, 0x0);
  (0x0, 0x0, 0x0, 0x0);
  (0x0, 0x0, 0x0, 0x0);
  (0x0, 0x0, 0x0, 0x0);
  (0x0, 0x0, 0x0, 0x0);
  (0x0, 0x0, 0x0, 0x0);
  (0x0, 0x0, 0x0, 0x0);
  (0x0, 0x0, 0x0, 0x0);
  (0x0, 0x0, 0x0, 0x0);
  (0x0, 0x0, 0x0, 0x0);
  (0x0, 0x0, 0x0, 0x0);
  (0x0, 0x0, 0x0, 0x0);
  (0x0, 0x0, 0x0, 0x0);
  (0x0, 0x0, 0x0, 0x0);
  (0x0, 0x0, 0x0, 0x0);
  (0x0, 0x0, 0x0, 0x0);
  (0x0, 0x0, 0x0, 0x0);
  (0x0, 0x0, 0x0, 0x0);
  (0x0, 0x0, 0x0, 0x0);
  (0x0, 0x0, 0x0, 0x0);
  (0x0, 0x0, 0x0, 0x0);
  (0x0, 0x0, 0x0, 0x0);
  (0x0, 0x0, 0x0, 0x0);
  (0x0, 0x0, 0x0, 0x0);
  (0x0, 0x0, 0x0, 0x0);
  (0x0, 0x0, 0x0, 0x0);
  (0x0, 0x0, 0x0, 0x0);
  (0x0, 0x0, 0x0, 0x0);
  (0x0, 0x0, 0x0, 0x0);
  (0x0, 0x0, 0x0, 0x0);
  (0x0, 0x0, 0x0, 0x0);
  (0x0, 0x0, 0x0, 0x0);
  (0x0, 0x0, 0x0, 0x0);
  (0x0, 0x0, 0x0, 0x0);
  (0x0, 0x0, 0x0, 0x0);
  (0x0, 0x0, 0x0, 0x0);
  (0x0, 0x0, 0x0, 0x0);
  (0x0, 0x0, 0x0, 0x0);
  (0x0, 0x0, 0x0, 0x0);
  (0x0, 0x0, 0x0, 0x0);
  (0x0, 0x0, 0x0, 0x0);
  (0x0, 0x0, 0x0, 0x0);
  (0x0, 0x0, 0x0, 0x0);
  (0x0, 0x0, 0x0, 0x0);
  (0x0, 0x0, 0x0, 0x0);
  (0x0, 0x0, 0x0, 0x0);
  (0x0, 0x0, 0x0, 0x0);
  (0x0, 0x0, 0x0, 0x0);
  (0x0, 0x0, 0x0, 0x0);
  (0x0, 0x0, 0x0, 0x0);
  (0x0, 0x0, 0x0, 0x0);
  (0x0, 0x0, 0x0, 0x0);
  (0x0, 0x0, 0x0, 0x0);
  (0x0, 0x0, 0x0, 0x0);
  (0x0, 0x0, 0x0, 0x0);
  (0x0, 0x0, 0x0, 0x0);
  (0x0, 0x0, 0x0, 0x0);
  (0x0, 0x0, 0x0, 0x0);
  (0x0, 0x0, 0x0, 0x0);
  (0x0, 0x0, 0x0, 0x0);
  (0x0, 0x0, 0x0, 0x0);
  (0x0, 0x0, 0x0, 0x0);
  (0x0, 0x0, 0x0, 0x0);
  (0x0, 0x0, 0x0, 0x0);
  (0x0, 0x0, 0x0, 0x0);
  (0x0, 0x0, 0x0, 0x0);
  (0x0, 0x0, 0x0, 0x0);
  (0x0, 0x0, 0x0, 0x0);
  (0x0, 0x0, 0x0, 0x0);
  (0x0, 0x0, 0x0, 0x0);
  (0x0, 0x0, 0x0, 0x0);
  (0x0, 0x0, 0x0, 0x0);
  (0x0, 0x0, 0x0, 0x0);
  (0x0, 0x0, 0x0, 0x0);
  (0x0, 0x0, 0x0, 0x0);
  (0x0, 0x0, 0x0, 0x0);
  (0x0, 0x0, 0x0, 0x0);
  (0x0, 0x0, 0x0, 0x0);
  (0x0, 0x0, 0x0, 0x0);
  (0x0, 0x0, 0x0, 0x0);
  (0x0, 0x0, 0x0, 0x0);
  (0x0, 0x0, 0x0, 0x0);
  (0x0, 0x0, 0x0, 0x0);
  (0x0, 0x0, 0x0, 0x0);
  (0x0, 0x0, 0x0, 0x0);
  (0x0, 0x0, 0x0, 0x0);
  (0x0, 0x0, 0x0, 0x0);
  (0x0, 0x0, 0x0, 0x0);
  (0x0, 0x0, 0x0, 0x0);
  (0x0, 0x0, 0x0, 0x0);
  (0x0, 0x0, 0x0, 0x0);
  (0x0, 0x0, 0x0, 0x0);
  (0x0, 0x0, 0x0, 0x0);
  (0x0, 0x0, 0x0, 0x0);
  (0x0, 0x0, 0x0, 0x0);
  (0x0, 0x0, 0x0, 0x0);
  (0x0, 0x0, 0x0, 0x0);
  (0x0, 0x0, 0x0, 0x0);
  (0x0, 0x0, 0x0, 0x0);
  (0x0, 0x0, 0x0, 0x0);
  (0x0, 0x0, 0x0, 0x0);
  (0x0, 0x0, 0x0, 0x0);
  (0x0, 0x0, 0x0, 0x0);
  (0x0, 0x0, 0x0, 0x0);
  (0x0, 0x0, 0x0, 0x0);
  (0x0, 0x0, 0x0, 0x0);
  (0x0, 0x0, 0x0, 0x0);
  (0x0, 0x0, 0x0, 0x0);
  (0x0, 0x0, 0x0, 0x0);
  (0x0, 0x0, 0x0, 0x0);
  (0x0, 0x0, 0x0, 0x0);
  (0x0, 0x0, 0x0, 0x0);
  (0x0, 0x0, 0x0, 0x0);
  (0x0, 0x0, 0x0, 0x0);
  (0x0, 0x0, 0x0, 0x0);
  (0x0, 0x0, 0x0, 0x0);
  (0x0, 0x0, 0x0, 0x0);
  (0x0, 0x0, 0x0, 0x0);
  (0x0, 0x0, 0x0, 0x0);
  (0x0, 0x0, 0x0, 0x0);
  (0x0, 0x0, 0x0, 0x0);
  (0x0, 0x0, 0x0, 0x0);
  (0x0, 0x0, 0x0, 0x0);
  (0x0, 0x0, 0x0, 0x0);
  (0x0, 0x0, 0x0, 0x0);
  (0x0, 0x0, 0x0, 0x0);
  (0x0, 0x0, 0x0, 0x0);
  (0x0, 0x0, 0x0, 0x0);
  (0x0, 0x0, 0x0, 0x0);
  (0x0, 0x0, 0x0, 0x0);
  (0x0, 0x0, 0x0, 0x0);
  (0x0, 0x0, 0x0, 0x0);
  (0x0, 0x0, 0x0, 0x0);
  (0x0, 0x0, 0x0, 0x0);
  (0x0, 0x0, 0x0, 0x0);
  (0x0, 0x0, 0x0, 0x0);
  (0x0, 0x0, 0x0, 0x0);
  (0x0, 0x0, 0x0, 0x0);
  (0x0, 0x0, 0x0, 0x0);
  (0x0, 0x0, 0x0, 0x0);
  (0x0, 0x0, 0x0, 0x0);
  (0x0, 0x0, 0x0, 0x0);
  (0x0, 0x0, 0x0, 0x0);
  (0x0, 0x0, 0x0, 0x0);
  (0x0, 0x0, 0x0, 0x0);
  (0x0, 0x0, 0x0, 0x0);
  (0x0, 0x0, 0x0, 0x0);
  (0x0, 0x0, 0x0, 0x0);
  (0x0, 0x0, 0x0, 0x0);
  (0x0, 0x0, 0x0, 0x0);
  (0x0, 0x0, 0x0, 0x0);
  (0x0, 0x0, 0x0, 0x0);
  (0x0, 0x0, 0x0, 0x0);
  (0x0, 0x0, 0x0, 0x0);
  (0x0, 0x0, 0x0, 0x0);
  (0x0, 0x0, 0x0, 0x0);
  (0x0, 0x0, 0x0, 0x0);
  (0x0, 0x0, 0x0, 0x0);
  (0x0, 0x0, 0x0, 0x0);
  (0x0, 0x0, 0x0, 0x0);
  (0x0, 0x0, 0x0, 0x0);
  (0x0, 0x0, 0x0, 0x0);
  (0x0, 0x0, 0x0, 0x0);
  (0x0, 0x0, 0x0, 0x0);
  (0x100, 0x5, 0xccccccccccccbcd, 0x3ffffffffffffb);
  (0x200, 0x5, 0x19999999999998cd, 0x3ffffffffffffe);
  (0x400, 0x5, 0x33333333333330cd, 0x3ffffffffffffd);
  (0x800, 0x5, 0x66666666666664cd, 0x3fffffffffffff);
  (0x800, 0x19, 0x147ae147ae147429, 0x3fffffffffffeb);
  (0x1000, 0x19, 0x28f5c28f5c28ec29, 0x3ffffffffffff1);
  (0x2000, 0x19, 0x51eb851eb851dc29, 0x3ffffffffffff4);
  (0x2000, 0x7d, 0x10624dd2f1a9f8d5, 0x3ffffffffffff4);
  (0x4000, 0x7d, 0x20c49ba5e353b8d5, 0x3fffffffffff85);
  (0x8000, 0x7d, 0x4189374bc6a778d5, 0x3fffffffffff8c);
  (0x8000, 0x271, 0xd1b71758e217e91, 0x3fffffffffff8c);
  (0x10000, 0x271, 0x1a36e2eb1c427e91, 0x3ffffffffffe57);
  (0x20000, 0x271, 0x346dc5d638857e91, 0x3ffffffffffef5);
  (0x40000, 0x271, 0x68db8bac710b7e91, 0x3fffffffffff44);
  (0x40000, 0xc35, 0x14f8b588e367e61d, 0x3ffffffffffcd3);
  (0x80000, 0xc35, 0x29f16b11c6cbe61d, 0x3ffffffffff6e0);
  (0x100000, 0xc35, 0x53e2d6238d9be61d, 0x3ffffffffffa01);
  (0x100000, 0x3d09, 0x10c6f7a0b5e26139, 0x3fffffffffd562);
  (0x200000, 0x3d09, 0x218def416bc26139, 0x3fffffffffd0d8);
  (0x400000, 0x3d09, 0x431bde82d7826139, 0x3fffffffffce93);
  (0x400000, 0x1312d, 0xd6bf94d5e4d46a5, 0x3fffffffffce93);
  (0x800000, 0x1312d, 0x1ad7f29abc8d46a5, 0x3fffffffffaeec);
  (0x1000000, 0x1312d, 0x35afe535788d46a5, 0x3fffffffff0682);
  (0x2000000, 0x1312d, 0x6b5fca6af28d46a5, 0x3fffffffffe37a);
  (0x2000000, 0x5f5e1, 0x15798ee22ee90e21, 0x3ffffffffb1ec6);
  (0x4000000, 0x5f5e1, 0x2af31dc45ee90e21, 0x3ffffffffcbe6f);
  (0x8000000, 0x5f5e1, 0x55e63b88bae90e21, 0x3ffffffffa9353);
  (0x8000000, 0x1dcd65, 0x112e0be8222e9c6d, 0x3fffffffeea791);
  (0x10000000, 0x1dcd65, 0x225c17d04a2e9c6d, 0x3ffffffff97dc5);
  (0x20000000, 0x1dcd65, 0x44b82fa09a2e9c6d, 0x3ffffffffee8df);
  (0x20000000, 0x9502f9, 0xdbe6fecded61f49, 0x3fffffffc34e15);
  (0x40000000, 0x9502f9, 0x1b7cdfd9bed61f49, 0x3fffffffc603a2);
  (0x80000000, 0x9502f9, 0x36f9bfb33ed61f49, 0x3fffffff7cdcec);
  (0x100000000, 0x9502f9, 0x6df37f673ed61f49, 0x3fffffffed4c8a);
  (0x100000000, 0x2e90edd, 0x15fd7fe10c913975, 0x3ffffffec34698);
  (0x200000000, 0x2e90edd, 0x2bfaffc10c913975, 0x3ffffffd3c757c);
  (0x400000000, 0x2e90edd, 0x57f5ff850c913975, 0x3fffffff621bcb);
  (0x400000000, 0xe8d4a51, 0x1197997dcf503eb1, 0x3ffffff3bde057);
  (0x800000000, 0xe8d4a51, 0x232f3301cf503eb1, 0x3fffffff006784);
  (0x1000000000, 0xe8d4a51, 0x465e6601cf503eb1, 0x3ffffffd5b05f2);
  (0x1000000000, 0x48c27395, 0xe12e129f6433fbd, 0x3fffffd1b326ff);
  (0x2000000000, 0x48c27395, 0x1c25c259f6433fbd, 0x3fffffdf6dc087);
  (0x4000000000, 0x48c27395, 0x384b84b9f6433fbd, 0x3fffffe64b0d4b);
  (0x8000000000, 0x48c27395, 0x70970979f6433fbd, 0x3fffffe9b9b3ad);
  (0x8000000000, 0x16bcc41e9, 0x16849b653140a659, 0x3fffffa0f74018);
  (0x10000000000, 0x16bcc41e9, 0x2d0936653140a659, 0x3fffff1129ac1f);
  (0x20000000000, 0x16bcc41e9, 0x5a126d653140a659, 0x3fffff7f290317);
  (0x20000000000, 0x71afd498d, 0x1203ae4770402145, 0x3ffffb3bc43d5c);
  (0x40000000000, 0x71afd498d, 0x24075e4770402145, 0x3ffffe4a5c6caa);
  (0x80000000000, 0x71afd498d, 0x480ebe4770402145, 0x3fffffd1a88451);
  (0x80000000000, 0x2386f26fc1, 0xe6959417cd9a041, 0x3fffffd1a88451);
  (0x100000000000, 0x2386f26fc1, 0x1cd2b1417cd9a041, 0x3ffffd07cfeb5e);
  (0x200000000000, 0x2386f26fc1, 0x39a551417cd9a041, 0x3fffe9df6a6704);
  (0x400000000000, 0x2386f26fc1, 0x734a91417cd9a041, 0x3fffe04b37a4d7);
  (0x400000000000, 0xb1a2bc2ec5, 0x170ee9d9e5c5200d, 0x3fffe04b37a4d7);
  (0x800000000000, 0xb1a2bc2ec5, 0x2e1da9d9e5c5200d, 0x3fffa636b29c1f);
  (0x1000000000000, 0xb1a2bc2ec5, 0x5c3b29d9e5c5200d, 0x3fff892c7017c3);
  (0x1000000000000, 0x3782dace9d9, 0x12723b91fac10669, 0x3fff892c7017c3);
  (0x2000000000000, 0x3782dace9d9, 0x24e33b91fac10669, 0x3ffd65bf1a4946);
  (0x4000000000000, 0x3782dace9d9, 0x49c73b91fac10669, 0x3ffe101f45d6f4);
  (0x4000000000000, 0x1158e460913d, 0xec172506559ce15, 0x3ffe101f45d6f4);
  (0x8000000000000, 0x1158e460913d, 0x1d8172506559ce15, 0x3ffaed21aeb3f2);
  (0x10000000000000, 0x1158e460913d, 0x3b0172506559ce15, 0x3ff95ba2e32271);
  (0x20000000000000, 0x1158e460913d, 0x75f172506559ce15, 0x3fefe6714d1112);
  (0x20000000000000, 0x56bc75e2d631, 0x1789e3a9addec2d1, 0x3fcd34a88bee98);
  (0x40000000000000, 0x56bc75e2d631, 0x2f09e3a9addec2d1, 0x3fbfcd9d909d4a);
  (0x80000000000000, 0x56bc75e2d631, 0x5e09e3a9addec2d1, 0x3fb91a1812f4a3);
  (0x80000000000000, 0x1b1ae4d6e2ef5, 0x126860bb892c8d5d, 0x3e5e2840879bdf);
  (0x100000000000000, 0x1b1ae4d6e2ef5, 0x24e860bb892c8d5d, 0x3e862cb8ba32a4);
  (0x200000000000000, 0x1b1ae4d6e2ef5, 0x4ae860bb892c8d5d, 0x3f73061b8a9581);
  (0x200000000000000, 0x878678326eac9, 0xe2e79bf1b6f4f79, 0x3c0fa980ae3797);
  (0x400000000000000, 0x878678326eac9, 0x1c2e79bf1b6f4f79, 0x3bad3f0b5f518b);
  (0x800000000000000, 0x878678326eac9, 0x382e79bf1b6f4f79, 0x3b7c09d0b7de85);
  (0x1000000000000000, 0x878678326eac9, 0x702e79bf1b6f4f79, 0x3b636f33642502);
  (0x1000000000000000, 0x2a5a058fc295ed, 0xcd618596be30fe5, 0x21fa38a9ef64a7);
  (0x2000000000000000, 0x2a5a058fc295ed, 0x1cd618596be30fe5, 0x262a1f1cd8fd4a);
  (0x4000000000000000, 0x2a5a058fc295ed, 0x5cd618596be30fe5, 0x3d6f151e2f1492);
  (0xf54b9521017267c, 0x32b9d27595c733, 0x480750273eea323, 0xee5291b82e602);
  (0x2329e7a6941cf01b, 0x3a2c6703573a34, 0x480750273eea323, 0x772948dc17301);
  (0x2329e7a6941cf01b, 0x1d163381ab9d1a, 0x2c2ad1ab7bfa3661, 0x2488c80f6d101b);
  (0x8a9d03fb0206914, 0x23d4a95a12e131, 0x8d55d224bfed7ad, 0x2488c80f6d101b);
  (0x117f2d61fc1f40c1, 0x242eb8b4bff8a6, 0x11aaba4497fdaf5a, 0x2488c80f6d101b);
  (0x34d4a1eb2c1a9f75, 0x36a02469cd0c6e, 0x235574892ffb5eb4, 0x2488c80f6d101b);
  (0x7b7f8afd8c115cdd, 0x3fd8da44539652, 0x46aae9125ff6bd68, 0x2488c80f6d101b);
  (0x189044b09f5186e5, 0x3f7ecae9a67edd, 0xe222e9d46648c48, 0x2488c80f6d101b);
  (0x26b2734de5b6132d, 0x3203c97c89c77c, 0x1c445d3a8cc91890, 0x2488c80f6d101b);
  (0x5f3b2dc2ff48444d, 0x3d8aaccdb1f3d9, 0x3888ba7519923120, 0x2488c80f6d101b);
  (0x130bd5f3cca80da9, 0x3d8aaccdb1f3d9, 0x12710e8d804215ce, 0x3b968eb1bd68d5);
  (0x2617abe799501b52, 0x3d8aaccdb1f3d9, 0x257ce4814cea2377, 0x3c909dbfb7ae57);
  (0x4c2f57cf32a036a4, 0x3d8aaccdb1f3d9, 0x4b949068e63a3ec9, 0x3d0da546b4d118);
  (0xf3cab2970867154, 0x3d8aaccdb1f3d9, 0xea1e3c324207979, 0x3b19872ac04614);
  (0x1e795652e10ce2a8, 0x3d8aaccdb1f3d9, 0xea1e3c324207979, 0x1d8cc39560230a);
  (0x3cf2aca5c219c550, 0x3d8aaccdb1f3d9, 0xea1e3c324207979, 0xec661cab01185);
  (0xc3088edf39ec110, 0x3d8aaccdb1f3d9, 0x2715ad53081b869, 0xc553c27be63c0);
  (0x186111dbe73d8220, 0x3d8aaccdb1f3d9, 0x2715ad53081b869, 0x62a9e13df31e0);
  (0x30c223b7ce7b0440, 0x3d8aaccdb1f3d9, 0x2715ad53081b869, 0x3154f09ef98f0);
  (0x63f5a244cd77c0e9, 0x3f155452a9c051, 0x2715ad53081b869, 0x18aa784f7cc78);
  (0x1303c8ebaf4a766b, 0x3c000548ba2761, 0x2715ad53081b869, 0x7b54598d6fe58);
  (0x260791d75e94ecd6, 0x3c000548ba2761, 0x2878ecac8f16a53f, 0x3fdaa81525a68d);
  (0x4e807e83edab9215, 0x3ded56aeefe6f7, 0x50f1d9591e2d4a7e, 0x3fdaa81525a68d);
  (0xeb9282b828806a7, 0x3a12b3e28467cb, 0x2715ad53081b869, 0x9a296ff0cbdee);
  (0x1fe3ab2c3591c5b7, 0x3ee3ff620ac6c2, 0x2715ad53081b869, 0x4d14b7f865ef7);
  (0x1fe3ab2c3591c5b7, 0x1f71ffb1056361, 0x24c660d696953689, 0x24434b308bc258);
  (0x46c732b171bc737, 0x15cf68b1f8a573, 0x94f28d5781f3809, 0x2de5e22f988046);
  (0x12280f2ba656c677, 0x2cc259c9c4e596, 0x94f28d5781f3809, 0x16f2f117cc4023);
  (0x12280f2ba656c677, 0x16612ce4e272cb, 0x24c660d696953689, 0x2d541dfcaeb2ee);
  (0x24501e574cad8cee, 0x16612ce4e272cb, 0x49167f2de342c377, 0x2d0b3be339cc42);
  (0x7433944a8ef8296, 0x16612ce4e272cb, 0xefcb5089bc6aec7, 0x2e2ec4490d66f2);
  (0xe86728951df052c, 0x16612ce4e272cb, 0x1d832791eda5b3f3, 0x2d788f09692644);
  (0x1d0ce512a3be0a58, 0x16612ce4e272cb, 0x3a900ca49163be4b, 0x2d1d74699705ed);
  (0x5b7ba1d785e1359, 0x16061245105274, 0xbe5b6ba3aa3d04d, 0x2dd3a9a93b469b);
  (0x5b7ba1d785e1359, 0xb03092288293a, 0x1d832791eda5b3f3, 0x38d6b2cbc36fd5);
  (0x5b7ba1d785e1359, 0x581849144149d, 0x40be094153a97b3f, 0x3e58375d078472);
  (0x124bed2b1ac6a45, 0x581849144149d, 0xd487e38185acd1e, 0x3ff4c7482df6a1);
  (0x2497da56358d48a, 0x581849144149d, 0x19dcb145bac35e15, 0x3e42bcc30d6cb0);
  (0x492fb4ac6b1a914, 0x581849144149d, 0x30bb99bb9c3bab79, 0x3aa8f537db1d69);
  (0x630c65f225ddef55, 0x3b9cd3bae40014, 0x59e66f5c987a9d2d, 0x361b4f299feb77);
  (0x925f6958d635228, 0x1b8796d6546711, 0x10267e8e356b0f01, 0x3099ca985bd6da);
  (0x22726bb95031b351, 0x33d47c2282527e, 0x10267e8e356b0f01, 0x184ce54c2deb6d);
  (0x42bf68d5bb07d153, 0x3237235d6f14ac, 0x204cfd1c6ad61e02, 0x184ce54c2deb6d);
  (0xd597b5df234c377, 0x3237235d6f14ac, 0x59a0660866c9714, 0x151233c2076fc9);
  (0xd597b5df234c377, 0x191b91aeb78a56, 0x188d881eff0df19f, 0x2e2dc570befa1f);
  (0xd597b5df234c377, 0xc8dc8d75bc52b, 0x3e748b9bf050a6b5, 0x3abb8e481abf4a);
  (0xd597b5df234c377, 0x3ec4ec34cad9d7, 0x1cfb93a6e4c51c5, 0x8846aeaabaa9e);
  (0x1ab2f6bbe46986ee, 0x3ec4ec34cad9d7, 0x1cfb93a6e4c51c5, 0x442357555d54f);
  (0x3565ed77c8d30ddc, 0x3ec4ec34cad9d7, 0x1c82aff652b5d8b3, 0x218390d5105793);
  (0x51e89d6e1b88e68f, 0x30243e84ed98b5, 0x39055feca56bb166, 0x218390d5105793);
  (0x148a4dc206ffa41d, 0x3c5cc40f50c5bd, 0x172fa952509db04, 0x442357555d54f);
  (0x18e33d81761d3529, 0x2491b237a922d5, 0x1bc932abc030eb31, 0x28d3e7acfef824);
  (0x4d8fadaeac6b5583, 0x38fba60e289ee7, 0x1bc932abc030eb31, 0x1469f3d67f7c12);
  (0xe5a5a45380d9517, 0x34b97098d2c998, 0x6b76c334411ab0d, 0x18ac294bd55161);
  (0xe5a5a45380d9517, 0x1a5cb84c6964cc, 0x1bc932abc030eb31, 0x3308e1983eb62d);
  (0xe5a5a45380d9517, 0xd2e5c2634b266, 0x379265578061d662, 0x3308e1983eb62d);
  (0x5e33f2acc41932, 0x1b08f0094136b, 0xd9df25fde8562b3, 0x3e86aebddf5528);
  (0xe5a5a45380d9517, 0x20f3e65f83bdff, 0xd9df25fde8562b3, 0x1f43575eefaa94);
  (0x2a52a6ea4ea08ce1, 0x3095920efb9349, 0xd9df25fde8562b3, 0xfa1abaf77d54a);
  (0x624340347bc67c75, 0x386667e6b77dee, 0xd9df25fde8562b3, 0x7d0d5d7bbeaa5);
  (0xe34abe426258b03, 0x28c4bc373fa8a4, 0xd9df25fde8562b3, 0x27142d36ab9539);
  (0xe34abe426258b03, 0x14625e1b9fd452, 0x297090a3e3305069, 0x3b768b524b698b);
  (0xe34abe426258b03, 0xa312f0dcfea29, 0x52e12147c660a0d2, 0x3b768b524b698b);
  (0xe34abe426258b03, 0x32f5eb450f92cd, 0x10936d0e5ae0202a, 0x3b768b524b698b);
  (0x1ec818f28105ab2d, 0x37363b4bad7e2c, 0x2126da1cb5c04054, 0x3b768b524b698b);
  (0x1ec818f28105ab2d, 0x1b9b1da5d6bf16, 0x424db4396b8080a8, 0x3b768b524b698b);
  (0x977eefb2788c4b0, 0x2a754b37d3bc0f, 0x71ab8a7c87ef77f, 0x1fdb6dac74aa75);
  (0x1092a7a2f007bc2f, 0x25285c72243342, 0xe35714f90fdeefe, 0x1fdb6dac74aa75);
  (0x1092a7a2f007bc2f, 0x12942e391219a1, 0x2cfd8a4212039a2b, 0x326f9be586c416);
  (0x4e22d987f2131289, 0x2bcbfc2bd57bac, 0x2cfd8a4212039a2b, 0x1937cdf2c3620b);
  (0xfa091e7fd3703b5, 0x2bcbfc2bd57bac, 0xdbc6672179592c1, 0x267f0d6625f2df);
  (0xfa091e7fd3703b5, 0x15e5fe15eabdd6, 0x2b195ecc2c622937, 0x3c650b7c10b0b5);
  (0xfa091e7fd3703b5, 0xaf2ff0af55eeb, 0x5632bd9858c4526e, 0x3c650b7c10b0b5);
  (0xfa091e7fd3703b5, 0x36befb36cada97, 0xe1d3bf0124f7625, 0x31720c711b51ca);
  (0x1f4123cffa6e076a, 0x36befb36cada97, 0xe1d3bf0124f7625, 0x18b906388da8e5);
  (0x2d5e5fc00cbd7d8f, 0x27bc00b7ac41be, 0x1c3a77e0249eec4a, 0x18b906388da8e5);
  (0x912dff335bf7f83, 0x27bc00b7ac41be, 0xa14b7f9b91fed44, 0x2c251dab6bc8fd);
  (0x912dff335bf7f83, 0x13de005bd620df, 0x14296ff3723fda88, 0x2c251dab6bc8fd);
  (0x1225bfe66b7eff06, 0x13de005bd620df, 0x2f620fcd137e5911, 0x33df8f5f7715cd);
  (0x244b7fccd6fdfe0c, 0x13de005bd620df, 0x65d34f8055fb5623, 0x37bcc8397cbc35);
  (0x7424cc29165ff9c, 0x13de005bd620df, 0x15fa032416995a6f, 0x3c25e52d3c4374);
  (0xe84998522cbff38, 0x13de005bd620df, 0x247e9ca9396559a7, 0x31f0f2f2744299);
  (0x1d09330a4597fe70, 0x13de005bd620df, 0x500c6938a1c9574f, 0x36c57a02fb529b);
  (0x5cea3cedab7ffb0, 0x13de005bd620df, 0x102b5f553be15abf, 0x37515e1cb53372);
  (0xb9d479db56fff60, 0x13de005bd620df, 0x1bc8a6f2f1515a1f, 0x2f86af6a30ba98);
  (0x173a8f3b6adffec0, 0x13de005bd620df, 0x4a3dc569c711579f, 0x3f7f586cc49f0a);
  (0xe1e5fcc5dfd4802, 0x3c60984e984819, 0xe937f18149df13, 0x3e55759423c6d);
  (0x16515749e9961fad, 0x2fb85538f633f7, 0x1823c72cec29ddd3, 0x339dac92387064);
  (0x2ca2ae93d32c3f5a, 0x2fb85538f633f7, 0x1823c72cec29ddd3, 0x19ced6491c3832);
  (0x7169245492825c87, 0x3c9fc05d845010, 0x1823c72cec29ddd3, 0xce76b248e1c19);
  (0x11daac3b2144e624, 0x2fb85538f633f7, 0x6491af1cae4f7af, 0x10ccc27dd05886);
  (0x29fe73680d6ec3f7, 0x381eb677de603a, 0x6491af1cae4f7af, 0x866613ee82c43);
  (0x29fe73680d6ec3f7, 0x1c0f5b3bef301d, 0x3690a94ba338b355, 0x2475bc7ad75c60);
  (0x9414107784cbec4, 0x1eeb92bb25db71, 0xae9bb75870b5711, 0x2475bc7ad75c60);
  (0x1d6c3d8477a4d499, 0x312670f89189a1, 0xae9bb75870b5711, 0x123ade3d6bae30);
  (0x45c2367e76550043, 0x3a43e0174760b9, 0xae9bb75870b5711, 0x91d6f1eb5d718);
  (0x538a821aba18733, 0x15ce239c700459, 0xae9bb75870b5711, 0x2d932b998d3378);
  (0x155b0bb8de4e6577, 0x2c97b969369e15, 0xae9bb75870b5711, 0x16c995ccc699bc);
  (0x359fd2e743a821ff, 0x37fc844f99eaf3, 0xae9bb75870b5711, 0xb64cae6634cde);
  (0x762961440e5b9b0f, 0x3daee9c2cb9162, 0xae9bb75870b5711, 0x5b2657331a66f);
  (0x13446211ccda95c9, 0x324a1edc684484, 0xae9bb75870b5711, 0x1c7bfb3ff8402b);
  (0x2917d8fcdaf143eb, 0x35a10aae2c626d, 0x15d376eb0e16ae22, 0x1c7bfb3ff8402b);
  (0x522fb1f9b5e287d6, 0x35a10aae2c626d, 0x3eeb4fe7e907f20d, 0x290e82f712514c);
  (0x13446211ccda95c9, 0x3edca6938255a5, 0x1060856e6e4d68a, 0x356ebd1c41de9);
  (0x144a6a68b3bf6c53, 0x2119c932a339c7, 0x16567b1681891967, 0x2470b5046757b0);
  (0x2894d4d1677ed8a6, 0x2119c932a339c7, 0x3eeb4fe7e907f20d, 0x335223b4d6e59f);
  (0x81dc429e17fc4ee, 0x2119c932a339c7, 0xe38b6eca0095479, 0x39fffb585f2171);
  (0x103b8853c2ff89dc, 0x2119c932a339c7, 0x16567b1681891967, 0x2d8ce245812d9c);
  (0x207710a785ff13b8, 0x2119c932a339c7, 0x36cd8bbe07882d1f, 0x37e03a5563d095);
  (0x67e3687e7996a58, 0x2119c932a339c7, 0x95a0e06b25644b7, 0x2faca3487c7e78);
  (0xcfc6d0fcf32d4b0, 0x2119c932a339c7, 0x16567b1681891967, 0x38f01ad6e17903);
  (0x19f8da1f9e65a960, 0x2119c932a339c7, 0x2352e82650bbee17, 0x2d04f204c25965);
  (0x33f1b43f3ccb52c0, 0x2119c932a339c7, 0x3d4bc245ef219777, 0x270f5d9bb2c996);
  (0x12e8454b27d9acf5, 0x3c3dfdfc36e3bf, 0xe2129a8ed17f8d6, 0x2d04f204c25965);
  (0x21096ef414f1a5cb, 0x34a178007c9e92, 0x1c425351da2ff1ac, 0x2d04f204c25965);
  (0x21096ef414f1a5cb, 0x1a50bc003e4f49, 0x3884a6a3b45fe358, 0x2d04f204c25965);
  (0x69b7c973763878f, 0x1a50bc003e4f49, 0xa443e8130a72e6f, 0x28e396161793fa);
  (0xd36f92e6ec70f1e, 0x1a50bc003e4f49, 0x177b37af9f6e3d8d, 0x2ec2870b4a1946);
  (0x1a6df25cdd8e1e3c, 0x1a50bc003e4f49, 0x31e92a0c7cfc5bc9, 0x31b1ff85e35bec);
  (0x96f222a6066023, 0x2ef787a9942a6, 0xc473f1d4cf51af4, 0x3d206082d94cdd);
  (0x96f222a6066023, 0x177bc3d4ca153, 0x1925705d3ff0960b, 0x3e981cc025ee30);
  (0x12de4454c0cc046, 0x177bc3d4ca153, 0x33170e51c9091c0f, 0x3f963ba4a8d43a);
  (0x3572d6dc61229c9b, 0x2142da0fa10b70, 0x33170e51c9091c0f, 0x1fcb1dd2546a1d);
  (0xba214c9e9ddec57, 0x2432528a3a4e16, 0x9464c3f51c46bcb, 0x1cdba557bb2777);
  (0xba214c9e9ddec57, 0x121929451d270b, 0x1e2ead488d66c3ed, 0x2ef4ce9cd84e82);
  (0x3572d6dc61229c9b, 0x29939093894e4c, 0x1e2ead488d66c3ed, 0x177a674e6c2741);
  (0xf57cce33dc61775, 0x3bacb9d8a67557, 0x76b7032a7d0563c, 0x1cdba557bb2777);
  (0x1eaf99c67b8c2eea, 0x3bacb9d8a67557, 0x16c33d15e5966db1, 0x2c442f9830ce67);
  (0x3572d6dc61229c9b, 0x33f874b86ba1df, 0x2d867a2bcb2cdb62, 0x2c442f9830ce67);
  (0x195ac23513126a5, 0x7b445203ad378, 0xc3f5b462224afd9, 0x3b8b425420af2b);
  (0x195ac23513126a5, 0x3da22901d69bc, 0x1a1462af957a8657, 0x3f6564e43e18e7);
  (0x195ac23513126a5, 0x1ed11480eb4de, 0x3428c55f2af50cae, 0x3f6564e43e18e7);
  (0x195ac23513126a5, 0xf688a4075a6f, 0x68518abe55ea195c, 0x3f6564e43e18e7);
  (0x51226d76a36e21, 0xf688a4075a6f, 0x14f72c497403f575, 0x3fb497f1a8947a);
  (0xa244daed46dc42, 0xf688a4075a6f, 0x29e20c820a2659f7, 0x3fa1e91dc6f28c);
  (0x14489b5da8db884, 0xf688a4075a6f, 0x53b7ccf3366b22fb, 0x3f9891b3d62195);
  (0x14489b5da8db884, 0x4d0ab3424c42b, 0x103c8b8180432397, 0x3dab806bc76cb7);
  (0x289136bb51b7108, 0x4d0ab3424c42b, 0x20b789bd9975824b, 0x3e221908d2b173);
  (0x51226d76a36e210, 0x4d0ab3424c42b, 0x41ad8635cbda3fb3, 0x3e5d65575853d1);
  (0x51226d76a36e210, 0x18135804b7d4d7, 0xc1f1312e053df87, 0x398cba23338fa6);
  (0x164360c1b4c1a3a7, 0x34d9b516519caa, 0xc1f1312e053df87, 0x1cc65d1199c7d3);
  (0x2e8186e7756962b5, 0x3733379cc29628, 0x183e2625c0a7bf0e, 0x1cc65d1199c7d3);
  (0x2e8186e7756962b5, 0x1b999bce614b14, 0x5efdd332f6b8e0d1, 0x385ff8dffb12e7);
  (0x116a25ed5b067d71, 0x33acf3d3191feb, 0x9b275a8b3764c6c, 0x1cc65d1199c7d3);
  (0x1b1c9b960e7cc9dd, 0x2839a8725973df, 0x1364eb5166ec98d8, 0x1cc65d1199c7d3);
  (0x2e8186e7756962b5, 0x228002c1f99dd9, 0x554b5d8a43429465, 0x3f465fd39365ac);
  (0xad83e3c05cb83f2, 0x2839a8725973df, 0xdf8cc336406d6df, 0x33d31472d3b9a0);
  (0x15b07c780b9707e4, 0x2839a8725973df, 0xdf8cc336406d6df, 0x19e98a3969dcd0);
  (0x3959c5237b34e6a7, 0x352e6d8f0e6247, 0xdf8cc336406d6df, 0xcf4c51cb4ee68);
  (0xb785aa0b23dc7bb, 0x352e6d8f0e6247, 0x2807192b1c90f24, 0xb996c007a45c1);
  (0x16f0b541647b8f76, 0x352e6d8f0e6247, 0xdf8cc336406d6df, 0x2063ecc7c45404);
  (0x2de16a82c8f71eec, 0x352e6d8f0e6247, 0xdf8cc336406d6df, 0x1031f663e22a02);
  (0x69bba138f5f514b7, 0x3d4768c0ff7748, 0xdf8cc336406d6df, 0x818fb31f11501);
  (0xcc3728628601cd2, 0x24fc772b2c3845, 0xdf8cc336406d6df, 0x287ce7f9b56905);
  (0x1986e50c50c039a4, 0x24fc772b2c3845, 0x1abc3eb98c66f3b1, 0x26bcaf9270d0a5);
  (0x344323c5dd272d55, 0x25dc935ece8475, 0x35787d7318cde762, 0x26bcaf9270d0a5);
  (0x1175d9e25a657245, 0x3f3f03cebdbb49, 0x3ddebc3f215869, 0xe01c33a24c30);
  (0x23299280f3ec3cf3, 0x3faf11e88ee161, 0x3ddebc3f215869, 0x700e19d12618);
  (0x469103be26f9d24f, 0x3fe718f577746d, 0x3ddebc3f215869, 0x38070ce8930c);
  (0xe1c2b2af225f27f, 0x3fe351e6365f61, 0xc5fbf3fd37815, 0x38070ce8930c);
  (0x1c44b615241f5d13, 0x3fff556caaa8e7, 0xc5fbf3fd37815, 0x1c0386744986);
  (0x38896c2a483eba26, 0x3fff556caaa8e7, 0xc5fbf3fd37815, 0xe01c33a24c3);
  (0x710aa47cbce6120b, 0x3ffab0f49643ad, 0x18bf7e7fa6f02a, 0xe01c33a24c3);
  (0x168ce13372c9d9e9, 0x3fd0abaae7d564, 0x18bf7e7fa6f02a, 0x4608d022b7cf);
  (0x2d2bead42161604d, 0x3fea5cf551ec4d, 0x317efcff4de054, 0x4608d022b7cf);
  (0x5a387f187f428cc1, 0x3fd43132759bda, 0x62fdf9fe9bc0a8, 0x4608d022b7cf);
  (0x11e3b3d41a02357d, 0x3f481f92302c3c, 0x62fdf9fe9bc0a8, 0x15e2c10ad970b);
  (0x215b62e3e2584fbd, 0x3aff8116a7e2fa, 0x22215ed7df8fd10d, 0x3c5dad27557a05);
  (0x215b62e3e2584fbd, 0x1d7fc08b53f17d, 0x4442bdafbf1fa21a, 0x3c5dad27557a05);
  (0x65caeff2e61dc39, 0x1c21947aa65a72, 0xe4555e65732bb12, 0x3f1a0548b0a81b);
  (0x65caeff2e61dc39, 0xe10ca3d532d39, 0x1c8aabccae657624, 0x3f1a0548b0a81b);
  (0xcb95dfe5cc3b872, 0xe10ca3d532d39, 0x2fa0b8ca398b0acf, 0x34a632005517e3);
  (0x3c5a16c8964ec341, 0x215b7e1ed4228e, 0x5f4171947316159e, 0x34a632005517e3);
  (0xc12048e8476270d, 0x215b7e1ed4228e, 0x16d5563d58512b50, 0x3f1a0548b0a81b);
  (0xc12048e8476270d, 0x10adbf0f6a1147, 0x2daaac7ab0a256a0, 0x3f1a0548b0a81b);
  (0x1824091d08ec4e1a, 0x10adbf0f6a1147, 0x51e0ba263e04cbc7, 0x3891a13b776df8);
  (0x116be787667d1163, 0x3c2e98306f0af9, 0x6b82195a26f3cb7, 0x1736231ca34b6a);
  (0x22d7cf0eccfa22c6, 0x3c2e98306f0af9, 0x6b82195a26f3cb7, 0xb9b118e51a5b5);
  (0x370033cfb447d8eb, 0x2f7fe66db1fe0c, 0x447076faf9265259, 0x3b1af7fc03a3c1);
  (0xb000a5cbda7f82f, 0x2f7fe66db1fe0c, 0xd70432b44de796e, 0x3a0757c7983c89);
  (0xb000a5cbda7f82f, 0x17bff336d8ff06, 0x1ae0865689bcf2dc, 0x3a0757c7983c89);
  (0xb000a5cbda7f82f, 0xbdff99b6c7f83, 0x35c10cad1379e5b8, 0x3a0757c7983c89);
  (0x160014b97b4ff05e, 0xbdff99b6c7f83, 0x6cc1407cc7c1bea3, 0x3ab39be85b5d0c);
  (0x160014b97b4ff05e, 0x3b5fe0091e7d8f, 0x88d0076779062b5, 0x1713af1615de83);
  (0x2c002972f69fe0bc, 0x3b5fe0091e7d8f, 0x1e8d152ff2e05313, 0x2939c78f9a2e09);
  (0x580052e5ed3fc178, 0x3b5fe0091e7d8f, 0x4a8d3ea2e98033cf, 0x324cd3cc5c55cc);
  (0xd73144303bf8da9, 0x2d5f3d2fcac6cf, 0x987d138fa003819, 0x2026bb52d80646);
  (0x246df9bf017f536b, 0x3d729ad936c9f2, 0x987d138fa003819, 0x10135da96c0323);
  (0x377d9c30f57fc39d, 0x2eccab1607681c, 0x4a8d3ea2e98033cf, 0x3ee008bf736b3f);
  (0xd8e6a030fe5332f, 0x392a512680e60b, 0x3cfed49fd99b00a, 0x10135da96c0323);
  (0x18fe31e108b2434d, 0x34b235116277ba, 0x79fda93fb336014, 0x10135da96c0323);
  (0x377d9c30f57fc39d, 0x3a7fd5db894223, 0xf3fb527f666c028, 0x10135da96c0323);
  (0x6efb3861eaff873a, 0x3a7fd5db894223, 0x46bd5158ebe683c5, 0x254999c27aa2a3);
  (0x80c6168330500b1, 0x15363c190e9f80, 0x167308e7b9c87f9f, 0x3b2a98360d702f);
  (0x80c6168330500b1, 0xa9b1e0c874fc0, 0x2ce611cf7390ff3e, 0x3b2a98360d702f);
  (0x80c6168330500b1, 0x54d8f0643a7e0, 0x59cc239ee721fe7c, 0x3b2a98360d702f);
  (0x80c6168330500b1, 0x1a83cb1f524760, 0xebd79c2e69e65d2, 0x308f7a2986206f);
  (0x80c6168330500b1, 0xd41e58fa923b0, 0x258754ee0041cc55, 0x3dd15fb92f441f);
  (0x80c6168330500b1, 0x6a0f2c7d491d8, 0x4b0ea9dc008398aa, 0x3dd15fb92f441f);
  (0x80c6168330500b1, 0x2124bde726d938, 0x892a0d8a416512e, 0x234d9499dcfcbf);
  (0x80c6168330500b1, 0x10925ef3936c9c, 0x1931a3197b31a30d, 0x33dff38d70695b);
  (0x80c6168330500b1, 0x8492f79c9b64e, 0x3a6fa79b296846cb, 0x3c2923073a1fa9);
  (0x80c6168330500b1, 0x42497bce4db27, 0x74df4f3652d08d96, 0x3c2923073a1fa9);
  (0x80c6168330500b1, 0x14b6f6b07847c3, 0x1427b5adfc27b5a4, 0x33dff38d70695b);
  (0x1018c2d0660a0162, 0x14b6f6b07847c3, 0x2c4cd9e69536b7b7, 0x39026bcf6ca052);
  (0x203185a0cc1402c4, 0x14b6f6b07847c3, 0x4c7e5f87614aba7b, 0x31382c982e97ec);
  (0x11aa53b37450c33a, 0x38d55626e5346b, 0x26bdda78ea08a97, 0x7ca3f373e0866);
  (0x25c0850e7742110b, 0x3cba75c284389e, 0x26bdda78ea08a97, 0x3e51f9b9f0433);
  (0x47a6a4384409a54d, 0x39a118229b39b4, 0x4c7e5f87614aba7b, 0x3d8637be3a3de7);
  (0xd5c94fb6e281cd3, 0x35bbf886fc3581, 0x4d7bb4f1d41152e, 0x13799e0a1b14ff);
  (0x1ab929f6dc5039a6, 0x35bbf886fc3581, 0x1234504a8b693201, 0x249acb488ba540);
  (0x357253edb8a0734c, 0x35bbf886fc3581, 0x1234504a8b693201, 0x124d65a445d2a0);
  (0xc9af88e2a1a24f9, 0x3f5db2a95ee438, 0x3bb8fd2eb8a08b, 0x12c3865d5425f);
  (0x11bcde502df7f0eb, 0x2c9545b4d94c31, 0x1234504a8b693201, 0x2dc17e1aae8e90);
  (0x2379bca05befe1d6, 0x2c9545b4d94c31, 0x1234504a8b693201, 0x16e0bf0d574748);
  (0x5927c98b4348f5ad, 0x3805a53b84efd5, 0x1234504a8b693201, 0xb705f86aba3a4);
  (0x11d4c1e8a70e9789, 0x3805a53b84efd5, 0x1234504a8b693201, 0x3931dda15a3234);
  (0x23a983d14e1d2f12, 0x3805a53b84efd5, 0x1234504a8b693201, 0x1c98eed0ad191a);
  (0x475307a29c3a5e24, 0x3805a53b84efd5, 0x1234504a8b693201, 0xe4c7768568c8d);
  (0x3579e26fecc8e6d, 0xd203f02814a2e, 0xedcb2238c9ca394, 0x3a5e16072f7493);
  (0x3579e26fecc8e6d, 0x6901f8140a517, 0x1db9644719394728, 0x3a5e16072f7493);
  (0x2e6f7b0a13380f49, 0x2d9759c6b95703, 0x27c03ebc159ef26f, 0x27073a4578b1ec);
  (0x1563f42cc51d292, 0x6901f8140a517, 0xd034d841f3a7f07, 0x3fe1ad424e93d0);
  (0x2ac7e8598a3a524, 0x6901f8140a517, 0x17b5479a81c91397, 0x3a3154a629de44);
  (0x2d193bc746e63cb7, 0x3759285817837e, 0x27c03ebc159ef26f, 0x30c908d6d6de67);
  (0x2d193bc746e63cb7, 0x1bac942c0bc1bf, 0x4f807d782b3de4de, 0x30c908d6d6de67);
  (0x11936da029d34fcb, 0x35ed12310e561b, 0x6e17389c744bb3b, 0x151c74aacb1ca8);
  (0x2326db4053a69f96, 0x35ed12310e561b, 0x6e17389c744bb3b, 0xa8e3a55658e54);
  (0x4d2f2a0a6e91fa67, 0x3b342f5bc11d45, 0x6e17389c744bb3b, 0x5471d2ab2c72a);
  (0x9eeabfa437fcf7f, 0x2617bab0f6009d, 0x6e17389c744bb3b, 0x1a6391d57de3d2);
  (0x1abecb7e4e445a39, 0x3349839bb4f286, 0x6e17389c744bb3b, 0xd31c8eabef1e9);
  (0x364499a56b574725, 0x340853a3585d15, 0xdc2e7138e897676, 0xd31c8eabef1e9);
  (0x819f083928f9023, 0x26d68ab8996b2c, 0x5a8f68ffbf9e653, 0x1b2261dd214e61);
  (0x819f083928f9023, 0x136b455c4cb596, 0x136bdda38a835cc9, 0x2e8da7396e03f7);
  (0x819f083928f9023, 0x9b5a2ae265acb, 0x2ef1abcaa79649b5, 0x384349e7945ec2);
  (0x1033e107251f2046, 0x9b5a2ae265acb, 0x5f8d4ee016f3aa87, 0x39428cfe3d3fc2);
  (0x1033e107251f2046, 0x308c2d66bfc5f7, 0xca11c29f5bde1ff, 0x25d747a1f08a2c);
  (0x2067c20e4a3e408c, 0x308c2d66bfc5f7, 0xca11c29f5bde1ff, 0x12eba3d0f84516);
  (0x4d70a0468a3a6317, 0x3a01ff4f3be882, 0xca11c29f5bde1ff, 0x975d1e87c228b);
  (0xa6fae63b9595305, 0x27165b7e43a36c, 0xca11c29f5bde1ff, 0x2f4d198a6cacb7);
  (0xa6fae63b9595305, 0x138b2dbf21d1b6, 0x19423853eb7bc3fe, 0x2f4d198a6cacb7);
  (0xa6fae63b9595305, 0x9c596df90e8db, 0x3cf41f0b9050db01, 0x3912b069fd9592);
  (0xa6fae63b9595305, 0x30dbf25dd48c47, 0xc30d30250102bcd, 0x3912b069fd9592);
  (0x14df5cc772b2a60a, 0x30dbf25dd48c47, 0xc30d30250102bcd, 0x1c895834fecac9);
  (0x21102fc9c2c2d1d7, 0x26b2a54969ab88, 0x1861a604a020579a, 0x1c895834fecac9);
  (0x51d37bd30303810b, 0x2fe2aad9b3a08d, 0x30c34c094040af34, 0x1c895834fecac9);
  (0x37903e87440fdb2, 0xa294d146ae0bf, 0x132c2027f1bedb0f, 0x381968e5dca9d8);
  (0x21102fc9c2c2d1d7, 0x305f4e9bc4166a, 0x1a1e27f8da40d673, 0x263601875935ab);
  (0x554c7fbb77447ebd, 0x3e65a8d53b40e0, 0x343c4ff1b481ace6, 0x263601875935ab);
  (0x2c736539033fe28, 0xa294d146ae0bf, 0x1064e9d4618adce7, 0x3bf6760ae8f38f);
  (0x1e48f976328ed3af, 0x37627bb87faba5, 0x18ba8ccf1226d75f, 0x2d392ea414cae6);
  (0x3c91f2ec651da75e, 0x37627bb87faba5, 0x18ba8ccf1226d75f, 0x169c97520a6573);
  (0xdd5fd34d1148b93, 0x3f41cba3b5e86f, 0x2b923e6904492f3, 0xc734a3d9f84b4);
  (0x1babfa69a2291726, 0x3f41cba3b5e86f, 0x2b923e6904492f3, 0x639a51ecfc25a);
  (0x3757f4d344522e4c, 0x3f41cba3b5e86f, 0x2b923e6904492f3, 0x31cd28f67e12d);
  (0x5abec78897cda4a3, 0x33dc3e75fe2bdc, 0x60310f55b856ca89, 0x36f91105660d09);
  (0xee1966d0ad6d6fd, 0x2a85c6c7c68855, 0x1453de3a2b5ffce3, 0x3a15e394cdee36);
  (0x1dc32cda15adadfa, 0x2a85c6c7c68855, 0x1453de3a2b5ffce3, 0x1d0af1ca66f71b);
  (0x32170b14410daadd, 0x23c85c4916bfb8, 0x28a7bc7456bff9c6, 0x1d0af1ca66f71b);
  (0x1190dab72eda7ca5, 0x3ebe0643d5e22c, 0x8218c17448ccb8e, 0x1d0af1ca66f71b);
  (0x21d3f2e5b7f413c1, 0x3c69f4ec51e831, 0x1043182e8919971c, 0x1d0af1ca66f71b);
  (0x32170b14410daadd, 0x2cba735b5c6fa6, 0x2086305d12332e38, 0x1d0af1ca66f71b);
  (0x3835ef16fc54c21, 0xfaf8190f5788b, 0xb71f6b473936572, 0x3319af8e420045);
  (0x706bde2df8a9842, 0xfaf8190f5788b, 0x15fc1388c2e349d5, 0x31141a209134f3);
  (0x2b104d316183129b, 0x30114f69b8cf4a, 0x1d02d16ba26de217, 0x2061cdd8c356bf);
  (0x2b104d316183129b, 0x1808a7b4dc67a5, 0x6515f008a65ed6c9, 0x386a758d9fbe64);
  (0x16d8b6c9403ce7a6, 0x3fc0d0faae47d5, 0x1437966821462af5, 0x386a758d9fbe64);
  (0x2db16d928079cf4c, 0x3fc0d0faae47d5, 0x1437966821462af5, 0x1c353ac6cfdf32);
  (0x5b62db2500f39e98, 0x3fc0d0faae47d5, 0x1437966821462af5, 0xe1a9d6367ef99);
  (0xa30bc775947db56, 0x238b9633de68a3, 0xa06d9f0c7fe4f9f, 0x22f97cbd29455a);
  (0x1e6852df7a8e064b, 0x35085492730b50, 0xa06d9f0c7fe4f9f, 0x117cbe5e94a2ad);
  (0x1e6852df7a8e064b, 0x1a842a493985a8, 0x327606c10a8aa589, 0x2c00e8a7ce2855);
  (0x826fd2c476caf78, 0x238b9633de68a3, 0xe1a5886ebb4a75b, 0x3d7da70662cb02);
  (0x104dfa588ed95ef0, 0x238b9633de68a3, 0xe1a5886ebb4a75b, 0x1ebed383316581);
  (0x1e6852df7a8e064b, 0x212534db87e712, 0x3a9d03ed51f75501, 0x3fe4085eb94c93);
  (0x1e6852df7a8e064b, 0x10929a6dc3f389, 0x753a07daa3eeaa02, 0x3fe4085eb94c93);
  (0x13200c0d2463e6cf, 0x341e30a1a25c2c, 0xb4846d2562a1f7c, 0x1ebed383316581);
  (0x13200c0d2463e6cf, 0x1a0f1850d12e16, 0x29b099b1d0b825c7, 0x38cdebd4029397);
  (0x13200c0d2463e6cf, 0xd078c2868970b, 0x53613363a1704b8e, 0x38cdebd4029397);
  (0x27301c6041a3e19, 0x857d0f6085fa0, 0x10ad0a472049a8b6, 0x38cdebd4029397);
  (0x23cd165444ad8f85, 0x3cf9d44f06c367, 0x215a148e4093516c, 0x38cdebd4029397);
  (0x45272ae28540e0f1, 0x3ae3e01184ab7f, 0x42b4291c8126a2d8, 0x38cdebd4029397);
  (0x27301c6041a3e19, 0xa6dc5338a7788, 0xd573b6c19d486f8, 0x38cdebd4029397);
  (0x1d21789e37c34c09, 0x3e04ce6dc7cf5b, 0x1aae76d833a90df0, 0x38cdebd4029397);
  (0x37cfef766b6c59f9, 0x3b695d20e53179, 0x355cedb067521be0, 0x38cdebd4029397);
  (0x6d2cdd26d2be75d9, 0x3a1ba47a73e288, 0x6ab9db60cea437c0, 0x38cdebd4029397);
  (0x174dfa182c9c3cd4, 0x3e04ce6dc7cf5b, 0x14daf8522881febb, 0x3780332d9144a6);
  (0x2e9bf430593879a8, 0x3e04ce6dc7cf5b, 0x14daf8522881febb, 0x1bc01996c8a253);
  (0x4376ec8281ba7863, 0x2ce274024838d7, 0x29b5f0a45103fd76, 0x1bc01996c8a253);
  (0xd7e2f4d4d254b47, 0x2ce274024838d7, 0xeb99209b6b966e8, 0x30fb97ed5ab9f1);
  (0x1afc5e9a9a4a968e, 0x2ce274024838d7, 0x1c37c15703deb22f, 0x2eef05f7d17964);
  (0x35f8bd3534952d1c, 0x2ce274024838d7, 0x1c37c15703deb22f, 0x177782fbe8bcb2);
  (0x4a87147791c73ef, 0x135e5f10d63b98, 0xbc7a807c5611f20, 0x30fb97ed5ab9f1);
  (0x4a87147791c73ef, 0x9af2f886b1dcc, 0x1c37c15703deb22f, 0x3aaac775c5d7bd);
  (0x4a87147791c73ef, 0x4d797c4358ee6, 0x3d17f3f580d9d84d, 0x3f825f39fb66a3);
  (0x4a87147791c73ef, 0x26bcbe21ac773, 0x7a2fe7eb01b3b09a, 0x3f825f39fb66a3);
  (0x4a87147791c73ef, 0xc1afb6a85e53f, 0x186ffb2f00572352, 0x3f825f39fb66a3);
  (0x1d186c7679739741, 0x25cead5240a5f1, 0x30dff65e00ae46a4, 0x3f825f39fb66a3);
  (0x3a30d8ecf2e72e82, 0x25cead5240a5f1, 0x4df862d47a21dde5, 0x32a886461e064a);
  (0xb689da0a99fa95f, 0x250fcfc8e92ad7, 0xf9813c4186d2c61, 0x32a886461e064a);
  (0x26694f056bac7f1f, 0x3e6412ebf82dfc, 0xf9813c4186d2c61, 0x195443230f0325);
  (0x4599768d9c86d7e1, 0x38864c990b1a23, 0x1f30278830da58c2, 0x195443230f0325);
  (0xc04277f6c06fd3e, 0x30cb5c6ec35289, 0x4cb00023134d6e1, 0x13767cd021ef4c);
  (0x1cd34f010942d15d, 0x3a869ad6d44a2f, 0x4cb00023134d6e1, 0x9bb3e6810f7a6);
  (0x3e719e0443ba799b, 0x3f643a0adcc602, 0x4cb00023134d6e1, 0x4dd9f34087bd3);
  (0x8a785ff19616c6b, 0x2bedbd3abad6b6, 0x4cb00023134d6e1, 0x18541c042a6b1f);
  (0x123d86037bcb1a2d, 0x2e4afaa187d67a, 0x99600046269adc2, 0x18541c042a6b1f);
  (0x123d86037bcb1a2d, 0x17257d50c3eb3d, 0x2569860c409e75b1, 0x2f799954ee565c);
  (0x247b0c06f796345a, 0x17257d50c3eb3d, 0x49e492133834aa0b, 0x2ee249fb3b166b);
  (0x6ec6b327ab456bc, 0x15f6de9d5d6b5b, 0xec7506a3e70eecf, 0x2ee249fb3b166b);
  (0x15b3bb9cb925458b, 0x226c944c4c40e3, 0x1d8ea0d47ce1dd9e, 0x2ee249fb3b166b);
  (0x33425c7136072329, 0x28a76f23c3aba7, 0x3b1d41a8f9c3bb3c, 0x2ee249fb3b166b);
  (0x589ef5b955d1230, 0x15f6de9d5d6b5b, 0xd64d4935919aa43, 0x351d24d2b2812f);
  (0x12eec3eeee76bc73, 0x258a01b807f645, 0x1ac9a926b2335486, 0x351d24d2b2812f);
  (0x2db86d15a0aa10f9, 0x2d5393455d3bba, 0x3593524d6466a90c, 0x351d24d2b2812f);
  (0x46e5916111741c0, 0x15f6de9d5d6b5b, 0xc493e4dd4d3d9d3, 0x3ce6b66007c6a4);
  (0x1525f079f7025d53, 0x346a39cd614ead, 0xc493e4dd4d3d9d3, 0x1e735b3003e352);
  (0x2a4be0f3ee04baa6, 0x346a39cd614ead, 0xc493e4dd4d3d9d3, 0xf39ad9801f1a9);
  (0x4f279bdd6c80481f, 0x310ba14ab391d4, 0x18927c9ba9a7b3a6, 0xf39ad9801f1a9);
  (0x142e70ce3bba98f7, 0x3e8603556a8538, 0x4ea18ebeebb23ee, 0xf39ad9801f1a9);
  (0x27d6d47df6a728af, 0x3db65cdab925ee, 0x9d431d7dd7647dc, 0xf39ad9801f1a9);
  (0x4f279bdd6c80481f, 0x3d4e899d607649, 0x13a863afbaec8fb8, 0xf39ad9801f1a9);
  (0x103ff677e324e29f, 0x3eedd692c334dd, 0x3ee7a565895b658, 0xf39ad9801f1a9);
  (0x1c0b657aece605a7, 0x364d6fad6484ec, 0x7dcf4acb12b6cb0, 0xf39ad9801f1a9);
  (0x3b7f382db193b867, 0x399a1306b625c8, 0xfb9e9596256d960, 0xf39ad9801f1a9);
  (0x59be11895c79abb, 0x1b26b7d6b24276, 0xa1e0840cc8f3ea5, 0x30f9ac215775d7);
  (0x59be11895c79abb, 0xd935beb59213b, 0x19d7f19a2ee61805, 0x3e8d080cb09712);
  (0x304775fc860482f1, 0x3a6d3bdd0a8dff, 0x250fb3cb5a754d7b, 0x2cd9dff1b16cc4);
  (0x608eebf90c0905e2, 0x3a6d3bdd0a8dff, 0x250fb3cb5a754d7b, 0x166ceff8d8b662);
  (0x1062f28334f06d77, 0x3193a7cf8af8d8, 0xa5660a412c27002, 0x1f468406584b89);
  (0x1062f28334f06d77, 0x18c9d3e7c57c6c, 0x250fb3cb5a754d7b, 0x381057ee1dc7f5);
  (0x1062f28334f06d77, 0xc64e9f3e2be36, 0x4a1f6796b4ea9af6, 0x381057ee1dc7f5);
  (0x1062f28334f06d77, 0x3df891c36db70e, 0xb8c176a4ccba2b3, 0x2bab6dfa3b09bf);
  (0x1062f28334f06d77, 0x1efc48e1b6db87, 0x17182ed499974566, 0x2bab6dfa3b09bf);
  (0x20c5e50669e0daee, 0x1efc48e1b6db87, 0x277b2157ce87b2dd, 0x2553db6df8f2a3);
  (0xbc482bf163892c9, 0x37a0ff372b9ff2, 0x93cdf883d6fb55c, 0x2bab6dfa3b09bf);
  (0xbc482bf163892c9, 0x1bd07f9b95cff9, 0x1279bf107adf6ab8, 0x2bab6dfa3b09bf);
  (0x1e3e41cf9117fd81, 0x23bdf6cae86cdc, 0x24f37e20f5bed570, 0x2bab6dfa3b09bf);
  (0x1e3e41cf9117fd81, 0x11defb6574366e, 0x68253e117c95a861, 0x3d8a695faf402d);
  (0x1582e9524bd0746e, 0x3f8e76667e3cd5, 0x8bb587d45478913, 0x19cc7294c6d351);
  (0x1e3e41cf9117fd81, 0x2cad747da28813, 0x1176b0fa8a8f1226, 0x19cc7294c6d351);
  (0x3c7c839f222ffb02, 0x2cad747da28813, 0x2fb4f2ca1ba70fa7, 0x233cf38934adb2);
  (0x1135877509739058, 0x3f8e76667e3cd5, 0x46df6a002eaa4fd, 0x105bf1a058f8f0);
  (0x226b0eea12e720b0, 0x3f8e76667e3cd5, 0x46df6a002eaa4fd, 0x82df8d02c7c78);
  (0x44d61dd425ce4160, 0x3f8e76667e3cd5, 0x46df6a002eaa4fd, 0x416fc68163e3c);
  (0xce1a170d3c71f47, 0x3b7779fe67fe99, 0x46df6a002eaa4fd, 0x1472ee086f372c);
  (0x19c342e1a78e3e8e, 0x3b7779fe67fe99, 0x46df6a002eaa4fd, 0xa397704379b96);
  (0x338685c34f1c7d1c, 0x3b7779fe67fe99, 0x46df6a002eaa4fd, 0x51cbb821bcdcb);
  (0x40d069a357dc6c13, 0x2566d6425db3fd, 0x49ac56e35db1b60d, 0x2a8391c47981c8);
  (0xb30e5ad76ce3a05, 0x204a1ac041e632, 0x140cd2ed7ca383ff, 0x39d9c44acceb29);
  (0xb30e5ad76ce3a05, 0x10250d6020f319, 0x2819a5daf94707fe, 0x39d9c44acceb29);
  (0x1661cb5aed9c740a, 0x10250d6020f319, 0x49ac56e35db1b60d, 0x3524763597e23a);
  (0x1129077f4352927e, 0x3de40a8bd09bc1, 0x14e30f6ea927863, 0x4b54e153508ef);
  (0x17affc51d82eec6d, 0x2ab7487aece436, 0x1a4c5e3fad53dd33, 0x2f6c969021ed25);
  (0x17affc51d82eec6d, 0x155ba43d76721b, 0x3498bc7f5aa7ba66, 0x2f6c969021ed25);
  (0x3b171b13c61022d, 0x10a6562841692c, 0xc9ba73e230be5e6, 0x38d732ba8bff03);
  (0x3b171b13c61022d, 0x8532b1420b496, 0x19374e7c4617cbcc, 0x38d732ba8bff03);
  (0x3b171b13c61022d, 0x429958a105a4b, 0x36200ea9c89099c5, 0x3d00c8449c594e);
  (0x627162f89d1cb3e1, 0x3779e55eb04a69, 0x5b0e7f96245aaf87, 0x33504fd49ff01e);
  (0x762e36278c2045a, 0x14cfebb251c377, 0x10bbec0a5584ef09, 0x2f26ba4a8f95d3);
  (0x181ecf6cce46f363, 0x21fb52fe70aca5, 0x2177d814ab09de12, 0x2f26ba4a8f95d3);
  (0x3996a7817950d175, 0x289106a480213c, 0x42efb0295613bc24, 0x2f26ba4a8f95d3);
  (0xb8487e6b1dcf6b1, 0x289106a480213c, 0x95908a7dcc2eaaf, 0x20ec823e4d46f3);
  (0xb8487e6b1dcf6b1, 0x1448835240109e, 0x1e3699366b62cc0f, 0x353505908d5791);
  (0xb8487e6b1dcf6b1, 0xa2441a920084f, 0x47f1ba5388a28ecf, 0x3f594739ad5fe0);
  (0xb8487e6b1dcf6b1, 0x32b5484da0298b, 0xc15d6e2915ab806, 0x353505908d5791);
  (0x17090fcd63b9ed62, 0x32b5484da0298b, 0x179a5ec94337aeb7, 0x33f526ef16c08e);
  (0x2e121f9ac773dac4, 0x32b5484da0298b, 0x179a5ec94337aeb7, 0x19fa93778b6047);
  (0x5c243f358ee7b588, 0x32b5484da0298b, 0x45ac7e640aab897b, 0x2657ede295c4e9);
  (0x16ec00016a3a6051, 0x3f12a2b8aa8e2d, 0x743f2fe5fe3444, 0x13fdea1769703);
  (0x2dd80002d474c0a2, 0x3f12a2b8aa8e2d, 0x17603f3150389495, 0x202940ad109298);
  (0x5bb00005a8e98144, 0x3f12a2b8aa8e2d, 0x17603f3150389495, 0x1014a05688494c);
  (0x12566667882eb374, 0x3f12a2b8aa8e2d, 0x509d8c9c809e121, 0x11547ef7fee04f);
  (0x24accccf105d66e8, 0x3f12a2b8aa8e2d, 0x17603f3150389495, 0x283390d854b73e);
  (0x4959999e20bacdd0, 0x3f12a2b8aa8e2d, 0x17603f3150389495, 0x1419c86c2a5b9f);
  (0x9feabaf5ce6d83f, 0x2af8da4c80328e, 0xd619381f351bc56, 0x39880fd053978d);
  (0x9feabaf5ce6d83f, 0x157c6d26401947, 0x1ac32703e6a378ac, 0x39880fd053978d);
  (0x13fd575eb9cdb07e, 0x157c6d26401947, 0x38bf2a11fd580169, 0x3cfeaba189f1b1);
  (0x74b7302e2ac112e3, 0x3eb9f98a251ec3, 0x4cbc8170b725b1e7, 0x293d8c63e5057c);
  (0x7feefbf7d8579cc, 0x157c6d26401947, 0x14c3f334487f5d53, 0x37ccc1e7b86a7b);
  (0xffddf7efb0af398, 0x157c6d26401947, 0x2cc0c272c10fcab7, 0x3c2104ad3c5b28);
  (0x1ffbbefdf615e730, 0x157c6d26401947, 0x4cbc8170b725b1e7, 0x338cef7cde46db);
  (0x3d7bf1b6f059a55, 0xce857f5e204fa, 0x109cc29039ff7ddc, 0x37ccc1e7b86a7b);
  (0x3d7bf1b6f059a55, 0x6742bfaf1027d, 0x2511443be304960d, 0x3e40ede2a96cf8);
  (0x347040a99f1aff61, 0x2c08cee736bb76, 0x2cc0c272c10fcab7, 0x2594a2ec45b8f9);
  (0xf1958a93ea5b913, 0x3f6552d809c2ed, 0x769da72609a8469, 0x1f2076f154b67c);
  (0x1e32b1527d4b7226, 0x3f6552d809c2ed, 0x769da72609a8469, 0xf903b78aa5b3e);
  (0x3c6562a4fa96e44c, 0x3f6552d809c2ed, 0x769da72609a8469, 0x7c81dbc552d9f);
  (0x6176a6e0dd9b7a59, 0x3326f3c2d9d384, 0x704a5bc59ed0832b, 0x3aef117f2f0123);
  (0x1086fd326c147d1b, 0x2b5ed60684a5e5, 0xed3b4e4c13508d2, 0x26e894ada9e41b);
  (0x210dfa64d828fa36, 0x2b5ed60684a5e5, 0x1f5ab2172d4985ed, 0x2923b55a174500);
  (0x6176a6e0dd9b7a59, 0x3ff0b0b3904865, 0x1f5ab2172d4985ed, 0x1491daad0ba280);
  (0xff13e3e34a91e24, 0x344b58b83a2979, 0x64556d16f751ac9, 0x1491daad0ba280);
  (0x2627d34dd8c75711, 0x3e94460ebffab9, 0x64556d16f751ac9, 0xa48ed5685d140);
  (0x4c4fa69bb18eae22, 0x3e94460ebffab9, 0x64556d16f751ac9, 0x52476ab42e8a0);
  (0xedb53ca6d46413d, 0x3ceaa781f15efd, 0x141115d164a9ef5, 0x52476ab42e8a0);
  (0x1ef7b8f1f0d7216f, 0x3f7ce2d792d34d, 0x141115d164a9ef5, 0x2923b55a17450);
  (0x3def71e3e1ae42de, 0x3f7ce2d792d34d, 0x141115d164a9ef5, 0x1491daad0ba28);
  (0x7bdee3c7c35c85bc, 0x3f7ce2d792d34d, 0x141115d164a9ef5, 0xa48ed5685d14);
  (0x18ca880de2557821, 0x3f880aedd682a5, 0x4036ac37a88631, 0xa48ed5685d14);
  (0x31d546c7fc537673, 0x3fda52588ab12f, 0x4036ac37a88631, 0x52476ab42e8a);
  (0x63aa8d8ff8a6ece6, 0x3fda52588ab12f, 0x4036ac37a88631, 0x2923b55a1745);
  (0x13c861e8a9ef7877, 0x3f5ee7387c6b60, 0x4036ac37a88631, 0xcdb28ac27459);
  (0x27d977ba0e9967c7, 0x3fd3594aa06398, 0x806d586f510c62, 0xcdb28ac27459);
  (0x4efac8abf94b2da3, 0x3f3fdfc8efeb5b, 0x100dab0dea218c4, 0xcdb28ac27459);
  (0xefe45fb4c8d5bb7, 0x3c09159de619f7, 0x100dab0dea218c4, 0x4047cb5cc45bd);
  (0x1e0b1658580ccf33, 0x3c2632226f1805, 0x201b561bd443188, 0x4047cb5cc45bd);
  (0x3c24b7126f0bb62b, 0x3c34c064b3970c, 0x4036ac37a886310, 0x4047cb5cc45bd);
  (0x8d168cdb42ed52f, 0x2c22cd8d828018, 0x4036ac37a886310, 0x14166f8cfd5cb1);
  (0x18df13db9e50616f, 0x3e3e45e0bbf96e, 0x806d586f510c620, 0x14166f8cfd5cb1);
  (0x28ecbee98871edaf, 0x3335927d5b5968, 0x100dab0dea218c40, 0x14166f8cfd5cb1);
  (0x490815055cb5062f, 0x2db138cbab0965, 0x201b561bd4431880, 0x14166f8cfd5cb1);
  (0x82f5961e816c923, 0x199ac93eadacb4, 0xfbca3580415863a, 0x313a9b4397760d);
  (0x82f5961e816c923, 0xccd649f56d65a, 0x27a8a011f041d597, 0x3e07ffe2ee4c67);
  (0x82f5961e816c923, 0x666b24fab6b2d, 0x4f514023e083ab2e, 0x3e07ffe2ee4c67);
  (0x82f5961e816c923, 0x20017b8e5917e1, 0xe39faf39815c6cf, 0x37a14d9342e13a);
  (0x105eb2c3d02d9246, 0x20017b8e5917e1, 0x1e98adb768435915, 0x3bd22257fa887e);
  (0x3f56133f089e7da1, 0x3dea8cba565c20, 0x1e98adb768435915, 0x1de9112bfd443f);
  (0x6dbe5cd804c24b, 0x2186a625bd3a2, 0xd0530d8cf803b12, 0x3fa44c1b3d7049);
  (0x6dbe5cd804c24b, 0x10c35312de9d1, 0x1a0a61b19f007624, 0x3fa44c1b3d7049);
  (0xdb7cb9b0098496, 0x10c35312de9d1, 0x3430bdd11822c203, 0x3fc67c6997138b);
  (0x3f56133f089e7da1, 0x26b297f475f994, 0x3d9f19cba88b7475, 0x25a662c3480fc3);
  (0x57cb7d799d683c, 0x10c35312de9d1, 0x14cf827820600091, 0x3f9333f4109ea8);
  (0xaf96faf33ad078, 0x10c35312de9d1, 0x296333e0a1446ea1, 0x3f37d5bd69b5d2);
  (0x3df6e5492228dcb1, 0x2f5308c0658e28, 0x3c97b7533bb33bc1, 0x2e46d38f37a457);
  (0xc649441d3a1c5bd, 0x2f5308c0658e28, 0xb05664bed2c24cd, 0x2a15feca7ffd13);
  (0xc649441d3a1c5bd, 0x17a9846032c714, 0x160acc97da58499a, 0x2a15feca7ffd13);
  (0xc649441d3a1c5bd, 0xbd4c23019638a, 0x387a2d71885258f1, 0x35eac0fa99609d);
  (0xc649441d3a1c5bd, 0x3b27caf07ef1b2, 0x8d11ea3242350a4, 0x2a15feca7ffd13);
  (0xc649441d3a1c5bd, 0x1d93e5783f78d9, 0x11a23d464846a148, 0x2a15feca7ffd13);
  (0x18c92883a7438b7a, 0x1d93e5783f78d9, 0x1e06d1881be86705, 0x23d4f2215fbaf6);
  (0x319251074e8716f4, 0x1d93e5783f78d9, 0x4f99228f6a6f7df9, 0x2f7e5e88ef5654);
  (0x11bb76678a5a7e2a, 0x34e6be475eaf95, 0xfeb6d4fe2164c65, 0x2f7e5e88ef5654);
  (0x2376eccf14b4fc54, 0x34e6be475eaf95, 0xfeb6d4fe2164c65, 0x17bf2f4477ab2a);
  (0x46edd99e2969f8a8, 0x34e6be475eaf95, 0xfeb6d4fe2164c65, 0xbdf97a23bd595);
  (0x4a250561a3b03e5, 0x1147f760ab2ed6, 0xfeb6d4fe2164c65, 0x3b5df62b2b2be9);
  (0x4a250561a3b03e5, 0x8a3fbb055976b, 0x1fd6da9fc42c98ca, 0x3b5df62b2b2be9);
  (0x24792af5de679caf, 0x2200f8edc061aa, 0x3fadb53f88593194, 0x3b5df62b2b2be9);
  (0x74b6efdf947ec23, 0x2200f8edc061aa, 0xc9dac4db761bc9f, 0x3acf0057952fe7);
  (0x74b6efdf947ec23, 0x11007c76e030d5, 0x193b589b6ec3793e, 0x3acf0057952fe7);
  (0xe96ddfbf28fd846, 0x11007c76e030d5, 0x2f1da5955a9b3da7, 0x36e83ade1ae133);
  (0x1d2dbbf7e51fb08c, 0x11007c76e030d5, 0x5ae23f89324ac679, 0x34f4d8215db9d9);
  (0x10d66e746f4a45c3, 0x310e12a7e36b25, 0xc574d8375d56ac9, 0x23f45baa7d8904);
  (0x21acdce8de948b86, 0x310e12a7e36b25, 0xc574d8375d56ac9, 0x11fa2dd53ec482);
  (0x4fb1075532fe81d5, 0x3a0b299282cd66, 0xc574d8375d56ac9, 0x8fd16ea9f6241);
  (0xd78585d25d5049c, 0x310e12a7e36b25, 0xc574d8375d56ac9, 0x2cf172951ceb45);
  (0x1af0b0ba4baa0938, 0x310e12a7e36b25, 0x19cfa5e09baa6f65, 0x2effc29e802b35);
  (0x34c0569ae754789d, 0x3006eaa331cb2d, 0x339f4bc13754deca, 0x2effc29e802b35);
  (0x39cef8566651f7, 0x1072804b19ff8, 0xde947c0da9566a9, 0x3f53b208a17d41);
  (0x39cef8566651f7, 0x83940258cffc, 0x1c0c5e7a0b911f49, 0x3fd7460afa4d3d);
  (0x39cef8566651f7, 0x41ca012c67fe, 0x3818bcf417223e92, 0x3fd7460afa4d3d);
  (0x39cef8566651f7, 0x20e5009633ff, 0x706b48e084aacf1b, 0x3ff82b0b90813c);
  (0x39cef8566651f7, 0xa47902ef03fb, 0x16592bfe4d17f83e, 0x3f957c09cde53f);
  (0x739df0accca3ee, 0xa47902ef03fb, 0x2cb43607b6a9aac3, 0x3f9824161e37a8);
  (0x52a4090069cf74db, 0x3ac7ec8645c302, 0x51bccd1f10362cff, 0x3a23738356bf07);
  (0x10b5742d2714f28b, 0x3b6c658934c6fd, 0xfce384bcd7baaaf, 0x3836087a89b316);
  (0x216ae85a4e29e516, 0x3b6c658934c6fd, 0xfce384bcd7baaaf, 0x1c1b043d44d98b);
  (0x42d5d0b49c53ca2c, 0x3b6c658934c6fd, 0x313920a61ba58fc5, 0x2bc3b4e33cd044);
  (0xb4a332361aff621, 0x32306f0092f812, 0x6527ceb1efe4446, 0x1c1b043d44d98b);
  (0x17ef2cf99fac7ead, 0x35333bbd8e5594, 0xca4f9d63dfc888c, 0x1c1b043d44d98b);
  (0x17ef2cf99fac7ead, 0x1a999ddec72aca, 0x313920a61ba58fc5, 0x36b4a21c0c0455);
  (0x17ef2cf99fac7ead, 0xd4cceef639565, 0x6272414c374b1f8a, 0x36b4a21c0c0455);
  (0x4c96f651fef4c89, 0xd4cceef639565, 0x15db4afa385656fa, 0x3cba3b9602bf59);
  (0x992deca3fde9912, 0xd4cceef639565, 0x2dca77f3d802d5a7, 0x3f9d23217a5529);
  (0x1325bd947fbd3224, 0xd4cceef639565, 0x4a831452979ea0dd, 0x33c1c7f7d28aac);
  (0x3d4591db325d6d4, 0xd4cceef639565, 0x1111db9518670a71, 0x3b48c7d046f471);
  (0x7a8b23b664bada8, 0xd4cceef639565, 0x2437992998243c95, 0x3ee4693e9c6fb5);
  (0xf516476cc975b50, 0xd4cceef639565, 0x3b31afdbcb07458d, 0x33656b066397f2);
  (0x310474af5b7df10, 0xd4cceef639565, 0xd3d82776541339d, 0x397af7191c36cf);
  (0x6208e95eb6fbe20, 0xd4cceef639565, 0x1c8ee6ee31d88eed, 0x3dfd80e30710e4);
  (0xc411d2bd6df7c40, 0xd4cceef639565, 0x35112145df97876d, 0x39985e504ab33c);
  (0x18823a57adbef880, 0xd4cceef639565, 0x661595f53b15786d, 0x3765cd06ec8468);
  (0xde533b01aa0aa37, 0x25b3db84cc915b, 0xa9d06a7931e4e49, 0x1ccc2f2825599e);
  (0x26676e07c85fa2b7, 0x3419f318df3e2a, 0xa9d06a7931e4e49, 0xe66179412accf);
  (0x50db88a614d8dbdb, 0x36d928b494f8b3, 0x153a0d4f263c9c92, 0xe66179412accf);
  (0x102be821375e925f, 0x36d928b494f8b3, 0x50e252deede0a33, 0x11254d2fc86758);
  (0x2057d0426ebd24be, 0x36d928b494f8b3, 0x2565f5705d9b2ef1, 0x3f6bcf4c792c5f);
  (0x40afa084dd7a497c, 0x36d928b494f8b3, 0x45bdc5b2cc5853af, 0x3b227c00871289);
  (0x9e7703236933bc7, 0x29fd2ed0beab31, 0xef59560257145fa, 0x3f6bcf4c792c5f);
  (0x18dd05925c0481c1, 0x34b47f0e9bebc8, 0x1deb2ac04ae28bf4, 0x3f6bcf4c792c5f);
  (0x18dd05925c0481c1, 0x1a5a3f874df5e4, 0x3bd6558095c517e8, 0x3f6bcf4c792c5f);
  (0x18dd05925c0481c1, 0xd2d1fc3a6faf2, 0x77acab012b8a2fd0, 0x3f6bcf4c792c5f);
  (0x5e6b148ff502bbe, 0xfa2ef4970b54d, 0x12f654495cb45603, 0x323eaf88d2316d);
  (0x18dd05925c0481c1, 0x20f0cf6921735d, 0x25eca892b968ac06, 0x323eaf88d2316d);
  (0x31ba0b24b8090382, 0x20f0cf6921735d, 0x3ec9ae25156d2dc7, 0x2997bf78f9d265);
  (0x126150bd717f0476, 0x3ce0cc4f82cc71, 0x29cba3345e0d541, 0x8a6f00fd85f08);
  (0x24c2a17ae2fe08ec, 0x3ce0cc4f82cc71, 0x29cba3345e0d541, 0x4537807ec2f84);
  (0x4c21fd290bdce719, 0x3f0a885378e433, 0x29cba3345e0d541, 0x229bc03f617c2);
  (0xf39ff6e9bf8fb05, 0x3f0a885378e433, 0x29cba3345e0d541, 0xad0ac13ce76ca);
  (0x1e73fedd37f1f60a, 0x3f0a885378e433, 0x29cba3345e0d541, 0x5685609e73b65);
  (0x3b2fff11389b1fd5, 0x3d431d603438c5, 0x53974668bc1aa82, 0x5685609e73b65);
  (0x554f4511f363745f, 0x2c2665c8dc30df, 0x5fc22ddf0ae6c963, 0x318ebbd2c36c44);
  (0xce1e3e4c0df5bab, 0x2155b9b50dba15, 0x1754ccb1d862b0af, 0x3c5f67e691e30e);
  (0x3118947b5a216805, 0x3f856da856ab9c, 0x1754ccb1d862b0af, 0x1e2fb3f348f187);
  (0x3118947b5a216805, 0x1fc2b6d42b55ce, 0x5fc22ddf0ae6c963, 0x3df26ac7744755);
  (0x7c989e551267bb, 0x19302e0e26447, 0x136836c114beb076, 0x3ec5e28ee6c81b);
  (0xf9313caa24cf76, 0x19302e0e26447, 0x275ca81cb4b14d69, 0x3fa8ac49946bbd);
  (0x3211c5b80446377b, 0x287ce5f9a75d65, 0x301f633eaffc988f, 0x26e9e318c4f91e);
  (0xa038df19a74717f, 0x287ce5f9a75d65, 0x8112b78462ad293, 0x209dd7953b6802);
  (0x14071be334e8e2fe, 0x287ce5f9a75d65, 0x1c18475b7b13b591, 0x38cbd1c4451166);
  (0x280e37c669d1c5fc, 0x287ce5f9a75d65, 0x1c18475b7b13b591, 0x1c65e8e22288b3);
  (0x802d7f47b905acc, 0x287ce5f9a75d65, 0xc12977283f2fff9, 0x3d03c0775df0b5);
  (0x1005afe8f720b598, 0x287ce5f9a75d65, 0x14156f66ff835ac5, 0x32c0533882a70d);
  (0x200b5fd1ee416b30, 0x287ce5f9a75d65, 0x241b1f4ff6a4105d, 0x2d9e9c99150239);
  (0x44267f21e4e57b8d, 0x2b0dc1495e2fcf, 0x48363e9fed4820ba, 0x2d9e9c99150239);
  (0xcd159872c1a2ae0, 0x287ce5f9a75d65, 0x10e11905347cd00d, 0x35512e88397977);
  (0x19a2b30e583455c0, 0x287ce5f9a75d65, 0x1db2728c6096faed, 0x2ee70a40f06b6e);
  (0x50f7d8a910ffa66d, 0x3ff06b1a1f931c, 0x1db2728c6096faed, 0x177385207835b7);
  (0x450971cdcc389b7, 0x110960d92f27ae, 0xc701618ed88d411, 0x311c163d9c6ddb);
  (0x450971cdcc389b7, 0x884b06c9793d7, 0x1d30c34eb7d531d9, 0x39a0c6aa3401b2);
  (0x8a12e39b987136e, 0x884b06c9793d7, 0x3fb57c359df17f91, 0x3ee32507785035);
  (0x8a12e39b987136e, 0x2a97721ef5e333, 0xb040f98c7487c07, 0x365e749ae0bc5e);
  (0x11425c73730e26dc, 0x2a97721ef5e333, 0xb040f98c7487c07, 0x1b2f3a4d705e2f);
  (0x324e8b3dc8e79af1, 0x3e129083a37ee0, 0x16081f318e90f80e, 0x1b2f3a4d705e2f);
  (0x324e8b3dc8e79af1, 0x1f094841d1bf70, 0x5e5ec9a0e6098b0d, 0x3a38828f421d9f);
  (0xc8f0763d34a301f, 0x26bd642a9481f2, 0x12dfc1ecfaceb569, 0x3a38828f421d9f);
  (0xc8f0763d34a301f, 0x135eb2154a40f9, 0x25bf83d9f59d6ad2, 0x3a38828f421d9f);
  (0x324e8b3dc8e79af1, 0x26cb9a52462f4c, 0x4b7f07b3eb3ad5a4, 0x3a38828f421d9f);
  (0x50602f4baea79a6, 0x135eb2154a40f9, 0xf24768cac7e4767, 0x3a6325065725ad);
  (0xa0c05e975d4f34c, 0x135eb2154a40f9, 0x1e367f6add3db459, 0x3a3f9da31af44c);
  (0x324e8b3dc8e79af1, 0x307e80e6d7bb1f, 0x1e367f6add3db459, 0x1d1fced18d7a26);
  (0x6038735fabfffe3, 0x1cfc476e5148c5, 0x810fd66f629e6d2, 0x26e0eb8dd0b353);
  (0xe14849cf0e9e6b5, 0x21ee997e10fe0c, 0x1021facdec53cda4, 0x26e0eb8dd0b353);
  (0xe14849cf0e9e6b5, 0x10f74cbf087f06, 0x2e587a38c99181fd, 0x37d8384cd93259);
  (0xe14849cf0e9e6b5, 0x87ba65f843f83, 0x5cb0f471932303fa, 0x37d8384cd93259);
  (0xe14849cf0e9e6b5, 0x2a6a3fdd953d8f, 0x1289ca7d1d6d6732, 0x37d8384cd93259);
  (0x1c290939e1d3cd6a, 0x2a6a3fdd953d8f, 0x209e4f1a0e574de7, 0x31213c153737f4);
  (0x38521273c3a79ad4, 0x2a6a3fdd953d8f, 0x209e4f1a0e574de7, 0x18909e0a9b9bfa);
  (0x4bd8d78577675c9, 0x11d9a1d2f9a195, 0xda81938b07d76c3, 0x336c8ee923858e);
  (0x97b1af0aeeceb92, 0x11d9a1d2f9a195, 0x209e4f1a0e574de7, 0x3d698b1a8505f1);
  (0x2a196a0abd443979, 0x27a19676bf53c3, 0x413c9e341cae9bce, 0x3d698b1a8505f1);
  (0x9b4edd0d148e302, 0x2db03fd754c38d, 0x4a0a40846487a11, 0x15c7f4a3c5b22e);
  (0x180a7fa9e8da4015, 0x38943a29379ca4, 0x4a0a40846487a11, 0xae3fa51e2d917);
  (0x33ce57db8e8d1c7b, 0x3cf60c0a445997, 0x94148108c90f422, 0xae3fa51e2d917);
  (0x4f92300d343ff8e1, 0x2ed0fd7ff6726e, 0x6214c02e4d61e125, 0x39b4f7d1d94b85);
  (0x4cee6552e920cd1, 0xe250e8a4de729, 0x128290211921e844, 0x3673e3996e3d73);
  (0x20ef4320a4d80eb7, 0x3071879c2bf977, 0x1751767647b3f515, 0x224c7911de124e);
  (0x41de864149b01d6e, 0x3071879c2bf977, 0x1751767647b3f515, 0x11263c88ef0927);
  (0xc5b550658da78b9, 0x2d70599d8ad779, 0x57b10b7f76cbe2e, 0x14276a87902b25);
  (0x11d665be504736e7, 0x20cbe2128d814f, 0x1ccc872e3f20b343, 0x34f34c9a1dac74);
  (0x23accb7ca08e6dce, 0x20cbe2128d814f, 0x407952aadfaf2111, 0x3b45885f9c5789);
  (0x9e2aa6b7a486094, 0x2d70599d8ad779, 0xce510889323069d, 0x3b45885f9c5789);
  (0x16c7baf40d6b6731, 0x345af0fe939781, 0x19ca211126460d3a, 0x3b45885f9c5789);
  (0x3091dc0533b1746b, 0x37d03caf17f785, 0x339442224c8c1a74, 0x3b45885f9c5789);
  (0x64261e27803d8edf, 0x398ae2875a2787, 0x67288444991834e8, 0x3b45885f9c5789);
  (0x12d376c90fb4da29, 0x361596d6d5c783, 0x15d5dce6288f8032, 0x3ebad41020b78d);
  (0x28a953af38445a5b, 0x3a6835737b3f88, 0x2babb9cc511f0064, 0x3ebad41020b78d);
  (0x28a953af38445a5b, 0x1d341ab9bd9fc4, 0x57577398a23e00c8, 0x3ebad41020b78d);
  (0x5b98bd890f85a0b, 0x148edd8072afba, 0x1177e3eb53a60028, 0x3ebad41020b78d);
  (0x5b98bd890f85a0b, 0xa476ec03957dd, 0x22efc7d6a74c0050, 0x3ebad41020b78d);
  (0x28a953af38445a5b, 0x248121682d07b5, 0x45df8fad4e9800a0, 0x3ebad41020b78d);
  (0xb7317b121f0b416, 0x336529c11eb751, 0x38d6da8fdad63a3, 0xff243e7ba57fb);
  (0xf00855a1f9e17b9, 0x21abb6d46c87a6, 0x161b60ac1af8deff, 0x319dfabc26dfa1);
  (0xf00855a1f9e17b9, 0x10d5db6a3643d3, 0x2c36c15835f1bdfe, 0x319dfabc26dfa1);
  (0x3b3746b2558fd5b7, 0x2139eb132e91ba, 0x586d82b06be37bfc, 0x319dfabc26dfa1);
  (0x60035573fd8d64a, 0x10d5db6a3643d3, 0x1135d14f96a1f9b1, 0x304897786cfddd);
  (0xc006aae7fb1ac94, 0x10d5db6a3643d3, 0x23367155562c7c8f, 0x316514db87e4ab);
  (0x4737b160d541824b, 0x31f3538d155812, 0x2f36dc03d5de2923, 0x211d7822df143f);
  (0xe8f762907d08421, 0x330fd0f0303ee0, 0x9715f33f792d507, 0x211d7822df143f);
  (0x21723490f6f62e2f, 0x3aa5609af733af, 0x12e2be67ef25aa0e, 0x211d7822df143f);
  (0x3454f2f8e61bd83d, 0x2de16c5eeb23f7, 0x25c57ccfde4b541c, 0x211d7822df143f);
  (0xa7763cb6138c4d9, 0x2de16c5eeb23f7, 0x65f516dbaa10591, 0x1bef139199f956);
  (0x14eec796c27189b2, 0x2de16c5eeb23f7, 0x1b4e19047d128f43, 0x3bd8f627b820a2);
  (0x29dd8f2d84e31364, 0x2de16c5eeb23f7, 0x1b4e19047d128f43, 0x1dec7b13dc1051);
  (0x452ba83201f5a2a7, 0x25e6f3b9639a24, 0x369c3208fa251e86, 0x1dec7b13dc1051);
  (0xdd5880a006453bb, 0x25e6f3b9639a24, 0xd1b99eaf8f82355, 0x23e98c37218329);
  (0xdd5880a006453bb, 0x12f379dcb1cd12, 0x280cbbdff2549a65, 0x36dd0613d3503b);
  (0xdd5880a006453bb, 0x979bcee58e689, 0x501977bfe4a934ca, 0x36dd0613d3503b);
  (0xdd5880a006453bb, 0x2f60b0a7bc80ad, 0x7b82cb9fa4c0b85, 0x1a6fcf48c89ca0);
  (0x1bab101400c8a776, 0x2f60b0a7bc80ad, 0x23633ccdfb14b2fb, 0x3c98984c20cefd);
  (0x3756202801914eec, 0x2f60b0a7bc80ad, 0x3f0e4ce1fbdd5a71, 0x35fca479eea7d5);
  (0xda6c83bb9f6aa51, 0x3a70bc1b646229, 0x18b3c25320f3581, 0x69bf3d2322728);
  (0x1cd8cc9ca5fc8a23, 0x3dbeb6047d75bd, 0x18b3c25320f3581, 0x34df9e9191394);
  (0x3b3cd55e7e0849c7, 0x3f65b2f909ff87, 0x18b3c25320f3581, 0x1a6fcf48c89ca);
  (0x7679aabcfc10938e, 0x3f65b2f909ff87, 0x18b3c25320f3581, 0xd37e7a4644e5);
  (0x1762e2eb2866ac69, 0x3e92347ec3baa2, 0x18b3c25320f3581, 0x42178635f5879);
  (0x2d002cf3e53b9977, 0x3c3364f6fd48a0, 0x316784a641e6b02, 0x42178635f5879);
  (0x5e67b19a27224997, 0x3f257596796818, 0x62cf094c83cd604, 0x42178635f5879);
  (0x12e189eba16d41eb, 0x3f257596796818, 0x62cf094c83cd604, 0x14a759f0dcba5d);
  (0x12e189eba16d41eb, 0x1f92bacb3cb40c, 0x1f3b6b1531e6edf3, 0x343a14bc196e69);
  (0x12e189eba16d41eb, 0xfc95d659e5a06, 0x3e76d62a63cddbe6, 0x343a14bc196e69);
  (0x3c6b52f20490d2f, 0xfc95d659e5a06, 0xd5fa2c5c0183083, 0x37e8a9837495bf);
  (0x3c6b52f20490d2f, 0x7e4aeb2cf2d03, 0x1e85fabaa0796e35, 0x3fcd583643c2c2);
  (0x78d6a5e40921a5e, 0x7e4aeb2cf2d03, 0x3cbba433a2c1d7ad, 0x3f7966e65e956d);
  (0xf1ad4bc812434bc, 0x7e4aeb2cf2d03, 0x71998cc766c0903f, 0x3b5d16e5046841);
  (0xf1ad4bc812434bc, 0x2777697e0be10f, 0x13b2f19bc785abe7, 0x33786832353b3e);
  (0x1e35a97902486978, 0x2777697e0be10f, 0x13b2f19bc785abe7, 0x19bc34191a9d9f);
  (0x3c6b52f20490d2f0, 0x2777697e0be10f, 0x31e89b14c9ce155f, 0x2099cecb933f57);
  (0x21a24c5d88d591d, 0x6dd9ab278a1b8, 0x1260737d1985dcac, 0x3c04f984cec2eb);
  (0x21a24c5d88d591d, 0x36ecd593c50dc, 0x26db0bc00b991275, 0x3f73c6de0b13c7);
  (0x21a24c5d88d591d, 0x1b766ac9e286e, 0x4db61780173224ea, 0x3f73c6de0b13c7);
  (0x21a24c5d88d591d, 0x895015f16ca26, 0xe47eea2e91b9eb7, 0x3a4d92d8309a7d);
  (0x21a24c5d88d591d, 0x44a80af8b6513, 0x1eaa020baac4968b, 0x3e981387bbff90);
  (0x434498bb11ab23a, 0x44a80af8b6513, 0x3c1804dd827f7621, 0x3d558e90adc34d);
  (0x434498bb11ab23a, 0x1574836db8f95f, 0xb2d8bdd29e0f3fb, 0x390b0de1225e3a);
  (0x13961ef48c16586f, 0x31fa0a5e4a287c, 0xb2d8bdd29e0f3fb, 0x1c8586f0912f1d);
  (0x13961ef48c16586f, 0x18fd052f25143e, 0x29f136aedfd84065, 0x35828c1fb6435b);
  (0x13961ef48c16586f, 0xc7e8297928a1f, 0x53e26d5dbfb080ca, 0x35828c1fb6435b);
  (0x13961ef48c16586f, 0x3e788cf5dcb29b, 0x8f13cb0ee4d8ffc, 0x1c8586f0912f1d);
  (0x272c3de9182cb0de, 0x3e788cf5dcb29b, 0x1c875ba57a63e86b, 0x2d7f09f336f0dc);
  (0x4e587bd2305961bc, 0x3e788cf5dcb29b, 0x1c875ba57a63e86b, 0x16bf84f99b786e);
  (0xe389423fd1b020b, 0x38b28afee6fbec, 0x72763c0bea47330, 0x1c8586f0912f1d);
  (0xe389423fd1b020b, 0x1c59457f737df6, 0x1c875ba57a63e86b, 0x38decc7004ad13);
  (0xe389423fd1b020b, 0xe2ca2bfb9befb, 0x390eb74af4c7d0d6, 0x38decc7004ad13);
  (0xb57952a9736731a, 0x3886498dc94ac5, 0x2e0fef965e48ef1, 0xe58e430d77022);
  (0x1990294e94517525, 0x3fb2bba63502d6, 0x2e0fef965e48ef1, 0x72c72186bb811);
  (0x1f522741601a9307, 0x2705cfeb86397c, 0x251425342be3b0e9, 0x2e324203f1f18d);
  (0x1f522741601a9307, 0x1382e7f5c31cbe, 0x4a284a6857c761d2, 0x2e324203f1f18d);
  (0x107d4b92e825e5dd, 0x335c45c8dd9e29, 0xed4dbae77f4ad2a, 0x2e324203f1f18d);
  (0x1f522741601a9307, 0x30c743e667c7db, 0x1da9b75cefe95a54, 0x2e324203f1f18d);
  (0x3ea44e82c035260e, 0x30c743e667c7db, 0x3cfbde9e5003ed5b, 0x2f7cc2f52cdcb4);
  (0xcdc2614a347ac8d, 0x3211c4d7a2b302, 0xb33b630331673da, 0x2b9d40217c1b3f);
  (0xcdc2614a347ac8d, 0x1908e26bd15981, 0x16676c60662ce7b4, 0x2b9d40217c1b3f);
  (0x19b84c29468f591a, 0x1908e26bd15981, 0x3cfbde9e5003ed5b, 0x3b5bf3b27813e1);
  (0x33c345f80bb9f97, 0xfbeb390fbf8a2, 0xcc77aab43a0dabe, 0x3e319dd726dcfd);
  (0x33c345f80bb9f97, 0x7df59c87dfc51, 0x198ef5568741b57c, 0x3e319dd726dcfd);
  (0x29bbfb340aebd36f, 0x32c72f60ce6549, 0x2343927509749441, 0x2ae7d5985068f8);
  (0x5377f66815d7a6de, 0x32c72f60ce6549, 0x2343927509749441, 0x1573eacc28347c);
  (0x296904c66fc7fac, 0x7df59c87dfc51, 0x13bc30aa9f899639, 0x3c077b49d51c86);
  (0x52d2098cdf8ff58, 0x7df59c87dfc51, 0x2870b30dd76d9399, 0x3d8124c6e27f87);
  (0x2d9dd3a6a56692f1, 0x22b03f47b03dec, 0x50e1661baedb2732, 0x3d8124c6e27f87);
  (0x2120d09ebfd32f0, 0x7df59c87dfc51, 0x10a11d1bbd8dc9d1, 0x3f3a536f8d692e);
  (0x4241a13d7fa65e0, 0x7df59c87dfc51, 0x2131856b1d776151, 0x3f1a90d9bea5db);
  (0x2d9dd3a6a56692f1, 0x2b5c4f199c4d67, 0x25559f7ef571c731, 0x237cf5511e5116);
  (0x1a80a6e566428c0, 0x7df59c87dfc51, 0xc7d0307e59363f1, 0x3b5a87d635ccaf);
  (0x35014dcacc85180, 0x7df59c87dfc51, 0x18154c0c42508131, 0x393afe28d3d973);
  (0x2f45de14fbcabbb1, 0x382b395222dfd5, 0x28a5b45ba23a18b1, 0x304bdf89a4e384);
  (0x5e8bbc29f7957762, 0x382b395222dfd5, 0x28a5b45ba23a18b1, 0x1825efc4d271c2);
  (0x12e8bf3b97eab17a, 0x382b395222dfd5, 0x2d435e47264b5bd, 0x8673c33d67920);
  (0x25d17e772fd562f4, 0x382b395222dfd5, 0x28a5b45ba23a18b1, 0x3c5ed76c0e1c65);
  (0x4e7732d2d20f7ba5, 0x3a45085f187e1d, 0x514b68b744743162, 0x3c5ed76c0e1c65);
  (0xfb1709090697f21, 0x3a45085f187e1d, 0x2d435e47264b5bd, 0xa810b40cc1768);
  (0x1f62e12120d2fe42, 0x3a45085f187e1d, 0x223717059337b3ff, 0x3f858dff7e89d1);
  (0x3ec5c24241a5fc84, 0x3a45085f187e1d, 0x4199f826b40ab241, 0x3ce54b2f4b83f7);
  (0xb6c447eac2c1d02, 0x350482beb27269, 0x2d435e47264b5bd, 0xd214e10ff1d42);
  (0x16d888fd58583a04, 0x350482beb27269, 0x19acbee1cabcefc1, 0x3b9529c732010a);
  (0x2db111fab0b07408, 0x350482beb27269, 0x19acbee1cabcefc1, 0x1dca94e3990085);
  (0x475dd0dc7b6d63c9, 0x29678bd125b977, 0x33597dc39579df82, 0x1dca94e3990085);
  (0x1246d3fde04694d0, 0x350482beb27269, 0x108954e2da99a559, 0x2ff832d9a54818);
  (0x248da7fbc08d29a0, 0x350482beb27269, 0x108954e2da99a559, 0x17fc196cd2a40c);
  (0x491b4ff7811a5340, 0x350482beb27269, 0x108954e2da99a559, 0xbfe0cb6695206);
  (0xb50656a87b355fb, 0x29067608492063, 0x108954e2da99a559, 0x3bf63f900e9a1e);
  (0x16a0cad50f66abf6, 0x29067608492063, 0x108954e2da99a559, 0x1dfb1fc8074d0f);
  (0x272a1fb7ea00514f, 0x2380cae82836b9, 0x2112a9c5b5334ab2, 0x1dfb1fc8074d0f);
  (0xa450252771edfb5, 0x2e8c21286a0a0d, 0x42d8c604251d918, 0x12efc987c579bb);
  (0xe728eb2b970b8cd, 0x20bdf55817c1e4, 0x16cda7733e146afd, 0x33adbedfdd3b9f);
  (0xe728eb2b970b8cd, 0x105efaac0be0f2, 0x2d9b4ee67c28d5fa, 0x33adbedfdd3b9f);
  (0xe728eb2b970b8cd, 0x82f7d5605f079, 0x69a92c7fb1c264c1, 0x3bdd3c35e32c18);
  (0xe728eb2b970b8cd, 0x28ed72ae1db25d, 0x123e1f8f64dd2264, 0x33adbedfdd3b9f);
  (0x1ce51d6572e1719a, 0x28ed72ae1db25d, 0x20b0ae421e4ddb31, 0x2e4d98c6fd76fe);
  (0x39ca3acae5c2e334, 0x28ed72ae1db25d, 0x20b0ae421e4ddb31, 0x1726cc637ebb7f);
  (0x11826acf709c34d5, 0x3e0080f8bbfb31, 0x184a0584491c3d6, 0x5602618dfc4a1);
  (0x1c22cd3950988faf, 0x31d0c5d36d2dcc, 0x1f2c0de9d9bc175b, 0x3730ebec4cf26d);
  (0x1c22cd3950988faf, 0x18e862e9b696e6, 0x3e581bd3b3782eb6, 0x3730ebec4cf26d);
  (0x332c217d59bb033, 0xe2816b7f70da4, 0xc780590bd7e6fbe, 0x3730ebec4cf26d);
  (0x1c22cd3950988faf, 0x3e44f74848793f, 0x18f00b217afcdf7c, 0x3730ebec4cf26d);
  (0x38459a72a1311f5e, 0x3e44f74848793f, 0x3512d85acb956f2b, 0x3abaf19a4ab5d6);
  (0x708b34e542623ebc, 0x3e44f74848793f, 0x3512d85acb956f2b, 0x1d5d78cd255aeb);
  (0x14780d6557179ae, 0x38a05adfdc369, 0x165ec442c8f206db, 0x3de2d3b1f074bf);
  (0x28f01acaae2f35c, 0x38a05adfdc369, 0x2c1e527e757b1b69, 0x3d069a1fe5375c);
  (0x365a59312106e8d9, 0x2597586bee2280, 0x313c55d7cb410221, 0x220d52bdf05f17);
  (0xadedea36d0161c5, 0x2597586bee2280, 0x109fb9ed843cdcd2, 0x397c9471e773f3);
  (0xadedea36d0161c5, 0x12cbac35f71140, 0x213f73db0879b9a4, 0x397c9471e773f3);
  (0xadedea36d0161c5, 0x965d61afb88a0, 0x427ee7b610f37348, 0x397c9471e773f3);
  (0xadedea36d0161c5, 0x2efd2e86e9ab20, 0xb2001d0873069e7, 0x3016be56ebeb53);
  (0xadedea36d0161c5, 0x177e974374d590, 0x164003a10e60d3ce, 0x3016be56ebeb53);
  (0xadedea36d0161c5, 0xbbf4ba1ba6ac8, 0x375ee5e589c30961, 0x3bd609f8a6561b);
  (0xadedea36d0161c5, 0x5dfa5d0dd3564, 0x6ebdcbcb138612c2, 0x3bd609f8a6561b);
  (0xadedea36d0161c5, 0x1d5e3d14520af4, 0x1625f58f03e79d5a, 0x3bd609f8a6561b);
  (0xadedea36d0161c5, 0xeaf1e8a29057a, 0x2c4beb1e07cf3ab4, 0x3bd609f8a6561b);
  (0xadedea36d0161c5, 0x7578f451482bd, 0x5897d63c0f9e7568, 0x3bd609f8a6561b);
  (0xadedea36d0161c5, 0x24b5cc59668db1, 0xd5ed1caa45256c6, 0x2d26eb6e7d50a1);
  (0x15bdbd46da02c38a, 0x24b5cc59668db1, 0x183db06e1153b88b, 0x28ee5be3f1ef29);
  (0x2b7b7a8db4058714, 0x24b5cc59668db1, 0x2dfb6db4eb567c15, 0x26d2141eac3e6d);
  (0x7b250d974471f6a, 0x207d3ccedb2c39, 0xa324400ab98146b, 0x2b0aa3a9379fe5);
  (0xf64a1b2e88e3ed4, 0x207d3ccedb2c39, 0x11e494da1fdf33d5, 0x25c3f03c09660f);
  (0x2149368d086d72a9, 0x23209685724924, 0x23c929b43fbe67aa, 0x25c3f03c09660f);
  (0x2149368d086d72a9, 0x11904b42b92492, 0x68db89f587ea41fd, 0x37543b7ec28aa1);
  (0x11f8c49ba59a80cb, 0x2f6a2e5afd33e0, 0x7a838f8b16978ef, 0x1433a4f950417d);
  (0x2149368d086d72a9, 0x2be8bc26cedb6d, 0xf5071f162d2f1de, 0x1433a4f950417d);
  (0x3099a87e6b406487, 0x200e30900f8e75, 0x4f3a8c6130e64843, 0x3441d5895fcff2);
  (0x11f8c49ba59a80cb, 0x3b44b9f1bc80d8, 0x6202d93c1212d8c, 0x1433a4f950417d);
  (0x1e391fc327dcdbe3, 0x31d601f22e81e9, 0xc405b2782425b18, 0x1433a4f950417d);
  (0x2a797aeaaa1f36fb, 0x2304d375bf61b3, 0x42fa3139aea3ed2b, 0x3738786f0fa330);
  (0x87eb22eeed30aff, 0x2304d375bf61b3, 0x78351f126dea032, 0x1ef891f312840b);
  (0x10fd645ddda615fe, 0x2304d375bf61b3, 0x1002042015b1ab31, 0x20feb2b468f2df);
  (0x21fac8bbbb4c2bfc, 0x2304d375bf61b3, 0x20ff687df357c12f, 0x2201c315142a49);
  (0x43f59177769857f8, 0x2304d375bf61b3, 0x42fa3139aea3ed2b, 0x22834b4569c5fe);
  (0xdfc1063ce19d5ea, 0x2407e3d66a991d, 0xd00b02606256b1d, 0x21803ae4be8e94);
  (0x28f8d0eda25916f1, 0x34c80148c9e067, 0xd00b02606256b1d, 0x10c01d725f474a);
  (0x5ef252014ad798ff, 0x3d281001f9840c, 0xd00b02606256b1d, 0x8600eb92fa3a5);
  (0x12fd4399dbc4b833, 0x3d281001f9840c, 0xd00b02606256b1d, 0x29e0499dee3239);
  (0x12fd4399dbc4b833, 0x1e940800fcc206, 0x1a01604c0c4ad63a, 0x29e0499dee3239);
  (0x12fd4399dbc4b833, 0xf4a04007e6103, 0x47000431f45a64a7, 0x392a4d9e6c933c);
  (0x4ca0f8fde190a78, 0x1347c6640b51d3, 0xe333409fdabadbb, 0x392a4d9e6c933c);
  (0x17c75329b9ddc2ab, 0x2fdced33419b71, 0xe333409fdabadbb, 0x1c9526cf36499e);
  (0x3dc1da5d71673311, 0x3e27809adcc040, 0xe333409fdabadbb, 0xe4a93679b24cf);
  (0xaa31f064696c1a3, 0x358725bd672ab2, 0x2d70a6865ef22bf, 0xe4a93679b24cf);
  (0x15ff48a7de534c9f, 0x3758b9ade9def7, 0x5ae14d0cbde457e, 0xe4a93679b24cf);
  (0x3265b0bbd9aaa815, 0x3f66cd59f8cb81, 0xb5c29a197bc8afc, 0xe4a93679b24cf);
  (0x547a2da0a0e04909, 0x352343c8651cf7, 0x16b853432f7915f8, 0xe4a93679b24cf);
  (0x1428ad17f0aaa9a2, 0x3f66cd59f8cb81, 0x147d3159f67362b, 0x40709d6077645);
  (0x28515a2fe1555344, 0x3f66cd59f8cb81, 0x1570802d9011dfcd, 0x21b6eb980020e3);
  (0x3dc1da5d71673311, 0x308edc78fc7632, 0x2ae1005b2023bf9a, 0x21b6eb980020e3);
  (0xa4d7389b13c4d25, 0x2880c8cced89a8, 0x8936678a0072652, 0x21b6eb980020e3);
  (0x1b74407af14a99c9, 0x35f74ffe76e5b7, 0x1126ccf1400e4ca4, 0x21b6eb980020e3);
  (0x2c9b0d6c3158e66d, 0x2bd71dcb3b834d, 0x224d99e2801c9948, 0x21b6eb980020e3);
  (0x20f7d81f03f42a1, 0xa2032333b626a, 0xba3354d2d64bc5d, 0x393071c47369e1);
  (0x20f7d81f03f42a1, 0x51019199db135, 0x1955e81c4b08bb5b, 0x3e408ade111b16);
  (0x41efb03e07e8542, 0x51019199db135, 0x320fca338dffdae7, 0x3d80dc08bab4c9);
  (0x4ee8a74eb1757fb5, 0x3078c5de05469e, 0x46aab146f0787531, 0x2b68acc4679569);
  (0x13141d793d7cb759, 0x3a98f81140a908, 0xad627717c7facd5, 0x21487a912c32ff);
  (0x13141d793d7cb759, 0x1d4c7c08a05484, 0x28c06c5c367c1103, 0x3e94f699cc8783);
  (0x13141d793d7cb759, 0xea63e04502a42, 0x5180d8b86cf82206, 0x3e94f699cc8783);
  (0x2c725545ae4b08b, 0xaaa3f7bc44bc7, 0x104cf824e29806ce, 0x3e94f699cc8783);
  (0x13141d793d7cb759, 0x249f9b0ac869a5, 0x2099f049c5300d9c, 0x3e94f699cc8783);
  (0x33ae0dc302acc4f5, 0x319a48d24a7894, 0x4133e0938a601b38, 0x3e94f699cc8783);
  (0x238eaa9e2508d3c, 0xaaa3f7bc44bc7, 0xb4ce826a562c907, 0x363b2569c5fee4);
  (0x143092ce2ea4fdf7, 0x307211ac6b9700, 0xfbebd7a6a03e37f, 0x25c7d230a74b39);
  (0x33ae0dc302acc4f5, 0x3e00db06dd16b9, 0x1f7d7af4d407c6fe, 0x25c7d230a74b39);
  (0x675c1b86055989ea, 0x3e00db06dd16b9, 0x532b88b7d6b48bf3, 0x31e4569bc230f9);
  (0x409b6f6095432cb, 0xc1c846b1ae5c0, 0x1290195741715f43, 0x37ad6a591c98dd);
  (0x409b6f6095432cb, 0x60e42358d72e0, 0x2929e9a48c36f151, 0x3dbbac8eaa0bbd);
  (0x409b6f6095432cb, 0x307211ac6b970, 0x5253d349186de2a2, 0x3dbbac8eaa0bbd);
  (0x409b6f6095432cb, 0xf23a585e19f30, 0x10772a41d1af93ba, 0x3dbbac8eaa0bbd);
  (0x409b6f6095432cb, 0x791d2c2f0cf98, 0x20ee5483a35f2774, 0x3dbbac8eaa0bbd);
  (0x409b6f6095432cb, 0x3c8e9617867cc, 0x41dca90746be4ee8, 0x3dbbac8eaa0bbd);
  (0x409b6f6095432cb, 0x12ec8ee75a06fc, 0xabfe73aa226be1b, 0x3260f06a40d459);
  (0x409b6f6095432cb, 0x9764773ad037e, 0x1989856b4da1af01, 0x3bd737ddedd7d7);
  (0x409b6f6095432cb, 0x4bb23b9d681bf, 0x33130ad69b435e02, 0x3bd737ddedd7d7);
  (0x8136dec12a86596, 0x4bb23b9d681bf, 0x679155551489f251, 0x3cac0426e93745);
  (0x8136dec12a86596, 0x17a7b2a13088bb, 0x117bb1e5c971d4a1, 0x3335bcb33c33c7);
  (0x1026dbd82550cb2c, 0x17a7b2a13088bb, 0x29b5fbaa016b0563, 0x3d166a4b66e6fc);
  (0x4a03b35a4c0c9bbb, 0x3632e7c6e3fc39, 0x29b5fbaa016b0563, 0x1e8b3525b3737e);
  (0xf9e863916dd2dca, 0x393012da8bc4ab, 0x85798bb99e23447, 0x1e8b3525b3737e);
  (0x1f3d0c722dba5b94, 0x393012da8bc4ab, 0x85798bb99e23447, 0xf459a92d9b9bf);
  (0x3843d6a4fb60f869, 0x338071498c78f4, 0x10af317733c4688e, 0xf459a92d9b9bf);
  (0x13e0d3fe003f2f3, 0x5afa190ff4bb7, 0xcf509b793b88fb5, 0x3b4d202b42bd96);
  (0x11ed3eb713c85b81, 0x2905d3379ff639, 0xf71243753c0759b, 0x235631a6a0aa82);
  (0x334ba1a57b512c9d, 0x3ab0ec0af04b7a, 0xf71243753c0759b, 0x11ab18d3505541);
  (0x334ba1a57b512c9d, 0x1d5876057825bd, 0x522dea1422d217d3, 0x2f038ed8c87afe);
  (0x41511d7c3f6737b, 0xbad5d3227d07c, 0x12a312e75b9d90c5, 0x354f648a1a38d1);
  (0x41511d7c3f6737b, 0x5d6ae9913e83e, 0x295b37a67b319505, 0x3b2613232e210f);
  (0x41511d7c3f6737b, 0x2eb574c89f41f, 0x56cb8124ba599d85, 0x3e116a6fb8152e);
  (0x41511d7c3f6737b, 0xe98b47eb1c49b, 0xe17d85abbb32985, 0x32640d3d9044b2);
  (0x82a23af87ece6f6, 0xe98b47eb1c49b, 0x1e6c1fb9cb8cf771, 0x36636f9c2bab8f);
  (0x269643695379de67, 0x227e120d6eb815, 0x3cd83f739719eee2, 0x36636f9c2bab8f);
  (0xbe0ae903586976d, 0x351628eabbe38d, 0x47398ceda53367f, 0x13e55d8ebcf37a);
  (0x1c34f5ef45606559, 0x3f08d7b21a5d4a, 0x47398ceda53367f, 0x9f2aec75e79bd);
  (0x36ea8ac86353ac53, 0x3d5c782f289bdc, 0x8e7319db4a66cfe, 0x9f2aec75e79bd);
  (0x48b8ee03cca0864f, 0x28a0eadef2c7ab, 0x5a87513f35ed604b, 0x329399a6514168);
  (0x1267bd4445dee622, 0x3369c967ca221f, 0x121b103fd795e00f, 0x329399a6514168);
  (0x24cf7a888bbdcc44, 0x3369c967ca221f, 0x121b103fd795e00f, 0x1949ccd328a0b4);
  (0x499ef511177b9888, 0x3369c967ca221f, 0x121b103fd795e00f, 0xca4e66994505a);
  (0xb1a60f6a66124e5, 0x26c4e2fe35d1c5, 0x121b103fd795e00f, 0x3f38800fe591c2);
  (0x1634c1ed4cc249ca, 0x26c4e2fe35d1c5, 0x121b103fd795e00f, 0x1f9c4007f2c8e1);
  (0x284fd22d245829d9, 0x23309183144d53, 0x2436207faf2bc01e, 0x1f9c4007f2c8e1);
  (0x9b3d7819c89cc43, 0x2a593479575637, 0x59a25d4275d6288, 0x18739d11afbffd);
  (0xf4dfd55c3e72ecb, 0x216668c5838b1a, 0x1a8248fe12a1f3db, 0x39da05d7334b17);
  (0xf4dfd55c3e72ecb, 0x10b33462c1c58d, 0x350491fc2543e7b6, 0x39da05d7334b17);
  (0x1e9bfaab87ce5d96, 0x10b33462c1c58d, 0x62ee89fd70f97417, 0x35f9d17fbc4ddf);
  (0x61f32224e5c791e, 0x10b33462c1c58d, 0x1358fe3f76474d91, 0x34c76e7ad67d32);
  (0xc3e64449cb8f23c, 0x10b33462c1c58d, 0x2bd5c6c8afb93209, 0x3bca2002eec9b3);
  (0x187cc8893971e478, 0x10b33462c1c58d, 0x5090f39685e408bd, 0x36f1de959a0d2d);
  (0x85fcb04b844491f, 0x1c8e27582ece94, 0x101cfd84812d9b59, 0x36f1de959a0d2d);
  (0x85fcb04b844491f, 0xe4713ac17674a, 0x2039fb09025b36b2, 0x36f1de959a0d2d);
  (0x85fcb04b844491f, 0x72389d60bb3a5, 0x48d3c116bcfab683, 0x3e15686ba5c0d2);
  (0x85fcb04b844491f, 0x23b1b12e3a8239, 0x7ddb7672bfb839b, 0x2187411376f23e);
  (0x189d4d709c8415d9, 0x347551b7f5fb58, 0x7ddb7672bfb839b, 0x10c3a089bb791f);
  (0x189d4d709c8415d9, 0x1a3aa8dbfafdac, 0x2858bc3ef47b1d0f, 0x2afe4965b676cb);
  (0x189d4d709c8415d9, 0xd1d546dfd7ed6, 0x694ec5ee857a4ff7, 0x381b9dd3b3f5a1);
  (0x173e9701656ee422, 0x3dec5a0a357fe5, 0x15eb66f371531b7, 0x3a64c1bbdfa49);
  (0x189d4d709c8415d9, 0x20c95312f9bd17, 0x1b5aba4f0aae7947, 0x246f9f2eb7b760);
  (0x4c95553043b6a4f9, 0x330122aa5598c7, 0x1b5aba4f0aae7947, 0x1237cf975bdbb0);
  (0xf511109a7248765, 0x330122aa5598c7, 0xc09a9456389f1e2, 0x2815eb4a75b1a9);
  (0x1ea222134e490eca, 0x330122aa5598c7, 0x1b5aba4f0aae7947, 0x2d8b86fa65a538);
  (0x3d4444269c921d94, 0x330122aa5598c7, 0x1b5aba4f0aae7947, 0x16c5c37d32d29c);
  (0xee060a4bbcc1720, 0x3dec5a0a357fe5, 0x428c88e1a4b760d, 0x115027cd42df0d);
  (0x13092932d6178d2d, 0x279e40ebbc2f79, 0x1b5aba4f0aae7947, 0x38ee68b8ff0e86);
  (0x26125265ac2f1a5a, 0x279e40ebbc2f79, 0x1b5aba4f0aae7947, 0x1c77345c7f8743);
  (0x416d0cb4b6dd93a1, 0x220abaa41ddb5e, 0x78228152cc3a862f, 0x3e81ef009d62a1);
  (0x1383f764ebdfe492, 0x32c54d7af8d7af, 0x8cc5f4e4a5f437f, 0x16e3ae14e13328);
  (0x2fd44e18221f0ca3, 0x3e372485697143, 0x8cc5f4e4a5f437f, 0xb71d70a709994);
  (0x5fa89c30443e1946, 0x3e372485697143, 0x8cc5f4e4a5f437f, 0x5b8eb85384cca);
  (0xc17d2fe388d0242, 0x27537670883e1b, 0x8cc5f4e4a5f437f, 0x1c9c999a197ff2);
  (0x20fc054abb794803, 0x35a1c33d94fe14, 0x8cc5f4e4a5f437f, 0xe4e4ccd0cbff9);
  (0x3294c3e75037cf01, 0x291f2e6bd73f03, 0x442d8283e4f655ff, 0x376d7b38e3fefc);
  (0x313daefa1588d01, 0xc8294d1bdbf11, 0xe84e3acf365f9fd, 0x3b04eb2f8200cc);
  (0x1ad44f6b78c82e01, 0x36879f3b3c7e88, 0x14ac998c361713ff, 0x2a050a697ebf77);
  (0x1ad44f6b78c82e01, 0x1b43cf9d9e3f44, 0x295933186c2e27fe, 0x2a050a697ebf77);
  (0x27648bfb446d734, 0xc8294d1bdbf11, 0xc0e9aed3f1f22c9, 0x3d439129a4c1ee);
  (0x4ec917f688dae68, 0xc8294d1bdbf11, 0x15e7bdec103a7f99, 0x37a6f2384ddf19);
  (0x1ad44f6b78c82e01, 0x2214c38505cf15, 0x2bcf7bd82074ff32, 0x37a6f2384ddf19);
  (0x35a89ed6f1905c02, 0x2214c38505cf15, 0x46a3cb43993d2d33, 0x2cdddadea9d717);
  (0x3f07465ed3e2520, 0xc8294d1bdbf11, 0x10fb2c6ca7acd131, 0x35ed74c034280a);
  (0x18dc153882291b71, 0x27794f31d7d316, 0x10fb2c6ca7acd131, 0x1af6ba601a1405);
  (0x18dc153882291b71, 0x13bca798ebe98b, 0x3ad26e11d182bdd3, 0x2eb361f905fd90);
  (0xfc1d197b4f89480, 0x3e8ce818b4bb55, 0x1d20d868f701afd, 0x73a12c72e2a7a);
  (0x1f83a32f69f12900, 0x3e8ce818b4bb55, 0x1d20d868f701afd, 0x39d096397153d);
  (0x2fe61cea74e21be5, 0x2f891e4c823d3d, 0x338a37f793c251df, 0x332627b019527a);
  (0x76528c09e737ecb, 0x24b20221bcfd86, 0xb0943cdbd53b4c5, 0x36c33113b067b7);
  (0x76528c09e737ecb, 0x12590110de7ec3, 0x1612879b7aa7698a, 0x36c33113b067b7);
  (0x1d77b05c191ae855, 0x248e191247733d, 0x2c250f36f54ed314, 0x36c33113b067b7);
  (0x3aef60b83235d0aa, 0x248e191247733d, 0x499cbf930e69bb69, 0x2da8a512fbed7a);
  (0x11d6bd8696713f60, 0x3752d5518690db, 0x2ef795ef8d72ef3, 0x91a8c00b47a3d);
  (0x26630f1f64538805, 0x3b8654ab3af443, 0x5def2bdf1ae5de6, 0x91a8c00b47a3d);
  (0x37ffe759395ea1b7, 0x2b6afc56ac317d, 0x43bdccd51cbb5d83, 0x3485885760abba);
  (0xb332e450b79538b, 0x2b6afc56ac317d, 0xbbde57be35cbbcc, 0x2d84bc03866331);
  (0x16665c8a16f2a716, 0x2b6afc56ac317d, 0x16f113c0eed60f57, 0x2c77dc2d194a57);
  (0x2cccb9142de54e2c, 0x2b6afc56ac317d, 0x2d57704b05c8b66d, 0x2bf16c41e2bdea);
  (0x886c5a4f6118908, 0x29513ca9d1ffc9, 0x9117cdbcdf4f149, 0x2bf16c41e2bdea);
  (0x1a1f0825ba180359, 0x3f49f2cac35ebe, 0x9117cdbcdf4f149, 0x15f8b620f15ef5);
  (0x2c4201dd5601e5eb, 0x359daf86530e54, 0x1222f9b79be9e292, 0x15f8b620f15ef5);
  (0x5087f54c8dd5ab0f, 0x30c78de41ae61f, 0x2445f36f37d3c524, 0x15f8b620f15ef5);
  (0x198cfaf9fa2d35b, 0x4d621a2382835, 0x144dd692fb778396, 0x3d7e3e4e8548b7);
  (0x2910627e16bc3f35, 0x3e2ef9c5afa9b4, 0x25dec31ed776987f, 0x3958d82377817f);
  (0x2910627e16bc3f35, 0x1f177ce2d7d4da, 0x4bbd863daeed30fe, 0x3958d82377817f);
  (0xd52ac4b36951761, 0x3270036bb875ae, 0x6ef6d8cb809c9f5, 0x1a415b409faca5);
  (0x1b318764a6a8ab4b, 0x33795cf67be77c, 0xddedb19701393ea, 0x1a415b409faca5);
  (0x36ef3d9786cfd31f, 0x33fe09bbdda063, 0x1bbdb632e02727d4, 0x1a415b409faca5);
  (0x55444eae2a2095a, 0x193801b5dc3ad7, 0xb34b8a3fec28f3d, 0x35076346a11231);
  (0xaa889d5c54412b4, 0x193801b5dc3ad7, 0x1088fd8ee1649897, 0x271fb27e3ea684);
  (0x25da113a6becbdff, 0x2cc7daf4fb8e19, 0x1088fd8ee1649897, 0x138fd93f1f5342);
  (0x5c3d2003b93e1495, 0x368fc7948b37ba, 0x1088fd8ee1649897, 0x9c7ec9f8fa9a1);
  (0x137bf78f0cb6a863, 0x39a090305f82cc, 0x34e991c937a84eb, 0x9c7ec9f8fa9a1);
  (0x27538e3a8195c5e5, 0x3a280df6debe49, 0x69d323926f509d6, 0x9c7ec9f8fa9a1);
  (0x559fedca92490abf, 0x3f4fc329e630d8, 0xd3a64724dea13ac, 0x9c7ec9f8fa9a1);
  (0x68adf3378868c03, 0x183010aba78a54, 0xd3a64724dea13ac, 0x30e79f1dce5025);
  (0x20ffa818145ab35b, 0x3cffa773a2154f, 0x1a74c8e49bd42758, 0x30e79f1dce5025);
  (0x3b7470fcb02edab3, 0x36f3a348b832ba, 0x34e991c937a84eb0, 0x30e79f1dce5025);
  (0x14ef970b1b48267, 0x60c042ae9e295, 0xda856946481069e, 0x3f1d9e8d9f0343);
  (0x29df2e1636904ce, 0x60c042ae9e295, 0x196f1b8aa3d99c3d, 0x3ac4e207ebfd40);
  (0x53be5c2c6d2099c, 0x60c042ae9e295, 0x339a985885f3cc49, 0x3b9e85da876b89);
  (0x38d67e1b4cc5d5e5, 0x20d54502b8a70f, 0x673530b10be79892, 0x3b9e85da876b89);
  (0x217f5811c5403d8, 0x60c042ae9e295, 0x153f30886b31948d, 0x3d5e1234133766);
  (0x42feb0238a807b0, 0x60c042ae9e295, 0x2a2ec7938679bafd, 0x3ceb1df09b089c);
  (0x3aee739c6919d9bd, 0x2a8d974e214978, 0x328e9d97f7c9ca5d, 0x248193233766e3);
  (0x1acc46749dccfe0, 0x60c042ae9e295, 0x110f458632898cdd, 0x3d978c55cf4ecb);
  (0x35988ce93b99fc0, 0x60c042ae9e295, 0x20222d27cb4cdbbd, 0x3a01d8ec042304);
  (0x3aee739c6919d9bd, 0x3530fd21a99bd6, 0x343b61ff41a69a3d, 0x2f24f8f6bfb941);
  (0x6b3119d27733f80, 0x1e3c14d6916ce9, 0x91b4346d20a4559, 0x2918f4cbd5d6ac);
  (0x1681668120f0c459, 0x32c88f3c7c583f, 0x91b4346d20a4559, 0x148c7a65eaeb56);
  (0x361e104913ebce0b, 0x3d0ecc6f71cdea, 0x91b4346d20a4559, 0xa463d32f575ab);
  (0x6cc1a3f200296e21, 0x3d5a1dd09947f6, 0x1236868da4148ab2, 0xa463d32f575ab);
  (0x15c053fd333b7c6d, 0x3d5a1dd09947f6, 0x1236868da4148ab2, 0x335f31fecb4c57);
  (0x15c053fd333b7c6d, 0x1ead0ee84ca3fb, 0x246d0d1b48291564, 0x335f31fecb4c57);
  (0x2b80a7fa6676f8da, 0x1ead0ee84ca3fb, 0x3a2d61187b6491d1, 0x290620738bf829);
  (0x2d4a4593f525afc, 0x9faebd1cdfb9f, 0x11815d77543ff3f3, 0x3db8438a0aa085);
  (0x19ff4a83123704e7, 0x2dd4837fba49b1, 0x145601d093924eef, 0x23d997adec4e12);
  (0x485496d6b80058bd, 0x3fc14f56b070ba, 0x145601d093924eef, 0x11eccbd6f62709);
  (0xb529164fd496bf0, 0x31e69b1905ea1b, 0x41133901d83a963, 0x11eccbd6f62709);
  (0x17862c1555d46819, 0x33d67f4ef42f9b, 0x82267203b0752c6, 0x11eccbd6f62709);
  (0x2fed617606ea606b, 0x34ce7169eb525b, 0x1044ce40760ea58c, 0x11eccbd6f62709);
  (0x60bbcc376916510f, 0x354a6a7766e3bb, 0x20899c80ec1d4b18, 0x11eccbd6f62709);
  (0x1358c2717b6add03, 0x354a6a7766e3bb, 0xd30da0f70b26e15, 0x245590bb67df72);
  (0x26b184e2f6d5ba06, 0x354a6a7766e3bb, 0xd30da0f70b26e15, 0x122ac85db3efb9);
  (0x33e25ef26788281b, 0x23ba996a8d69ba, 0x4e44131148ed0445, 0x35e561c8415973);
  (0xef32f93f8c7c0ad, 0x33798484d78293, 0x546bd9fc6adc5a2, 0x122ac85db3efb9);
  (0x1ec768734cd11193, 0x34fceecef9a8df, 0xa8d7b3f8d5b8b44, 0x122ac85db3efb9);
  (0x2954e3b2da2c9cd7, 0x2393db9656cc4c, 0x3e6fda31f4e3b35f, 0x35bea3f40abc05);
  (0x3de93fb473d979e, 0x10a75e1391c96d, 0xc7cc53d30fa5713, 0x35bea3f40abc05);
  (0x105b59387837eeb1, 0x23330103ce42b9, 0x18f98a7a61f4ae26, 0x35bea3f40abc05);
  (0x2954e3b2da2c9cd7, 0x2c78d27bec7f5f, 0x31f314f4c3e95c4c, 0x35bea3f40abc05);
  (0x5b47f8a79e15f923, 0x311bbb37fb9db2, 0x63e629e987d2b898, 0x35bea3f40abc05);
  (0x1241982186046507, 0x311bbb37fb9db2, 0x89e3141e9bcbf75, 0x172e8bac4b979f);
  (0x1241982186046507, 0x188ddd9bfdced9, 0x237dfaa5597de3f1, 0x2fbc6948496678);
  (0x248330430c08ca0e, 0x188ddd9bfdced9, 0x48012ae86586adff, 0x306c1240228215);
  (0x7b5ebe6169fb7a8, 0x19ed2f8bb00613, 0xe66a22e7ab48933, 0x306c1240228215);
  (0x161c8e14915440db, 0x252ca0e5e94414, 0x1ccd445cf5691266, 0x306c1240228215);
  (0x161c8e14915440db, 0x12965072f4a20a, 0x399a88b9ead224cc, 0x306c1240228215);
  (0x62b231e787fc620, 0x19ed2f8bb00613, 0x9c647d7a054b49b, 0x29153327671e0c);
  (0x161c8e14915440db, 0x2e77c91f639519, 0x9c647d7a054b49b, 0x148a9993b38f06);
  (0x35ff6400c2fd3651, 0x38bd15e93d5c9c, 0x9c647d7a054b49b, 0xa454cc9d9c783);
  (0x35ff6400c2fd3651, 0x1c5e8af49eae4e, 0x498bf3b003a69f87, 0x26a3d7be7875d1);
  (0xaccad99c0990add, 0x1c5e8af49eae4e, 0x138c8faf40a96936, 0x335a7ff140e58f);
  (0xaccad99c0990add, 0xe2f457a4f5727, 0x27191f5e8152d26c, 0x335a7ff140e58f);
  (0x15995b33813215ba, 0xe2f457a4f5727, 0x5d18835f445008bd, 0x3d236daa66cca9);
  (0x12eb522c9afbce98, 0x3e1fabe139d3a9, 0x1570483731b2391, 0x46657c129700d);
  (0x144256b00e16f229, 0x214301d131a1db, 0x16f05fb6f44d394b, 0x25a959925b11e8);
  (0x3f750d17107b1d9d, 0x3417ae9a5f2acf, 0x16f05fb6f44d394b, 0x12d4acc92d88f4);
  (0xf6f79a3a2e8721f, 0x3f5af9a5c19c69, 0x1126a02c27c1c74, 0x46657c129700d);
  (0x14cb8bb16f550063, 0x2aad5835c86655, 0x16f05fb6f44d394b, 0x2f13aff6f1d662);
  (0x29971762deaa00c6, 0x2aad5835c86655, 0x16f05fb6f44d394b, 0x1789d7fb78eb31);
  (0x40877719d2f73a11, 0x211b9818a0a8c3, 0x6e683687bb91aca7, 0x38a570141993f4);
  (0xce7e49ec3cb0b9d, 0x211b9818a0a8c3, 0x1410f63061045b5c, 0x337a07b81b466f)].
