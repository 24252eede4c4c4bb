(** P - Order times the generator of G2 is its image under the Frobenius map: the certificate. *)
Require Import ZArith NArith Bool List.
Require Import Verif.FqModel Verif.TowerModel Verif.CurveModel Verif.OrderCheck.
Import ListNotations.
Open Scope Z_scope.

Definition cert_pi_0 : list (op gfp2) := [
  OD (C (0x124077e14a7d826a707c3ec1809ae9bafafa05dd6b4ba735fba44e801d415637, 0x237db2935c4432bc98005e68cacde68a193b54e64d347301094edcbfa224d3d5) (0x203e205db4f19b37b60121b83a7333706db86431c6d835849957ed8c3928ad79, 0x27dc7234fd11d3e8c36c59277c3e6f149d5cd3cfa9a62aee49f8130962b4b3b9) (0x195e8aa5b7827463722b8c153931579d3505566b4edf48d498e185f0509de152, 0x4bb53b8977e5f92a0bc372742c4830944a59b4fe6b1c0466e2a6dad122b5d2e) ((-0x30a74d8a4c7c732068e9b15a0e384fe72c67559e238efc86de236e5566828cce), 0x198402ef92396e65c4ec656c73adcc821a22a799551f5341df84cc2bfb8d560d) (0x1ac5a984b13588ae20752a246f497423bfa31fc3a1cea24f7a85ad571cf7fdaf, 0x13253ae763aed78183ca7f4e26798a9f66af87daeb42c29c414d5d89b6d91a03) ((-0xae26827fa10d79086326cb4becc548ae508bd9492608640d8ea0348f9e3341c), (-0x91bc9da82ea428b0c63000731c0055f8ee09fe3e2855df7c1f83bc007242e25)));
  OS;
  OA 0 (C (0x899cb1e339f7582c42d7517ae6f59453eaf32c7cf422f26ac76a450359f819e, 0x6567a7f6972b7bbbfa13123614ecf9c4853249bb5ee22ba52a7ed0c533b7173) (0x1014772f57bb9742735191cd5dcfe4ebbc04156b6878a0a7c9824f32ffb66e85, 0x6064e784db10e9051e52826e192715e8d7e478cb09a5e0012defa0694fbc7f5) (0x21e2335f3354bb7922ffcc2f38d3323dd9453ac49b55441452aeaca147711b2, 0x58e1d5681b5b9e0074b0f9c8d2c68a069b920d74521e79765036d57666c5597) ((-0x3b1ac8ac73413af6752df41d661df587815a2251f88531fa4fe7672fbcbf2aa), (-0xe37aed2562e8f36558cb975782a7d2e27b32b4bc44248b572d724d555f9562)) (0x240bb3b84b38c5f32cbc9c55158b9e9c4710b9d5f5ec084cb6639083f847f2c, (-0xb2d5a836bdbdf6c2714d155bc715f5677cabf7170bcc2df591d531574718da)) (0x8217075e49060ea9a5adaf8d788e61defa3c886131027c791c272b8e452bbf0, 0x18f132590fefb922773b5c779fd690d84d4735437de9ba59d8b5efab6dc3259));
  OS;
  OA 1 (C (0x1ef4c4aa63f1a4ce98c747b1b90116d81b8b2938e4397c8700b1c8fc3ed4620, 0x20d22994c79b22e75ca86d0c6583d9dd1807fdf01c6e09fd7e05c0a565253a58) (0xa09ccf561b55fd99d1c1208dee1162457b57ac5af3759d50671e510e428b2a1, 0x2e539c423b302d13f4e5773c603948eaf5db5df8ae8a9a9113708390a06410d8) (0x19b763513924a736e4eebd0d78c91c1bc1d657fee4214057d21414011cfcc763, 0x2f8d9f9ab83727c77a2fec063cb7b6e5eb23044ccf535ad49d46d394fb6f6bf6) (0xc509f0fc79ce7db7936f3c4d0d49939e7f8af3e282ca22762a460220d72cd40, 0x164d860e2e3ca25057d208bcb89ceb98c9ce765ab2fc0d00991455e4f4c7a0ef) (0x29fdaf1b2fa7a24d6e543b4476e3a82f50054bde347ae7bb39de55f6435aa17, 0x162ed2f8fcea081c37c5cb232f19feb77ac6be54cf03c18fa5686feca6fcd976) (0x27c80ae428691d4065c2f68a4bde2ec58f04bd46c2db1b4a2597820fc97bb3d, (-0x1b9360753279a94e01414146adce92b1bdf67892aa40ce0b16266f8deaaf33c3)));
  OS;
  OA 1 (C (0x20f5f4e5f84055c0704394df513170017594dc62d554804870b5db9fd313673b, 0x2b485049ea4ccf363860b2a1ca164431c899cf584d775309b2dc3271d7ca2ebc) (0x2903ba015a9abde26a5d081e84551e63be0fd4516e46ee6d593edeba46362455, 0x224bdc5d4327fcf8ed702e01de1c2f1657a253ba75e32a89c390142aaa28b308) (0x3c8b7cda6b2dedb7aeeaf5fda464ad17036bea1c4e6f7adbaed1ebe0335e0d8, 0x1d92fff52a265017eeccb372e37d7a7bd431800eca28dfd82e21e8054114233f) (0xf74c9db22dfa7d67761074b1cdb7f10d99501e4077b64193e287ca636052c14, (-0x14e8216e416a71885c3a5a023646fc6ada1da30d2c6d4be422064216249fc61c)) (0x3af61b29234a42760990129b4dcf9861faf45f53c759266116e040dca7ab187f, 0x10432381a6d9879755b9e1cc52cfa0f5e37efa67c01ab358d1872aa8d525c532) ((-0x1382f970de2e0aef0e63b11d341d29d41c6df220d625d7e33b28b4a2deddf42d), 0x1fdbd555ea01e2c89bb7c811a034f6c30b78149d25f4f96a2add10cbd0f64141));
  OS;
  OA 1 (C (0x11e065ce1d3ded17dbf6b63976fa651d79c1780263e2ea076ed90e6adfbc5ba8, 0x27edb36c55792ea7f2c3b01d5b100317f5e2a1970f87eecfd47ff068b9fc2af1) (0xaa8c85149afecea43310a4e7b5aae63d4162e5d41a4df5beac827f1b7bd6783, 0x1d2b63f76dc59458a1083d2df1bc35fa0ff26cc6094a6e9b7f76b30cfc894735) (0xce3e7af512369fabdf64a761e0e451369b2935abcf25ccd15d897516a02476f, 0x286b2c52de77f01d4baebbcef1f35e94c038ae3c93c850304186792c8df69c9c) ((-0x52e9ac5dd4a28c2d7bb090feb10b3e4ce2ac1bd8fd6ac76225f1d006501ad22), 0x7d4fdb9cf3af3c77e74e8c09c30a0ebe72227c3e7d3aa1aed4d7e99e4bc7d5e) (0x1d800d596bcd71c3cfa62751c66d99d2c838891233f1a9e029c27fa613c7a289, 0x1a576fa50e785469773a0d67da355f87321b30ab26994d9620eab8aefeb0c97d) (0x1af0b7b9e5b703eaedaabb6018660b95d631938e6bfbbf56e545928dbe9c6d85, (-0x6fbc12c7c5d2526d415e5afb978112e82a6f2911b2ceb8b95ad218951df33b8)));
  OS;
  OA 1 (C (0x230345ee6bf4faf4272b41e55962671bfc8aba9c0e55a12223ca48e669443e62, 0xc0f2a4b4fe07bbae6ed0f835f188304f712d5e8e58ba9fa13eb544a03e9145) (0x228b515a17f28b89920873207477f8c7fc05582debaf3184febf1cfdedc5ce88, 0x12bb1156a9f6b360fcb2614e15d8a3ff07f2c699dc69ca830b20d2df91fe9cd3) (0x2b15dc62a5c9e36597914ddbbfde48806a8eabe45c8d3cccf9578ad08e058f92, 0x2a4fd764f52470e2fcfff325fb9692f55d6b8b077eefeaa04e07152b4d1fa94) (0x8126400647304478b03cbdf480efff3f3330ab58c9502d6b987a3c2c66d23f5, (-0xf731afde3518e383e0967f1857d369e9783b5dc0f4068001fca92b2716f4a86)) (0x11734b547610b98045902456bff65f2423fbe49a12542053b69c1394cb69c30, (-0x19522a0bd9f0178aa7a54534b1ff8cdd6a5856965ecb3db4fa376c89298467f4)) (0x72e437a8bfea7ceb9dfcbad8e5d6992858ccc787dc26e6d8c9c5d54e6107e86, 0x1171a6fc3db729dfb2b9c91697b7ca4c13796ac3c273f0fc52275beaac151bbc));
  OS;
  OA 1 (C (0x26384a633a260bbc39aa370490aea623288cee17a4fb49ea227251c3711ac1be, 0x282ace32b3afdf2c70ff43d12909faf3d76e38476ea85b92f9f96f2adfcafd79) (0x9edaf0698a8c56f51139588acc094cee3c37d427bb6d2eab830aae529097d1, 0x23ad66f3a7cca9dc75049635faebd124316244b91de5fb2764cd151572a905f7) (0x2700e8a29b7bb45f3022a18a07bdc66d0254559e17cce64e3b4ad21578fcf410, 0x1ad4f87d3b4375a39988ac099b042b1e7c0c715678e4c2bea8905f607cf950f8) (0xec746cfe0ec350aa293a4d220709fc6ae6811fba4dc89827cf7d308d51cfbbb, 0x135b59d26a4ccf9d9d54b8e88fb3911a37eb00e687ce9af60741bbaa12949ed2) (0x3f72bacea83a664c5a85e07cf0a1221b7b54a767eabf119761f9a3427c2d70e6, 0x32783e5cc0d5c2d00219c18974b8cd093d9b225bd8c0a91d78a1a3e617f4c06) (0xec60b2522647b345a45e4fa6c0042a96e9c0118111a47f642c2bd5a716bde33, (-0x28dbfd493155fe892f5bb7545192c97dbe395bafb71004107fdcba5b48b2a18e)));
  OS;
  OA 1 (C (0xfd79c3a59ef9347b03c79fbc9ef28683eca43009efb79f688bdc8271e5731fc, 0x27f06cc6bd78ceea183fe2f08b8285c5defa4668090b4da6523576d4864e0b5c) (0x1ace10298838161fdd3a6bb5dd157a808c19d4dac316bb5c001f68ee586f30b, 0x13f6762080e4a32b0d11bf75b55989e08b3be57060b4bd2148e9be49fc1ca587) (0xbc83eb241f95b562bfabecd0c21f1b335bdfb10d49ade6efa26ccef5dd4b570, 0x51d866c133978bdaf7b2ea418164cc0c60477b9364bf9acae265a87e861daf) (0x1b77e447395d8ea3e9c0cbe55dea428c28c85336e50426e5368b4483251d323a, (-0x6e637f1816d37d736e071057be1ed32fc444b3d22130ec432b54d884eab8a32)) (0x1a266c52815b2a77398eafbeb9e9104bb40ed253ac20de3bfc58e90439aad65d, 0x1bc6cf4af1924224dd942e41855442cf0f23946135ff517d3f498dc0e3e6586f) (0x44625ecba3cb2e273433fd376ea1ed64b747fecaf0c9a458ce08faf270276d8, 0xd50a5b00015d661e7af2952e7eca82a5330093cfe6cb7e6d09e0958f937be47));
  OS;
  OL 7;
  OD (C (0x78a2afbf72317e7d49cce6abd50b574f31c2d72004ca7313df2e168e7e5ea70, 0x100a541662b9cd7c9767e27b02a8da37411a278718d630598e58bb5d0102b30e) (0x178a447ef1394462705a0716228d2d85842bc551719d80d83506cf45e6377db, 0x1479d9ec6718b32ac54a6e06eb29922d1081cee8452980e21ee7932e7bc03969) (0x24bdf2e5b36fa494c6ebcb104005fe39e0a59e1b15140049515a4efb9e40e22b, 0x262e04fe8fb373783e70978526bbcb870e3898dd2778fc55d816cae8e8e437fa) (0x1f7919c0342a6164bb57cee9aabee6a117fa5f0e99d7e2252aa5992cb4d97f7a, (-0x4940af35bf2f97da82552989f3b94cf6e6d5275c634f604cb748189fbf605290)) (0x4ff9404db6d1b76478e5a572105db61deb0a260f2fd1c744a68970aae79b2a5, 0x42462c98e1f9a5296fb3d63e7c0aca97f15c548d4a0bed1fedbe530b2e250ab) (0x21622e27756d73cc144094e193ee1ffbe7aa68040aecfbd8610c648ef94085f, 0x52bdb7c2e236a5a82ea460befc5d1725a0056a4902571c3e598d165f81a2e3e));
  OD (C (0x23db979f8481c5f017f7ac209532723f22a344b90832f45d3398c60aa1a74e2, 0xab519fd7cf8e7f9f5433785c186cd1100ab6b80a137b991ba9048aee9fa0bc7) (0x1303baa20971befe5aa7458c1164eac4a10108c8abbcd37a1e09d83ee94bdbd5, 0x126a285e45fa024002aa806848f10e5b2c64a25c6af0163612ef34379fd72584) (0x1305fcc05ab211db0fd12d1f8f1f894726dc7bdbfedeab57b33af11d81279c2b, 0x37dedb5d778240b5f237eaa4160f20981e0ed5d24f832e9eb07004e1a722d0c) (0x100f83e93b74cca7d8b7a4f437e08411f26d2f95e504bcc505a54d489f19be30, (-0xc5d7ec46fe891e8eb5220530352e2669400d83cdb3bf4620dd620f925058058)) (0xfde3fd00513565b3ea624dafca6e2bc5a4247d5fb7517b08bb843764e32e27, 0x243f0b5558e4c8a3b33731eccd0f2f88c56912c3e0ac5b73483824a5eeec3f1) ((-0x3c948766989fd5c2c8bd0699ea32f2f1761be83617de9ccc7ee652ba7db5d6e), 0x144c01ffd1b43aa415d56332c80a9c416acdb16bf230d1fccd3097c1ec0a347));
  OD (C (0x1d0f6156a89a42447756322ea3dc079289d51f2d83bf38d91876ad8999516bc2, 0x182c17d793eba74d0d5a60533bd0ce7869efbc15bc1ede480873fceb8739511e) (0x118f95f270bb0c1d6267ad3cec6227f5e957c60ab2727cd56d1c7592c77869f, 0x30a76ba26408dfde47ff7cda32f031fd6d51ff2a56e6f30dd380c2431ad8ed5) (0x24756fa7990428a1ce2ab431c1b16b84f204a9781227d5f547899dd9fe68059e, 0x7da88281dd4cad0534f0e64d2d132e759de4e499b3e4eb553fcb3d8e61ed48a) ((-0x1437200156aaf7d63cfc2f1abaee727f527a2f6be0b67b13d408ccf5d986c1ac), (-0x11f79d68597ff4d8e6dbdc55ffd573019335fd525d9cf46c400484f550f01297)) (0x1d081a13e7b0fb247cd58553834232ffd33bb74c89e648b3bbffd2ef358a3ad9, (-0x56073242cdcb3acc7cd9726f331e0c33fed511c32f17cfca4e9a3f3896df63b)) (0x122e95085541228b5689e157493e185fa5a949eb85e61bd19b88b9544cf2190f, (-0x3147fdf5575c7a5737eadaf79eb702e6f97e36489328c233225b675ef816900)));
  OA 4 (C (0x16fe860773a488f99ed921d98ce3ac3386a056a614fdde2314a3f89d92c34e42, 0x10ffff9f2533da2f1c4cf344971894720976b3087af30735ce2ff35bd5f80b94) (0x12736b7520c44dc204bb6966ac90bfea2a9a21bf4c2f55679aaef59da44669fb, 0x55ef4756cafb788a1aaf7b27888c56b891f4202c537aac3956acc588d793430) (0x2567b3c017af1291dbcaa4c70f6f86199ec34b0f4ba0727c6f61c9bf2b23a93d, 0x1605586292febfdb726cad9ddba776e12c77133ef6ba291a5aefc638d7e25d21) (0x1cdfd7a17f27e76f8965876f10b53d7162ebb51582186fd6a3549d75d4f365bc, (-0x7fcbd4daca55700224a5a649e5270a0ee0bdb218b404c129d8f99da1af16833)) (0x1027dbcc77415066dd680b51b3ceb230401254ae52fcce1c74c63ce0b8791e17, (-0x4f43bd74d03191bd81a14b04c0dd793cbd038a45651ff90957267202b6d1ef7)) ((-0x7340f452e49eced2c1d6598c276bc54724225b3483e925184ece16c6d6870f7), 0x76d5c33c3f8f03d4dec67c4ca41b3695067134c67085e687f5dbd5bac668e87));
  OD (C (0x27941ca90c2efd44607d3b560e2665e7fe6bbaa92cdb991b7e75ce93f16e190b, 0x19d424be7cb204addea56f4be9513db47012242d092d3ece6321c97f641e4522) (0x2b00c14c7912d0e88e7257c7aba49a772e587d542db930d2d80320a7fac16f41, 0x226f7be39fb08462d20382f93535ef64e24024796564d7a0d98240e4b91aa1c9) (0x29e9b7ef9f92253cb7852766e730c25218b6144056cf720569c9c9a923a7ae14, 0x2360db031d46c6f0aafde8fe5c6411153c94c4f7cd8bb7609c7292117f8e5678) (0x3fa9bbf2dc65843b37a510df5e204a69f066cba2f96a6037a2a6603921469106, (-0x125cb362869ebbde841d24902a70af5863e575eb3a0b7d96b7934ad180399cd9)) (0x2a3fd762a5c50d2254b73e0be50c0ea08d55bbe7a2a296a7fa9b04df3b594723, (-0x1295a6e7af897a257744d39d911cf965fd100c981102258cd7b938db2674bdf2)) ((-0x24e02d73f059f2bf58430c4cb0b32334ed0887ed2092df91b5ebb90f5b78cf50), 0x4915185b1a432cbd3fd58e737431810ff70233e8a6581acc494c312a14d75b1));
  OD (C (0x2858166226f6b1246499fde54dea7a8dfb6dfd5947aea77d7b935ad6d913f93d, 0x228931dadf07c4108c067fbbd786a9b4bd3aa0f6b3b84e7600866a2fff0b7f51) (0x148dd80571075bb89e4ebdb92280935d160ce309c4119baf6b2c7d7cf1f1a97a, 0x1128b693d167507ad44c0663ea1eb383d6ee6140976631fc66b93e2141656e73) (0x15b9dbdae0c9f68a51bbf4a5c3a9d6c636f4740163bef0f3dc370954f5936008, 0x858352cf13b41417d169f9930bfeb53b1d8a3f3683e77a675f88635e55540a4) ((-0x40ca720610eb3e19d68c2bbf1f2ed7696a5731757ba71d08219f0eaed818d7b2), 0x15bdde9fe160e2de3db20d4c9051cd26e581d8027e27edcadd7f3191f0f041c8) (0x3995beee53a40334ee72d131ea9522b87474d839864638929b28c55dc25c2b72, (-0x8fcc591a480731fc36601acf2eed3e0cfca0999d3fc200f57c8830f4036582b)) (0x1e6ca952fc6af9673c1db94e6cc87b39f8e6576395c314ccc2737c189e53455f, (-0x662c4f743ecf97021f13ef3d1c1273ca36f75057b287ff94f5ab5812e9433a7)));
  OD (C (0x2881718ecd29d86cedc383203301f0eaa01e2b5a3ee5d4e096cd469568fd163a, 0x1b248da5c8f04835ba1c865ee674677b9fd676a01deb029f7839f30d9af8e52b) (0x215b23a7f4ad5bf6c0bc34a5efaf310ac8ef40ec82707379a4d9cae21d6a3abb, 0x2be08b3367086ee3fdbcf4c5b9b9a2b5e8cafcfd568fa587891e7bb7cc1cafc9) (0x28d183666cd0919f4a976c093216e649721f57201793690ea9d5cfc496e88e99, 0x265d27d017c1e86594fcfef709d2587963367efe1b0071da3d226a709605f61d) ((-0x5633a93da5cff284bc2815095255376ff4eb1e84b5e23b7ad4d4081c60aa58c), (-0x13128b11f25b30b56202bd03ded2784bac329bd4f86a4e714f5c3ccb2ad615b1)) (0x2d705ca19df403e383f28a4a4c1d58d7ae1d4dcb5a99b2916e9dde697bebb64b, (-0x12ae2b19f40497c5b20ee3a89d786758360330cb1675c33f6d23f6bc8ce5a396)) ((-0x1d8b6608f0c95408befd178801351158d3373bb668dd91c3e0789ed7faf560b8), (-0x445396874f2837e931c1c8f7c653fbada0053c1182ec6871ccee141c575dd3f)));
  OD (C (0x21939553c1f1ea0c46971d8afc18f14e84554ae3b5bb9fcdafaffb7cd4bf964, 0x1989a6e060b249cf8051e2e82975adba6e7e658f3e6c02b44e4313be8d42d093) (0x29a690b461f321dbb6d6353a44ab4b09bd1d602ce8d462e0e448e7b4a156d52, 0xf94db7e7140fce94a03f272151ae88566fea2ab5fb1422a27727f517db52a78) (0x134ef97e0c347532d3c77a06f3cb492b94de4b23d42ed99410a7aba47c8b59f8, 0x2d492e275d47e0ec6e058cb916b3cd3a89919b737eb470c24249bad037827948) ((-0x870e1bd460730485e230166ddb72efbe8d39943ba891f4f20c93a036be8c2ecc), (-0xd6c7d4f635356514e6c60ccfd23946b5db11a5539d6ef341f7ebb2c534a200e)) (0x23704104ff725994087ff410ab0762fb3997e3843765f1d72dd5b7d03539170, 0xd62cd7f7134305c3e7f77ff7a18a9b3088871077c101c7119a4e6e672aff5b9) (0x1174c83c4e8010ce05c49c42236486d060c149779b3dd99827d88e7fb8d904b2, 0xd994a1bddb99a62b5050aff8f921b3afd580f21d6a7ec1119f040fa497ed416));
  OD (C (0xcbf26504e2c2575e45055671edd9e6626258827511f69f7774ac7e89645402f, 0x1ccf0db70d57edc3575edeb9908605f2a0834f951d1accc7b3a8960b1073d553) (0x25d57edcd3e81811e2cd7ae9e9e154ca8b975edb192fc1501b8a16b4077bedd, 0xa3ed4e54bf17b0f7566a2a7c3bb38b434e847c270b526d8fc62f67b4efdb54e) (0x1a443d1f586a4af698bb16d1c854a333e08c28fe8e4c21e3f1917867566519be, 0x2121e0b288111262033f9aa63c6a7e9f25328c9a689d72d608ba3a9e4dc9a704) (0x29d14fa5f79e21c0b021e19bdbd13ada5c522c597b5546c253f5ae7a2f936a60, 0x1d1ddbaa72c6943e8be5df392e6790c77eeae6609f3e787c323e942f2380caf4) (0xf2d42e25b8fab071160013e9e218ea9e10015d0fc2fb9902c79bb095b8725bf, 0xdcb034b93df17a003a12fe361f29b61adcfcf9cbf6976be01ee6d3f4b3e46a6) (0x18c2c660a3c975f1c022655bf5087d9cf786897820f4a8b6bbb8ff6cf946419, 0x31d246d31132a7bd2c51c4395b1ab46cbcb801091148c769498f70437a1b1f1));
  OA 5 (C (0x1f29acce5ba0c3c638b15ff37fdd1d227386b05df40ddc09fc628d1c007747e7, 0x2622e4566c023851f46d71d078e785a9a1969d8269aae5d76b9bf503f59b3e00) (0x243fd3dc45fb7104fc7056b587255b64e22762d3c4c91bcbcee49a3372680f6d, 0x2b4c287053e89465ddaf11578d960a93cfe703a13c95101fe491028f040fee10) (0x8e104b79da5049913425bce9dad7692264101b788cf58b024db7f96accec368, 0x2ea07736e3d33a57d02408d712f2afc8dcc62ec619f55a3ab829e8c78264d089) (0x12b92ac275231f55ac7e7f1be4722cb2eeb3c523111ea2f583a5b5021128ab40, 0x99270927535c1d37189c383ab8bea8e4df57e0eb2bd1c859d689d49e3cfad72) (0x311dfbba4b2c8a00d99ba5155612ea413b2fd2e9c94e040199432f3026230db5, 0x9fc812273d05ccf7afb7da657d3ce0c26252df7470ce1539700de5f10bcd324) ((-0x2ffcf3fa31d1a890762d8d5aa15d09edf1c7836032212069bbb7995d876af62c), (-0x43a0d7915923fe6979c58e2d0e79bdb2084034e09896b177d3f9be1a1001bfb)));
  OD (C (0x2a2a53e57b91c97eb679b61823637b79dc9b4d08c1a8893bfd6941311aa3c5b9, 0xaf9ce24d7e990e363b94000e67d308a9c23d3d49d5cde117663ba1f726b2f37) (0x2c3e3cb386b413c3f6ca81de7e55545cfa7f22d25b6b87e4e85610df75908b92, 0x10de7f19711f5786385e977a6965ce1f2b6a8092d6ebb843d31f518a78815d93) (0x129564d424cce3f3be70be36b51075ec505afe3c4988d862440813dd7e4b9d89, 0xd0994338eaf220becd6c473a2c49352b5923d946650aa5c579c75c3b3d08c0a) ((-0x6d5128b52732b72026d5b0381b37814bedebcc5b8ba2452d1b06a4f63e0c8762), (-0x1d145ff878272101374e684b98de74c16a21b3773882b1a37656623aa6c35c91)) (0x13208be1562ef1fd1f1114a101cec9d44ff10f991cec2d4421e7dd91e8357f5e, (-0x224025e8e8696338742bba22b02f10d2121b4e986903b244adb9167ae8b64555)) (0x1536fd29eecc4319fc70ec228575140290d9ef9d470eae52118091c4f02eb587, 0xcf5a10ea6068417e377acf85c0b93e3cf1659f496ee218b07b3b14b85433553));
  OD (C (0x2891610415d037f9968a3a12b6326fbadb8c806dc83f0174b0fce4b88232283d, 0x1cddd42b325cd9255789e8b7147be30d07b4b2d957ab4211008d5609afbd1c67) (0x28b6b6b7606e65610215a0eb228b3ee72531320da04cb87098ec183665405881, 0x2cdb2f7d886d44aa73f5323f5fd1b79d0ccb727a611144998f931385e60bc35a) (0x1426567c5e4c2fc15644b4998d4052e0f9900dab66194a9832633c099be4d67d, 0x21c8f30d575bedd0a2e6660dd3ca003b4b59b26a36298933e664f80919bfb55b) ((-0x3081ef95387dbbd02fecb0df66b20afccf640110aa55ff584eca2e4c1b40b8ee), 0x581ad7bad8d86209eef340c02d7cf1d804474c59e0ab5a5fbd89b3c162f16f95) (0x30661960b40db0517ea2813ceb06ed5b20f3576676b553b114499096efa1ff87, (-0x10ca20c50591c5c23897dac67b6a6117050af87947ae2c9312e116992b1e23a8)) ((-0x155b57f4c72f2b114e87c864119155b18b277367777eb1a253626a9e3d7e9b96), (-0x13a74c371cefd0138634fec199f716ea7669a3ae2781fde25fe49e4b9bf96de5)));
  OD (C (0x1079eb394ce62608cd4af041c1df3aa371fb02890ebaf6eb30a6e3feb1c23cf5, 0x1e90ae6bd42bb1ea09799371fd97617ea668a580799a7108a11f6851a2702c9d) (0x2cc1b2036cfb9a797c5f58977ed3412331a8494fccfa5c598f80928b164ef196, 0xbc71da5dadc71c23deb3179e33b92961bdc56b2369934e0de74bb410381a213) (0x465705023eb7a32d3f7a6f54ce38675646a3fd62c3bacfad7ad9d8d027463e0, 0x13ffdc1813af054cc43412f96460026bac655fc61e3326e09b96f36d28efbb68) ((-0xb1f9818d580c4168ee20a7ae8bd007dfb17d999d293996a7c5be6ef763cd8c84), 0x6fb7b8a9ad823a6fa8af0f4bcefeee4a3f56287f81cf1d5f718eee97c13e375) (0x14d03aca3d739bd8ae59f3077d64c6e05f66f8ef0d3440595fb5bffc8d3363c6, 0xdb21cda2dc3159261a855fe74fd45912d87e329b140a93d7608443b5e082b2f) (0x8b575ab718d1f1435bea8a40486505d65de9e89590b095e7235a203d14fbc23, 0x1644f9652f2b1ce4b4e35a46337043d8187d7d665d3cba1360c01de4eaa72c97));
  OD (C (0xe13fd70d365f5318c687c0926f51f412ca80e49a97e8198c2da9fa06dae6957, 0x192dde063371ca96e9f71f9fdf39a3de16aae415767a74ccc17ef341ec61923b) (0x25be9c8e35b05f6148ebaef50ab53ac5c3cdf0993344d5b976b4c776d4dba905, 0xfc72a72195ba01f82f74c6e5cbf6693e55bfc4ecbea51f2813980b37227f0d) (0x59d60ee39924b35f22cb614d431b5e84d65e9aa82055e6e285bef865ca4224c, 0x1a75a8d59a8552a2c9882fe73a5d624c88316aa5b2a00270f4e0e838af4e6b7c) ((-0x31259ec6f27599cc001176b6a94db3b586a86a21d70372898cff9691d0818444), 0x85d693e4e78fc647e64baa8326499e2994263b3a9c5d48e8edd37c414ae01057) (0xea672582f0547710e45031568ab4c240aa66f7ed8173f94fe7f76d9faf7c34f, 0x9016fe4bffef13185f4f0ec4355e35995c372afaf06b83174bc086559404503) (0x6c9ba37e70e0383f0e25b2cfb776f4f8de42ff006dcbc724141257ee2594bef, 0x3933e8a2c0d563bdec9d79e8485127809611d644eadc19f62841cfc621e4091));
  OA 6 (C (0x29ba8f2a0d185106edb6f518b4e721bb59439337433c38ca72b71ab26c7a621a, 0x145abc6e21aa8517544daf51b48bf2458b7cac3386fe197aec4af6f98f9d8489) (0xed2c5c63ed4f4d5dc90ec37d8b2ec56b22a4dced8e8c13583cf68ae9741e13d, 0xbc03fd4156b7028ae17abbccb9a98367846c8becf68063d7b78817e4c8f843f) (0x26197deec6361fe1e4178634ac1336646405ef67d414773cae8bba2debb6d4f5, 0x5c07cbaa23422fc166823f677db9f7d35ce7a3f4dd170a5cec9c5587f921606) (0xdf489742cf8cab9fa8645b6b80e515f30a6fad7d44e74eebaf59bb6e4d9b107, 0xa39308c518f73a92ca11fc5afd026fd7a3968b1ca0dc316362417a7d96e70f0) (0x231a89dd15fac4b786dbe028cf3293b9c96650e962ee06e30acfd45d07136da6, (-0x1b6bf366f2257c400b3c7aeccf204a10090c5c9d9d0705c54b669e0f84af6bfe)) (0x5bc27e4a2479f7e3a1ee04727b36b358a0fa5e11d877e2587e642dfd844835, (-0x184b088d9048b43627bc4d31b405ad181ac4bd1c35dcac8288f2f2847137b1cc)));
  OD (C (0x2a5db77bcff5c91380e558f9f1a9d6d17d9819fd48f879827069bfde975398c8, 0x116aaec575f4cca37bf452a9e1b11b618950e5df4acb16402e61ec1e26ea1490) (0x931675d8f47d45112edf522ba34c9f6d6a9ce75a6b2ccbe03d30bde763d686d, 0x98f326bae319df4d100cd6c32b94ed95a09663f27e87466c57c4fed4e33f196) (0xf76686c6268515bae4a90a0172784c04b81ac2a925b1ef79fcaf5a846db90e3, 0x5e9b5d34cba33fc7e19dea70cecdf89efdffa5e9f2cf3b52e7917ffcb53ab33) (0xfe6228701819e78acc91518dcd7899e53fd9457d30709b03daeff2ae3509ea2, (-0x39824bb188c9b12f2ee81162a5ab1752f35475640a2e04d99794a0707ab5bf48)) (0x1e7efa05e5556dd1767e06dc340662a4602c554baf1f6773fd2e79b85ea9a19f, (-0x1ed27b9ece29d0947fe61f10755994f3a76f3aad6ba3312514a79ae842796a0c)) (0x3f1f44188082dd9e2d0c4d5a1e8024a5f041846122daac345550cb3fc554350, (-0x423f60b3d1c9ad6863628661045bcf158756db4ec915bc84dcb32bdd572da8f)));
  OD (C (0x2fed25ccd92015edddd344fd3456be574549b751651492d3a71df04ff7fb84d, 0xea11e00ea4b4e03b9e3a5accce3cd0d81508c79d82b9dc7e076813e081f3b86) (0x26eb13f7cd05cda09ff96aef3df5985cf2d65891d0d7cafb4b1c9ebbb9e2cfb4, 0x81f5d5d58cec1a1f2c16d245f9cd90d96d5727f65c95913c3697f364f8a9a01) (0xa558e0a93bef86dfb4ae511f5a40b12f23cc3cccba172166a15f106fb986e54, 0xff4aa37055b1854d6771328bf13a78ca7a0875bc954201c4acd15080a46ae14) ((-0xd0a10836fd21b6134e7bb145888d52532066a1d123bad0e7e89066bf64710e), 0x13c246c0ab88b1c6345a5476a7edfff7093295c3d440f45b82f1242b7b3f8f3) (0x1cfa303ee9af83d0135f2d0554e7490bda72ff46bab3d76c56d57f7c81e5082, 0x43cb9382f8bacb128cccdb5c21dae4a77bf2b42bd53a0847b3db504d7687ac2) ((-0x8e5b7a1fd1a5e4f30fd438a67b5e23ca91f0ff5b7158f2dce3853c9fe30aff0), 0x2463ac5a18923712faffb1a2bfd6979f3accd713a118679dcf4b04ec054a25e));
  OD (C (0xcfbc0f0dba94de8ff750649ca6f5ff0ce4db206d2b87026c7b1dbadf20de069, 0x2390a8ea74cbcaede571faaa6c1740121ee55d0ee670b6959781a25facf1e8ee) (0x283d30b72c83e7b648aeb3e422faeb9ecf49ad7a7f2a35ebad6a6b0d7845a057, 0x170796e6858a6ce76e260c2749885d91cc3edcf88038906121f363fed575de69) (0x1d95b47af2b29680edbeb60c1d5b57e83c1745f628fae00d3db43e97fcf6a081, 0x4f71905262337242efbbc57029abf672d3d8f996f7dd5d11ed10b1e58610395) ((-0xf714bc87da6a5a7088ec56ab93c95a4adf370e8cba7560882ff8b6cde860560), 0x6bb7351e0ad591ed35b9509d991c5811cc58aff4204f4eb6ccdd1b27105712e3) (0x13158496799b14a0fe841bd22591ccd162e7d6e689026edbfa6ff11f2d59fb1b, 0x16a79f2e33d52db51193470100bd73f825ebf16e8452d2925abef6034aec85f8) ((-0x4f8605a3f63747550be1adf38fc3e7bdd15e38c99c59abca4c090c886e19241), (-0xa99fb179e5b5ce04f0aae6c9aa27e356d7adb32ffbe7634f04dcb5123cd7392)));
  OD (C (0x2a88bd6178a65c6b6e2bcaeaa52c49bf767e71ae1bbf3e86145ac937b271a420, 0x95caa4de93fa9b6fa69e8982fa768914e83ad043ac969790f250cc40fe6a151) (0x16e82bdbc3cec75ef4faba4cfeef49e41021971d9b9d3019a4d82aff7697f903, 0x1f38233989262d86e414577cb60088098e13b441389b854feec3c1235c66a3ed) (0xf27f9781bde370e0b1ee61a8d47bc6f832911b8cf28cee01ca6886a47d251ed, 0x19c0b5f9f885baf2cbf7cbc46752178b95a87b09a452eb69c94edbd1ca22cb1) ((-0x5eb912e4ac654f102e99f9507c26b75afbafb8730ba1c5ccb4d22bc5400c1108), 0x1169ee8ab8aa07e66c71748429e132082ae1078ec333f17f68f0479ec1d08726) (0x10751ccb7a5b4ee60cd51435ff7b4142ccd1656bd0941cab2ac842b8e3a97479, (-0x23930714c2c7d4b6585c6f2091de045728a50c8210eccfd952c43d15d51524f2)) ((-0x3d85f8fc23abb68e6c06fcf50b8e00ca10521699dd81d7ca2d74409b317acd6), (-0x10d18896d1830fd15ef1691af3fb063d8b3a1d7e5737e963e670beb940510326)));
  OD (C (0xc6faefb94e616ff6662b1e1c011db743871d842423236c1aff774702d37173f, 0x17bc977833f4db313409ff3aaf164b8b84c667a0af71b648f19b69db647db47c) (0x2cac220b2320d8b685904f608c237aff97c5a8be2d083c39e9efacaa2d014a6e, 0x112ef80847ccd39e0cf6f775592e33c9e19bab94dfcfb7d45bedabd190852f85) (0xc66d95c79299d5cf4a2e323f0f8e6e4cbe459d5a284c0c961c648c1272c254e, 0x79242893806c81c70805004450cf998c5238a5e08ec76716a2e1e2c8ce41e08) ((-0x48f8ff0492056b08931324bea430e89f29dddc196fc1e98661c928656fe7e86c), (-0x221a65dc59963a41ffeb23bb5e246e0b3a3eabe4335288fb35a1e04071e28542)) (0xc33424e20ddbc95f2290a0f116a2823373bcdd743a181d04ff74f5c7e3b94cc, 0x87273de6660826f72cc4286bef688ac326082936ebd42e5e948bf49befefb50) ((-0x711b13ff462b299a6e985e68158ba9674cf02154e74c13ff4e13518eab5ee51), 0xc7a6e295dbf4f63fc314fefd92ff7c64da43ca90d556ee9c1ea81af7789c024));
  OD (C (0xf8a3944ed034695315da6c611d8cdd6f41979bf10b486be4f0521d974c6d3c5, 0x2ceff3524cc400afdeab48e3e87b239d41d36aecb390c8be529e7eb93c56424c) (0x2b0189a517d49f0261a819621eb83d9ab3b4eb0267c077423a2877c14710939d, 0xbee4be53fcbc762f950112abf129d9a3ff3143f90a4be2977bb89f7e8bc1f5d) (0x24f674cfb227eb7fdbfa85a415f4b982f1a62482dfd64fca495eae0ebf21c8e8, 0x24f8f0a5552c525796d96eba2ec1a9f9f3892f57a36e757149140d8e840a34fa) ((-0x4347e4fa22bfabe472f11f56f052acbb415c13b0832b61cbbbf246b0dba0e79c), 0x6f8210b1d22b8dfa880436212dd8aed779a0563e64e90e3704fc2b61b2ae11a3) (0x1cdc77371c83b81347a77d9b653772ef00b85608490029614e9b4cd216ff3709, 0x24bd35888bc4e505de054b4cf5ed2c423572765f8db657e33f5f33f15e3b00f0) (0x33bf40a1f5eb14f2d93b50738214567506a17854676d0bef8677b53888ef172, 0x457b09330c09da419521c333dc8dfa0a1578a8019a54d564c378b5e450b712f));
  OD (C (0xf3397a8f58f742bbb2ccec0cb4000901a934ce8276323bc4393db446557bbff, 0x1fc70db910641b8e16880ca77ec4b482c5e4e2ce3e49787c9071ed8f0928b19) (0x197b8dc76e3914877e2469e1a2f377963cd3060f4ccb594a4c0a4e05892f5b80, 0x219f196d84f4d9590e3d0ae9413046c06046bec702209b7b101bcb7e7f9f977a) (0x2e31a5977b6df2dd9001607a5d3764e1e9b9c70736a0464dbd893794b22ab9ff, 0x1de7a51421e0de18bb16ac85c4c32433b42d24fac83d8006503b92c3c43a0f84) ((-0x255af3a09ec63e51804da88245c802e641aa7980b4507c5d34c07a66d0b96f56), 0x55a5892bb53bc542047a063c8bbdf35ec81412e07dfedf42de000c30460276bc) (0x13f6ffd41e6ef618204e1053d72be0bdf4daceb52043ab76ff0571f4675a24c, (-0x4b19d892a9217851faf22fdad76b922ecd7751ca1221f5864dfb730bf206e1c)) ((-0x6183659506662b00a47183e50de15f5cf2637beef34e5965e93367348bec1e3), (-0x6651984ef89a0f6c942f08b6cb811545f01f9c2d81a14d15c0e92fa0abd9f1a)));
  OD (C (0x2999d1a4fbe8690b0deb49771ee2904788584a1e6fc1a19222771d2632928cfb, 0x4a7110f7af5be7a1878118e2f8de4d06cfc315eb456cc20857ec4de2a92e311) (0x2b599109707b04f5dc3b0c0a8e9db610a99372dd3545859431e1b4a3c4326c90, 0x17240ec10f256776c36ea421ece5649b69b8534cba1583c19c18266ac70475c4) (0x2b9aeec5987e1df68ac1d10c0ee8308212521cd503a7e4aa7964ebbb8e31bdb2, 0xdaf2131041b12848f72d775616691e2bf81bceed52f321d3e08540ae25332e8) ((-0x2dede791cf91eebe49d92a47a09b5a511f12c3981c23597d5970496d84309b66), (-0x677e74c5c8e32d7c6a6502d4fc25b6d865b66c464170a4ac22b5df49819feaa2)) (0x7ffd76d096374956abb8e2cb5d9c83f9985099a642472597d61f4f83702150a, (-0x2350c8b7f72c936b43b1b7b8c9cecc10f065af966283b4b98e697c7b7ae53ed0)) (0x74ac1b806cc2b6a5d26e9b9233596ac03c40a0777b388dd8c45f2b8ba0c8b47, 0x105e166a8f1266b81c35ded6abb47453e48e79879d7657500be692009a12f2d6));
  OD (C (0x1e55651663cd6913fca1e6fbf8bae0d0c710742aabb2eaed59f32ce838870860, 0x2a7f89b8e35320b3f7cfcca4b6e84a87532670ba51e7d79248c45bf17db22921) (0x476d9da9094a630b38f6a0acfea9b0678a9984d1ebbab1ed5d7f3ef54b6b0f4, 0xa08739272cc9d7c4421281d2995d6e00eb5b745ba274a4dcb5b7dd6056baf56) (0x16b4c17b4fe6d366934b3bcc1681b06eeb6c59da175b0b05035f32012bb08d33, 0x2169b8011a3997bcdad3b5962a6736fe1e436509cd835764160b476ec15229a8) ((-0x1ea26ae72c42ad7d60d20d3d27cd168daf1a281810cc7ff7af11bbe21e820584), 0x34abb4a2615e130cdfe5ef4b740c9705c927971e7da7cedc89a52b854f9bb3e0) (0x35474c91af9ebac4e5757b2308fd38ccb9bbe554baa8149c832f846127add1f4, 0x124eeb44d604bc0628f6bcfcb2f6f0f9ba648c749bbb73306caaf01f9ecb7305) (0x2a5dbca9421d5c79e33af1903e95b52d3d09c7201e1e75ee8d55e8a778e5ba51, (-0xcdd034a193d1f94991a83995e8646a9df71667e2a42e764eda98176fc0b9d0e)));
  OA 5 (C (0x128df1f9bdd6cd3ba1dfad81fdf6e6ccec14d7ac1b6ddeccb3fc14fc76c93c88, 0x2e5678584ba274f914c7223306c7dd8cbfa0358a27d12221bbc659ef1a572e27) (0x2ef82b61bbb64194f170d9724291e2ea50beef511944c9a281eef3f0d6e5cd94, 0x147cbe6e26dbab3be05cf7ac0b0b77e61bcde8e562a1cbb9aca100c6d84e1b85) (0xf7971d65ee13d1c2fdb3ec063105d3dbdeb8cc04cca828a3d56de0f588e580d, 0x29e533bc5234a3be3fcce9831f0cafa90a40d59fa3bb47009799311427c7c3d3) (0xd44f963878bd4475807242f60cf25b945adb58babc03571f26fb5459d7c8453, 0xff2ead14eefec48b760d11151d1558ed305747a4d183fc6666aa7521a3ca00b) (0x2388a80540577a7245ff911bdf09ef4dc55a054b3003c39f7e81fdc7fd8177f3, 0x2541b8b72e4d1fc929e25cd0f285e84738bbb841376ca2544451efab865e7fd7) ((-0x2cb598b6bc2efc7c164109045a1fcf53cafe0f32a135a60810ecf414fddb78a8), 0x649707947287987eb59f8f2bf2e8603b9c0303d79457622acd79478f6c790c4));
  OD (C (0x2cff5c90c3aae1416276ee3a8f48a135f9c6c42c03a038b45d050794b7e782dc, 0xfdd4ee3d55218f3c7a9a0898e440f094c2495acd340d5a07672f87c979f1790) (0x2b476854b0d646864b65cd4318ff6884857e6b7165aa8d161cd9cd8340f06fa2, 0x1b59272369c0069337bdeed258a0cfd30f753dc943eb65f96a00065bf3229e2c) (0x7b51d14b0c5ee86b31fbed88ae12e0109c44cc3e2766a6696be5f5e9dc04565, 0x4004c14c0d1b2c4953384c0a771a6c4f450da543606b2ac0b19db32710aa9ac) ((-0x1f4046ca04e5b372d0176779d2aa4961469e1772cd30e33f1a8bc4855805cf70), 0x6d6fefe1c358c021f35ddf93fa43b39bb6e7bae4fe3bd04e31d56874f7d472ab) (0x1d80e0818444fcede7c5cb5a91d21f938e65abaa6a692484cf76ee6fbae6e89a, (-0x24a3ee7ea5c359973526c81f83eb841b477e361ff77ab733f7acaaf509e6ef8a)) ((-0x52b7c3b7eb81c7b58d0f1a42bf399454dca24a2d86ab8588f80e9023168cf7a), (-0x5ae4e0188f8a3931d4ac24a588ce91b5c5d672a2d76f8246509eacf8b3607e1)));
  OD (C (0x13d6396630ef6639d06188de69ef79b2cc426c4907df26e3f75ed0d2b5c466cf, 0x11e9f71336c20d66039ab74ab0789c8bd4639d15db19e8cba8f8ba59f1519c3d) (0x155cb9908de849f087142c6387148b50db73d9d10523607055811883e5504c88, 0x1ea6fd4738191f8e6aa2e188df07991fd26578f1544e59545dcae1e9a6b065ce) (0x11947f07a0fe56fb65cdede9f97046639a47097dbb17c9e2cdc8471f5c72c724, 0x2f80daf58695de15dcf32e72cc4e3d72ac69df5afeec92a5e21cd1cd5fefdae) ((-0x89c409faca0472720a2650ddb4931bd02419b6c62b93538f56070c73fbba5c0a), 0x42652f8b0ddce73b8937909a1cae37e129e6f8f4a03bd8c4cc04205c6612e392) (0xeafc3c99539ac0d8b4890039ecb809eef43db0df07919ea074be81818315356, (-0x180039f38cca09c37470b60d74b18bc0dc30650cf05188302b8e726f922b812)) (0x6c243bb935a3669cc5ec54e3bed45e64e082da0f29971e26a09b633bc55d37d, (-0xa350d2772ccf1ec2991b708eb9ee1907c1b4898536b3c7ae84eab9675a8ae36)));
  OD (C (0x13f523167e2fac67dd18ae4297dccd5916efd755af0a9e3d07ddec3993bd5116, 0x19eadf267836b1a9c0d5e63dc579d8d85548706761015cdb0ad9a74696a7a396) (0x2bc41aba9ab1af6645631dd09b4ef4436bf2f33da36729a9c2f8f29b1c7456f8, 0x27ed9466944097333bd1ff34ef108262a0f0d033777e7b704f3b06c6d79959bd) (0x1feac8bb389f643fd265a5f39b0d16828f271a17b906c87fcee47f60dfbcfb66, 0x2705282b0aca7fe4c478d2bc9293a9c279de6bc839c500a8dc4ecc6133ab3917) ((-0x3be8574593658f75c738b5b8e497307079cb76bbe14dcdeb1a14c49438b67b38), (-0x2946f0071cd3d6530ad9f38d4e5edcd2a2f5993bb12f7466dc926609fee9e08c)) (0x1560a7e53f42c7d684cbae13bceef25dece786a1cf6585e515aacfbd70e0f840, 0x5a662260a261031040c2ea5a403f706ebf1988559770064edf8d5b1460789a1) ((-0xfd30c18b5e005197b5288f239afa3c98a663d616f770eb8f4a1a217b77896ac), 0x445973f9dc5b5ef632ef35f6817f33d9859f9401ef46bfd7fc239a38a532227));
  OA 0 (C (0x138526066f56159db929995d63deb46298c7a729e26131a68b7131904275af5b, 0xecbaddb13e92bd47f58c76d1a471c860ae4cee2d171db8f64d7a74d412f983) (0x1e4272e5b763ceee84c41e8a1ca43066744b0825eb0350a275da19d160b1ab7e, 0x1e47c55a6db1218d073319a0b13e75824536e1209b42d853d17ee76704e84b9e) (0x2efeb174f11648c22dcafb308179fe8fe2bc921a4412910b9c3ea2e30974b174, 0x1c8d144f101b5b03244bf517e52201ddabf8655939a5aa0d80282ad6c183b502) ((-0x6c5867ba522f0b1cc077e82fb8316e1bce2ff27f7c60ded7d95e3cd57ede1c1), 0x70a727cbc54af394f6294b973e86e835d276a860f5e3df85f7934d1494395d9) (0xbefb8357740d733ea7db8a6ecde0d034dcd413d171f298e0ed13939641e5c6, (-0x7db3511ffecda4bacdedd482502a63d534019cae4ea9f21c258b5945f42f1a8)) (0x42655c4c94bfd5eb9d21917afce48c8f93542df65824cddafaf3bbc8c34011f, (-0x5438a4a3ffd28040cf1b81ed4467a67f16364c4c2a8a7cfbc6b3a8a0c488096)));
  OD (C (0x1f8179b247e745e980ed169391f8ca461b9f629330ea8bfc81fc1d9e4c8d4cba, 0xb5841c7c02072d7f930efd61407ef72138f0fe5e42b474d791922cf2d818e5b) (0x10a6fa66df87f053408734920b9010baadab46acfdd93045003c5c73a8376b05, 0x139408473ca8a51d0bf0d8ebd3ebfc9c0e4135a3e54c8b769791f6193361f2fd) (0x24bd2254b33630d686dbdd8197a9ba064f3607bdbe494b1a54b808d7e7503978, 0x23e9d080af7649c04a1ac47c6c0880fe2779a8f1fa24069753dd450aff1fe848) ((-0x36652cbd2d4cffbaec3a69da6bbc04008da88f7c2d6bce11e5a44a8733d86708), (-0x2fe2428501750819167be9ec9a08c2e42fda3da418866ef93e3a019c8868c53c)) (0xec5aa42e0992b3edd10ad4f6304245b2778b4dc70c2c2aa2392d281ab02dd6d, (-0x11da363a35a7e5c9a5a0e8e2447c667192bd6b012a2add9471110d97929f1cdc)) (0xa285ee045b2095b61a0a693342d6e54a44ed3a65fc46cc46f39b45281af1ce7, (-0x659a42a5ccadf6615981f395557f15abdfd1942723120425a772932519d96bf)));
  OD (C (0x9bae746f3e91a78548645d603bb1b754980d6991dec52d653e4d282d219f5f8, 0x1727eb084722fe7bb6ece6da60a8c659304e716d311f7614cca26d7b681c9836) (0x9305689e187a06cc4d11ac7a7ee7efe924b7c16339eeb1d2221bb49069cf2bd, 0x6657f58dde8a4a60a8de100ea696675cf7aed2b48682db68b268fcbca823a4d) (0x18dba6ed2784079a205950d5a534485b9be989b7b0efb45d7dfc4de3197602d0, 0x1126c70928083c424e289af79e071b74b933e0ac2130339dd3d16c15cca044a2) (0x92dd4d7ce5afb309dc163646b5822cbad1907bda169296c9d1d6ba76c5abab6, 0xd060f0207a7455d45ec722b636217a3201ff2d04bd4d9d94df2d081105e0170) (0x94fd717cdaf71cfc75c28a980c97ef8e27610a8d0bc27e7725978e8bf14cddf, 0x91fb84709d57066ee8f3ef7080f2bf7f6367f0b0613403408af58c4d0d858bb) (0x638c5db376192e633b9d3817ba3a2fbfa0094a3768d510a2348333ca942eb58, 0x4ce9354638893e7e317c00f862fd474939e95b030f9aa49bda1181ca5c474da));
  OD (C (0x1dbff90c0f2a788d848ca45d04b70a0b85b9f88708b0c43e628c9b85ea89bc21, 0x1ef1de5a621e9fe3d9fbf926a1b171b5327d4bfb905ef2d81c0cfbcb0cafda0e) (0x1d4228d3264271beaaa40d58a27d7bc344be2728caebaf0bce70abdb2062b486, 0x8db5a94b43c4a65cf4029e0f2b8601b18ace96af152b4e5a9b5635d3d46cde8) (0xe38fea9c040e18d64c439f1d8286e2966b78b915008118a3e8ece428cc52800, 0x2099ec3ee463df5fc6d01780207e5ede23b46d7cfe11b70a9d7e1a6d64e1e69c) (0x2d97afbf90deb84de6caf92d4728bb0a496533e2b503ef765d5d8ae34551f022, (-0x5ee389e9d66304adcdcfd502b2129ab262fed515d49e69cc3fa920315080af8)) (0x260c4593c0bba3cd26b494a2163bd85545eabc5d44c79b753d27b5cac0d24384, 0x17faa3bd0fa47718721529259e4212d529ada639a67905e21da30f1294bb277) ((-0xe58aa90935ba3fbff957513457b865c7c5c9004bdee9b69f5e08812ccd9d16f), 0xac3d065e0968eaaf68211e7b268741e00e0d033b362c3227043420e7d483fc7));
  OD (C (0x2ccb4b31136bf068bbf8d40caf307ebf1cd1aa700d0fcf449155e3ecacce843f, 0x29156693cec42c6668b2e1c065a4d55e103c275ebd8a6214b4a1a88b3dad435) (0x190dce814916857b47559152e4772d3036c8afcadd7436c48bbf8956c8d70f20, 0x240bfbee7365313336e80dda37e26406dfc7858deb3404571d1aa92223de411) (0x269039ee75b88c3c7632bd7e7038b703f9818a64bc4fe552dae86b215c64a44f, 0x849c132e996fa3666258ead811fdbc7fce2acb005aa12389f335ec7a25f6262) (0x1dbc03c71d4ee15cb80d7d9344d26aa7b77b7be182ee744b992b6c4163dcce98, 0x19562305574c7e7980345ef0d029f1bd111e9b02012a365479b307bf14e8279c) (0x4c0ef64f5785e62f1d09cb8d8d265af28d4ded18574bd30731c27410785dbc6, (-0x2953dffa7d225f4f22a1b2a250d805fb1f4bbe58685eae25ab48f410c7f0d8cf)) (0x656075c1adec83c773a988f7769932dacffb283323b481e3bc7c3d1aec01c88, (-0x38aa0279a39fbe8f77e1c92d3768617830615dd75f75f1fc8970588509b7a43)))].
Definition cert_pi_1 : list (op gfp2) := [
  OD (C (0x26c09598b85d0745cfc0640a89f256c1d3a5d2f0a958d6177a46d8517f255148, 0x110f07373b1de4ccaf04df5d6e8770ea743806c4304b103b83c84d8125ed8a1e) (0xfff58caf80a464a14195ac645384e0f5fb47fc96caa36c6a05b06618da33c08, 0x114a6d42d8bdaffd156f084ce7dbe934d4065d3dad659ed4614e6f092112735e) (0x20278036fe0f1b47505446ccf8deb80e87632b8e53c62fb792a7d8d71d4f4cdc, 0x2962266fd06058875977ebab61d683122144d9fcc69c8ef55524676df8d61c79) (0x2176c45575d891d4e8509bb20bfd3af8d446633704b7766d1682bce778ac47fc, (-0x115231a54ca5f25beb357088f5bd4fe67515c51ace159d6d238c858e373987cd)) (0x1b5240a2a70be451d0883230377aa59ed7ea2a946ecfa8d07f101bfa5c7c04a8, (-0x1904ff17fcad3be29595627752fa7de8ea3765ff4d2520dedba876e8a63207e4)) ((-0x8d98bb0cde9bab16749f1dd7adc8ffd89b094f7f03fa1061eb4d3d9b0b1ee65), (-0xc8dafa10a2099ae31fe3faeba91ba550ac6b6550a0cef947ec69bbcf2b194d7)));
  OD (C (0x2740d7e279bc0b3ed10f1f9339d6114e8b5ed718486a4edd5cdbffb2fba095b3, 0x1de23ed13cf5cf2fbccefa6b71401c3eda5dae7664b999f0862122a64d75c069) (0xb188b4b2017f73c886d0055c5dde0cc2723e2d21f5db415514c8f510d7f9ff3, 0x7447b441c28fea714cd5289a2eb28c31715ece5a4b73c63f0c16686a95e0e1) (0x2d450c8406c9f8069e298e13cdace9b206c11cf6d84ebcd30efbc008d8eee0ef, 0x840bd3e14aba4c6333db45eaba7f7dcb4e941e211858e568782d47d8eee62f7) (0x488dc1cba9003fcd38a688bf1474e2253b4d05f34f966f018dfab5927dc07882, (-0x3b8b87007979e65f65f284ebb03b7130fc8fcfe91909927129ff115938ffc3e)) (0x307b13e57cf72fcf340d68a78c0eadcb405753a40927587ca24e4c53fe6d2215, (-0xd62dc45e802b564ec168333779d7af103457dd184b461819b23afcf62267123)) (0x10af1655dfb2b4a6fd9f753212771de14d3e7c34467c9499366bc0a724e9697f, 0x66bd66cd9f08adff4f3903ba11cbe40627172e6a6d19c415358e884ac4e6faa));
  OA 4 (C (0x192719bc37259d5d7b7bb43e683107aa6bf06f79dd976dadf594daa2154976d8, 0x956fd5923986f89977c7a9893646f481fa975d939b664d43b6396b81aa7fe5a) (0x3506fac3ef8f05295b78d5b6de61bdf11450571b78be1ea1301a220fb091032, 0x1803b1112e473a7bcad9a1bf7cfb282bfd7e631e97da6987a3b69db4e9e2376f) (0x9564dc81ea9c04c37dcb0200a5827d24060dec3012c0e73ffa497254efe89d4, 0xba076a158821a19dfca291749d1926b391cba1f0c4dc42a529dd89712f70bac) (0x175d577504c34131f0b7129499a06e6cf0c0a332ec782e001f54a5825d343075, (-0x904edb404ee0ab64cea0cc0e20cd917d736b3339ed2536b66a89f4f48b073ae)) (0x9b58a88386dc1880f764d6398605e01ede62e99940c21dddfc3f9df0c9da46a, (-0xb4565abe3746e3c81a5ef687d996aca03b7e23439d77736e558426dc230706c)) ((-0xabe7a32cc8b299d1375fb2023bf97307b8bab1d17d0f69fff376a1f19ff43ff), (-0x89787241aa595e687465961073d8741ec1db6f0404d927edaca58eb6c566ae1)));
  OD (C (0x10334d96558226a3d4cff3905ee1cdeae9de047a096953c22c64ce9583857ba3, 0x807afd4a44072fa9eaca908ea6466ea9b6d8bb0ea38a4861a56663cce1a3713) (0x1827c532411286948be6a4b3278d9208b1262bba7511db7eeda4517b53780c93, 0xb3c493d61c0272185313ab80dfc75b75dcaf4b296fca3d7eb15ae1a97203076) (0x2157ae4382d22fb484e1dbc655a23fa5afec4d8ccd0df8217eaf8093403c3a39, 0x19c60e2f16ac2d17ff2d030eba9673a83b530bdcedd525781540ed3dd2695ea1) (0x103f60c88f8d044427bdcd083f6d4a76d9748135f4e369b890b7260f9360634, (-0x2576a9eeaf02d5a6daee4ffabc3d6aee97d379678659b739fbb62cd76ead99c1)) (0x5606340c1233d94d8efbd18110cc13b4352a673f57d6db0660ec4b2a212a06d, (-0x4174cd289b17f995250d0ae503cd387dc07923764edecbf8c4effc1860d1eac)) (0xd1da98e4eff68fe3eeff1007f859987224e9a478abb4ec534153bfdcbeb1dd, 0x918fd40f804be912058dc2a088f1672b2a6b682519841157819610fc4c9bf07));
  OD (C (0x5acb79d5bfc32d36062b7cf0bd09f60f2e2a8bbe3f16dc794503766215fba35, 0x2059df3132cb56c042df13f9dc9e45bfe76195966e9b959258d52c58d87fef8e) (0x919938f4612731bc03d3b42bc4458226169b5d52462316d856792610cbd57d, 0x81b03544894db94118bb0d904ce5b9207de89c4743ed63d7c2346745c8436b9) (0x12a77066cf757a6e03e21be21a1858bbe3aa16c704ecb7d209e6e6d3153f11c, 0xdb14e115b5924922bbb5fcb7b85f91b4d4e88bd30920a86e77b12085b4a4d4c) (0x10f9a75bf4ac6217a5c95a17510cb66f75afde2d84fcc541dcd1fa881a9f78d6, 0x36fcb62f1e8a7267a7acb9ed2a5ed53ca8ca0facf072170c3e65cc6b439870e7) (0x79659c9a4e7dff46a257dbaebb521bb7744698fddb0b77c90915744bd86a50f, 0x14f64576d06043334cb71581b297eef9071ec674e3abd5853260c1bdba2a0daa) (0x10229ec136177861ef19d5f87725474a68c3f671ce6a4c26d2828893afe6f500, (-0xac65ce104b0efb79f9d8c35bce55be74c1d5b81704a1618c7fad483f3b9bb3)));
  OD (C (0x202b33d2b7ec3f1be96124d9c2c4eb360e1721c126962a138195b7c699f3e414, 0x1ba5805c0919e775e8eaa7ea0a28c6a36e7606f1fc9cb6f350e1903d44865864) (0x15cefff6944fcac2b46b0dede737dc5ca016970e306e5144558e897765cfa6, 0x165f33da6732fc7ad4ce1b68be575df46e34acd73f595b71feeb8aaad82d68f3) (0x25e23b47d2f9c6b854d87f4102be455a4d0284ca7f98e352ad817f80afe221f, 0x232c7cba5cd0dd4f12d2f8407f1b925b95aa907dd81c93579e36a532e2759c0c) (0x12f70ce02451ca5cbf7e123d04307eeb2a9627cfca49eed0a3f5c2be2e12592e, 0xa0ad6672187c0cde3fa3dbfd1c36b17135f1e18dd6692376611b7bee9a04cb8) (0x24c19fe8b232372a0dcc5928ba820e4b09d2076ca36a6c630aa5ba4b97e86300, (-0x596fd3dafa0de3f5c5c9caa55ba134fdb69f06d96cbc244028093120d3fe673)) ((-0x93517f0dfce30b7b45f6753afc3443d67856f14dddd4a0fce9494c8d96ef181), (-0x878cde40c9bff66c053553609dc37007d39b47b7a25301b464d11fd280106d4)));
  OD (C (0x165ccfe1916e5debc51d287f7d6d5fcb0aec99fff21ed9448c3b69ad8bc75999, 0x2636f4a309f2170b94e5062331d438acddd775e5e46f329b80eeafef0c01c05d) (0x3778ec04afbb1ae0b81757c4bcd75dc8f53c720d4df1bc9b5e60b955df55e9b, 0x5c3205c7adddf8cf1c4d16968c313722f44f3174a3e1dd6c567c66108903a3b) (0x16ef102ecb585535c80aafac7b30acc948c1fafd78a7eec152000a00e87e8e96, 0x28408bd47ee44538f27edaafa036f1d98a6472c321d08b9c6ceeb412e73c652e) (0x240309632280f56c36b2239894e038aa854e87b6f1f2f55c9c261d32aaf3fbfe, 0x165647bec46c5fabb9f95ffc409d33a1b18c79c9ea6d5bbf2ddcde371a28f80d) (0x2351af59cdcb9a728a765bfdd03a5b4187eb3510d5531d9a1e3f892523fb0025, 0x13d8031e9ad1ab76e578af0baabc84226c9cd4df462868766ec2f3fa1b050591) (0x50144d9b3d6a4ad611dd54918bab2006c76e7a1e0f46dca1d0dcb98e271b2ae, 0xeade8963dcac17da1c310e5490287d1419a8124a3461c7404ecc286634efc1d));
  OA 4 (C (0x906bfe3a4cda2e14e98fb4504c5d92661c1f91af3824ac3379a2d0461d0501d, 0x2ceb7910f9da0dee42e71ba0d8cffbe9eb3dbbf3107bc0736f45dcd52a97b2a5) (0x2da4ebb9e0aa627a2ed529cf1060669f87d0428b083baf0bf5c5a6db247f784a, 0x2515ece0d64f660453827534ac9bedb0ba516b28e268ecd9d1cbf0521ba52316) (0x1a2790101cbfbec9c92fa03c2d7d0688ccadd4b2e1ab0aba32b7d9c26020c839, 0x1cce28d7b5f9ee55f4ec9d319f47e7bee00cd9541dc2ceda867f51857c4f68d0) (0x282d0b8119f31988bde24e9dd1ba31866c7eeb96d4f3cc1643148b7a294167df, 0x137bb5c2d4ac643f3a7225bb8c2dc2c65604ccb944851c9b6b4fa6f9c8859512) (0x10c1eab47c7b563cf8a17a34b7e027ec60d9302910084e28afd88da84f47e498, 0x28036511947fb81cb66e6b370e7445bbd3bbbe58f2d5b81e8b34624f649edf11) ((-0x2cfe656bf1cf4fd9a12c46fc5b5475739c47f2ee93abc586e8f5b02b25d231cf), (-0x153578bcee7b9152032f9184eb22fd30b47dd3aa8f0f4976ab1176f698400e1e)));
  OD (C (0x1e52fe737f0532b9786abe9d8e869fc40786c89c02c0f3a9eba6f32cfb9b380d, 0xf4fad7fb458d9d75aa3868c23d6ba1091523fc7fea62bd52c697d21552f4cd5) (0x2c3aa496573ec66a2976a27b59a5f08e33086add813f15767077c6fd57111ab7, 0x6c4e55a0374a554484fce69cdc0ae66b038e9db425afd7c24459738f9d82572) (0x933f0ae8a132ea7e0c5deddba6c631e06de373241bae3c165723c4d0ace370, 0x26bc099eae93b587b73ba6a02d2f3c974afd2b57c2cdb0311799027cbee3b9a7) ((-0x9d3a6c7aeafcf9d3e7adbda68591a88ea88c211208ecc14bec391ac381ae9f62), 0x1d580f5bd1b02f305f3dd325171ac2019129643287a00ade241c439e72fa497a) (0x133071d0ecd0f97971344eec99f5f325c5e067713c4139c04f2a35295db4aa71, (-0xe2866e3c1fb93f0fa450b907f04ea1e6ae6bcc2a7f91ccb92b03710a54b8382)) (0x1371fcd8a5caf4a11206440b4c496d921dc3ee624db1a0ef7184b0f65ae49836, 0x8b495544dc8d7b84b64cc49e2cca362baf4bf10491b0cea127a6250f3d0c84a));
  OD (C (0xed4c0312f93c882397ca4caee0caa0769579342e96bf32a3dd91e8f40595ae5, 0x13415d0b79ab33deddff768dfa863a48b23efa8492c42a22fd7470120838e5b9) (0xd8a481c1e1df985af29a9f94b5b29d4779d447dcbb80341db688344a3e5bffe, 0x1059c7730795768d2f7fd1c3eaf8e08fae1d2dc8f675e28edf181e5e39eb2dcc) (0x20dbb1ec239c6b31155bd8a07af609219d73716470c2656cbf068d1613915d88, 0x1c93f649cc30db20be12b6ffd123e6647fee5ad4109e6073b067eda959bb8e89) ((-0xcebb054b89801dc238069fc4aa92ae90c8a2b2269997051be7d22904739f242), 0x94e7c3f1305cb5d25985036c25433728f1a04884902f2acfa37d950518a6ba33) (0xbcd7d201d57b1c3bee5d20ce736bbb9c53f41fac258b9ba3a2ebf8e9b325702, 0x31dcb156d4c514933fe40c03bbecc366942439be3bffbd53cbf88a0dcc08c98) (0x946535e923cd6e129fbcb7829e23cecec8e0312d9cd3bac71b5fccace78f691, (-0xd37d1e6d6e6b4081a1febccc5d5cd16be6fe3c67a614c1d48b6c081bf21b511)));
  OD (C (0x2f7b1c9b1b0a0d4267207d3ea836bda067ee6b28c9e3660a3e56c901cbae331, 0x1afe4e1df8dcb6d06513bc13439b4e263746a7eea5d694db65382eb27cffca76) (0x2281943684afaf4566163c751e7a2e686e1ff6d1edc768ca65bb5b3a2251ac91, 0x1241ba50c3a6f784d783b9251fc4ee676301227d9f0b14693396a09bb550803b) (0x1d668b2cdae5df242c20a9d6faad41d41863671550c246c4a103c992488a1635, 0x11340f68995bab7d0aa4fd7736a230d3b211f640350c499d2ad19a5d1506acbc) (0xcb65c44e6d4de3488e245f1e0c3b4f48de76a68f7998da01f313b86b4bbb88e, 0x16a4e0f3fb53904045927f4944c0f638d409926aa12f89b7ecd1e98b251efaa8) (0x34f8744815d653d979440fa7140e3905ebbed45eb0be94a38133ee14c03d5e9, 0xee00a8cf1854ce51dd66443d4ec5a91ea0d04761b64bf22b76fb5ab71fe1b50) ((-0xbcfd90d63787f049c02ed81e7d974ee92620e3ebf051522f6b351a4a7aa6752), 0x38f5a1d9604416e52d6b739c1012a179c255dc00dbc629da55b32a2eb1b3ac));
  OD (C (0x2f0279c820ef6b8268e9b6242903c0ccd13c3113e880f6f40b65a7648d7869fc, 0x27680acc7d7103fe0191ae4b9a8139772a2745ccf6c337910d34000b8790a340) (0x2d5b4ea064bf01b1c0b95aa946ee2fe3c01e8c2fd7cb030c7238e9b0763a1cd8, 0x168f0ba243bab33c9175cb5f00c272c1610ce8ff20d85756d56bf107e9c9b124) (0x13f2e362727c4ded0194fe2e2f92620552a547f963f0c87aa0c56cb7d39becd9, 0x8dd2b282f3246d7b82a0b99b762d34cc6ebe01ab622a26e6005354329b3aede) (0x332be0200996c9c171819ee4eb10bea37e71d0bd7d8546f60f480e5b76a03f2, 0x180c46a70d7ced178f4d90cc82d0b862139f0bd52b8f6ba8272760484a176cc0) (0x4c8fd259fd7ff982b73a3ae02852c5245bca8b07997ce728f79e52be0e0fbaca, (-0xd93dbfd18ca26a472f2525968682c9082bb2c7ebb7bf832c4e36114f78f0e06)) ((-0xd03d22cfad72b117c580f930c18a7ecf040894ac90ec3acd05912804018ab86), 0x709912343382355048a2d457e32bf00ae0898d452e3f4075fc65f24179bc8a6));
  OD (C (0x23feff8dc11133d245f1e03c3d1191eab0b49c0d6c922d378775e14a9d62b8d8, 0x237e852f482d0e4b25c35c6db2fac4b42dde22b807ed9e82a935ef7d531309b0) (0x2f21bb2101d77c7957bf6dec57496d79d01ff778c634eadd3dc180828e038065, 0x1601ea45aa94aa66a5e53747330f667df9f9b253ebad4d90a13b3b2d696493dc) (0x2831e7cb7079da35caac83f8681a4bdcc3cb477b7742446c825f0ecfe3ef866a, 0x1df3161ef7350b0162031a4b7386b5df345ee1f1677fb63d8704e229b6df9459) ((-0x54699cd2199063acc98a33a68769c1399a735241d34ad9b219ae7dd4d7f342c0), 0x4f4ff59ad5288b5282a7ae65b040f08a5aaa25b9814109fa3292cfabc6cb9060) (0x34cdf3cf6c635be61684271f40136f8fa88f2f7d22ac171670b56220ecb7133d, (-0xbdcdab053c3dd850d5eeb25954d73031a0f64361653e6a6163ebd64be2b37c)) ((-0xe45459ce1adea1050474fde2b7f3ff3f5c78820fc90a0acd331e738c65c575), 0x1b989872f3b4697636872bba78dd44276d02f681ab3dd5d07e3e937ac099537));
  OA 6 (C (0x224718c695c0301def8219d40798dd0f32bce380990c6eb1393e9ab3d342ff15, 0x1836dd3e5dcf32ac2c1173c0c60d1b2d335de15636332490bbf73901abc5b368) (0x9d949d210d373b1bb4df5dba964bbdf2dbbb228c726df422ac5210aa880a7e, 0x6e98263076d712064b03981de6312523aebb918061e18a1949c9f2ccba7e8c6) (0xa89c09bca5859e644d9134ec66c69f757aed8f574e0a52c7d1463d2b2789ebd, 0x23fe163834b73462a603dc3c426d3e23cf67903c6440e1169b25c3dddbb69b93) ((-0x89e9e64c9aa26ea6e2fdc8ca713724982940ed5c4c327cee84729c3387e506b), 0x746cfe2657e57cba11c77c858cc5353b0491c03f5d6b897439d3c178c1b4fd2) (0x224dc54fe0576306019e97ddbead1d9634e073679dd75c4fb4d8e08a55aeebb3, (-0xc29efdede6a7c9d8846fe04d1c30151a42ff44a6d1a3ca49f92fde998e870a2)) (0x21f7e7d29003ac8c66fe0735a678766423818a69665583467466c18ec5eaa709, (-0x19654fe191c00cfc9b08942441af4380fcdc8f2411e0c846cdd200c9585afa19)));
  OD (C (0x1590f845a8461031527d57c2bdc3f300927e56be4558a52600baf7994346cbf8, 0x1337abd28601e0969741bd79bb24003a9a70be75bbedff376c8d11cc829f0524) (0x18b4ec056eedf4378580218d19a2a9bb746f79a56cdff82acd98fdd549b38c33, 0x2088efbe6915f4f915899c35a059f2cd13813382a4d7dc546961a96412895785) (0x241230056562184dd51145493ee1847b4bc2cc58fc34b1fe8666c2785261c1e3, 0xed1b5095683f2f94c0a442e2df66f85deab9cc8aa1dedb1a175f4ddcd6d1a75) (0x27ec51f653d4a4a520bfe0a1422737d502d8e69bdadaf30035d413bdfd46b0c0, 0x10416f8a8f2e80e4d2379384efb5b212b145413800f41a09e8dc6321a8c06bf8) (0x1120ffc2bbfba73e1c6905a506e2097e0a33ddf1ac914588a97eee0f17ced367, (-0x1fac37d4638a44ced9bd7dd54f33522a88eb4553b7049e9b331db1ce1f4de37)) ((-0x14fc75fa44d4ff9ab352208991188c4dec3ee235e667c10d919ca72900199004), 0x8fa459c61345ae8d87e2b38aea361b80a2702a0870d96700989801dc0a6bec));
  OA 0 (C (0x13a94f7e8c5f13f408f0f4e0f475d777e553dff5b3cd04f6abc8293e7aeba729, 0x11eb675a411499f559e5c37238777f58037856d56ca5e184e3ec79286028fb35) (0x111013142c285594182c07f0cc6ed521aa3becdedb5a0e0990633f1e892dca71, 0x1b2a849b53acf6effe3c7dc6438dbe26f2052d8984e7180cac4483390a4ffc23) (0x253fb10bddf765a6ba81f7cb1ec7003d645ae88e9d9246194e4be6e3b15a83b6, 0x7361276e3aa27148a824480ebb9c4d37ccfdddf64e443e4e74aa99d7c84cebb) ((-0x326c722f476f39fbca712c0a9abb9c94844983913984dad37f7c6b18cf457a3), (-0x38131a74d6ce3ef6e4b93cc33513d5f667f2fdc045551d204ca7d5c31c734cc)) (0xe8fae57b45c39432313894ca964c2a13b4ad97a442edc9185b2021537d929cc, (-0x15a4a2496b0f33aefba2706d5c2225047983ec55ab4fc5aff4a121d50acfaeb)) (0x5030ae4af78a8428c0f730a25d21b0dd7a3b2047eb5d4c0ee2f2e0e39656525, (-0x11e1bf34c10f9a7f82849c521fb042c174030700cbc1f13a1e71d873ca5ae48)));
  OD (C (0x870e6c715684d9125356114967b942d6d111d07df4e7f30fed55173471fbf0a, 0xde91e8f89e6272ed1ff840e9471750c3afcddeb2cfef9fa45642a42d95c595c) (0x27fda5bcf617d69b5319c1c329fc7f90e776372b49cfc81a29bbf24ecff30a0d, 0x455b2db9fa03ed27efd68a8fff0837ba221cb7af7d54cc356e219346637ffe2) (0x127f5b7aab2b937162bfbdcf2206f47d01881f883f4bde3afaa950f118a1b0bc, 0x78e6e59e8814068cef214b94a5b9973689e87c842f6322a2845569a58d4648c) ((-0x218a9690d20ee7709b18fedf8a126e384bf1747bc9473bd93d56c3cadf5faf8a), (-0x248d205fd43bda21c323af9d56724d6dc517f29f8dd8e016e7a61eaf9cc9f938)) (0x4da565ee556ba061682c505b8336ef8ed09b00ce81cfbaeccdd7ec842ddf637, 0x286bebc7cc3f9b09ef70448550c943f74ab663e1176bed9cca1dadf9597d95c) ((-0x29bbd820e1c301771bf25a8c43ba129cb62564c0e5fe4190c94729bdc701148), 0xa8ff98ab6c804df3b916ecf654037a36bd8b678bd3925ae36eceb229351abeb));
  OD (C (0x23f871b9dc40424aad4bf23f0a0e6a2aa5b9afa5a4352fe38ec1c37bf505e405, 0x283ad54ef26251e393799fb1476c316213db38acffe8612b49d16af855d8c02) (0x13a12cd975d3123ae02b0ba6b63ead577b51f913b1ec6eba43a9437b58be05d9, 0x7386126bd78c95ad87b70b6feb46fbcf9412da581f0f7fa5273c7815775399e) (0x1e56ca9a6e3e1f1c7e6a5600cd7ba3bd54fa8846d03b20bbf6e073e77700d668, 0x14284f55f56130eff9d2654045ef9845889c349f038171e381e2178784b1e61d) ((-0x8566d6073550a2d5e8be16fd1bfae9bf6b1b5a19d0ac808f2c08be54484b7ec), 0x47441e5322746d26b6bc18493844f1615146826dad9ca800c9de72f06b760701) (0x3bce9acfcf2d0d9e6715b512fe98b0f2d06f0f4de47e101e6a3ca6bb0d9cd57, (-0x1a9b5a4e0bf6e7631265078c50e58fe703fa3f5a0b188eeebaf3742909e2c251)) ((-0x1163e0f59cafef899222aa359834401b376dcc80177380abed64c76c13c7958), (-0xf48e6f7b0adfe21566c39f63b544e109a52e189dedce4f52c9134ce621e9233)));
  OD (C (0x1a673ba02df973a316e0708c85cf87c75d5a70757cb327a95e184b47837181b6, 0x16ee040672620c0a6f89eb0a64355a2058bf7e52bc2d32ba96b9d51b67a847ec) (0x2127f2b2a963e31b786cebee35855bc6ec28ccf68b079fb1a7c2c931336302c2, 0x2f8a0883f4d9947abcf7f99bcde20722b8544357c3033997e17884b5b549c814) (0x2ad9810de02b51020c66158f852465b61e485ddd4f3eee262d5278ff3e4e0328, 0x1845075b3c22175db8e70faf6d0e1759534cb2c923c54f95025b870d599ee6c3) (0x212cc9cd18d542509ac4db8d02c592ab85418896d47f1e82f1fa123dfeff4b58, 0x6a6cb3f4167c88391cda4c03a2e1e20703c6cbb19aba8223bd0f6f662a6dfa9) (0x1905866834d20a09e007cf94ada0e141a96e8b8ffbfd49e44fe49baab8ac2804, (-0x38a83001393da286e3aa1b537ed8ee8e3c751ae227b2e1055980f60ad49e1bc)) ((-0x1c686c0b5ed2ecc63a134aa34a86987f0e2bee1203bcfa8e9535ffc2a8c558c0), (-0xbb96cfcb179dc170ae0e648a1c038775aeef157a09e1b0e5e99c8c7dd2bebee)));
  OD (C (0x1588c93f8134abe591f324374539e9dbb584de23d6bb3d368d9761d31732b228, 0x23a7d65347685788e125172a3747c931a04fb6290eb0e2d7d97b44cd991b5e96) (0x2a6d94db63a4d2b405bb8b4c4410d64c72a3974a50733edbe42f5f0e4d6412f4, 0x2b0d06daf74faebb5ae3fd11f6ae1371bc541263f7cb0789d02bcca89bb5ea4d) (0x1192639b8c4c7fa033b60e6bf5adf5e34839602df86244237fbf76e63c290f3a, 0x1498af04a9e9938510bb7a2888ad6e226592c61549faefcd093ff5f4a4efe163) ((-0x6eafe575629a028d43a1bd185db90b32798fad6e016a9fa3cba9ec85525247e0), (-0x4a533f60e8624ed3f3073fa4a31bb2be6f184c991b13402f0e36864e406de360)) (0x1fbbc290f4ecdf84d688093286ef97aaf5c82762a09812f6046c035793521258, 0x10b04d9e755279990212298eac0f93e3c65af661441b82dc16b7fc0b82aae2d9) ((-0x4d59c96209bac5907bd190255eef7bb262492a8472a6e21ee0eefd5ce2b97ba), 0x76edd7fd43c735352bcb89ba66b0817041a5cecd040d0defdf989bf992ac79c));
  OD (C (0x760d52d20b5716e23b98cd061d5eb1d1f6c0f3b560703307f11ab4fbb38f917, 0x131e4d22afa055a3ac9b00b4e5f68b56155a6fd6c9d1f8c9ecf1d629fcc68118) (0xe78f111f1816030aac282f7d7abfcce4ef52c09ab31125c22c72430d4a635e6, 0x8ce4e8c40fcf77f29485a9996fb695a3a7ba5e85c4517292c270a094c10e818) (0x136307c9b9b16197bb97a02aa83972be09d270958eac474c6052aa85e4a3f620, 0x2fbca8181bf6af17771f95739c96d2d839ae3f6501d478c65823dde57eac7da8) ((-0xce4e96961f362f45c1a13488348c197b8927bceac60d9600e0c811420ee7e1e2), 0x79d8b79321cb12f916e4d14b6067f2bca669c80a44ce7be5de6d2ca5ac1555f) (0x5d4755e7b3fb28cc953ed71b3d198229e4ba9c4f88863805b1d76211962be6e, 0x66d9fc86490f031e1896fefb56da00c8053d47915d0d93c661598daaa43891b) (0x10440eb13a5ce5276b143978ea17fcacf1ffeea456647256eebd420fb0b208ff, 0x94457030bd167f7a53e6e4e5f7736958f3df2b45a1e081ba6dcca0fe305f37d));
  OD (C (0x2c604e41671eaedebd6ae6dba54c09b15137baaa1bce140a50e7094fd6ff9f0, 0x2d7c92e60faabe885160ee92c4d87b59ea3eeca5ac2207eb5091086561949f85) (0x27de7c19fe88f223caa9705c30a5b180c4b6359cc561aab2489ff1c54e66c4ff, 0x1bd221411310a8b825055600b99828b310c207658a259e914e69ef4ac554cc71) (0x31b3f5cdf4163ebfb84c3915f13627975753a162f8877f5c74ecc47578bb9b8, 0x7cf4ad66a36ac1935321b1f203a1a0012c4ba898a944d96ebf6803d55e7b3ef) (0x1a1dd42a96bb0d6dd121f100102ab1caee056be7cc67de3a001aaedb104f4220, 0x5fb282dea72202af97c7f6bd462c285121cd51cd494e2398c32ecdbe8cfe6264) (0x536c940b012052be488b4dd0b2ce18e12570538297e6d59f289700f903d5f43, 0x2a98cc2530e0a3a22eba407e6b4dd1f5006aece4dbf741a156afdb87590fd2c8) ((-0x18f63720a5339cea9f307388beb052b0d656fbdb7a995581020c7170f3dce113), (-0x106af4b410c9ed9f5c4a822ae5442145fc56a772d7d389b174b3b336c2506c7c)));
  OD (C (0x60706c156ba71fa9aed1597bb7ca85846afecf6d244d340547c34c44cce6a39, 0x2aff4babe304717b6090ab8b02cb3343f410cfde98b5abf29d900d42874ca667) (0x19678cc04bf397d0f1df4f6a2cfb0b877df784a5e124541aa1960cc98daf47f4, 0x2a8274ccaa9785961ffa66a861894c4975f8d98c900fac53e37d5fa5d214a7e7) (0x27b105a1c62858a9c6525d804a6679173b9ebace1973c4ba24b28685c21db5dc, 0x64ce82e783c32c6b1b25c3e667a0b354e28eb84d5d117fe8238759cf66df681) ((-0x820f7872c83feb19dab6939ef63c205362f418a93a0c3fb1e5bcad5f728b0244), 0x3fa9ce6a5fbfbe7112fc855538ed7fce73651ac5a6249f8deb39741613b0f42e) (0xab6076a5ca5319b5249b568be6d7f142c48d7d078304b57b949ef14fd0e92b4, 0x25740b3c053ba40d5fe0e3d73a49146c015478e339529a5ea6d1dda99e8163d1) (0xb05c678e9c5671e77f79e25837c06b03f7333936a6c1b95b14c5daeb01e5055, (-0xeda5b1bd0683afffaecf04b6f173bdb2137203401b0471d3f02de2850fdf73b)));
  OD (C (0x21c7d0996801bf5150f2c95d873cbb44f562307e8435a7654d01df30abc8d0a7, 0x245ee45786a5b2fd8e62c50e1f12a79af6586d6b32525dc72cdf2b0c069c362b) (0x247b1368ff4887338c943df2fa3a88c9cf60b2f876e85817c18142c75b3aa82c, 0x21b18e58ff2da617f6bccd3761e532dd2a48321fcfaf1afe3c1fe29f78852252) (0x8adda898a6545edd709d0f622024850c9db609bc95568f8f63bcfeb6520f539, 0xcb988312a643711cc603ad6a3e093ea14265e930ee07f5995b615c0927a5024) ((-0x41707d71b29c6616e0daad97abed6f3535695b809e719251c8db7ac25de8579e), (-0x75f5ecd58f15bb02bb208a6719c256676afa6a32141834821fb4baea92461c83)) (0x32c72c4dbdd73270691a0cbf6711c7c9701a0b12a84ff7b21bb4fe632bedb6ca, 0x3c13acaf541c55deb1cee75d70bf189a5e000a6a4bb59edefb3a22683172698) ((-0x22bafe18efa605472228b5b5e99072e1c6c8506c25dc0dfe8daa4de39094a66), 0xe5ba1d6e8824fde098a62fe4e6c695dea219aa6dc690b6304c58f407755d1c6));
  OA 6 (C (0x2b037444f371b6e1e1b04a078f09e2a878ca49fd413454023d55d59ae2736823, 0x1f090be7a6bc5dcd6207df473c03794b8be5d7ad0f1734bf94b01adbeefcf0d6) (0x14a7290f7a2e1e3535f1251ab277efd0eebad18a03d7595d4be066e0d9b7024e, 0xdf2a1500f96e484897d35d5daeaa721e5648472893c960cf433c9f5ab6f59f5) (0x29c33092a15587993fa73b32ece8a2e6eac86c41e0587cee7a078d0e718e87dc, 0xc7e9fb5f59ff7764973450cefe11bc5d79e98ad08f970b0c2bc37dfe07d87f4) ((-0xe8ab5a80df01b4b1ad0ba67f85db5ce9084e67528bdcd63a0d4bab661063ec2), (-0x7dff7033c09056a663d260e485a8b3d97d3445cb007368836e57a6960992462)) (0x372c0c35b12ecb938d5702fb712a042244c1f435d1e8ba9b1409846f70f7ab6e, (-0x1254321e6136e62ebf56bd656395ec74761b97370b650f8321c91693aeeb7089)) (0x1bb3bf5e3875a5bedbcefeb3704d8b22ebfe1213a31816449a47df435276521a, (-0x167aec5d1e133f66013b61d729e8380486211a84a18522e853a06289df644ac)));
  OD (C (0x18c9175a04a27a916716f7cc7cfcb3a38d4ab90b09ea28a29b3eb7434edb9182, 0x960e59894de8cc4420eb4f3ede9bf4900c938a9a122a2cf0f941f3de84ac6c6) (0x975c1c0905b1a1eb857579a8ef1d5c9de7e88cb68b33c75e94eccd60d4d4cb6, 0x1ce4105db53a4b86c38579672362ccc6ed93ca23d3869840be43af8e0f701001) (0x408f48743569fe06096ef7b8068621796105d4c02ffa99404773cb330068a73, 0x2444e08fafe0db632186498168e54fd1e2786f80e24fc71dbb233330eb85e340) ((-0x6bad4b4deea987922e3f21c411458b4a6ebd268b742d16b25eacf2f7046781c), (-0x178de1a9456f09db36f75d0f142bcc6ae51b8e903ee2a58b8ef2f2c5a4f0fe69)) (0x99b66c72d294ac2f07af732424865a053a0e3ad184f59c0511e8cd66b92d10a, (-0xae08d2cb2a8e1d9fe63b6929e79db9249422ae92b05f4d210fb06537b5f6a5d)) ((-0x57c001eabf5168f5198a0b815b71eee1ea2e6e562fd744f48d789cd9f09bbf1), (-0x8a0fef747f5ae593067a17661cfa4b6b8084347c3240d988b3c281ce3a358f4)));
  OD (C (0xa6e62adc389c2af380e0309f2d58f3b349aaa6d08a86072a1c05dd9ed8e66a, 0x1eef6bfb4d5e16b6549433c95c0837f50d800fb20745740a916f3cc8f156a06) (0x2ac524f0063fcd844fa3a4d1bbc5707912dad5819b22c48284d2fc35c63c0ea2, 0xa32f91636be1ab944ebe9c5c0a22a8f6203ea322e977f780ef800c8b6e5c96b) (0x59f0d87b01b21feb019a238c1b8df041216e41230a16a04b7fd8aeac04c85be, 0x23b598ad45eb9e9cd50cd4d2afd103339cf3573788f6608314a4a0b50869bdb4) ((-0x20964d20095312aa672c391ba42b5c79457d6209fcbc91efe2356280ae833f20), (-0x2b686a5905d432afd09ad3594e3d2258dc1acf0dc81008778079bb842f6bccd5)) (0xd562c3683868937a912edc15109017bcc636cab19066ea18682988b27b8c6, 0x1186ff02ff4565216c00c5ba6cf43e9ff0cfdf6bfc62b5333c0956e2493c15) ((-0x1143cef2c3b1a41c75bac16f6ff5f04e784183debcf4422bbff71db57f977fb), 0x1321153fee0a6b4d2e22e450b9bc59cfd7a2bee56bad314e4eaea6dc4e6db78));
  OD (C (0x22d0727732d06c74f551cdf3ef3febcb527687eb3024aff2c6ba8a5bf94f01f6, 0x29d2d12b63931f84838fd7d5179e9ec3e950a28b390d08ba81e24b471bffada2) (0x189a85fde33b53aac4d5ce87cd78c9bec9c7e4998dd32b8bbadf0f8cb6ccc4c8, 0x681408f5704c1f1cc893890c2610a1f46e2811bd7dc2db8a9670b10562e1e82) (0x48e651b6599a8f58c97139b9e78b2e0fa5420171c87dc15d8eea93c9d8eebd5, 0x219082bccf299bc69cb97c9468a78b6e26d6b0be3467314b8a6c7034208c1f7) (0x702e768ac8718172503934cd80788493c9050ea0880ace963e0d2c0b86c50bc, 0xa097a37d4bcc0ec77e1a84f9d3d3c7c2314f118631b5da7d1b2c0f116be2f22f) (0x3c2d7c6e33b34de52bd2ce68520caf7dcacffda390976842208897c1e6dc3654, 0xb19bacb161881f84488e5392f045da343c22d261682d645c358e7937b04ecf8) (0x125bc1df04825c2e6aac97b7ec92bde08c7337ce00cfe541ad2aebf993091c01, (-0x9e069afc90232b073f8303d2f024b97585a780e6b51e98554794d80ffcd4c23)));
  OD (C (0x6018585ed5e712460548b9c166d37c2705b13aec834af8adab20a717fa958a3, 0x7a40664e425dfe5ae3f3305efa7fc194c9b937eaba87fc06bf7895ebe44c729) (0x4726289a9449595145cf40b6e7a6f3dc2f00060c0dd92cceadd13cbcdbe4481, 0x29959acac833609b34c7c9b837e1b27cf938171edb098bfaaac31e3f905c215d) (0x24a73cba40f692b04b37d942535b912025abe476eb5cf2cf1b4104ea898aa20, 0x2aed90327d5612a849eee71fd527ad27e552f4a7d9a9afc5ab587026cbcb9594) ((-0x11e24ce34eee62d1e03c658cb71219623027661de1fc5af928fa4c3c007d2884), 0x226f8148f9e053db7a65f7dd2fb3b09b0fd278d2cb5469ad485c8ad163646ccc) (0x1e586fe57485f26450eae3d044c15d456322663d7702c215d0af59518e79d33, 0x7604fab39fd78ff1d0ea414303d12fe2fa5c61c2e002796580c9f2fd0395e1) ((-0x12bcf1b50318a80bbc291603bb3c6d73af1ddefc83e6e75fc6598d504653c41), (-0x80a5ca589114ec24e2ae2a21dff25462110f41646dba312c168a1d96c77e815)));
  OD (C (0x205a4d530b5afe1aaac3b1fd9ea5759ddba4ee3d0156ee64fafc947b61ada3a5, 0x1525e22ed240f7d22055768629e366c8aaa098d523e06d36e3e65216767bb69a) (0x95999a720e3290004b6a708360e4947843dbc9998d7f59289fd8d271a1ba955, 0xd4e224d58b15a8b5d36a47e4e117ff5a96325d298b9f3d26210a2b0d55cccaa) (0xa6f101735efc88b41a475edf7153edd7a53f8d34269b07c24316c9b3c4e61d1, 0x69927636e446ead12cb60d3e0783fb8ad380e87e9a9f0f0a565bd345e13784) (0x24796e65b1146be8c0cdf1dbcad34244899ef74b5c8184041f19dd080d708416, (-0x478545434f6b764dc026a44fc8d65ff91e9dffaf3eae3739c31e72390cff0838)) (0x1c46fda9d4a840de9cff1d567fcb00030d08990194e5b58564f9a6778c5ed4eb, (-0xc633f7ecea21e974b9e893b9e36aab1cfb840daed55875979b8462003246c9f)) (0x10c3752d21864934eee9db996b85c0ddc5be39dc8e28a982a97f3aa5b0bd4eea, 0xfa2f234c05a61c4ed121e04e53a8332cd4b34d47d3cd92b47b59debed2189f6));
  OD (C (0x16ed7b8fc60ec442062b7ce80c4cf1ac9135f75b6b495811a19b2a61e5c5f33c, 0x2defdbfd9484dc68b99f9bc4446822b14589c3785459ec7d86ce2d4eac455d2a) (0x27cb1d1ebe61ed3822acbb24c750ab2d391fba6d870a2989e6afee2da8749069, 0x104c46022fa31a8283ed3e7a311ce4f3fbe8a1d98e002882fe6680ebc1a3ef8a) (0x1e769aa9b5f7307890485ccbc8e796732ee3c07d523e523d8ff10a47849fa83a, 0x2621bf9d8c6c1c81bcb0df523e9e2ff2c8f8ba8fa40589c40e4c35daadf6a642) (0x4c67a09e1cefda8dfed47736f994a272dc2498d2953d2de2d79ebea18597bf8, (-0xea8b6b9feede4ee0e69757d0ed7b62204d5acbe16d9902f7cd7a71b090caa8f)) (0x2b87756c640e75d8024e88c277d5c0662771eb7fe41dc111457f2fa892a150fb, 0x20be60b7b592a1fe44536b6fec80407bcfd36aa1bf7a971e48fdb9d30782775a) ((-0x1e512597730c507af3cc860d2aca7ba39d63d08c1c9670550c1121b709885b15), 0xb953b56d907c4794502ff26ba30303f20449a2bf3fafadafb3ef926a8760d86));
  OA 8 (C (0x11005b28b376a1bb0910625bec1ce41be89b71d3751be04f3d2ab19ce5b0671c, 0x734ed72fdce5179648b6a956f0410432a4352e42c50ffe8bc00ae253682d103) (0x2503b66397b6e91704a377665d993872c8a707ccc09cda9c9e8694c1f1580a72, 0x1ce6f26550f76190aca38509e7dab0e72a5260623658e8ab44bf04163cf310cb) (0x78bf033b8c2539fa72f59505b1cccd13f491733023c2cb1edec30d91fd63a3a, 0x253edf84e6fa4d3719c0b7e0206993b81f41875374ad5d0a9d6853f6a92c302f) ((-0x463a202132b97eb45d8b8eedd57c7de4ee16a2b625b7d460d165a7bb911cc3c), 0xdf00ef69df91cf2774658de03eff9e78c439d6296628790046aebf5acbda29e) (0x510593b1b7bd73ef1f93d78906c266e8d7c628a9be70be14f0093e1b5335e2e, (-0x4e6590ea91df7eaa50fb5edf49dd0f317cb8422abf31bfbcc369afd4f3f2385)) ((-0x403acb1e2a17e1c49578142e986b01461b575ad5ba37d6bd30d80472018f87d), (-0x2da779425e2cf350b921ae6882057008426884195a8f5bf168340dd885fcf08)));
  OD (C (0x174f18edda2976ecd6b4558f02afe436473adedd415ed74bc2bcb0c9775d00db, 0x1c6668048da43a18aa2c4f998750e0eebb611e4529bbad1c2d3fb7f35d8980d9) (0x94b89b6b77fe20935af6ce018bdbc84cfe7874ac429448822c6dcbce4801ed, 0x1046f45c67437ca5e023a73be10e031ed1a58f01607dcc157a3ccc946d5ea6f7) (0x186918bf784b6d51128905ad55f2c23ff06b460b1eb93dfc8b890233a623cac9, 0x1a65ef644734f6f8ee2b43a412ba94b39be859161f4f159ec4097bc59213e877) ((-0x57e7615ff318446e1d8f0aa555e660aa50c795a9fe3a4b6750b3b53af1c7522a), 0x4599075a4ece8e1666e9a1ac59d2cf7184d108bc2ff1e363a58ae86478f53115) (0x1b5be619c34c521d42f96c0965f9b567b0170ffbe2637c6d50a8ce30993b4663, 0x570a606ebc937dba0c0cbc10ea41004b312b7611a6e311bc5329e661589e51d) (0x1b768d4044fa58b147d8f04990a354c838b1b1398b24db46be8d1251f360563a, (-0xa23c494d38a3595a73eefc27845852a1ff88905038e322757b0fe06a9a27cff)));
  OD (C (0x20c5822d6984d24409d0459abcac5d77e758a35f847e613186a275d94833fe6a, 0x1414183340f431f88de9f97beab1985b8a5d93f64eff5bc285669ec7f80fd051) (0x993a1e2d2d0d35f4be895f471c31f858c7bfcfdde5b9a9d404e0608ebedcdaa, 0x2d62f1083be7743a02041d9db13f038fefea006a80d5928a3c94c23bfd4d22f9) (0x1d0fa7e28f93b27b1b71383e955056a14de7493d2770fd5cb5bd88eb889dccc, 0x1051e19868837de9d5d7799f3946f6c80aca3c84cd66130a744671e606ae6a11) (0x36d6a6d316ccbfb1aeee9ff7ddb3750f205adefab20c79147360c698426f1064, (-0x1b8f7221aefc785183c3b30d87a4e4a1e22b6a0470f1903a23264aa8dddf9232)) (0x1b31ddc851eff7dff6c2ec6fa0a4d119aa1bdb6dbd4e30dd74ad6c9a703dadf0, (-0xddcc5c2474fce1fdb8aa494d3962c9aad375f09325da03f91a109a1b9901886)) ((-0x177216347a4cd63c21d94b7c0da4a9c8676990719a028b70827a9ed20a95661a), (-0x5fc61ec4059a1d7e80a511bf3c72a6907e8e842cf7f1c74a36c21d6f6e51fd8)));
  OD (C (0x13b2b4cdf827c0dca4f6c1662eb73088bcf15c9f5692a6a8fcf2770b2e440802, 0x1a3387e3c5180edea209029cc7a39303d7de195ae3a163f3757fabe0e3cf35e6) (0x1fc6b6e2dbe92c6178342a34e94c0e24ef793ed55ccd6eb4f6b677157d5ad317, 0xf3144954a9638d164aa65fc7fda087760c841d65b4444533689a8308b34ba41) (0x16a3001d16cac9031247035e7d2fb473339510e7b47ee60a05dea9cf34e9f29, 0x93c3be1be6341492c86833ee7e4c95e3f84a1f94f4d3f2b4b13176bed331126) ((-0x26a37ea737f1a561e25ee8342d0c3ebd1ba4ab327951f929ccdbdff577df8278), (-0x69d2f0b017d6dff5b5e2e63e2c85534b29336593d5b16c9b1abd6a1fe8168e9d)) (0x1554a69a79e63158c8518840dc41b306352df7c80a072dde37f45e4a1605efeb, 0x62b13937435a11b5208ffaefa2e8ae6e9d5bda65a7c0a4b94f74cbdf2b764ab) (0x455777475afc5735b28e356d7e05f79a1d3f7265b5f19e86a9ae91b3af698b, 0x19627a616ffce3e6fad73f4d4eba32ef069dc0ff07ff2be060889ccee61440f5));
  OD (C (0x56f8b475066af13703bae6e08805c7aadf5466d5a4c8f7a1463955832caec49, 0x1c0fcb51828b73d7a2fd36741b257da70109b32892fc8874cce705268d21e09b) (0x2762e8ebff3e454742073ead72cae105e69dde6832ede082bfa3c5d575dbf5a4, 0x1bdda404693fdc823909813a71f66ee43c2e84c86ce1c2f2526a7c5543cee1a8) (0x93a5df305b3e1dbf7e4a774cb11823f6d861fadedae4ce19700c6174d4bb0cd, 0x96d7c216a152daed58e8f560f6cdaaa7290707ff4bf30d0530c090cea01a52c) ((-0x382402a9cac6bb0f385c7f3e25ee1a8b8fb5567d49f2540c2b552ed0cfd14888), 0x3aae61902717fa56f477019ed1da8433c092e17e9a17c9a5cb2536422155991e) (0x64ddf0ddc9a5a22a6dc1c9901c61866690fbe2eade0e9160a576f88a59410cc, 0xfa97785ba4bb7a727d317700d49f872de2aa762b59e74b7ee2c1005a9034532) ((-0x5d6292f9b4791e94d64a062d87578a707e5ca8e0aa3e1fad204a9bf9ad460ac), (-0x67e872cc6d260c6c3442fe4dbb0d93a154ae4640979772385e37a6503925db6)));
  OA 7 (C (0xeb6b40ac5ac7267e8424aee25c6f4ae1a1c4b7905ad959af7f8af66a545c7d2, 0x5b66f25d713c6e902776438e4824f8797e9454e36d4fe4bc8cfadd28f08b188) (0x2cbfb0a934ff7ca3a74ff0e006711c09422acd1f9a320c9d69880c82021d1f1d, 0x1293764720e67958fe1a43ae5f0871d822294f654f660b430d8b11686e6d6970) (0x2af836fae5b83f75ce8a480422020d6b20bf7d64055f24c472effa9a3a46a451, 0x2c7b527b41ca31d899134b96e2b727045af14c01f331615b1bbbb519bd7b1f11) ((-0x2337f20edb1f952fe73739ac5b1baffce4db59d146bcecb92b4b138d097018b), 0xcb582c329a50b3df821ffdd00405cf83961dc34eb99eb4d975e8add1199d5ae) (0x37950bb744850842045bf4d97e6f9dde93b606b639a1bc0775b0e5ab13c9402, (-0x3cca3607b838ace934b9005a5a935ab928f99a0f32e14385d923a01b51df3d5)) (0x231095b4cbf0a011e73963db18be8faa5f3a92421d8e9b7b5f8291f814dc126, 0x2ba241d6bd12e05d1ae58ab7b9a65bc97254dd44def07287fec4ecd1fdcda93));
  OD (C (0xb97b6b85e702eb7f5361afa3c0d35a490dddef83bfbfef6ac5976dac341004b, 0x1b51b35f280014299fa9ffdf3e91282876132991e9e6013d628b10236ecbda04) (0x958eaf715bf7bb767f7515dab5f92b0727dd92c6015b83892f8735bae41c98d, 0x2f977130d3ba77238c2d83a68ed343fa7359210486735df06f178372c310e6b1) (0x8890f4b4ae6b7dbbd7f4545a8e2b0d55ceaaf9c63e6a21c59cd190b6504fa2a, 0x10fed5b2c817c6ee2b6d8b61098699b0d5f94e38a674b085ced0d40946894a5c) ((-0x213ccb546a7bca05cfb7985065193bb0c92fe19b71b572d200a816e014fccc4e), 0x84624aa30da05dc69398211c4aea537b4beb4a9c288fc3e6bd781c3a082b652b) (0xd16ca08549b87016342b430f6c98bf803e498d55c049cd7bb62769570b93967, 0xca549e6ba4b497b6605ad2441d28e7599b9e5e85aaa0fee57defd64fa1ee64a) (0xd08df5443bd132e0de2073ad0454c32dcf8cdfd79e5073f71ec9a47cdb56176, (-0x18dc73bf6b000eed84ec7daa3535bd5e9ddf547325d88d19575e08fb8ffcd5d7)));
  OD (C (0x23435382224bf6b7352f582a614caa6b6dead068696bcfd1bab6c822cf2d7714, 0x198aa4482e7660c0a6562ef9356af9174961aab71e6a6894a1b77134081b6833) (0x20855f46e8bf806f70b806b4bfeeadcc83c1693364a974a9a7a185429a488102, 0xd0db0aac7ee816773d9be36222f43b575734b615c12f7fe066674fc0929793d) (0x1fa78460b19952e14f2eb0f14e7b19097c7fc3326b2e83ea8a7776eae916a8d5, 0x1d68d66dc8ff15ca1f9cab56dafec1bf4fb81acf18e3d903f49bd516330e0b27) ((-0x15609cceba483be647690965bb15055d6622ca7bc7a0d403f6bbf3072f8ca29e), (-0x817ef0e2f8d4ba957c47fdd1300e40d24f7317c4d6d9f2f3e730c157914a2970)) (0x253961c67ae8cfdeb1f143cb990739289e9209f2817fcafb91889e7bcb667144, (-0xc370b55d645087ee3777a4f473c903de4e6585b8594498bd6b2835237ce14ca)) (0xcefc4648869c331fed1309b6cd0bd347f2c9b92d2a7673c999fcd0ab0d6492e, 0x231db51498438a9bf4aa2ac5ebb4679807165612d0215836b82f06ef69f0b3db));
  OD (C (0x27744908319215c05b174da46cfa10f7e8655d8e6d6ae67c58a196ddefae2dd8, 0x483cbdd97d84500a5cc83011044dbbffb7bc3fe0418498a3efd8f8fbaf11a73) (0x11fb97921dcbe564be0e17b2edf7f70471da6d9726d2e8f387c91546c69c8d98, 0xb659b6d67991767bde62c30133e6b4bce401f5291fc6e8ada967ccfb667ff0e) (0xd19950f89b08e1ee68b96ee5bab24e0d177cf1797a48c5c4773f37c2e37a974, 0x2405cfa28d1da26c332eaeaff1f7a4f6dc9cdfdded84f81d1590cfa41c909b24) (0x13a5362fe98e707bf5ef5ecf1408aa85c22c7937e069a9dd146190b1becd01e, 0x8dfb782e7a28a40f04e0b34c70952927895d794f86ea9f74bc9f69435675f1d) (0x75ca8f654c516ae7fdc673841bc93fbcb1068d6cc7158cdcd2c0166b50f65ec, (-0x1fbf02b5a3d64b4158eefcb6a24d60d109ae58d05e743d360c7aa2fd2a56aa69)) (0x2b4fd922777c6bbb03650a4a3bcf3601a5379622907060b4aadc77a9c225d9b, (-0xbb2d4ccb1d705f7ff345c6dd916bb2069cdca159e6c669a9d3d4dd7ae569172)));
  OD (C (0x18a02f15738a848f1ebc2219cc99b69fbccf0d8cc21b0070efa7767c7818eca8, 0xda0c03dcf269ff73a580bea6166df76994f930d0fa2fd7abf5ed4f6007c3235) (0x2d721e9647cc42eac783b84740fbd65600abe58a5b00b66bbe2a35ebe59879f, 0x1ae56ac9bd596a1143b1374e1ff2871c386cd498670e29060a46ed2fc5c412f) (0x29bada8550cfefe557a2a6fdbdc2ef60a13d2c9f25de89d78e0460078e7b13e7, 0x1ed35e17288210d0bf73992cadb5ebfc7d9f44ec6b97ea247071a34f7f2c21a3) (0x12a13cc55c8a54929b4c4c97c14cff08f806c16419e3632cbe1d57893269e558, 0x12f3a9ca74fab918b62b79de6cb2a060b8c9577e92586c6cddc01a8259584004) (0xddeb94e8f1ed99b943ed72ec0dcd84eb28bcc29116da5f808cb7adbd40b2bb7, (-0x8b1984c1351c055e6d26bac3217c9220f9e6674fb4a62c4b84e43a5e7eb1dde)) (0x935668b7b181775b68c735b82d8e4fedd4599639c59bce0181af628a26d1126, (-0x4f8343d52e078c8dbe4b775ab455559a27a60f69b8e94dc37eac3ff85b8e2dc)));
  OA 8 (C (0x1c0ebe9fc7af8d9893663e41aabb9880bcc6da8a9dbcd6b315bd4c1b9394eddd, 0x26f32c97274cbf976e6da593b54c90c2bd99587ea41341e97e6de2203b069be7) (0x1659540631258c9e90c72f09f2989852a4b6e3d216540358e03fb772f8e2ae0, 0x388dccdbda4e9b43b3d76b3f573fbc16313c67afc6a45e8ce6056f4336bdd41) (0x282a0bbbbb9692de5e4cb6d355d2f6f35372968ff430af1f91699cce2eb65978, 0x230af9d503c27614eb016cf9f4712fd7c05ca72d127d56c09233baa094ae2390) (0x9a97a1495313cc3c4744479adae69602bbd9ac4b9da0a76ba9f4a742282b585, 0xf63e48d60b4946635f3e6b683ff6f3a53a2f47c9a849dac554b6e7d30e4f7e0) (0x2d2a94b65a35fcbad26449453aa130f6c2da1cd8b24eb34376d14eb6b2c6ce54, 0xf1519afd5ef2b06e288ed0cc1e605c140df5b066cd790b6bdc7704a10c73147) (0x1650e69045ab01b2d643edc668915a30bd0804e2ad55515fcf45a81086e210, (-0x25433dc2ee1d45f4f82fd6f8e1ee3b0572cd8b5f9eb50831f8d65a8fa62dc0c)));
  OD (C (0x1b4a3a29db0694f5f6ebb4f172ccd92600d739f8ad1915965ab0f15555d5cd8c, 0x3f1f0c54328b7acff50c4abeddb32416d3ec60cc312fb928d2518b7bfdb1418) (0x1096a788b768ddff5f0d1cfa485495768789e89018d464698b2407badd60b75e, 0x2ac413bf31f748cb82aa37c0d7a23640e064c517794253163abcd9591d86f2ba) (0x2c6c9cbb6e176c6e9a50c03949d6150ecb5c2d5d649bc05ecd950f6eedeb5c3f, 0xd5553cd1e3556d9565582b03c10f21c999af6ac61be9cdb8d007c6f1614e4f9) (0x2d75e2727571a64acabb0c3b454b0ba3d0824535084f40e7e094104ddf410f40, (-0x283d79e9f5fa9d2c5be2b8c0b8c24f6a96eb6a9d58059c24be95c8944e6623a5)) (0x473160af221b96e8c9bbe87aed367fb091b470450cbeed394fb6d5b344702ce, (-0xf1175a367e5f562cca721bc81bb6e781d8137021c8a3071c5f3805367bd2a14)) ((-0x175ccb49800566d0441ddbff76121439ba726065886494d91447bb90696a2b35), 0x55e6ea45b12024f7f78c5bf0746851feb0b9d979c0a0ffa89429fdf6a74b441));
  OD (C (0x178fcc93f14360f3aeb493df094aff26bb1fb4e5bce670e6452c0ec8b3a68138, 0x1a07d356cd8196dbf83fa3a0ef905fbabb26b9298f1d7d7cf5f9f4821bcd518a) (0xdfb178dbba4e21941bb10ba2645cf7a218fbcbd0ec2c69b1cbf08d7414653ce, 0x224135b73de6333406d634b3362f98ff4afe3608eb8f45251c99f8f459c0b260) (0x14e52a8781c79665a86b4f4829025a49011c557eed0e126d0fd5d543743c21de, 0xb35905b7064be9ec3a7eb1fa5ea10056296e2e57087b6c8b4d19b891d35bcdd) ((-0x1b2ee65d10ce31553daed3d62ef9f4edb01c23c434ccae99bbb4ed79b10d89b4), (-0x7d3d0961241dd0866b0af4bf3067bcdc2b58df1fb2be90b337941eef1c018124)) (0x1959293356378f3524884f6f637b373f1a0ab936c6dffd47d116b94162da667a, 0x287b485da1f49262cf5c7d3334e8bd036fe0acdc9463914def35defd9650b30) (0x58bf807bb553523c567d8e8115e37aeca2e54ac8ac17cd27d57bebf492828b5, 0x34f01ef4c4fac6b917a721afadd7ba6452b990193c91f2472091c34e113e462));
  OA 2 (C (0x782b96b4de19aa5e883d948580bde82ec8a2203d4405c4b3936776be2a00863, 0x172d0b655cfa946aea8c4b280d2f328e78219ba7cc2a6a509eecc6425bac99ac) (0x2c5c451b31d12df74ccf17749c87f8434afb53734a1f22e6481d7996d745f16c, 0x2320146c2bab70686ca03c3ff5c7a159e2e0e51751ba5e191e8e60f13f16c0a9) (0x9ce8adc82d06a54e0af133c6451012927cc0a65bdbb4b279348d3648032fa2c, 0x1b2711e79db948feaeefcb77dfd3724044dabfd561f52762a227c1100c5bfb9f) ((-0x3604a12b99c97c37eca3714588fa87462abd35f2ef0db1943c19b372e46b537), (-0xdd8886e8cd23e33470084b5c93acf96d1431bf1d3044050510f47428210aa05)) (0x731ac74e88453222600829732c044a3c8774cb9d3770da977f079a88656feef, 0x9ef0e28fee29a328104ba2f396c4fe698e0f955ca5b88ed9c5c5e307f1153ef) ((-0xeaf4277a3383a49cdff4d8bd503d71e91269e780b476ca1569bc8aaeeba70ab), 0x44c514e5e77f6f1d47ee543e6e5731d48edb99d83289f642f5f380bfa3242de));
  OD (C (0x2be6609b209a55129973646ea5fa8247fd197a26171c159d934375a92577f696, 0x7a85cc30f0c0596e816f154f9fd42f879efd60d2c0c1d792702c103e7d32234) (0x1f7bc78efb7e0961ce40fe7076f3993cd1db0fecdc3cfe949e4a916df049a8f3, 0x2b8357c2d5fdbc3cf8454c4986e719edb6a4106aa6bbddad53bfbdae58e788d) (0x11914bd5791ff4ad07c811136c48315c195e6036a63876d84504129b31290c03, 0x2dc153371036228afdcbf393310bdb0db2fa581fd3cb6bbe30f5dbc2dd3d96b1) ((-0x8cd399ac07d9f0daf243ac8ed0c35ad4b0e3dcc07719378b4329bcbcb1988fcc), 0x244ec5c4c6c82da191751178771f8daac0a4de7ad10eaf164652a28251c13b53) (0xde4c9cfeb65ba25dd55df4254ede1939a43917be81df2836a76ea42848ddc33, (-0x269cf9b87e495f2b1ab6f3f4824bf9ad492cbf0dc125822c23ce134be03cf4b5)) (0x1f6f76a2a738853921d89eb29a09fbfbe8e2383f624c1c777b81bc63c209ff4b, (-0x68dbc0f4556a7220c13d700fba41b7463ba7240af3895ee6c07e7f41a3bed4a)));
  OD (C (0x22519e1af344de4e90c37129604221eb5b794fadf93db43256dd998f9c7c634d, 0x24201d1a7856f5f916c422081a46c55028dd4f3edc2e604d53af68b766b6387) (0xea35720052776c9c29b92ff62c5cebf10579db89897647434a5d491684d0050, 0x2207e4d5af9b4857341fbb339ef038b3227ece4021688d8da642faf89bf62461) (0x299ec12df6400574c2fa929d51980e42f3cb61b8b70f9fb3bd03cc2e458f79eb, 0x23b5c1777533357baeba56a9012f924e3a354e88134882d267b9c30204e2cead) (0x37ebd255e82d54fbc64933c0f13d20df7ceb1033cf5f437fda9c98b386b82996, 0x2857c863f9b0db2c8cdbafd479c020587dd8552e3c36e395b2aa94c8a6bf7d20) (0x333d4589f75f0d537777f725d9809ffa7433d4c65f3bafb18e062516623d100, (-0x183babeb8c47defc4d468386dd4ae128bc6050cc4777f7615961582dc05d7875)) ((-0x156b681c8276c04e7abcebedf19fa4eb02d0597a7dfea548d7f389ccb30202db), (-0xd685086cb2dd67030b4fa49210161b3cd6482e080600cac314ca6927e7c32c7)));
  OD (C (0x28413f07b98a05d7da2bb60a4a5168c4cb1eb28b395f7809c4ded862621ea6a6, 0x81a6ec1b6205097835ef54154e8746910db4346c04f53aac3b9058c0dad883a) (0x106e1ea0c9ec1b5121d82acaad077692e1694ea0097670e668ff7bbd27218275, 0x3eedd2fa9462cb1cc6ab9f9c98267b1bdffac66d75c66081180f61b0884752a) (0x137182bb04497361cc22d7510021e769f9c5f9ae161632ceb7cb56304c7c6965, 0x2e2255a65055b84103269d078810c461dc738434613f0c17bb3dc39395306803) (0xb95e9c2f88a79eca59d9ac89981bfd9380e28cb5eebd356cb68fd5046939748, (-0x73cbb73035fd09520edecd00f38e5ee2c3153e15423ce28c31746732386892c5)) (0xd7b3eabb5bec6f6eedae90a2882f16a9842fc990549aefccab8d535f2190445, (-0x202114d59fea732ab5bf00e57d962337b40b2362f3b1704e27da63eed3971e34)) (0x18bca07f8510c92877a54a324cdafccd9cc68af1ea2dc53c97d58ce929d7dc48, 0x687d9c9c32fd5846da5fb0c287307ccdea189ace8f6786e36056df25b548e1c));
  OD (C (0x4559c486cf2f6a27fcb1011a971adcea8db241510e97c8e9ffccfbc463312f, 0xe7c4a4ba3e68a6ee763a67809a15e2f8b417d3adea0103d22fbb8e3efee1bce) (0xa0595cfae8dc38d2215fc573c9a8985564d70f3386a5adfe736766bc53e4cb8, 0x1685621490b5d88a1f6d424e3c8be97b098bfb46d68714bd4b797485e4e2d8ed) (0x2f6d64ec39093cc6b32dfba50f36b11d181b7198b10d7503eab638973d7c9ea, 0x129636d9ddf58a94bb2fd4b67cf29c32465e5f35cb29cedba2ddb3e2a9dfb0d7) (0x42505cee04a153054bce88d0adac5b50c0532484d81fa138ab4c045dc6c7eb6, 0x2b2d8fd2a224136feeb7d9dc2be1b4cda2d848f110f01105b7e528fcea8c391b) (0x2984c0b37ef75f60c7a12d9c0cb324d5809c4b7dc9b966dc8b2611ddbf78ee, 0x455a4ccd0f204fb4bd9264c7195111db8700d7b29debe9ab5580f8407b0da0e) (0x1d06f880dce4679456608d67e11c7c208b16bfc87bcef2cf12156cd264a4f36, (-0x59996d445c7ad2501464bac8eca247f6e423eef5ddb521a9fbc518819b66851)));
  OD (C (0x198cebbf12f639a5a1ca71beacfa41c72d62362db5423f2ae07bb34887b3461e, 0x10bfea761d5c4bacbf96321698c12b67e042083228661c55cd2e13286e7b7b21) (0x14fbe18958251555dac42fd31cd67a25758237ae41e3a22377462b1c2030976c, 0x20c1e1c30fdce21049d9c104914f441584743ac4956281b6944555cf4fd0b9ac) (0x1a75369bbfc86f7450405d07050fa1ab39f197313fe14d2ce4e6a4297982c30, 0x181b2d2e84b805b93eaceb36d1faf9d6e96cf3e75ee0015284eef24755cfb1d1) ((-0x64e128ba1dbbdd9d392190f76b11603e1b6eebeb56661b7ddbf4cc66436ebe8), (-0xf7ae5bf9922432862653225a7b3f2fd4628df6a37f0bda26e65684b518a5873)) (0x11aff76e2a197ba1721704466afdd468bd4d0c841b80ce6e7e07910d056e8220, (-0x7b1642f8c1d2311fcca6156e56f5221ef0a8da0151877f786416777e348dd6f)) ((-0x932eeec907f5a4d68ce9e149d7b90c1b2a634308d5352afe39117a0706656d0), 0x23ead6ecc14aca3d4ffcdcad1ccecaae8168c8a2aa7540c83d26f70fba22527))].
Definition cert_pi_2 : list (op gfp2) := [
  OD (C (0xb865ab0bc3f24e0c5fa5f25b413cc56936d63d6241bcc9246f56205e37df199, 0x1b532bbefea68ea78539d31ad622ae776b0ca8d6bca7600affc3c8b2b05d1af) (0x2e8686dca4c5a29fd4b38dba35dbd686adb138ca8b778f0149f16140067730dc, 0x14fa55629f11c7d617503c046e68eba621e56bd53e30343df191f6b58954e536) (0xd0dbfe7c77a26731a0071ef0208f39fd87391f52abed04f85c83cfbdfc0edd, 0x24f88caa85d2816fc3abf6160969c2f6e9390fadd439b5ac5d7173d6e0c70848) ((-0x49a0af6e10ac2abb3a7d3e19eecfa4435718c09277fdb52dd0642c1fc10c43a2), (-0x264f9a78c77ec6140a38aad7b0d34c53c6101cc0d800f4f94a7f8b96b4a4a64e)) (0xd03e3a285ef1ef9e8cd3e148f4fc1c15d2993385ee606d5ccf14b3913547b6, (-0x2af376970f9553970fbe4d0a27ef2f476cab6885376c711da09ccd4aa7e63b2)) (0x1e76a5a6caf2098589a7e43d134ac543a064ab1ca66444d08bae91f15f85f4f, 0x67fa47e4a6f0df70b48c035965b74dd9fc48f8164481b2bd9334e77f87ffbf7));
  OD (C (0x6d91c527c1dfa16e0ad83693b8498c123426be074be1de4ab97740153d843d0, 0x2d181427408ff06eb59db7acf8053c12d107e077dfb87ac2922096dac419cdd2) (0x3f73208b4588b7fa874ca243a1fb9ba04efa751f61f429dabc2914e7d482ed1, 0x1f5d1c6e3b45da91aec27da27f79cb2ee191519371cea4a7eeae37030742c0a8) (0x1b14de330a0e988075e1576178c64559c9531ad1706f27eefc8a5f227c2037e8, 0x2f236c9d31970b3b972c8e9ab68f14ffc719406fe39b13c4a80942fe3bcc19de) ((-0x6d0752c793e549e789cbbfab8ea60c1478625fa13fd38817bac2db8cabf83244), 0xaf956bc208d149eed273911207b1a3fb1d63e2f596717820d7bc1ea444970fdc) (0xcc34844ab32a69c08746031f1eb158602af1b951e5233e285c30b9cd2248911, 0x290d4b4ef039c027b60e58476d06f5a79b09711999d2cb1c0455f0128da10a50) (0x263097d827b61723cbb1e315c93b35372828081e8e9813050b87da3ee3f3c4d7, (-0xfb36c9617b87678f1d768e41289d4333f6617be886e33856726eaab60d0de96)));
  OD (C (0x21706c34c77c16bb481bfeb79b707e044afb8553cbbea71e85b80f54b3323984, 0x20d8eb272f241cc8476c0a9830985639b6ac5ad165dd7e0b6bdf803e0e6a47e6) (0x5937e49f400c06ce5a596755d3d93af0ff4b23047d483a31a5d9ac5112274b9, 0x18097c3114c1a0a814e0397f0d49661e4ccea38a4fb371f8ffbb1896ea5142ea) (0x2fae1858bd01c77accbdac601d57f33205cd3f136f67bca746bf2ba84181998c, 0x2f32d076b8e851ca60b69f2b1d5e937dcc1a4422ff04901278872e430384b48c) (0x567d55d9bfec1553254adfa18e08fb8a72cbd4b80e79a912b7e1e5c79bbf6220, (-0x2171063629911a66d4e46528dfe5ad0cd5aacb291649323922d3408e31891da3)) (0x2d6543e3a820dcb36aec99ed4566e81cfc791b66c43661cdc8f3e4aaf5f48103, (-0xcf87430f76fed9b8e9d3bc9b4eee9ae136bad2684be7f822213e1e2509202a)) (0x3f836ce9d251b183bf88d1e4c99671313468aa6614c2ec251fc823bcd74ad4c, 0x6160943caebaf5af3d82614540d96498de877546a6b35d4b57f185d10017dc6));
  OD (C (0x2638aa7c13e19ac2ce2f59c240e674a394b0f71647b2c7d000c24143a9fd52f1, 0x149e488507dbe2916a2430189fbcf6219fdd9c2491951dfcabbc2541faff8362) (0x1330dfe76e1c08f5631be72dc3cb12ce9189d6859f8cedcefe04265c54c1027f, 0xb241e0452fe7388fbb14258b2ccc71d49c65ad6287358518a584796ae6d1e4b) (0x2214945f601e7a3823c4f33e254a05a9b57e465fb465ca432e87614387994bcb, 0x765e11156cd694f3965b8e22df021875a7e45bcc2cbcb22867f66dacb206500) (0x6291b115456d8a0c2331646bc0911c1f28e8735442914485dcdfa28921dfa074, (-0x44fd6a318102cfeb9f5a833e8a466958a007fe03f753ac4dce03088ddeb02d77)) (0x2091e6c12aae28297f76b67b09057c07d8393690eb1528325a08235861e9ce55, (-0x1567503afce5e0194382dc2f3f16869e9d29d6563fcf60198659337f68c508a4)) (0x462819c52e79bfa2f47ac9091f27853a4134c5060f2c14cfaed648663f65714, 0x103f79830e7c918c614bb72025dc9db8798e3d215145fd67c6bf3c11e6367288));
  OA 8 (C (0x1afd6fdf73570c3d0a3bd34cbcb6b9a47618ab130c027750df18e47fbb638cd4, 0x267678ed3e282917da825ec85cbf281c0d44b6a6fa421f381e7b84ee79eaaa26) (0x22971963e3b0cf5235825a7df5dad3716f11f1354073fe04d6617362ab2cfc72, 0x41fa767dc1df3c633cdba8509b3719176ca3934f58ea5d578362e39c58f682e) (0x6ac102d70ad860efc453aa62a9b46541411fc9203e0f003b173907f1e049652, 0xb8777a3092435a6971a9a571388de003ea036412bdaa736f84f54f24dde0efe) ((-0x90067369c605c2c1985708f76b2dcc713f93ca0b1a400db23c040886c5c99eb), 0x10c7dfdc9b0613bd160a627cb655503af0aff7c90ef8f62389ad8414faa6bfef) (0x2ae78413c39a8ed8ba00c36d8a90debc92d47e45ed098ba73ea08ea90aa9556c, 0xf84831f526e615bb263821e77e7bc668f86b9aafafa929e51de5021eeee674c) ((-0x85366c90384a0055a13c3246781cebe2411412cbebb14d08624c3d5e7d229fd), 0xe2a987ef85647f2a6c2b26d411a7d2198ad00c3939d3e99b6223f40936aa214));
  OD (C (0x26c7e7ef817a737393affd60e978b2f8593e6a6bebec547a7c2c0f2aaf428fcf, 0xcf7084a76ddd05e98a70df11c579f60889f23da2fdbf63c3884cd969d444f6d) (0x20c73a54011f6b9946cc0401c30bf227f90200ca9b78dd56db03ce6c1a0b08c, 0x147e61a917c6f935b7e9815c9db5d20d4ad86f2ec0b9bd8d47dfd85c19b537e1) (0x1227cce7f5f9b55274eb4e6b69cfaf84a54944090850082e1355d3de462ecdf4, 0x4841dbfc47290ee86705e952dd49a1737a807fdc96bdae6137f54df8642ec65) (0x45e5a3ba27a67315e8454a54f0571033d4b28ab6b7583701d0e49ebf744d4d0, 0x449ab4a029a934daa12be2f74b51ab97c3f1e4bcdd3670afd7fa892f75d23b50) (0x14c7b36466f36e6fb6b8bc7dfca0a946351347d886d4a0303fd11390cc1dcd7a, (-0x1b9aef0da20ce67f2f8e1ff0b6e8226ea4cdea610d506b8dc947d77817677fa3)) ((-0x46680b0b351e6f4436b5fae9d5a354faa5d484583129f6e25337af521248dc3), (-0x1e76e3f6951a0a600383ca1cffdc48fa03155a1a34fa7fd64aaf6735c500f4cc)));
  OD (C (0x26e8688db0a0661e55b0f0f3118d24f14aa910fe0c9a1c67e607b71338e74647, 0x2037800c7878b00a1cf07874c7e1b8984d25c5d54b46e3afe8e18e829d6b4d12) (0xc80e58a782ed258534a8440781f152726e874d2561f765ee2ecb42ed5072508, 0x4df6ded38a9001fb8db577c6a8abcea03e782cee7090ae207be0b77aebe3fe6) (0x24d61cde961f20dd7d7b2a918b7b86d7656bce2116dbd94f5d6aab6020ce53a7, 0x1b883e9c60f8182b4a197583ca43d08232e4afa4feae1ffa52a5dec4cf9dadbd) (0x1a3afe813fa82f626551f4b1a8112a46f488790551573e072206f7491142ee82, (-0x30f54a8456f04edb42332f20d6d8dffd6f004e3d5bba67e2a6a3b032068c2711)) (0x33ce428d1ba19ffea71af24c54e0cf1419f301a666e655703ba85e7b5a185d44, (-0x9d592e7dc753395ae626aa55fbe8f36d978c37f295670c261349b19940f03c3)) (0x59962a1eddb2595590cfcb651f40f9a7d867a5b3203cce2eb4a98bc458a2066, 0x12ce3463ac730731bdffcb6cc8a72f0281e5d987e2b2dbc28b5580125749f1d8));
  OD (C (0x1555fed4d5cfbfe1c186cb3ab0171dbe541d1d9f66c1b40623e11eaeb0c46a62, 0x312a7ea62380832e7c91d54d66a56550614eb25e55ef81ac45fabce3a3b3318) (0x4187c1ed353be37640e87aba581c0bd9614c36160a50ba771676f8fb3d56346, 0x1b52c0ef72df59210c6ecf16ab858163da73ca497c9a2afd2d752eee5b062655) (0x1ef70354565fdb607c95c2e93c8d88e573f4b76dfe4e90eeeb848dc4dc7d762c, 0x26e4a6b15f8a0bb5c903455fc222c44e9bee336c412a1732b3260faabbd3ade4) (0x1566e2ad181a32ec82e519a6480fb20ea979a2c94dc3a439540d54641fcf77fc, (-0x14c4036631cd398c4ad233277fa5cb9768a93ccb398eb2e7d0d45a3eae3d71a8)) (0x2b5ac0c57d975232fd3883a8404191a9224a7448932e2fe071a228ae24ac3a6, (-0x9363cc117ee2569a8fb2330e236ac2abb4318ed835c7bd8ddd58c380a16d1f3)) ((-0x95d5032122d2208d1fc20519b874fa00a01b473bbff7e4189b2b88ca3b8d557), (-0x521f3819a33636e4055944f51aeae47fa40a2c74e921418b5fd95caeb2264cb)));
  OA 3 (C (0x25fcff360c548a4a751883de36902c838cc29e788e076f605b0a9c1402cf0680, 0x11ba6e7a833e3aedbee2259cd275d6e6e27937976a7d18ae7e7e93c6e5a8e28c) (0x10947d1f76b3ac05432613b0ed8461bbb07695fc39ffaec0ff2c819d963dee08, 0x2d668e6ee7eb0446193e65b285d297f7b38ad318ce7f1c86f3a7d23867a38f18) (0x973e3ed638ff2ce3c8e98b2d6ec3cbadfc064a54fc489d18bbdcf1b8be3ea32, 0x131e6500b8b2d5d38641e971a93ca1cdfb5d6f25d5d2656b0ee54ce4c97461ed) (0x11185014b427ca3077766b2b0c14bcc0685361919bc36435943921d4a8de440b, 0x24bf9e1a677d98426f1e836b61018f624ce3b35b86fced8a39e814726f6e85e) (0x1bd5777de2765fc872732e87b46a9bb35fecf11e26393799d944558aeb298be7, (-0x17539d9855402e8851e48e71929ad01a7213b8d74d3cf7032e91d75a51db4f23)) ((-0x12c3bda0c5effd40623e556654b64e698ec080ddc54ea6b925b270c8590e995a), 0x32d85aedd62bb0f2a2bc1d484c032c2190ec89d5fec1dd56ff8613dbfe8289d));
  OD (C (0x2ab7479d3e42c29a967101fc6184cf95abc97be3af57039ed7cad832f2d77699, 0x43fd9b8a8d7ef2ee753a563cbf40403faea8ca8cbae9c68eaeba809379fe1cc) (0x1fedc178eafe72cbb2c5bda6e37ba3bce3031273190e2149ce91ae79837c506e, 0x62e820b544e151620a2ea8f70c39800fa24a8ab3cfa119a785411761dad1c4a) (0x18a8017aac426bd5d788fbcb03b0e19de865a74809df114f738ee3d05b8b5335, 0x2bffec817b8bc1dc285ce21f34c11ee78fdd1ec9a30e63d42d5c0c385ccd7881) ((-0x39eb1b97f913b81301709c395134c32b302c872135fd32d51be0b4c723d1274a), (-0x7c123636cb75c17aa9cfa67bd089c2df5c0cf57fd53acc3e8e3c719d748c9394)) (0x78083392ce0697746a2363e32d2657b50fe85b0da4e26a632681410dc8f70d6, (-0x255526d82f76f68852e7e522999857134143de551b05c222d18f5f9b2ac37f4d)) (0x214568e9a6d7e35aa7a028476ee120d519c21babcfd50b0a28cc33df282e7399, 0x10fe0bd28aad89f2dadc7f1b8e47402d76d94dd47fe1f8f2255276549687ffd0));
  OD (C (0xfd1fdb01a9388f2f080b776655371edd9d804b6965f8769ed0fcd0e0e75a830, 0x21efdd8d33d5461db38d80b6b4e7813b8cd577e8eaac971ffa2e5f4e96c00871) (0x2f48a4adc4681f6ef3fc82f111f5e4f2f07ffca84f17b92a256fb2337533e3b7, 0x5296557fda569e0cc06349db9b27df102acedd5416f187cbcfe416efa6f2a45) (0x22afbac323e98a3c78a22d7f762e91e62a9f617a6f1e0b14ce4adfccc4dfd664, 0x7d68afa7d93af83bcd5886a6d81c5ad75bba31f477019b209ed42cb195323d1) (0x26e12f0d2be3677b6a84c0f236c3f0f983484ec5a31ab1c038c2d24e1ff89f8e, 0x6a6c35f28a836d92c444b4f3bb2247d16f60bf7d013a26752cacb0fa64a9804e) (0x16307b6b83b0a6639c09f3dd8524650afca14e916c836c1ee92cc7ebb14c2e4b, 0x12a0bcbf9760fce4fd87536615db651f666424a5890fcde386f02670790a5db8) ((-0xa6f59f78c6718276ad7b6b642fdea5c96e1b1e309d13b48a05b0ab5ee437e0e), 0x5bc3452b44a1b6269ac13d346ca5bb9bb90b15dd2b4238d21346b4d649c4b55));
  OD (C (0x2722e89fd1a11b003be87a651c5fd8b5c3a0c0e4cebbb640e669976ef5e226cd, 0x2c7cf613e6b9556bfbbf44af123674e0141147da44bea5ba3649a0c43a91546b) (0x24b713aebf79664f558b1102136283a57914b789a8fb0149bd79a284d2d76f3e, 0x1ca42c41022dfabe9e446c597767ca5f609902478532448ba6f6ad4cdf490a7e) (0x1edc0a1b02279c1750a45cf441a9b1151e02c454dca39051aa88664aa589182b, 0x1285389baf30ba494f6faebfab7118d2eb1e71f99f45ade425c00a2d91e52614) (0x2e31897ccdce87b2df8e4fbec6c980c3869bd3105c78d0aa78aebd67e2c502a0, 0x5f422c4db62effba5b1b59a70c8fa3e69156f1cac0b9019352888e2df59bfa1a) (0x47f565edd0d290e6563071b6b003d8565ecee80eff7a4e02a9edf3cdaf030abe, 0x93f8c384c2389899b1cf934d1d6e94f3cf04d6743b1384a956ae4ad1eddf238) ((-0x945d69459688b4393db1f40208b1d9ea534130200183c68aaa0b85f4a1bdfd7), (-0x1e21fe9d47f11d4600c81c17900415d0c15d2753afa23170ccbc1a1a2b3384fb)));
  OD (C (0x1baccdea6779544301fbc09ff53416f8e6cd803392ad3792e660eeb418aeb346, 0x771aeb0734fd0f437c9574c4891306c22465d5e30f588caf6f37a47c4d7f1f5) (0xe0ab288b3d2808f3d2d69d021c2c076ef0fd66b499ffb4f62fb2fdaabc8bb7, 0xf4d023cc384e7e6a093e6fa641b61427414fa1a19bba67a8f8573cef948684d) (0x191dfcca6e3563b387120f3991150cd2e2caddc46c36b9503a72590dcd46a438, 0x2402e5e9603e74cbc21134a4e201b9535baaa4c7b0de3efe28844864ab78c3c8) ((-0x63b44aea1973a9d0bdb409856a10fe8e2a9bbfa626dff09204ea0b6d4a277e56), 0x31d2e3890b15e37d3b051febbdf4dd46e096d1c9406a0f0de74ae98b26aac1c) (0x883b2d492122d8ce6d234829caf36efcf42126611e690a680c658c99388ac6f, (-0xeae9c783f2086d5b97575dae048b1344f26a363ebb97d2674e2d5eac4526a6c)) (0xd2467a273562b79f5da05e5a20121d1692303b6efd510090e4e43394797121a, (-0x12717124029906022895bbf3856fb8905b749b5462d79bea247cef5740938197)));
  OD (C (0x1878583b5111d069aa570a3a11ed2a1734d9adfb43eb4a47e700895e2a143bd0, 0x2e5459f486f11f738861789855636d7578c190270c2c4cf7ab34d64e3f1fd46a) (0x2b2a1567c39626909e5781e55870b2f076763599cc8972b8b45ee6f8b9bffc9b, 0x1f52217da569d51f8431d6f0a59ef57c7b2e438f7453567ec94ff6ed0d754bd) (0x27921c1d69361b85ff2d25e767db0d7db8b769d8c6cb0ba1b0f1a12269c3296b, 0xb286bcc243df04ce93c892fcd5f8c23e868be688265b748f1113411bcf8f594) (0x52d90fdacfc78c203897ec4eba331cd37c1b4cb85412c3aa8aeb7619cb35fef2, 0x1d15e4258709d03aeb752b28a59ce74fb8dc6070598ab19371d317f3a22337a8) (0x2edac064563f25d1ca4abc8ee9057fe52dc9d057cd034f944f32688bfb8a0991, 0x1ffb3b05facf5dfae86a95f3a34d546cd3cf6712232b6f7fb7216bc56793388b) ((-0x21bcc62bf5cb7752a940f0651dbaeaefa10dca9b36ab4c0a6660d642e6c9ba1d), 0x2228581bbed3bbe20459aa1dcc9f871fb8100cb90e1421b5625dece69370205c));
  OD (C (0x4a234ed2b41ea994c0a7a2cbbc1a0f1f0c912e0c7bc45f3d1eed2683c42d758, 0xcda794f5f558e9388bf3a88525340cd7b8fc0105dd9df1c39d4a91c827cc035) (0x298b611b747d881e186b8ab8f96ef1f69f233aee4ab5e4a792fc73ff822d89e5, 0x1c60a134b21f2698307440c3a00e209f05048487f73d21b47d072fd4c0d564b2) (0x20caa94dfec7d4464aae6bf7678dd78472cdfb76b83d8b2210cd7055ff3fc0e0, 0x12145f25f0ddab56db0b04e6c35eb5716963052b4a2d1f3b4115b02986a29ce7) (0xcae5d3a7008fa6cb7510b65edf9ea562652e0c7a22364b018dbfab9712ac8ec, 0x719de12a3fca694261442e703104c6a03bcc0721bc405408241f246350c8cc18) (0x27623c809671f3e49c78f358e90e967582827012569ac0472f6eb4d39979483, 0x2f867b6ef3692d578fdea3e829de2572fb4917b6b5720beefeca9ac42372f8b) ((-0x219781524d1cc36b8c4f658f6ab6917140f3655c33fbbbbdfa852bbfe017e03), (-0x72c2b752b57d39d08fe024228f45338a054ae8b1544082ac65d3b70bce5a31c)));
  OA 6 (C (0x2ede6112070eea923ca19be5c2a669795942917e55af1de4e1b56cf3c14eddc3, 0x12d44465adfcb00da3d0048fce150193ccccb63a93742de5ca8bd75dc47ca63e) (0x8f533369e10a286a80c10a7a48d507ce987b52d047e6729028ba807d50dc075, 0x23e76b09ddce049296d65bc7f2a93283d3196cc29c72354e6a54afa0ee7e8ed4) (0xb14740a9dbdc29af888a6fe98e96b41ea7409664e191f4950459dc4982a9b33, 0xab7af1fe2162c21e2bfe4d52a4051ee36e6956a70db66d2a3a5226023e26902) ((-0xc111e8a624b0ab1130e0abb072984c33fdb977e761611f33301bcbdb43c1ec3), 0x306c0edc89030cf6cd1d142794a50cb3f1f896cf34aa9f4e504b92603f14998) (0x2479182a8897d03409f571b27041fab7b57ff9ad793b43d42cfc79e026f4dede, (-0x26112b01242c3fed1f15c8386896d03bedf9b5ef095887b962894d3ee7f7fc32)) (0x563c8de75781b9abfb36893cddf53ee766992ecef8526272b59ad368132e321, (-0x227d50bf24e6b3d4911ff11934fa31791f9b7596f80961e2b801e7b5c0d0ec63)));
  OD (C (0x2ad0e575a595f6dbe1b5a0e8d45ff191a2e3ff6bfa46bfdbf9a092e7b746f950, 0x1091868501f084efe551f9e59cfa8644b4abf7cb21aaf1d749459f1483b65277) (0x25f8bb2c682f0eac9390eb70fac3818a4ee375759155a0503f8b87c389cb607d, 0x11e2987a36e6461bbe61e592e307864eec4473f52643ad4306bd72d187bbc33c) (0xf63c103d41f83fc3cdb9086b92ed7c94511a73766dea9802dbde115177ee8f8, 0x22777e8ade60559d519753df99338b82f57aef0f1c4f59ca84e2695b1b807da6) ((-0xd53252abdea12e9cac08baf84b05e9f30adb365156ece6345d2a04815ccbae2), (-0x5735882b1e3096fe1ecfa4eef0541c14d7076bf7fc2b673f2da09e599db771ef)) (0x1d519d17a382eea2641e03f8b750526f6af39478553e3e6246fc9696aa96d9bf, (-0x2035bc88191d4a61761d6a4b21edecfa22a2d433acd803144927b699fb058255)) (0x60246164f54ea4a6a3db2458c13b7b6cfdfbf17aca4eb371a138b101f1b7dfb, 0x1fd70ecf01f792d632c710523f899a0a0e0c735c89651362d65510c7af91cc80));
  OD (C (0x326508f15f6af94a181c6cfa0efe34593e00fe72cd1e2b9c9bc4792306b649f, 0x24263225aff5f8df714bbf8ca9b5733dd6d4aa0ed96ff20bf72b6eff05b063dd) (0x2eaeeeb3140d2ea229723cf0d22ae040a8658d91c4a0c9e82a9b61008a4d237a, 0x9c207b9f85aca01525cdee24b15a6ed9d4a07b261ff2f9fef914f5996d71d81) (0xbf4c43b07440cfa1980499972b8def3ef51dec9d36fb6db74c733e1133d7741, 0x1bf715f81662ecbadc50ef6fc2e749faae9a3b4151f9d1771fef631ccc5f2625) ((-0x38b974b82d4cc7230359f66a2e29e9aaacc40b5e932c0331179e9bc0882b2d7c), 0x770bb84100d8fe5ab09d8b21ef9287a94754f2792e836ff5d586ef8fab814e51) (0x4b4a6b42978020262e2efaa1372d8bc9b53332cb391520cd84b390896e3b05e, 0x1acc8073718282818e2c114231b4f8971d5d85a73fcd87e2774d5ad90a544cf9) ((-0x5fa91119be9aa2a7b159e8ef5134934617ab85b0bcb631b892c29d684b4561b), 0x6a35c66be2637f4a6354493eab150d12ba2324775d756297a31a6cb9ad58281));
  OA 0 (C (0x38053ac78b5c74830440e24a5df837322d0695b829fdd58032c4f075b5c4f84, 0xf52a2f11ed5fe568785614fa0d5219570d2a6617ea6ad9e20c462fcaf053e08) (0x2ea9cf8b69c5d85735b71f347363b7b3e87c3b009dabdcd96c07030d7a054172, 0x15942ccc899384db7e702630855d2e7dbcd5b358115fe51818cd0af70694ee25) (0x3087969ffb892ccea42ee65cf95bda47c27f226ff4a135b3a9eced2d83906ad, 0x9fb6891155944017c40c8aaefa5ade0dab03988e48ce3b5b9f4d108f190c367) ((-0x5a8a504693fe84348ca96c8a3e8d937d8a8927403d8809b55a18edb263ab586), 0x60a0ba305ce79d5751813abdba88a089eddaca89656e018db090c4fbec538ed) (0x237a056a85d50abf04d25df4f96a1fb1f0b3d4fbe6c4f15115cb20d7bcc4bde, 0x4993686499b55c0bbbbdf26aadb1e4fececd60cd5aa797ffe6595bececa4bfb) ((-0xd953ef7a25deda3a368419fb0afa51d668798e84df4756448a6a551ab1c6d2), (-0x3be91e05c4dc9635e6e30ee2f4829ed152458a2debc9d26eab33c92557134d4)));
  OD (C (0x111322f1b241ed04bc038df6946bb58995e0d26ba398d363a4512827e34a6574, 0x2121142d0e39ca6a0a8b6d8ff822f7d69a81860a9eda27819b952745892514b8) (0xbde51b41e263bcde25fcaa76b0137d6d20d357ac9e29d9ed99c8e86530b2d85, 0x11c6e05e43cee842bfb8108c1a21bb1776761b7220b3280005cc11fd1941df30) (0x179a504be5875fb4ccfd591df8e82dcbf839900b079a38461e39633e85d78663, 0x116ec9d193c6c41b444fa42e2713e5ba68626643852775bacd77d319ba26eef9) ((-0x71a6ac83eef9a6c034316aa09d59a3b007b1b4489ff7f5d69984c90a4b62868c), 0x75a64d19009b122bde46b5f03c250bbd2615c7197a73d7f3e2ab9107d37a16af) (0x1760fdc61f621a47522151ce072aeda1a1c378cb5a24fc9d0daca649f4eeb671, 0x10a7d94034b3a5f2774fdca169704108cc7797edacd92bff1b704b8bcfc9d51a) (0x192985d8a4bd2b9b10ee32cd0e0e2e48c245d1760d842dd290afbd03a1947254, (-0x9aca10a18bbbb21248d6507e807cb6a648c10ab6fd4b4e5d66c57c4462519f4)));
  OD (C (0x2250c1d4da70a42c437ca5fb7c713f1295741c4ba782bcdf17e70ad95a64a12, 0x2ad22bcf330d4cfd3ab3d7b8d6afda7f37b954466be3a6f16d05c25c63a4e01f) (0x210535d6be6406ee8852155b14e407d5315c08907ae651f7eb0ddd7c28fe2126, 0xcb9bccdd61601f70353fe3d11f42eec56f6053712b550a5820494e0f8ee471e) (0x1b282629db9ea4075128feb66609ba1872010c1d4befe068199d9e75d88445b9, 0x2d388dbfa5791b7f32632cc1b41b20c7b4c275a673cc9696ab6c6a781198b8) (0x1128398a46979d0b97ed0b2e5f1140fbd429bb59783a638040d4718c83f9d8b2, 0x11e6a8c877f26aca5cdd3a9ce498500d6301fbb61b7b1a6ab994fd12e0d4646b) (0x3cbaebcbcb9c920a2a9d32c3425e433a0af251c85999c16963cfa77af285074, 0x25cbe0cae0cc5fb2550b2fe3ff502e18c038b0fddaecb930eac9abc68ad86689) ((-0x127e3856a96b99380adcd75f304569fc3e41ea16e7e0197e97fbcd4bb2732d71), 0x56842a794cc40545a90ec1b75e6e95f1211fb63d99a2ae6bb170096d7cf4f39));
  OD (C (0x23ecfd6af3beb97d6e9e628cfe8d6c7285222f1e85663e66edd673f250dfe48, 0xecedf25e620886c291fd169b3a26a9ba6b4cfad8dd12c54223675dfdd7e629f) (0x301bf37f4bf7a31cdc84a2d126f4c8da8ceb853d231ac1b7fef1f16c070f2a93, 0x1c50b8846d071769c5c76b635bd5ac3de90966a0d24decbc88720f9c96e1e003) (0x242f9c7d9695703c4149b35a87d333cbeaa5b186e953d146821a7081b5896a8e, 0x700f1879de908d7957abb75bcd85d85200c4de31a75caadd48f8b7b8cc48467) ((-0x23769d08f541283516e434d0e7f808e3152401b4b9aab8e0382da0c9ed64ee46), 0x3724b7d7416cb611fb5601a6aea19dc18173377f66f4bbeae75833ad107a3a20) (0x15fca1c57b40346e92675e9c187fe7c9ed85e23cdd50633cefb097e53578f67, 0x46d59da5fb1f5d801030c3e185fcb7c8370ec16d763e5adc714a7b77d61baae) ((-0x55731b043ea2caf66ba4a6e6370e258dc75edcda11febcd25ac072a4ea8128e), (-0x412070aae960d539c01221815793cea957d7e32eb64461e970dacb54a855abe)));
  OD (C (0x9c0980afa3c004a173b4c2a37e6d39b314f32f35890d03ed7f465f82858bf5a, 0x253e3f8933df72bd3882be9ebb7cc7d3fa6d73f6c6ba1ed1177af94ea76a06e1) (0x9324bd55d8d657be399a459611e3e81492af92ac66f665dabc48adc1e4b6536, 0x1523d40db1f792ae2ecd77fb044712c6ca74fbadeed37761eab7f238062f9e8e) (0x1b9da7f79248ee5d1c53452dad33b2ef29c70b6802b489909a4a303856e79211, 0x2c7220b1e728855cb14cad4a11c3ba873dbc50350c787f7c01eb14891f2f96ff) ((-0x6e60c8cdf5c0b704f4c6ede229b85f038bb47dde9441e3455aacc431ac20be42), 0x59f9cf20b8171707973d6055fd2572d15bd3449ec62f3eb97c085ba163094dfa) (0xf02d74c98717f410e5cc78feef81279418ea793cfc4dffc3c8cabdb1376e368, 0x1ab29538abfa1d0a5ca84c7978e6c1e89a67a3d435822b88be8d69bebcaf7caf) (0x1f64d79fd109e08baddd962f27fe3671ad3ba45ecfba1fc06adccbd46c7777c0, (-0x251da130e40f6a0b2871f195c29782af908685e8066969c2086c71e46ef0025)));
  OD (C (0x22e2dbdcc6d65c1d13eb5448b1ac5824ff4e025a376ee4ccf3739557a6b7f803, 0x2e95e44d4b519ee77682dae858b2b8d38682bce00f2f9592ca66313e0b864366) (0x1fd046720ff06a7344c8227af67c3575a173e274097d99964e23bbc2c02ba77c, 0x4dc0f9b5381ae3408c99e8b3bf8215bc0a068a60d458b1b4778c6149cb72388) (0x1507bf2cc53770526de8b727067c9cdca3f25e7b6387e1412a27fc8613c97cc5, 0xaf2e53488434a05388947ad2904f857646e041a79fd93e152a27c531186022e) (0x5d25ead3efe09f1f2949cbc84e02e8a6aa41ba7f590f1176abe3104bb84faac2, 0x174b707261cb4dab6da4d6e60ff0b71c189e62e4021a2ed096f600a83626a6e2) (0x432affa713afa1edd32a85efe7854a2d1daefdde08e2791ef257c4f4a84df7a4, 0x13b2637e63f465163fa480150ed35c2d7e6be4ede6ffcc26d0f1a41ac31443d1) ((-0xa094575891ef1f03cd0f2bc4e7e733be8a034fa684af58e41ae5f7d35fb6f18), 0x1ffa411cc532ffede1e6883cdf3c159098812d165a8d19b263f9c2d6233b4c2f));
  OD (C (0x1d7fc38c58e0cdcb9939050e48330e0157eb10acb16ec051185529fe8b6ca467, 0x1843cafe36bec23b0bc66398c330e15e49eaad2ecbcedd62a7bc78dd286a9543) (0xb243d6adc0b40cc9677f1efe3cd72c0bb11fa44a1d5a90849185e08d1aac59c, 0xe66202242dd9c6a77fdb917d03844a3b4994d1589a2f5f2701441dea8df18ce) (0x7fff41642b37686d4819fae63b213bfb5d378d80e678e7d10f8d336fa1a3b9b, 0xb758b5158fdd99649e00db06f4c5035d273aadfb7cf1ac1d8434d71498b8c15) (0xf451b0ca6a72d8fa9dc5703b9b5ea622b1fe633290c065c4d1a7bdb06dd730e, 0x2e9ee2fe4a7a930fb369cb1c3c0c42c26fe08fded3356583f47da899a4899a12) (0x1d954510cec7e85f684667671c7a8226b7804749c83ac03d365d96a90fe738fa, (-0x5d0b946cc410c5538851a589aefdfb218374100e7175522851c9e3deca98b0a)) (0x48ce64807e18dcb5c1e75de5a7b0ac047e12231153813416519159b0776443a, (-0x1162789b6ef2755a204bba5c05f2411f7948c84f3f3ce8c61871cd94edc8d223)));
  OD (C (0x2de9532f9a45bfd6bd8b77cd4947ee6b7b577be8ab8f9693e45573d434190887, 0x347b74febd48c2d2da6ee9bd7a7184bda47e2a8f099a4a589b839c12c3eda06) (0x13b2f27d25b4fbad32a79994665f1fcfbbdee1b48622696f2c62a93e2c38a32, 0x26ed5468ac54d250f85a79fe88963c59134f6de70eec2e5140a7e1731378f515) (0x115446892718a70a9b4fdc8a3d85d299786ee18dafc13ae58892b9a5f28408, 0x1ed7e7bf4d10c071c05aef5e08e3fc20e3d24b35d205e1f26c37d5b5aa4d2c63) (0x2efe9550d22f17615349c65c4f50652dcda5db94d1b619a7fdc7e7cb8e372f6, (-0x12c89d2c533f913d2b8c395b058fea8d50d7b153e8f195e74ebceacda4275b96)) (0x63959abcb350ea8519d37c363d6fbe226c916b875f51ada24088ba9796fe8c6, (-0x2b55f8d1edbd549c595f8a241489a5b45a2a9f87b9a40893c4ba646e101bd352)) ((-0x16996288498478f308ca0ea323f84d6dab5c49fe0eaa1702cfef08bc2433aea8), (-0xb10a35a6c5bb65a715b07ed2511d73eb56675784de0afea61ccc64282977eb8)));
  OD (C (0x20ab5a6d16697cca2ff644bb771bd352ed73f40f40369e636ab18d57d05a245, 0x1fdfd896f99e2d57dff60334976fe2a70b045bfffa0146dac8bf9e2631590d99) (0x20e94095e8a04926d45f99b9c7d07bca2bb1ab45a5fd1f99e417d7f60c641c2b, 0x1b9eb469e8fd3475d8c54ce3ae57b98810321b6bf32d4ed2001620d7d9c814b2) (0xd8df15a5d1d55684be69f4205870d8a81b8014737366687f5fd6e789c9fb73e, 0x2cacff458127ddf42c958ce016800c2288764c24c32d810a3034c4e9cc89623) ((-0x34016479cb8d249740a5a480fc1a8cb035d3217a6f1ea77783a8563b3236be2), (-0x35388557ce333d7a961639608986edba90a843da756cc4b191b3616067ac83df)) (0x2b096f204af5efcdd93815ba01b455c568499821aef9be089b104c18656223d, 0x14e89e01ce654a1531b5a8662c439e78e165f4b19523f387f3e41d0c406a0e24) ((-0x1463bfec9096471002219b7d74770cb31d1101af908e893ff79e6f19ca582b58), 0x8c8ce791a1060d52ad2f128943f36c65ae05a7fa585af448bc512248232812e));
  OD (C (0x2ddcd69ba2d7cf744ae233673e05f86fbe2515953c3193b0834245c9f60cc87c, 0x2d85cfb5ceae37499ef1539d101d58bd7764ca2711d3b1ac3eb8d7d9809c5aff) (0x1403ab02adf0e07ab267c1ba00d524da9f6c7b2a2aa10f36a8a159ef8854ccce, 0x2e519717cba5ffb3c07f6172ddd17780ddf30b603cf781a5d630a517dbca2c37) (0x2a9c778fc8ed3330666e82c25afe0f6c2196ab70417dafed209472f84e4c1c6, 0xb4359dd6af56aa49fcf5558e8692b00383e78bde8db65f56b51315c96fd04e7) ((-0x51e9449fdfcc3f6e4139c948ef8c8e116c906ce89d27e38f76f248626fdb1848), (-0x954a9492fcea4137402c16de43f668ab3d09ae3b8940a06f9833ba92ba1bd1)) (0x564976636482ba644b73875eca99aee4be8f4decb198c659690244258a75c0fc, (-0xa4587fb51b97b2f46f32d3664f3ec34ab4b3595474bb59a960e927c84d2806)) ((-0x596ddb997177017139545675567d5a45c801c08f93aab89afbeb63daf179e4b), (-0x1dd01a4cb16a7d749320fe6bffcc5d85226ac73c764b9b68aa284cd9461d2467)));
  OA 6 (C (0x13f2e139d407c52544e9544d7ce8118bf48644fc858a6cda585e696825401e90, 0xe869ba4d6b205e05ef45f91c68babd7f56f72fb1f957b2b16a51ba95f748796) (0x893ccc39209b3fe8a6388290cd456ab8f65659e7927e8f21846522b238f391e, 0x2b9d3e83cc20a011c8ffbbeabb34cf4011fbf16b26e319ecec8220f33dbe2bf2) (0x138ea0da94b2264d8fb640a3f4cdf6b5566b3d72d4f74cab42730397f3835690, 0x207d7c09fcc4f5466fa05296e47dfcb73d256b53c7e9891b3081517d07572f0d) ((-0x702e17f39841088fb1db75a08902e984ba8c14060f20e7f63018bfcb3b08a70), (-0xe45542c4aea0da208b064ea053e9bd38bfc659b4e35069bf9f9b6b27924ac73)) (0xbf9df5b7d6a7331aa21c0f54fe075770f09d3512282fdccf354d72ccf33b754, (-0x3dd02e8ae510504b32261c773eaf7cad466a37b835e2ea699d4cacbb3a26128)) (0x48c44e02d3648b23c73e11d0cb2396769a185ecded70721abe94e1ef2583a96, (-0x3e724f8e3d145c43ccff3f1f164051d9f41f39f9c09b9d5f58ec4a4b0c9334a)));
  OD (C (0x2425ad2fb71d7342a913a79d6a4a86e2d45fb8ea6171a497579f5ffcae4d9d9e, 0x5f099d103d1e376e278b39a4b59396762c6ac0294864564eacc018121c49ab6) (0xe0c7693cd4feae9cdbd95344a099c290ab403a9a16165c250d02d19948a87d8, 0x928fb49938826ddf4e4f2f73a9f1bff76833e40b604bb6053d267c996e80375) (0x6c3eb2d8fb8af7267f353532f32d527ed4b054554f6f4b23ade872555b54ffd, 0x2bf4c21e3e672c31bac5edaae5fe1473d9e8ffec86a5d79f10532d52b8a2428f) (0x6f4c98e36dbc939359fbe4b20bfbc98d0aa60e090c8afd3ba9e3af87c00d43c, (-0x869aec9a80d0fa64b383356208e582494ce206e5e2753323f1f1613c595d76dc)) (0x8dfaeac2c782c22dd31822527d7e91efbfa1fe3963dc30a0ed8c21499d46acc, (-0x1a458f6ff7c4a3a854ceae143c7cb079831ecf2116ea16e030645f20d3f9ed3f)) (0x1910891127cc019761ea9de36086a0d4ad7536f7a748ed4f223eb82e14fe1c3b, 0x850e4b7b418e2fb3bffc2dd79731c70d472c9b9f3822bbb015f039c7bb2cc82));
  OD (C (0x125c59397af7099b830f7e2dd5f8c99b0ac99052d99fa9ff89e894a5023f3317, 0x22978b9d6a9a84b3dc28e42aab95f36034024cde67c49d28bbde5ff8f7823dcc) (0x1d91511bc4803b82bcb8a74787462242cd1b44b20a9540ae92fcd8b06393793d, 0x2721053806e4b45d1762547cbf2bf2d5c362b78ff11d3f55ab292152e62e7220) (0x82d8c41e5e56917b015165ca0991cb736b9745c75036119cb439999b298fd46, 0x2aca08ee37e394e7104baf5c33b67127db1eb0e92fed7b5795aa0d9345b2156) (0x1b126a2666ba1e4b537f81974dbab3c08ea691263ec4de52df6d7258585f8596, 0x40be08974a96933434c7cd8008b27686ba2590f3a1a489c1f609590199aabc81) (0x1a3fe8db9e1301d557a4530460be995db695b10f024af3e5301612284c0929ed, 0x11c2d215c84f5aae6b4266fe9fd03c611883e9e6f0a0ad796e78dc88f8a12563) ((-0x1676d46e35994052aa3f3f048cfdd2d48c473a48f3a630014f23e0537e8ef804), (-0xf88d697588e67b689677c82908980d8d4619555dceeffe4c545ade167fece3a)));
  OD (C (0x18cf5ea93ff7e229d689ee703c5139198ea84684890741c341f6151ea18b8d2b, 0x205dafb048ae52e0b961489dff7a0b5b273dbd7771c71ecbd272a4a1117e2a97) (0x4a4b5ffb1394bf7f480b530b34337ae4abad0c28642e5e4253903f76faead3e, 0x16f5ab4a115d317fe4281bd6379d689ccf9b45a87d0765ab5e22ecde0f6a8106) (0x2bd2898e44c27d25dc87ff1ff515934b230ba60e1dc75594edfe68ff0ebe8b91, 0x3006588721a5b5684a6b4413e563412399fe736416630187c71bfebbe0d31421) ((-0x81c43b2b8bf6581ddbf5b3f89fb10bcb5e716732ea3e8bc1e91dc7b49ae0f778), (-0x2d871aa98ba8cf9b5602d51b19413ec2595f0446723c97067cf361d7a8423a63)) (0x212ffd2c97e632a6f87759252cb975885290a26f6cd73473334b0d8b45888bee, 0x8ed6ffb6bbbfc52bf3011ee84d9b5439d7934cd7804e00a67c3f3bcf89751de) (0x18f5c1696a9ee4c0d79270ac3d745f18091d4dfffdb589ae58c63c4a80e23690, (-0x1f6c000dcfb641087e80015382ef594928920bfffca2f2168adda3860f5e15a)));
  OA 3 (C (0x1be9b03171790a00a477905437ca5f2a3f2c82f68cb2bd934b6c5a785d411467, 0x98a99bc85455d3fff9c9f907a6a10dc3d9654a9b3c7cf48cff79ecd3c7d7254) (0xf571acd0937d4a6053d38bfa0c6c0425a2b146660cc2f5ced55cd9ea2f8ae8e, 0x1b56faeb9ee2b8d41ea925e4f1b4ae4075d09f7f1db797add8eccbd5ec68c8eb) (0x137a2bfc36d032e42d996f260106169b3b283680ec57ac32594d921f2e8d2069, 0x69c1aeead09c6ffbd49d4250533794c581ae07b65f3dbb6123e312c4576194e) (0xe8abf625223cd2750176fb70aadc85989ef20e8aea807aa432cfedb0a636e98, 0x17ed555331d4e298198a28465348b37f1cc14daf3eb87f678ba33f14a35bed2) (0xb01d41d72f3357e3522d7cfa12e80d9e2cf3dcd95d5c480d2d80d4b2c722efd, (-0xe38174e5b044b57ddc8537a800b33badfb6f97e0c6c1efbf434b57e99d5b706)) ((-0x4a2b60d93174b17951707dc11cb8834f06c29f5f2acb9866af4a4ac15ff743b), 0x54e7118e1036169103d580e7502772975770a9f6a289b9cf8e6c8568b3dacfb));
  OD (C (0x165de867b351bbbe4a00036b5eb9c32ebf74def34fccf3dbb3052b950c2a47f4, 0x266a1830957183174e94a43478d76946adaaf4c60c32ad772b5270bcb21d1f47) (0x8aefecae95e21a6b36d36cacf4faa63af279ea8bef42e2aee153728bfd8101f, 0x2f13ff4392953cbc20f7c050266bbb746b8997a37e9aa718514f7c1bfa1042d0) (0xe51ca629d774cc355ce8a026240c840ad5c346ceb2b9d50b95bb5a97a38f950, 0x2bb9fe16e9d483e9852da7c2246a657a7fcc7f93bb442369ff1753b8bb6746b1) ((-0xef7a7c391833b05337ca37d65902fd5c51cea1293dd65c873d30f2b93b77462), (-0x2742abc2e2ce5d5c09d9b622f01cc91736c9b5266c93fe1bf3661fb9f32d2ba5)) (0x2382b04e810f8e8d4d0833a06ecf53f3ec538ffc8c8d2787a7dd7f884764857b, 0x1427fa7a165e00edf9862558c1a27baee58c2ccbbe1285d267ee5bcc829f7d2d) ((-0x3d6c2a6ed8bc9be4142fa79f7775d79b15ff3005242e88c38f7c18d0128972c), (-0x12bed55f08445799f3d9bf081b8e5a3396c033142e646e9a014d266727485842)));
  OD (C (0xd598d83f3163098f16f57cd973cb922678f6fa39f70016cb22f4dc791447d18, 0x5778bb350ebfa7b3bce8add5493b1074d46e144cd381d59ea2f4e1ab250a1c5) (0xbc6ef2c992dfc9e99b3df1708011bfd4e6d6d111d05d6ed389d191a67abccc6, 0x2345c782c467a13a87591eeccc4c3ab4a6b1f8a7874df98ed81558270e77091f) (0xd12bd9db7b7c747c7622ce80109f80393132699dc57bde8ed88ab561cbe0529, 0x2c9b35063bcf4a43994ff023b181e617c6e01c1c24f7fb6c44f8501330139a89) ((-0x175374083873c26a2db6955e95be98c152236cd5080fd3067b0b1706183936b0), (-0x82bf11336014241f0258b4facef3200ea57f73253b34d5bc108bc6f7d6c43a95)) (0x3042ee928b2e5403b5d35bb6e55d0e9a8cce25c36c3530c8abc15d88e71acb4, (-0x310afc996038ad211be939c5eb555ec278f1d0dc5b0435df9e58c726994406a)) (0x2e844e58bd1a2da9afd81878063cbe705e75d3a517f3d63f04bda96bb6b1d84, 0x22fe6a84aecee75aff67ccdbf9c2d97ac1438bda1885f071d9eb66fa66f98c5));
  OD (C (0x1cbdafc240cc35f89b6ce6d11cdfa60510327fc4650b632710c2e513b6c2a74d, 0x8e4a55d8dba26c35fe4eeb5b1a3c259a604ecb275ce0ea0cef079e96c10b06c) (0xd6a9c0bedbcc80b3a84058d4fff321248d689fdcd4858f5c4a00a3ab5254c2e, 0x2f4f191d74bb42681e1de49187d4456aab35d0af461c81aeef0bb72468e496ac) (0xdcbf4056fe363a6056a6501d1ca4ba9b17d2834b2fd155584772e3e11b7b569, 0x179f6190e02b7e653b23555b43e68d8a3701d787ce0b899e446a1f02129e9f4f) (0x648e4125bf42155644cd7c0c8d87a93e38032166eecdf1ca3cbcd423829beaa, (-0x43aa5e6a8cf5dcf467933bef0d0c17e561b02634a35daa2b78c7889c46700a4f)) (0xa904cc0413f93dee84e70d27aab104c64520727f6636791f6a46ab0a21e29d2, (-0xf6f80dceda0ed81f8c49d89960d1356d0b79ec7f9f9c7b08f0804e532db48e5)) ((-0x77330227943c6b31b0766415966a9d315605c1925dc227607bf4796f91d11cd), (-0x13d02e27314818b7c07d6b5f059e2cde109c98bb49527c201e0876d626a6694)));
  OD (C (0x179cf54b09d0724784c34b23e558c7a55955347b33fb02dc8b8d7713d4df2b6f, 0xe69e3d921653c78d6a860a39baa50308d0fd98ef6a17099436f1653c10422d) (0x11be98ec5edadbf12f11b78482ae44318bba0b7922e313ba266735a7239a6259, 0x1337f3a5e9254f2d3fdb0a5cf8b01dbbd71e827a11e6748368e1f1b49c35a629) (0xe72ad8bb03a87ec8d590da4dc787fa106fec45d968c0fa8eef134faff987377, 0xee1a1c99cf74f07fe20ab85139011297580e81b865f406be11edb2c1ce64339) ((-0x37214e6854af8e8f746de1fcccd1309b9055da379937f0e0b46e802bd09f8bdc), (-0x8c2d4f3c63051961f7ed4dead50a3363b733b24af9236fd32ef3f91a824fb174)) (0xe11038524999eaf98ce14f9831b5f01693b7010128b54b899e5e213863cba7, (-0xb81629d7809cfabe66a76dfbd3f505d626ba4d3b450470537dafef68621f8ff)) (0xda057b383911c65c78fd4b7ba1314599b20608281b0d82bacc8a224202ba6b2, 0x2a284e00b2ded04cd47e2002ba192759f868364d353565e0908fec08dba00bc));
  OD (C (0x2326ef2403c9c97dea5833908a436186ec48eb9ef1e9592173b0ecd0a705671f, 0x301bb49266ccbfdccf13d7723b72a9b30ff9789c62c77d5bbf5f9e5297883569) (0x1e701123c302e3d78eeea0b04d40b450368fdb878388eab96ff94b7d5a6f7e6e, 0x4d1f7b031388df4d4e9efc43f017612b9ac80dff21c7583e76719add004aecd) (0x585fd84204de6b18e1ae78d903a850b0d5c238d2a0dfafbd30fd66dfb4f923f, 0x2aa8c0ac7c0e1c1c9d75baa791bebd26bd9c4deffb7f849757a607aa3666c756) (0x81043e79c87ab929a450200db22441ba88b650edbfc8a57281ad1b8b2f8cdea, 0x5386dc18b60844d2c408cb8986f283cb5d45412860bc0215540d2f3ac0f5870) (0x45e46483ae648aaee7b8b55135a80703eb260b1e875d95e07b92a25431643242, 0x164aa78322ffb4a9e2d4136617f03a9e8d4a3cfe764e5f66141cd9830ca69ec7) ((-0x228e82ea534b243ff8dfa14baa8ce449ea5d30338c691250558e7777aacf6d9), 0x1788d0b90c3833dd5602ceebb423fc07ea1b2aacbd1ec336396124c45e3f2e88));
  OD (C (0x17771c5b5f409740e2ca291b4c2cc92b42618fc53eddc9ef0557f0dab45d2220, 0x2c3c823425dec188bdc1ca76dc05ac32921f09a80d9c483f654e1615fce43ba3) (0x5827c0bee333218e848c1bb446354dab10463f953794f44cb11abeef6cb0257, 0x216897d87c4fe664c0ef61834c9f975b3422050e29654c9c78d282f9aa2b1e4a) (0x2a7bd50592182837ed3c396bdb93c261d611afe7a4ad5a6c2f2de922363e11a8, 0x2c423cfd9240e239828ae8adcc0c56bce9c255e8e3e29462afea3fade59d0176) (0x21473c013c14aa3435c4941605f9aab57fd635c61ca887cd77c318ba4b03621a, 0x80a1373ef71da16ddd324b28f4fa52d7bef75b7d5fc27cc9c4f2c4392f9788c3) (0x2ae68bfaf89dbc15a7e931a3d54428628433f5480df306375b610dee3565d08b, 0x1d0f33bd8c7cb9e10a4384b3b806fb78a01774bad0a736c1fb8ef041f1f1a573) (0x8ecc6576ec7d6c2551805ba9211304ca54c99f10881e87b6c0fe9e8326323f2, (-0x26389b6aa4c8ddc00ce8f97ce5f03ea45c73412cf64fc28b62cb4b11be492625)));
  OD (C (0x1356c94bdfe65f48b890c7b9919686692aca1788e7538bf039aa89b0e03ae8dd, 0x2d02e1f6425a45985c828b3f98388a8da9956858ba22966c6c88f49c13e5d604) (0x85b333c0844441eed3caee5ad04ef9db761f158030c05f373b8580532d0d05, 0x1ed5191c9faf1e140bd6cf12988c69c14c87d05b18fae35bf8cc8ae5d4d4da19) (0xe1a5cbd86f80b57e52dabe6158a32556e47af1df044c76de105ceac93f0e875, 0x203c7f201aa90ca04803177cd8aebdecf6c907ec667203c0ff8a891ab2b22ec) (0x5b956faa86ebd38a56c37065b51d0f1b44845d656a0943772e3692746a215328, (-0x12eefd0c4cfd87abc9a033f7f0d045ffbf6daaff55799c27e8eba5fc972385df)) (0x23f9de0dae17df466b3a51d464b459768c525ff4278c3da08eca276806dcaba3, 0x22236a014826584fda2324e199e0a0a5e2880cbb10f6868042aa50a54ae08596) (0x5ab25b66fb53857b7bed865ab5427de50919f25a0ff6dec91c12ce92509c2c8, 0x672d7c1c1cdd58e4ef0246f3914a154a64c5c08e17375f9437eb2c8fefcca8));
  OD (C (0x1e741561f655ad59d9821a79c2162e98c5f147229614c9d83dbd4e3fbb6c0da8, 0xa09b9d08e47a3a376abc108a038e2fd1965cc2b6fe5b153c394e0d191a2a787) (0x2e0435cc780d625a0d391e59134a97ba47e4e8269004ec4860ecde2abc546846, 0x289235fbfd5f3a6d818dd5746187b0e7ec2d1630d7be6f98ec1d724aee0b918e) (0x8c4733b46d5b684c99402ca10dff3dfb606f55bbb670ae07cc62efc90c975d8, 0x514eff0614e85adeb7f4dede47ab91fad939942e02843d8b71a2652c9ba83b) (0x663dd25fa6e565f51587df941bfe50d0f3b3de07a45b846b3cbf5cf838f3808, (-0x4bd4d0ba2c6d2b043a81f1dd3737415613dd017b8b23b6110cad76a70ae9bed0)) (0xca24ec389596982d271018402cfda41129788023060802a2be59f5d69a13420, (-0x11151c2c91360b4ccb25823a6ff38a703f05e548c7f673da0b82c7a0c0155a39)) ((-0xf90cb5ab01c13bb4515f8d867ea59f5ce2736003669d01c97f33dd9f79d30c4), 0x1a9c1d0e373b7bfc3fb4873e27d50db5eb23bebae82d17dbbf89781a3aa905c2));
  OA 8 (C (0x3bf5b326fc534c10a980e16387fcf0db52ecf13d93ba9f3f8f61aed48a74e08, 0x143d6adf6be24bb291640024d90222daf9f42cfa1a4e0deaf32934ac222682e9) (0xd6c56651b9e95dc9cf2abe31ae6a3d768ba3937cd3d455813ec82e962fa51b5, 0x1d7953f1bd49c0e75a4162ba82932f5921bd684a83564f43f4a6ab71e041daef) (0x9f88d5d709576367cb81e13053008c45a8356f3e76327680bbadcb4875cb092, 0x13b467b445ec92ccf8a030bd9b68db261b75a4279489cf4c38cb5e2d3afb30eb) ((-0x14244225985668382479b74ebb0e2b3227913f9b55aa489a83a16eaa430556e5), (-0x52f88898a867e6d8b068fff2ae39c74030e6b72c650f589b24e27751e6b2fad)) (0x32280b625b47b9ab2a994860c1d0f745a64b15cb5bfa9d010c6e6bc47ee7326, 0x82cd69d1e2ada0580afcab7672c8633b2782ac729b16b332b8ea419d4621e4b) (0xe7dd4635d7ee1c1a32b7256ea9327c2ff395eabfd4b9254bf8c7b84980ef6c1, 0x21e0c3d2580d795587fc310df344373b1d4177ca902b01733d116d42f15ff2f));
  OD (C (0x28bc2e2aa748cefa2e99167be4242a6c6e947ccaa21680612ece261df902a1d5, 0x14ac220e4af9b8b842e81bb712a51bd03e18ac357521e4bc26855f95976a0fff) (0x22b5437a92abee760c7e193929083a1368ba9a8a105ceb9309ca08bb56c22764, 0xd20009c4a503e0ebe8cde5919e9729799e2c4f8a507ae5c9064cc42a66082c) (0x1e28534e3e5da4017dcb1b3b077c8deb842e905bcbbcbaaceb5170cda9ae105d, 0x225bc542f977f36710b5e73fad9041e6d460264967a1bea4f7c868fb331ac99d) ((-0x75c6ee012e5f3ed4b5d8b303a71b4943d777d0dcb85c415b4ad3c2e2c8d7c48), (-0x2aa2d548b2274fc4b4d4bd8252602d063865be7b5c31be29b725798cbc975aae)) (0x22cd950eaf2b2f861bfd99225ddeb8c235a647248f5c93f25d5209f214488638, (-0x197575607e1620888c58246e14808d16896c3e8842b72b9719cc337a807795ae)) (0xf06fd30789e75691e5d45ce020ae42837a59a44ff7f1e1b459d896c7bfa1f89, 0x1e28568eeb46a10b8fc735d96523a1b6e3659d798d26f609e78bddc855bec930));
  OD (C (0x1c95cf28dbcf2d9177cc26cd877a299d9e21e336ccf2a7a3d73f188dfb729805, 0x17acaff6af5b091d086a27e9b9ae2a792be89081ea474f2d40a8000bbeea27c) (0x43b2239d1ffc852bdb8a840943b0e72deff84891eae33bbf814a874333fc110, 0xe5c37fd324f95ee03cb74c63bcba13e3367e4a7db43c17f833a25374288c690) (0x86bfa9e878361f1e0d15795a3d8589586c28a6a994dda802a9197159154a863, 0x1d0c36185b44c80030be1043a0bd39b0b684f48f10391b0c7a9b715936e468d4) (0x26e7c9d7ed676998fc1d5914263570ab6c7fca298f6e9bb4f602a76a0618ed16, 0x291cb3e298d733bf381b1ae663bfd313052dbd3839a42841c40545df9592345a) (0x1bf821c17e9445c6b6ad8e7400705ebe255fbbfca34b320b176371183c2af00, (-0x10d711bdf47985e1284e3fda804e759e554fe3107ff592ac4978baafb6d6e207)) ((-0x710f148d0fbc251d6c879c33db601e2a221f1d1f61dc6cbb0731c6e83c899dc), (-0x126ab9fef4716eff19867203fd3228b50a7e6577a03e7d105ca81fd57f8e27d3)));
  OD (C (0x1037954f6c0fe60de2c781603d867d3cca8d3f927e5d61c54defbca18d96b3d2, 0x1c17972c169509e32e0b817520c6a5ef80b02660e5f84fff0cacf1925dfd822a) (0x16dfa18d6c3f0a025abfc9d470bd21b16ad7837a7911eb11bec7a50b6bf91ac, 0x1a74f269aafb06bef895af860ce6f2bfe356fdfe0c3545b9d794050b3480648c) (0x20b4066deebf93afe941bb1eed4a0ec03c7200f647fe66c3c7e87f9b5af0b9b2, 0x24ab25cfce138d22878e919c8ebb72f141c942736e08a4906df74f8df7e424f0) (0x15b6b403a683070d0a92529fec6d45b4463def3fd1d77246809be894b39fb954, 0x1067fc3c5509e5081bd4e4c4aafb676f8d00d7c5acadcbae2b454c6bbb93c7bc) (0x12d41b9d50b8175082c47e699a6eb6ed2647241ff9c899a87394813e7800c004, 0xadf89e9fa0ec6667994b048b835269d943d42fe35423ecd1042d9c408869d6c) ((-0x26d758f83c823e7cac965f5c65145e68c0e4207f21adf47f9c805288ff61af3), (-0x7f6079e902ff88b205898e55467feffe2d2784b1d8c3ca0a4fe411cb2525bbc)));
  OD (C (0x1ce5724ef23d6b4eeff02369d05f12d0922e9a3acdbf08372f2355432498764a, 0x27fdef167f16e2005a6eebad9a208bb9b870c0b10de94f2557c2b146c13d8c56) (0xc324b98eb9a2fd47d18372ec20fc2770bc14a0b697a256f2148630cb1f989a7, 0x12d0b0e5180ed4752f1b01f590ff4f54ba6c974d8e4db01cb83793ad9136eaa9) (0x28d2d80af943ea4c0db6845a769f2a3abf18b16f55efea438f0cc742f18a7596, 0xb7435a0a1e88cbabc017c70cb43960946a213d87cadf08be7c5ec44a902b713) (0x5d27cd296abcc02cd065295abfd8bebf12cc71f3ecfa26b55d189372729f9a48, (-0x15b742e5a099d9ef86151dd3bf82a81ca178dc96986fcbcf2bc42c97e1de4a18)) (0x2fc2c8820ebc1315ec72effe42783edf6478bfc2fb960082a4365686e2d675ff, 0xfcb93d27ccc1398d7b42b6b026c6b9753053164875a9ae00af9e775af89b9c9) ((-0x455bb873a9ffbea06736a7e41238323ca8777ff3ee1f10f0239385d12e78a24), 0xcbe9253a19b5555a9db9fc847aaf8b0f6627b144a1d268b12267db693f3e14b));
  OA 5 (C (0x15e34f701f69a03a13860a16f0015cffd27331285dee8b40d17101e98a128579, 0x16f30e4e64a172e7e3b6f720bc0f44976466d201b6b038c89ba51c9aaaa7ae93) (0x1060ffea899eeac72d5b4088f25fb4d8f16e96c84ea6da999ce553aa1659cefe, 0x18257d6f1c0c5e2205b375eaec70e27ff8c2f0cb0fc8745f9c2d7c4baa437e6b) (0x10a0810b5b36a3ddedb1a81112f98be0ff4b2e50394d728f9fda5f86cc9979cc, 0x2e12a50c3bad9a0ea7b7142dc1def02d9496dcd4d5f706b6ee0c8148d3991667) (0x3f44edae099950350d0d91c45a35c100d2ffc6a2c5fe258c0f2a999d7ec54a1, 0x59b0fc0defa6a86d1aff6eeffad25c2a1aacc64eabc0bca78366b0c7c5ca6a9) (0x14c2a698c6e0acb97db08eb72868588d101bb283565b10aee44b43874d32c3c2, 0xfbc913032a832265a71d99f93c256420253e16bf76c642ebbb283b38c76f19) ((-0x465149220c21c4dd96dcdfa9c3199e5f315536495ebb717f7ea619652f8652f), (-0xa2f568ce6973f0ae15e3a34856dac553fa69cae9285871f2d7dba77acb2db7)));
  OD (C (0x2d8d6ec96268b38e30f478c5737199aec314d4f5a7c23dad16d4e24b0feb9c2b, 0x55135c7477d8cdd74151814f101eb96150103322101112599701669d81e3fdd) (0x29244f96be3c1c74129f64d629f3de76a5e8b868d075854b799235ac045dd265, 0x2ebc63cfa426c7790cb804e463aec1aeff452aa653e02a66c40e5f23d3af479e) (0x61704c01dfa345567595620e0a5b6877b52fd12e7cbbba82f038ca41cb4ace3, 0x158c3e324e41e4a52a30f327596bc23af26e83361c5f5f6e19f98963439b6959) (0x295b527ecde9ab561bda0c88050a9134332ad91305f9bcf039f66a28ad17447a, (-0x28b14ad86ec26ad421ef624aaeea765b997acc5d82a2411c6c066fe0dba05d27)) (0xa02af33c4abbfe3d08d9db8227a22d2d1b370676fa58745522647dcaa175fbb, (-0x2a4ba3d0c9b87c8931ce3ae9d5789492bcbbd3997383cdce0757b6e04d2abbfc)) ((-0x17fc25d75a72cccc357d1750de22c86c9ea1b0aec793e347e1d9ad39ece200fd), 0x14d3f0b559a90cfebb6a70be538e0a41e877e87290029f05f1eea60fe3198e4a));
  OD (C (0x597f5f605db940d8ff205dcf4131c019177d29890c5d3437204135d62e6fbd0, 0xe97d3a38b44738f7fe7c5d073937250254e0b6b68f06b1c70012f5195d238f5) (0x298174ee91d1dc147a572c0e340187d01ca84bc76ab21be1502968f8b388710d, 0x18540c210092516a10112006610626c6c9b0697e41b9293608df2ce29436b403) (0x7c4244aea039a0503b108699e2a032372550f8b16a0b13685c624f4edff9e16, 0xb85175ac5641d6eca8bc4b440fa7c2f8936e5aabc058734eb4c5c44b90a240d) ((-0xe5bfe8d35e746611a12d60796a628a1bd0141cab5c4c8567d28740f154d064ea), (-0x12e3410a88a73d245b552670ca2badfd81a31341d275c4fd34bc5fd00ac82fc1)) (0x35fa57246febbbbb2599b2e46ed9d0c02085efb66d5409636d2e4863edc87ef, 0x3c10f064051cb6b382e01e37370b9d16ee1d8f95606990c6856a2d36f58b4f6) (0x27af9199cc39c190828df0e3f0671be93853c79404d05155108ca54dcf20cd9, 0x6cc9f51040271fb306b62d4330948f11d2442f0c87341e3eb6c6fd5d04be287));
  OD (C (0x90387225810121115de8ce25668691ac94e6709cc87243eb16ec8579a483156, 0xb042715ca5c42afcffaa850c5e584f915277b76bd4906c426e8ed4a6d2387b4) (0x219799213566b707446a18afbbc3ba57b85864eec6353aa2a775196843734bae, 0x14277795da97173a5e33056c7d48d8830e5b89e0514db6f7d076a7088ad04376) (0x4d4ef0be8d48c3e0d176446355c0822ac11ea45df61fd2252620edd73554ff0, 0x9035d9f2ebb4ecdcfd10a03584b84ae98b93e4bc0d885cfbfae9487f7335ffc) ((-0x755ef9c3bc3c4129867945c27874870114b2f3fbe593132eb378907c4bb1a7d2), 0x48753d49620c7db9a5b6b6553a3fee5543b1b7ed6a81ecbfe5b6569940e837a0) (0x41a99bed446067b040044988272d12c08ffd1c91a2a366f1f511d7cccbad398, 0xd42e9ad4550addc7bcf05125af590fff1d463cb3c2574d19b27c33fd11a450) (0x294385a4aeb100979aad33ea8984c3c9eeb67690741d064b3717941f566d2bc, (-0x8617680023786ccdcb37ff1f0dcb28d036119d24cbfaba1aef2d5d3be9b239)))].
Definition cert_pi_3 : list (op gfp2) := [
  OD (C (0x15b2f7afabb70d1ed4293716cae2fd11224def83757af49a592fe5a1701dc572, 0x862293ecfb3a6e46f0e708b6d0532e661ae84fb3901345e288d26c0de419060) (0x66456c49d5b16e569c4ca978daced3a9dd9e4b75f49fbef8d2570a1cc4b2e1, 0xfa57e70561a1a56b138f5c5eec116c4c9ff0dce40050006e76e5eb92470917f) (0x207da54aac94343a8cb2e67bde6e2cdc3b2d91870b16fbd8af45f22c8fa4ad35, 0x2c8c077ef62d6d47ecca3dd71ad4691bf5c4f6e42d4500ec3b26cc4d7a05cd46) ((-0x4a2f76842166093e40e77ac0e34442524ef43f60b731b9f84a179d4e0d50fcf8), 0x2b90819d573f3724e6e4df748d4e9fac17a11d343c4ccc46018c3014ad4dde20) (0x784b1e6e1f5eff372f115418e12d2353a61cfd731089117678db21edaf81025, (-0x8471142f5941bf84c946b7a999595bb15b7e9dee63c49d55d17b389bd86c6d9)) (0x7c587def46adb7eceffb5e00c1744c3ef26f749b48bcc466e9795b663708fff, (-0xe1a522d4d28174e94198d59a7fa5a7d4396965871be07240d1780ee3f6491b4)));
  OA 8 (C (0xc8c76c89fae2beb78a63d1d761acc08e892e9fc7b9ebf9ee730aca1b2b0ad4c, 0x2bb40ca624087e0200e7abb5a7ee3431aada9862ef8d62e1e0d3291b6a210a92) (0x30259a8749374006faecf19547e90186089f44e9ee48a3faec24a4c1a3a74750, 0x2a8c6296ca3754b2fdd44d5e48166f953356cf6695a0ac42e68a8b42a156afa4) (0x12ca9c9cc4c92b074cea1b3a4f9e80d51455ca321c2cf33b3ba566dae5db0109, 0x24ffbe92f9beaad2f5ac5349c895684f2be1b7e339afb2d58036a7cb0f3e900f) (0x2457f6be3c61348c026265c7b51e024e491b72b16f96be7a7e3f15e7d6f499f, 0x39137a079771f3ad8c37046b5449070601a74de424b5cd4a71852edbb609059) (0x16aa70c93edfc6b5eb97c19574c05003bcc741c4e54718e695fb283f5f8350ec, 0x24370b11abc0efaab62fb10470b10d85b7038d9103bc2068990f3899970ae6a6) ((-0x3218ed8d8ded210ff4e3146d1d3ec2040c4cfd17068ea7ba7ffaa0f357be0838), (-0xbe9f644da3c74b18f43ad74912afb729e2e9743c87de349369af48b309be12d)));
  OD (C (0x2d9c1b672f2233bcc3c34190601fbe6bef4d26f37c790675a4ffeee1a1777078, 0xe28e719ebf8441e48af0e54959bf7c1998a1e7b2308c005529ea8b02c8548c2) (0x74ead9a38a8f273d6e5321df3dcf58c7ae208f3ab8621cfe704447c951d683b, 0x1f12bbb05760285e56dd92e8967716bdac1777337475a9bff90674b815ce152f) (0x5eb9775cdd907d30e866ab00a0013f7a4b0c5a3dc7a62191b5f16c64f915345, 0x5f44a595b30e2d78e38d730d393cdb38beb788ca63226a89ffc76f6fd1e5e1) ((-0xad41da6c98fd70b6dbf2fe35b1a3e7ef23f45ce7dc997bbd00004f8f5bf16bd4), 0x11b53e9b1f89a7cc5c7d4c95efb468d6a7eef6bc4f286220a44c82e90e86f704) (0x1ab104468c0bf8019dd2f4504b95933bd2d33129cf97ff69b7321a2d71c59753, (-0x26d82e37ccd8699185b9ea18d4247aa3f1beacd0cfe111fe698979918b762635)) (0x16c3f31f20ac47c06822334ff02d482d98cdfe28968f7f41340783894d00edec, (-0x23224c6d49dd114aea7ecea3814d73f04ccdecb45977506506e681f10b757af2)));
  OD (C (0x269983a147f6a2d7a1486549cb1e6c3e73eef082a96175d9b07de9f6b9c6887, 0xe35adf7389f5262fae801adcac9321f7ee3c37b02ffdb9ffd3765d08fd7214e) (0x2ae822d7f0fcc47d83fb139f621eb091705cacc41662831b1592b5d75620fe9b, 0x211045ddb8a73c45a3852bb6e360a6b2d18ca6b3fe651a43fcbac2c0b16fd853) (0x105c644e073e788f70ea5be2aeefab94b2cbdd85d34d34d034e925c189900ffa, 0x2ad277dce15f7dc3952ad8b826ad4b052e1f8b3b2a8984af4fd71ea8cb22e6e5) ((-0x18a3965ae34b379544e9ac14999c5ff947cb28cdbf08d7763e1d2c5fb0c1353c), (-0x38eb5196d1d910513d4ef2fe943776eb7795eb29bea2196dd92b0fa3e487142e)) (0x16ab2dea368021895bbac492b44d538df564c1bd2ea50d0578dd837228072b5, 0x40d5f6153b3fd371ca258a27ace4cf3455eaaea5c7b8f025f870b3978e3a00e) ((-0xa8d760eea7e710cfd8e7b5488eb7635d0e75dd5c3bef9db4d964e12d1cb312d), 0x130b693d3cc75b5e80d9114db9e798a074c883d19c75e98b853cad2d6928b0e));
  OD (C (0x2cd1543b1d2f6476daeea3627ef339e4e2c07910df89af5ddb2a7d0b980faddc, 0x1c8b94cdfbe84f9bb4ad3cf5cca985367d14c813fede0a0497f58536d2503410) (0x2d032773f03b3f6324560a4504b50b7d95810de049b8b48efec74f4d181b6f36, 0xd53694dedce3356731ff59ec93a4b62aa02171854f6f00f821267685a4ea051) (0x17a9b50f0950303ffcc4f90eac3afcd25af1c8362d1f1a7517867a4960ae6a8, 0x8df49ba5f37fbcc75a6458911023a323d376a58abb3bd1d166cceabb926afa3) ((-0x4d466403196958eace8a60c13db05bf5c6821771d174852b46a002dce7acdae2), 0x4292bcb4736e705fd20de7bd0748b9213ca3593b3b278a220901a3cf80aa0240) (0x34dfb6b1a1497f6ce6685bb8756966a2b942a88e67b915dd0efc3685fc74924c, (-0x18ab5a81ce5ea874945a0888e8416f65ee234dfbd31bd23ddba3df6c4847ba41)) (0x1109b648a650d5476b399f21cfd637d231d1050d9fdd172712572ceb5b55e06a, 0xd97c693062f4578d4761cfba6e98d13a2e2d5892a3c5a12412492f4e667b1d4));
  OA 3 (C (0x23a870c1eba1f5abdd1a2065ac4ddfcc307de737479299ff48170ab083e88e9d, 0x1a9a225f576de08e97d4403a040a2b077d8afacc33e5efec4fcc65983033ad98) (0xc439ad629732dc80e8b79a5a11a957e08fb822f934e0a5785f5d42c3b1d59ef, 0x1f8c51fe004bc479ba69392b2315cc1b666ef91b5ec7cfbfa5216da38776db4c) (0xcd12231af61013c1ab05fb09d20407619128b8f45b1c9c780975e7cfc8b760, 0xe5158adb2ff53f156394d907bda120a55fdb30ab8b1331a9521d6672fef527b) (0x51745d47804d1411cbfac6412542d659197d050f42871822d1f7b51c647bca8, 0x2be987cb796a08f2228ecdb155d5832037e0dada61b1fe8537ee7855100d851a) (0x2734392d68805f99c3bc03fd314ea96789845f334e5102cce57649555ac35706, (-0xba6b106f77271926716139315721883f0c1aaaf53e28802ce32894dd6fa4492)) (0x4933ef17226432e1aefb30c73cdde9906323e4c888523dfaddc3b6f54ff11c7, (-0x2225e77209ddb2d24bb710743cbc0b773064cf227d51a0a17751e28db2107a47)));
  OD (C (0x2d3fa492fb9c3de3d5e49f0ecc0c8e8565e8a0c5338b59e0575ac8fdb0376257, 0x1f25d08fe10dae46556dd7075132ca123e7fbaaaa47e22a70ee60e090e66bc7e) (0x259c37620b9542055d46debc00d82a7cc349fb1ca995a8aee8456e4467e25f0d, 0xaf2c735ff81d1dd00182fd3f1941311386a3324a208c40aecd6b5058f72f667) (0xce1bafe8925f704f65b82bafdaf5ca34b4403bdc6919c001f531adb0874d0fb, 0x16adc58774c7ce2b1ea7c11ce3204e8826e527f1324bbdd8acaf4f451b71481c) ((-0x142a4dd23199bee1811126d423456501542d71cbe07362ce8d217a27ad4c5872), (-0x23719fe217e858083218f0b938b3ac2fc6bd4d4ee0b18122163531c23a4a863f)) (0x3a3fc681ce55d6c0d7070ea5b95d4b4196a6c7ba48e7fbf5582d173c82537fff, (-0x1642d8cbfd5673527ff75ea6782641737342e8feb115303c305982d92814b914)) (0x2f291e28a65f8577437ae4553a3d3d5cecbbacfdb2f8c531e7e1bc90274b5ac, 0x24f580ec3b7a7c755bcc2e6e56e33f1639f8b1314f0d256096e8254586a7f6a7));
  OD (C (0x1aadc43b1c08d5c1f08d19506adf50e80f6861c3f08982d639d1a323acfb6b3, 0x6717dcc31faf02dde377266411f0bfecbe4907fcf7537d8589c7f4087d5535c) (0x12e1c6521333460aa1c31301792f0311b2e2e942e590709e03be50f278b8ce9d, 0x282c8581268be4a2f2d8ab831935543adb53851235716afbf9206928d4eee7ea) (0x149787d435c7b82b8a46770146da858c8189590757305c7ab2da734af2c7442a, 0xe833e473355e9bc642b98f6a8bcdb66db2f6bf71f85e852189d5cf02330e0f4) ((-0x2e0fac626e0013a3ab97e4f67471e0dde2c1c7441a284b665fd25d91e12ab69e), 0x5569ae40e99b62417681875d67efa6488cc82f42675dac4db223765c6770f00a) (0x71ac10817306b8c7e22deead28017e8cb335485af4e471df3a13518bf04f07, 0xcceb86bc117203aeb5512f71653823ca00e1acb1dc1b6ce4c144d870feaed9) (0x17c943e751ae75c290aa2efb8b6b23f155400f88446819838d86b5831ab426e, (-0x489634a24acaaf9bcf83e0fe85ca44142e3d6fd2004786437cf6142384302ec)));
  OA 0 (C (0xf0918e59182710fe4c46bcf1f55c6824d2fd868ca48753185cb11f1a845b2b4, 0xacc0288743b9f17c8af6ec5ac19ae1c41405b61c5879ca82fc8778172155ebc) (0x10264f573b2a65f3c0679c93cc69d97ab8fa8b5dc17aecbee120bba23d25f2b7, 0x17c6627830b93132177da36da79a397ef3086d094189c4e3c646e904e485fd13) (0x2e051dbca6865d23b58d5d9ee65f39227a7dbed44356a45541c7e05516cb136b, 0x16a97e7ceabe05ae0d1503db9c75383f49e391a2a3629e712016310a3a43a5e1) ((-0x388f2af4b29e0528b86efe27a0787d11709d08c63a449dcc598bd3d03f0734f), (-0x5ae8c263582a2b95341285cd20bc73ddd19d2b0b7e6d96e4c6a2c38dadfc64a)) (0x6b59408a914b9bfff446354089cea59b6fd47086cff7c692ad664ca69e9c666, (-0x2433d5d4a78e4c208a19ac267e7afc564bd49e07380dd3fffb6dc890ffa3946)) (0x5b4705b6d222c8e0b93b7b4846a8deb49766eaf7909508d8fc330be7dc8b909, 0x2cf569e0a39745547f637b0f9591ff105c3fa3d4c0bbd99fe90d53061399d71));
  OD (C (0x1dee77c83fbfd09e872c4adf3cb1e6182a7f4620698a46b56fb5229a0fe0f2ac, 0x8b8e1a0679a3e23798578a7b62284357e07092c6f55c6b24db46062aa22a30) (0x1d347475e96ce2ef9c622fd872372b9d001c12457fc2a99620451722bfae5a6e, 0x230d8aa0663a2199671035c989b07a7efde892cf5d420a472e20f724c90dca00) (0x2e67a457fde2fb3e8599577b21de1379da0659e82553552522aa4dc593ea0b88, 0x51394c451ec87a6f68fbcf0d5e459044689e2284f4c0cc08966ab42e8b8f0a4) ((-0x1288fa850619dd3a2f07dd7c78b6f7790169224fc84ffd76aa0f561c736b59ca), (-0x4b4aa66980abda3f0981f564311aac11bd6187bfbbeb0523511f34ba5afae150)) (0xaca2eb90e2ee77a8637157d781629136210f3aa42899b2f6c93b2a22858c3c, (-0x1281d99efb9817234720abd4a02ff241c9ff1b2ce256b52f724857adc59fae9a)) ((-0x71f6d0ea1b5fb73535f479237cf817acf6794b53a22da233176482b7c49cf09), 0x7f2ac77dec79d2b8605f54e1857dddc4d58060c0bb95b47d5bedb0217df5b89));
  OD (C (0x45b391d29c445d3adea653038c9d092ba6c62d20c732da1e41b50c35b5ad66f, 0x2b1fdb62741a5277954156533a9e15b51b19c2be8fd28c30d752c53077026174) (0x2025cc0c5f24b4b9c09cb9acf3daed1d79cad2a0a2ef2cd336c10f817600046d, 0x25b1085cbfda3cb35c3aadbc2bf0ce72390f1041467d8c602ccd5e93aed53f71) (0x160f8c0ea4875b1c3b1c790d5f37b6bddcd76d2c722a73eb919484032bd273db, 0x272faa7e5939db531310100a52000b8a445a7c2e206552a816c1c79986300d43) ((-0x2b4e940c407580f6629cfe0f52aa90b6a5e180e9e5e04b3686f15f3f93f88938), (-0x169a6717ccb74813c6be5e559fb9e6705c7cf2683ed42a17a5fb342fb38d585c)) (0x7c3aa524348627787fcc7b2480f95ef32062711ea600e66459962cde06047b9, 0x2609ca175d9b10d5cab14824f829a1de90ce534e449b64b828684447d5989a12) ((-0x2dc26b1cb79df6bb78838fd7d060179234e26875cf46421f86a3753ca5337a2), (-0x21625b965139517a7e96172ce518ab4fb80fe0cbd1e004a792677d9b9360226)));
  OD (C (0x19cc06ff8971a1410dde9a6553bce27539e9a851872bf6e966166b57ae4623e6, 0x2538e6f5ef9ac3cada8266b4177d1488537bb3cb82c2b10ff32c928db4f79e0c) (0x135eaeaa70c7fc9711e42a83be35ab03368bb3eb82a7279027eb81295c1433de, 0x2cbcbc240fe3ec5efc60bae8cda533fc9cdf0cd3ec3528a6217b4c0366a0e120) (0x18b09141187557afcc6171d4b9b6df784e3ab7a96eb102631bdf357d303affd6, 0x886ad44978aaac5558901ca53b8b4d5f28b165af6caed23a220d7a306537fc3) ((-0x4a84c4846745921bc1f0bc54762b4c35512414ac862e7884496018519c64272e), 0xcc26f73cc9aa2d075a03bb02df2a69708914ffeb24475bfdeab2c5fbe2354c4) (0x27af70beefaee2d93192be69d6b5bc00fb7f903b9a3ea66216bd20ef8344bc68, 0xee0faa4067d029dbd79b0161710356057917ef1e14a205c67467f89861edfc6) (0x61290c430bdfe10e8a52fb3a14e3279a2feeb4194cd6dab3e638f190a09556f, (-0xc3b2a497fe7b946907671705684ef206656d390e1bbffcc1c798af8a83473ac)));
  OD (C (0x3a77e2f769753f7976e72b9b40ded302ac4256b693c1fdf1669cf83203c3f4e, 0x29bb7df00f1c273df875a1082f824c3ef115f978df64d5dfe82ac2aa59157cb1) (0x2754f09726f76a8fae4d73f187f828334b0ee71b8d88fa65744ed879c66f39f7, 0x2c5bf004d13996d92a615921df447c232c2a0ac9fd9a0c887d439275067d50d2) (0x2819d9f1a1ac09cba65b34fb83be59dbffe4c1ff6caad9eab35b7f4620fe1636, 0x256f2738f6c7ae4bdf3ed80cebbcfa4787a36c35b5d305babfbcb1a904d4a7a6) ((-0x3f9206b5f6a0f0580d6687d6d747ffc2b4b06194e44d5958c472475ce904b240), (-0x59d6f86be52ce56d00ca7d26a922bded8bbbbee64bbd07537a898ca1783c041a)) (0x64d82ad3d448b3ed28e8a0e823e893cf2eda6350a8bfdbd847cbe1d3fc2d70f, 0x23b6a4669e48a8200465b00b376b4e90ff1848a46b6eaa0144da8d6fabc2f99d) ((-0x112fb367d128b84d8efed2012bf913d0acbf0967495dd6c9b17e0dc2f89ae867), 0x1d55fa13021b80b98bc988a9a64ab9a31903ce27247ef1c11880639cd6b3345));
  OD (C (0x2e576e72cf784d156a34ffe3552986ef63cb0fc50b0310358aba944e8d31b694, 0x29d61826ddcadef08b9cfb2e639fca1182cebebf8160ee04f2d6969184980d5e) (0x1463cd443b26b913f56197a003fae200b3d97c8c39a80c076905eff3499832de, 0xa4d0318b8c7c740506d3e293e2e2a1e971a0bbb86b8a3aad66d856689344c61) (0x1fb7004c15a2bb3928c64d4f2121dc29dfee978025fda150ed9f8422c7a3cbd0, 0x2f732b0cd4cdee367b1ef044b2c40da85d5a1c0ff8b4e2feea2c308ac0c5328a) ((-0x4b4a89952d839f663d81bef41c94a02d549c6a585ef61015f0d6b055e4dc5d04), (-0x26294713c260d17ed58170a373664853d920e455d11eb112125d99d36603ed17)) (0x5020a547a00a69b73791cdfef619d1048f66f501eced27cdd969b40496cbbcfc, (-0x83591be9fff3c92ffc548264e942a9a46adcfe7feb75eba69a0fe33aa0eb6e7)) (0x30fdc130d15717b3f26262e599eec8002e993ceb593761064d244ad08c283ca4, 0xb4e1bae97626e21474952cd3dbc05813af35bc356af6fc16496e6a936bd0256));
  OA 2 (C (0x1576bb629cd6891a3acbd228547e8430ea62d28e73c856cba601c25b08daba2d, 0x11683a831afb380681bc2bcbed8e88d16972731acd4d2de72f1aaeeb4facffc9) (0x29e31fa223622bbe6e6b05a4bc69db13faf60f85534aa8255068a426b9aee336, 0x28d487d2a722cb5794479478397bea0d5448e396d9ca9d84764f4dd58d3626b) (0x4b6f35be926655e16a4b4417ea6830116a1c687abae1b5d1c0fb94b5a80bc31, 0x116b3fe4bdee4d7fb8cd8bedb71c7e223b0e772a343cedd3cc7eb5db1e0ee3b3) ((-0x3726e78fdcc8a385ba7def0310fb564d43bd12b97e9ba9f4aa4f044bdb6bfc9), 0x5f98b45d1bb8c774559799983288f44877e6eac49fe4cf15942aa3d413c9d4) (0xf710c2568dd5e98cb463e147038de88e2c6f053f592044a2dc9e4c1024507e7, (-0x3422eadd4926c8d0574bf45412ff7ce8296e82004792fdef722d484416f1adf)) ((-0x44bbf30466529ed241bcb485e3aaf2dd454db76ab466aa5b23a3a271c3bd1cd), 0xc52868185dcc8a6d7ee2e90b1e7f1dea2f1c313a37e44ac2a76d930b1618c17));
  OD (C (0x1335cf2a0db35334868b9f03fb4fbe17a6331ef4af184d620c9bc55e2ba1b2db, 0x684466be5bc626036c5d27a1beef047750bd95a0cd923b4ad7b49a4b3bc6ee0) (0xd6b98e29dca4786eaf4ea76d5e5883ed4169e25e55f247b9f5ac1e62410e140, 0x1e90992b13fc8e562f6839592f0f452b62d162aea782a401520fddb6b3cd6250) (0x211deca8c1d666d2bbf7862af1db06c460561e089558a2fbdfdd52b511756e53, 0x957319384dacb13be8dc707070ab3d2f7279a2907b2f1aa942881b2d7c9d081) (0x1d8a1d829260a91c37e67e71b56ce23227e8f55593fe42b8c082b8146b0b1ba, 0x6d50b69e08619aa8a83f8e2de30d55930b4ae344c2059305be7b4f1acd100cbd) (0x52c843e53fcf956ed65a47d53fbd0f569df4e00a95939668b1981f5712d11cc, (-0x6bf92bbc20c9b7fe4f8df6130f49da2ac9bb487c9cafbaeb0fe0bc4a0562509)) ((-0x7496ef6b0897ee5f94e35900f54d69707538750fc7c43bff59a66ac736a55fd), (-0xf12ab9c7781b7ced5e147771bacb19debefff9aca489131c9a15f20fa920eca)))].
Definition cert_pi : list (op gfp2) := cert_pi_0 ++ cert_pi_1 ++ cert_pi_2 ++ cert_pi_3.

Definition pi_G2 : gfp2 * gfp2 :=
  ((0xd6b98e29dca4786eaf4ea76d5e5883ed4169e25e55f247b9f5ac1e62410e140, 0x1e90992b13fc8e562f6839592f0f452b62d162aea782a401520fddb6b3cd6250), (0x211deca8c1d666d2bbf7862af1db06c460561e089558a2fbdfdd52b511756e53, 0x957319384dacb13be8dc707070ab3d2f7279a2907b2f1aa942881b2d7c9d081)).
Lemma cert_pi_ok : run gfp2 dbl2 add2 cert_pi (1%N, (tx twistGen, ty twistGen)) [(1%N, (tx twistGen, ty twistGen))]
  = Some (Z.to_N (P - Order), pi_G2).
Proof. vm_cast_no_check (@eq_refl (option (entry gfp2)) (Some (Z.to_N (P - Order), pi_G2))). Qed.
