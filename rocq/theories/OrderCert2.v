(** Order - 1 times the generator of G2 is its opposite: the certificate. *)
Require Import ZArith NArith Bool List.
Require Import Verif.FqModel Verif.TowerModel Verif.CurveModel Verif.OrderCheck.
Import ListNotations.
Open Scope Z_scope.

Definition cert_g2_0 : list (op gfp2) := [
  OD (C (0x124077e14a7d826a707c3ec1809ae9bafafa05dd6b4ba735fba44e801d415637, 0x237db2935c4432bc98005e68cacde68a193b54e64d347301094edcbfa224d3d5) (0x203e205db4f19b37b60121b83a7333706db86431c6d835849957ed8c3928ad79, 0x27dc7234fd11d3e8c36c59277c3e6f149d5cd3cfa9a62aee49f8130962b4b3b9) (0x195e8aa5b7827463722b8c153931579d3505566b4edf48d498e185f0509de152, 0x4bb53b8977e5f92a0bc372742c4830944a59b4fe6b1c0466e2a6dad122b5d2e) ((-0x30a74d8a4c7c732068e9b15a0e384fe72c67559e238efc86de236e5566828cce), 0x198402ef92396e65c4ec656c73adcc821a22a799551f5341df84cc2bfb8d560d) (0x1ac5a984b13588ae20752a246f497423bfa31fc3a1cea24f7a85ad571cf7fdaf, 0x13253ae763aed78183ca7f4e26798a9f66af87daeb42c29c414d5d89b6d91a03) ((-0xae26827fa10d79086326cb4becc548ae508bd9492608640d8ea0348f9e3341c), (-0x91bc9da82ea428b0c63000731c0055f8ee09fe3e2855df7c1f83bc007242e25)));
  OS;
  OA 0 (C (0x899cb1e339f7582c42d7517ae6f59453eaf32c7cf422f26ac76a450359f819e, 0x6567a7f6972b7bbbfa13123614ecf9c4853249bb5ee22ba52a7ed0c533b7173) (0x1014772f57bb9742735191cd5dcfe4ebbc04156b6878a0a7c9824f32ffb66e85, 0x6064e784db10e9051e52826e192715e8d7e478cb09a5e0012defa0694fbc7f5) (0x21e2335f3354bb7922ffcc2f38d3323dd9453ac49b55441452aeaca147711b2, 0x58e1d5681b5b9e0074b0f9c8d2c68a069b920d74521e79765036d57666c5597) ((-0x3b1ac8ac73413af6752df41d661df587815a2251f88531fa4fe7672fbcbf2aa), (-0xe37aed2562e8f36558cb975782a7d2e27b32b4bc44248b572d724d555f9562)) (0x240bb3b84b38c5f32cbc9c55158b9e9c4710b9d5f5ec084cb6639083f847f2c, (-0xb2d5a836bdbdf6c2714d155bc715f5677cabf7170bcc2df591d531574718da)) (0x8217075e49060ea9a5adaf8d788e61defa3c886131027c791c272b8e452bbf0, 0x18f132590fefb922773b5c779fd690d84d4735437de9ba59d8b5efab6dc3259));
  OS;
  OA 1 (C (0x1ef4c4aa63f1a4ce98c747b1b90116d81b8b2938e4397c8700b1c8fc3ed4620, 0x20d22994c79b22e75ca86d0c6583d9dd1807fdf01c6e09fd7e05c0a565253a58) (0xa09ccf561b55fd99d1c1208dee1162457b57ac5af3759d50671e510e428b2a1, 0x2e539c423b302d13f4e5773c603948eaf5db5df8ae8a9a9113708390a06410d8) (0x19b763513924a736e4eebd0d78c91c1bc1d657fee4214057d21414011cfcc763, 0x2f8d9f9ab83727c77a2fec063cb7b6e5eb23044ccf535ad49d46d394fb6f6bf6) (0xc509f0fc79ce7db7936f3c4d0d49939e7f8af3e282ca22762a460220d72cd40, 0x164d860e2e3ca25057d208bcb89ceb98c9ce765ab2fc0d00991455e4f4c7a0ef) (0x29fdaf1b2fa7a24d6e543b4476e3a82f50054bde347ae7bb39de55f6435aa17, 0x162ed2f8fcea081c37c5cb232f19feb77ac6be54cf03c18fa5686feca6fcd976) (0x27c80ae428691d4065c2f68a4bde2ec58f04bd46c2db1b4a2597820fc97bb3d, (-0x1b9360753279a94e01414146adce92b1bdf67892aa40ce0b16266f8deaaf33c3)));
  OS;
  OA 1 (C (0x20f5f4e5f84055c0704394df513170017594dc62d554804870b5db9fd313673b, 0x2b485049ea4ccf363860b2a1ca164431c899cf584d775309b2dc3271d7ca2ebc) (0x2903ba015a9abde26a5d081e84551e63be0fd4516e46ee6d593edeba46362455, 0x224bdc5d4327fcf8ed702e01de1c2f1657a253ba75e32a89c390142aaa28b308) (0x3c8b7cda6b2dedb7aeeaf5fda464ad17036bea1c4e6f7adbaed1ebe0335e0d8, 0x1d92fff52a265017eeccb372e37d7a7bd431800eca28dfd82e21e8054114233f) (0xf74c9db22dfa7d67761074b1cdb7f10d99501e4077b64193e287ca636052c14, (-0x14e8216e416a71885c3a5a023646fc6ada1da30d2c6d4be422064216249fc61c)) (0x3af61b29234a42760990129b4dcf9861faf45f53c759266116e040dca7ab187f, 0x10432381a6d9879755b9e1cc52cfa0f5e37efa67c01ab358d1872aa8d525c532) ((-0x1382f970de2e0aef0e63b11d341d29d41c6df220d625d7e33b28b4a2deddf42d), 0x1fdbd555ea01e2c89bb7c811a034f6c30b78149d25f4f96a2add10cbd0f64141));
  OS;
  OA 1 (C (0x11e065ce1d3ded17dbf6b63976fa651d79c1780263e2ea076ed90e6adfbc5ba8, 0x27edb36c55792ea7f2c3b01d5b100317f5e2a1970f87eecfd47ff068b9fc2af1) (0xaa8c85149afecea43310a4e7b5aae63d4162e5d41a4df5beac827f1b7bd6783, 0x1d2b63f76dc59458a1083d2df1bc35fa0ff26cc6094a6e9b7f76b30cfc894735) (0xce3e7af512369fabdf64a761e0e451369b2935abcf25ccd15d897516a02476f, 0x286b2c52de77f01d4baebbcef1f35e94c038ae3c93c850304186792c8df69c9c) ((-0x52e9ac5dd4a28c2d7bb090feb10b3e4ce2ac1bd8fd6ac76225f1d006501ad22), 0x7d4fdb9cf3af3c77e74e8c09c30a0ebe72227c3e7d3aa1aed4d7e99e4bc7d5e) (0x1d800d596bcd71c3cfa62751c66d99d2c838891233f1a9e029c27fa613c7a289, 0x1a576fa50e785469773a0d67da355f87321b30ab26994d9620eab8aefeb0c97d) (0x1af0b7b9e5b703eaedaabb6018660b95d631938e6bfbbf56e545928dbe9c6d85, (-0x6fbc12c7c5d2526d415e5afb978112e82a6f2911b2ceb8b95ad218951df33b8)));
  OS;
  OA 1 (C (0x230345ee6bf4faf4272b41e55962671bfc8aba9c0e55a12223ca48e669443e62, 0xc0f2a4b4fe07bbae6ed0f835f188304f712d5e8e58ba9fa13eb544a03e9145) (0x228b515a17f28b89920873207477f8c7fc05582debaf3184febf1cfdedc5ce88, 0x12bb1156a9f6b360fcb2614e15d8a3ff07f2c699dc69ca830b20d2df91fe9cd3) (0x2b15dc62a5c9e36597914ddbbfde48806a8eabe45c8d3cccf9578ad08e058f92, 0x2a4fd764f52470e2fcfff325fb9692f55d6b8b077eefeaa04e07152b4d1fa94) (0x8126400647304478b03cbdf480efff3f3330ab58c9502d6b987a3c2c66d23f5, (-0xf731afde3518e383e0967f1857d369e9783b5dc0f4068001fca92b2716f4a86)) (0x11734b547610b98045902456bff65f2423fbe49a12542053b69c1394cb69c30, (-0x19522a0bd9f0178aa7a54534b1ff8cdd6a5856965ecb3db4fa376c89298467f4)) (0x72e437a8bfea7ceb9dfcbad8e5d6992858ccc787dc26e6d8c9c5d54e6107e86, 0x1171a6fc3db729dfb2b9c91697b7ca4c13796ac3c273f0fc52275beaac151bbc));
  OS;
  OA 1 (C (0x26384a633a260bbc39aa370490aea623288cee17a4fb49ea227251c3711ac1be, 0x282ace32b3afdf2c70ff43d12909faf3d76e38476ea85b92f9f96f2adfcafd79) (0x9edaf0698a8c56f51139588acc094cee3c37d427bb6d2eab830aae529097d1, 0x23ad66f3a7cca9dc75049635faebd124316244b91de5fb2764cd151572a905f7) (0x2700e8a29b7bb45f3022a18a07bdc66d0254559e17cce64e3b4ad21578fcf410, 0x1ad4f87d3b4375a39988ac099b042b1e7c0c715678e4c2bea8905f607cf950f8) (0xec746cfe0ec350aa293a4d220709fc6ae6811fba4dc89827cf7d308d51cfbbb, 0x135b59d26a4ccf9d9d54b8e88fb3911a37eb00e687ce9af60741bbaa12949ed2) (0x3f72bacea83a664c5a85e07cf0a1221b7b54a767eabf119761f9a3427c2d70e6, 0x32783e5cc0d5c2d00219c18974b8cd093d9b225bd8c0a91d78a1a3e617f4c06) (0xec60b2522647b345a45e4fa6c0042a96e9c0118111a47f642c2bd5a716bde33, (-0x28dbfd493155fe892f5bb7545192c97dbe395bafb71004107fdcba5b48b2a18e)));
  OS;
  OA 1 (C (0xfd79c3a59ef9347b03c79fbc9ef28683eca43009efb79f688bdc8271e5731fc, 0x27f06cc6bd78ceea183fe2f08b8285c5defa4668090b4da6523576d4864e0b5c) (0x1ace10298838161fdd3a6bb5dd157a808c19d4dac316bb5c001f68ee586f30b, 0x13f6762080e4a32b0d11bf75b55989e08b3be57060b4bd2148e9be49fc1ca587) (0xbc83eb241f95b562bfabecd0c21f1b335bdfb10d49ade6efa26ccef5dd4b570, 0x51d866c133978bdaf7b2ea418164cc0c60477b9364bf9acae265a87e861daf) (0x1b77e447395d8ea3e9c0cbe55dea428c28c85336e50426e5368b4483251d323a, (-0x6e637f1816d37d736e071057be1ed32fc444b3d22130ec432b54d884eab8a32)) (0x1a266c52815b2a77398eafbeb9e9104bb40ed253ac20de3bfc58e90439aad65d, 0x1bc6cf4af1924224dd942e41855442cf0f23946135ff517d3f498dc0e3e6586f) (0x44625ecba3cb2e273433fd376ea1ed64b747fecaf0c9a458ce08faf270276d8, 0xd50a5b00015d661e7af2952e7eca82a5330093cfe6cb7e6d09e0958f937be47));
  OS;
  OL 2;
  OD (C (0x94ff1987d19b62ccd852893796296e4d1ed330f67a6a9e31f6975b220642ea, 0x1e2f561324ef44479ddfd61d289b65a9b4254476fc23a674d089e9cfdefb1db8) (0x1b4b60273ae700a7e2ffc04e19e316074a5977c8da56b75675927e2eee23772e, 0x1687f985433b446b85eb6d0a574fc152f681c032d27e6207569faca9c8329b96) (0x1e7cf2fd8b4bc0d81e4719f009a5ecb7d925c970bc57889f3627d86629dc31d8, 0x24fb6baf4cf6d7ca7eaa668cda36d088502b3587667b6eb8f2b874622575e586) ((-0x93c63827e956e095c09ddb78824f2f6e62428d51d66cf2eb89492c764f054e6), 0x14a8937547eec07c38e26d7facbaef3b261a31ea00f2a6180c9f059eac454838) (0xb9e051671832130785cc09ba2535ee6886d1004bb34a8f21feca41fcd49298, 0x12d237115109410d89ba2cda036854450d2a2b0559ea75e3237d5564579f9c44) ((-0x731954b7563d6f64f48c68fa7718c71464e8b1d0e72f650d4b3a0252e962774), (-0xa2946a29dbfdef1619b231499ac886e6358e5cd7b38a3833f91e380c86e4f4d)));
  OD (C (0x16e9c4f4fa600e3b6c061bf10ca87f272b19ccacf616c4c6123f22beb856fd4c, 0x21bd26686de101ccb0d9366e58d0ef693073c35ba67a07e550fecbfc3168e38b) (0x486687755ad3e809546dbb3d53487dfada5d1130460685d9fa008b0854738c5, 0x99ece5fa385a639dff850e44c21126247b71082b0d94ced9990c4f783e78fc5) (0x1fa69c987c6371ff51704116523cbd21059e40d295eb0f4e2702ab556c5eff3e, 0xb6884e5d02665b86897c3c692d952ccc56cb84bc137759311bb2c2c86690cf) (0x148e44d357b49c8c7e10d7a88122a6ae9fb253af442453f473a01b49f608658, 0x2568d386dbee280616d3e2e5f8c388c1e09047c1e726c3bf5376eb609295f27c) (0x1ff340186f361afae90887c9dbd6e995a859dd67a64cecbdfec32a2c06d73ae1, 0xcac7081657503f965e2f25fb8dd00e09476e7311cc365d709ccde75bd5da448) (0x15fcf06dce7000f68a4087290aedb2acac057e75651843b1d5181ee16e7efcbf, (-0x1c79a391383c48a6f67275747c529c24b6eae98acb7e322f0e3b00bdecefdca)));
  OD (C (0x93b5d8be0f6817f03c15968cc91730a4ec4cb1d7ebcdd4f2a405cdb0696caf3, 0x22472d4a5b460e7860338bdaf819bc6db32347c0d8440fbc695972b95660b076) (0x2e46949ce9406d5b353ef50a877351cd76068e44ccd5a800697e69e3a85cc68, 0x8e8a65f03a6ae89c17963333b23d3b6c91af15797de53df20163c1ff2dfc9ea) (0xa3484977cd078268192b05209d86d6981a0c89bad8c9f5b68b2a7c18385be9b, 0x16fd2d2d4733a0658649c3cf8af764bfc902e9efd6a18801340b5e59aceb250d) (0x27b6c14a67f12f51dfdd642f58811d74f11296a1b0d83e24551146d09410bf14, (-0xf88cde57c685040a5ae701c67c4791e5f19c4691051358ad686218e485d1e20)) (0xd14263727d620b43a469a0b791251020411f970cfa8fcf22d259b14463d365e, 0x1684f8b59197123ed60dd7ea84d6edb0c7b6c708ca7376ea0b93050eb7c2eb01) (0x14ad603295f49d21d8b41e74d4ea410da958b7edbb935aa88eadb369f2449ea, 0x31494d670c45e187cdf1d42d4bfe6f11daae6c98917486c8726f9705ed4639));
  OD (C (0x13504fe0ee7ae2a5fe519865420ae26abd7a55db8cdce5c51e6e4bff0e527b45, 0x1e0936182b8f1860f569d45b3f6e9a41af4561a2d98c5e51f60c501e68656fd4) (0x14416a0c4a926e659f9d29d92273148027686dbaeaea5b96cc9a9757ddcbc40f, 0x12c6139524e72d33ed14c64e30c18cdd8b40ebac9b00a77a7a9d160d804e5b8a) (0x11a93c43ee3e9d090bb2137dfc50edcf84db6fb89275184da223f43570fdc7b, 0x186f0c17fa96a5540593f6edd276cc7dbdd08587a0c653d0451d040e59bd545a) (0x1bd2ed093af6ed876e962473188eac492add2fe5b1876c8b9e87b639652632d6, 0xffd7632deaaf585b1ef0818c191644f51b0a0583dcfc69cff78ff52e3a8a382) (0x17f9b36fa287f4ffbf50d24a44b85139ab042f38ba4a3cd64342a2a60784f1cf, 0xaef3b805572fb6a0566278e6ba1c8bfc68f78cc850119cdd16272bd71a8141f) ((-0xeb6dd280f07faf164361bf0246f8f8da7d1118b213eea0047b4524ad2e46a6e), 0xce8fa76e01e93c5468c5571258af513966b674f072b2c74b2d663f5920ba04));
  OD (C (0x4193b978a7fad06cb82383cb640eb0cb48afaa5a8d692f4baee39ec66930b6a, 0x21c9dfcffedb5c2ca2d3e32fa344df5b9be2aeba89da8bb71dab017e11950457) (0x16d069429acc592710c6e992f2d47f7684e2472b9509a5207f6c6bfa1ed8bf7c, 0xf06869a816d4fbf9d2e099ff8ae50aa0d29bb419366978649a6b20448da1974) (0x1abbee460a1824988553e8a0eb6f6bf93243dcf55c6af34e75a526d222420d02, 0x129d2af0b2ffdfb3cbbbdc6ec0bc5c930ac2264b07a95a8d112fee282435e4a7) ((-0x2978044cff2fa95410ca9aac503e1d8ed52d3411877ef049fcd5754d33ae718e), 0x2584e1a728e5cdf1b69302a395f5deda2d9bc9bb6127fd087d127d05c43d4c81) (0x5b9359c6819970d828121852368a77863637d0a17eac7b45d74a50a645d92fe, 0x173eba3b54c97b79eb4316aee624fe1732e0e516cb283ffad13459413bdc7833) ((-0x178117a2b5d7b9ff30261804ecaa3a942660ab9f2f40182aaa6513402c24234), 0x2d5761915aa63e07951c4069a5c759f7108103582d62ec7bf36888d719b6e0d));
  OD (C (0xf94489cba438a99bb8b60e345ffd817bbfdbc349861a949b68ca3d1dbd90056, 0x1de722ff4ebe811a462d78919fc0af9347db99539f4c8a17943c2d70916a6c05) (0x1c03597ce6e106a4588bf990d8ac6bbeec69ffc9aee644431d9538cefab72756, 0x2d40274d5d286ad62cdbe92853c7d10cbe8e828085be2fa7fc353414f521f96e) (0x1673a954831f5bf1381face112195b64fc22b7098c1caced6b89a04f6d03c628, 0x105ada3a5526ab12ef393457ed36d42b6db5e3bb890a8f03c8f82556165c9736) (0x285cd045b42d4fd7122a903fe28c9ef71d2bb77348831f5bd2e19e5d631d998, 0x180fc00aedec79c059cdc5c5cc6c597e02fa311713a2beced0fdcc2f468b11e2) (0x1340fad877cfe55dd216f9a2c1c09141aa1a1a1f147f450eafebb2d3c4e7b982, 0xd765f3703a03313186d0a6186250d15abc2cdef5bcf84bfadb05ed5cd28eda9) ((-0xcf17a21be98a28c55afde7f44fa2a8b3d62eac317ac0ad1f68fd51f6fe60058), (-0x1100d99205ebfd16fcda5e8440e67d99d7ec7884aa0faface78c6bfd7d6520e5)));
  OD (C (0x157a611bd4144238ed43bd22fab7f40758f5f074d5f895c994d06ba36aca91a0, 0x12cd47e69c4b337141c5d5e1ed439a0013eca5959622061abfb4c3022207acae) (0xdf14849bdacd7c7929d91a3a6b789ee089ff7e3b233541e97e333fb068059a4, 0x174418c455057d27d243e72d1514ef5def3f707d18362238e0556a8c33e45b53) (0x3be939b175be71fca8445ef160401ef2ad9ee28788c129a65e33a1b8b719cd9, 0x11fa50cd0ea2c8567cfcb1921d850d7c207b992e4535354e0b902d462ef319f6) ((-0x7d342aa794a7779e81ce9d76c8d71cd826bb7a847b21d964e0408c8caa218d68), (-0x55831b16fe9152cb85c39fe239a7458ed994b10570302fb61fc173b86e67ea88)) (0x10b09df01b683ae35a9a42cf3ee660a8cb02a432f8fa60a56b605e11490f2150, (-0x23a4176d754766c8e38a7bffb7edef3a646c5d4825f27888e02266174a61e3d)) (0xf39763dd313db537541ae7a38d30a47d537cb81c5bddd15f1ea088ebef142cd, 0x24bf6f311c91f85226659afa51069305850d5d5f21286d49022d95e88b037a2));
  OA 2 (C (0xff34c908c98ce6361e74c6f5a515eefa2edf46afcc69b2416a1311dde92491e, 0x1ccd292b4b9f92f20b536c7b0577fee44d93f393f9c916cdfaf7fa18a789c571) (0x2b7a4837f38fee9fcd1de3cc54f51b767e603b9bf45e2667156707fa9fdd2ddf, 0xcf1c7f2b949e98c97cce021c58ccd674d81e1881422c10002306e4d13177399) (0x27e271af689b8c3110520feaaab91b2e6983688c74267106544a7470aeb75d0c, 0x29f1a4c51e817f84613548a4b82e73f9b2b9b548aa0546943d9b42cbae450b74) ((-0x4692875b5df57be64aacfa414b82a1426a009dcc95e75e63691c4d12b428e14), (-0xaf75109ab893fbcdec153d0d7047b0795e838fde64e4f764a49f7596123e51b)) (0x12fc85bf4709e23c3084fe25ee365f45bd71c1521f3290b60858cc23b65913ec, 0xbe26619e12c8f1eacd8f6b5c006472a5964b2ae045a0aca1fca501955c3bca4) ((-0xe2d280a32f91e5bb0940256a09dea15d6ef953d0c8bec699d2b2d55f9f9bbbc), 0xfe0cde961608fe087867ae70bf185c543b5b7ea6ddab016af167d39f775f096));
  OD (C (0x239ff9efd6130c9e37fcdd5961e7e1bd14b142c69aeafcfdd4c210b63bf214e3, 0x1dde233798dc7afaca57d035d7ba535139b40d19675d27709958efffa620481) (0xe7542c6e8f7b73f1bc7815249cb39abdf969f7a5943ebf0758395ab37052413, 0x2109bd2b4b0f4d6705bebcd1d23ff6b83d8644e42fcd6301cb6faf2fd8065155) (0x201d9d6213ec90fddfe21eac39fd01fb492a1feb64d7e7986054e4ac4780fb94, 0x292fb5438f78729a9a9df0709b476d1bcbcdef71a4bae53755bfbf252e4cdf4a) ((-0x4f2461b7f27abe2c6013c312ead0842fe20b4fab8191804155ec8cb44732056), 0x334fd64e6425eb9308c0891699bf15521d6d938af4cd1d58fd32d42cd50d1b70) (0x2bf9cf16eb4928dd379ef14832223574bff697ac0fdd98b8f349cb90e92f9e3, (-0x1a277995643b1aa3dc10bfca74cc457d9e60633467f720d1805d3eb7d506d439)) ((-0xdac4834f0988e3e1172f0170e093575078adf3365bf8bf43d98afb375646938), (-0x16237facbd0ef881b33333df49e149f20490e23dbabee2556424368c5d458db2)));
  OD (C (0xbb0242a4acdc8b2a32bc47884dcdbd463284021bf35ffcabfdc074db0ac73bc, 0xf825fda1e0b6c6591112e9fc81072f113f6099aeb8c995c5a39d6e9071b3315) (0x29c8317e355d4539d94927a4b6fb66ba822f96d987ac3a96b737d195c099bec9, 0x1c69a84b38d11c5a4480dec3323c9cebc3007397f19821a32d7981ae53fef936) (0x17494a84bd7c4ba38731d3a623017dab737213e141bac8e61d25563f16658195, 0x40b0a7ac440c675fbe0bd4241b3c9883330b0dd94aed737f671e693d452cb6c) ((-0x12be5aab26330b68ef6029f9f0dc4082bf72ec77f92c935ddf1a9d5acb8ee10e), (-0x2bd272ca8d2e0499e93bb8c144a9897c41b972b18f7cf18437c32c3f007296f4)) (0x77deccb3b298a3515d7297590b57c29250570ca28780ee87da0b38b067f234f, 0x225ca2bd4504764087457405c9ab5e0a830b840420b93609eb61a6572d4806f) ((-0x7a3d761810c71e54e193fbf563f980f72637216e49a486bd51e0fe94e708e95), 0x814f91f8bfc72f00959a9b15e8ba67b9b44e9fc141f0969c0fcd24c7f8f6a1b));
  OD (C (0x2398a0233f341becdb37755cdaa1b87d3954be770970fa4a9c13e85b6a7e8fca, 0x152f90c3ee2f4be6e0d3d57d5dcc41d4b8302d723b68205222903f142a22d61f) (0x29a2fb7f2f067a2806905edbf1eb883bb8fc466fe246a9f1b4ca029af9bce6ae, 0x7eb841c59b0f93336d9fa435809bf930f005181eab00c740e6133eb1329f0f3) (0x362590d8cdb1d559facd7c834f9928ee94d2ed51eb444235e88442b10e883aa, 0x2625747ec17ab04d979f3d7d1293e6c861501688bc426f21841a6d2f996cd8d5) ((-0x78da859217a78cf5b5c7c3c9d60e09a48920ff417956a440e737b2682af66832), 0x1b75e6da4c348a773c6756f2c464936eb1d8da1d035f358a543c82a2d1be20dd) (0x1f2af69c9c8f036dc63016371b96d842c3a318edd5223c69c4e9911a650ac9f4, (-0x10e8ab5635a9e47079fb610d321e837bc2bc8cb119dcc5409ec33344cbb8a9ee)) (0xf234328d56b9814d6540461b580341b3ffd4bf6de48ef6c3e31f233495de8fc, 0x8dd5fc5c7a9a345dbef118781b7758351ad831247ed87e31f191c04205d6f02));
  OA 0 (C (0x2208f20915724d4d6df91d6f7c9032bbc6e2e38bbc79ab3d32ebb30377ef6411, 0x264d985979a3e1d0e1e46b914482731c18a0caabb01950137d3ba1553de9cd91) (0x1e9a65223d9fad4e6c746de74bb4c8288c4a5f49b82e2856fd044f5656ddd82b, 0x20ec735be167557b6cc15eeb99f54d242f1b69f379231959e4f0437bdf517dac) (0x2b068791651770860e79db7d4353565e029c41eb0d7704fce6d2667753e6e39a, 0x1c2bb1e6a29b577f677ff464f8aa9019ac4a5ff6cc04165920d88376cbcd8b3c) ((-0x16a666717dc6c293e833ac1fcade1ad39e216815bcce0bf34186b950ab8d4a5), 0x180a1eec8440793f458c6355ed4f0957880fb48fbff0c6128b98989465d04e87) (0x35e0f1f2941c30ce73a583c0e4f1dc612ce6ee259287ba80be219808b5fdb6a1, 0x661563a480bef0d986392875b01ef3a4e656b430ffd216e2a6265fe9ecca0ec) ((-0x8da302cfef293ccad5c5871e4d9c7b487c4c1b4a238774b1aae5d078845fdd6), (-0x1b8d0ef051f5560cc89f7b753ea5834b0469e68bfa367767f9af890a0d5dcd8b)));
  OD (C (0x1c3916f58d5525f0271daf718d9fcec78bbb999718a45642a77944ef1d3d4803, 0x2894b882680624a5fc7b64794507cc1f7f615e3a93205402e79056a0f0fef6f0) (0xc808509145220b5123c0da0adad267a8538df0cfde903947b565554b07c57c9, 0xb4c044c367c188630b7b4c886f88810019eb25eab98ba8d5cba11b82088b61b) (0x736d1e9f40dae12d02e538ab746e1b2126ac8f237e8b2bda05929aba02fabca, 0x26ca0c339346b10d4f8a70ff0f3d659603cb78a8fe98f3271f7183498db84f09) ((-0x13e7ae0548b145e2545cdd442b94b5ac4627ef81166d140977625a22fa93d350), (-0xc13fc383ec7891727ed161baf905aa3f1e2082bbba7db3081389486a91d8957)) (0x2f55c9df47ada91aa5433f681c28029d724dd6411e8b0105961116e521f58ef7, 0x11921491425095c376061aee35800c2da73496be54205c5f8611b2241d2b765c) (0x1bcae05742e29e8166d84a488a5f53ff44f3b5e7fae42aaebe4106d631ce6ad9, 0x7943db071aa668202466d5e3d73710acf9e1516fb0cf793c78a337fbcf4b7d3));
  OD (C (0x2ce5ce19b5841d42e2635a194d0df81c947d263760f6fd6152f1304fb19ed852, 0x1b4124d6fefd86217f9af4234be61cb8af2eb1b89e25655c38719cad4f2a2341) (0x15981c04765f398a2889384f5ff1a15bf3133c5d136a4bde516ff145545fc287, 0x7d63e680e4177cf1929e28e9aeed397f2d2fda3b7eb33f862868818d6c59f76) (0x2e4cb239daec1b2a0f20da2f15792fde86372d95441d631b273adcab08c4bc1, 0x126c31a03c523d1731ec17e53a9f655c691636d101b5192b785c35db42753878) (0x3e9772a6e50e86aab608f7e5d6ca537dc04a0229d06585b503eac376cf4b98aa, 0x2015822ec6194aa203e3a1bf8fdb3ab041bed6e2fbf54a2732fdcb01e947865e) (0x3292b6dc475363c8a372062607ef0bd6b862ba84bf34643c3533eab51c27099d, (-0x1a4e5604957c9807dbbb78739bea27a1d9ccce7b180411dc429edf3fd7b63099)) ((-0x1e917a71abb1ea2e623ce45e529d56608a32266938d15a53b92a9b92efdf119), 0xa626578d98b0695460e8a81499965ca6d95c37188a1f9014d4cadc3452695c0));
  OD (C (0x193e3b93617eb012edc71ea26b5caf5e710c116a929737181edb7ddd95a5dcd0, 0xb28fb3f5edbdd5c5cf49765c0000a695fa3457863f4b92adbc1ffd91de089d3) (0xc541e3f7089388f377d3a1de18f595414cfc32d56bbeb4e9893d2ef767e2c0c, 0xdfcd57c6da7f389e36a866b8a07da254c062e52869a98a89613e9726cdfaaf8) (0x22f4a472161f45ce8d6e015af6ad488a9070e0434773943fa9cde50525ceab6f, 0x20211d334b3ec23b8a5daa96e08f3317d713b30bc46009648bc2c6e54857d6d0) ((-0x6d8f4c9cda12ec47e41fecc4e0a460f0964ee16f8c6c5f4b2df7b02b01731a), 0x1e943f82aff3a9e11d826202f46e6f3452cee6061d9ea9b985a8d9ac8a365c31) (0xba4a1479f99a14cbdc99222a0e8c0f4984873306ae969c7c00929a098572f0a, (-0xa98151cfa731e0ed03cf6ac807f820110ed62bb70bd7b44459be0a227916aad)) ((-0x112578e3bc855b26f29a27e41de9cc30698479e6dd873c2bf10c91c4f653999), (-0x64074a2e0e24a010874ec9d28d63ab6a3acf77b7e0c4161a2032acae8ed36b2)));
  OD (C (0x11c2751f5c58000fd381c07195041bedf1f40790729054b686d34a1f1db33f21, 0x265bc696ca35c5d6f46cd097c6677327a6962c90ea4a3c8bd982af3bf4edc5e0) (0xb07101e24e0c781fee68d02b1a020632e0d24855d9e26908e4e0194cddfd970, 0x765f3eafcc6f51500af58a91bb0132f5275505f511247906fa9f3c40f11a62c) (0x14fcbd786e7c1176cacf5941dbdcd93389cb115b86934393453296c44424a6fd, 0x2653c306b7f545a48f986840d9021502f02acad890b2a78b8941b1c7121a42bb) (0x399e11aef8c6795bdb2b118f6b665612cdf21b42666daa90984aaa12c7bcaae0, 0x1692633d77d6a8381c7bd701c5e8ce03a74e3c27369c004b826506159890361e) (0x1c27a27604489425e29e413a409bce63c74856360ee27e3d66f81ce1b45d9808, 0x17e342a8dce6678002ce30934db896071844447a502ebb9cf8019a883a20b2c5) (0x3731460a210a6ff399182a77035990a8cf82966acd8f5b716fffb209f2238a0, 0x4bee6cde07613bdebf44fd8e8c56d1e6ad3921b179728f19f625f68c23446df));
  OD (C (0x5e7dd74df4847cbc2a6a268f4c6e9c84ae046e2ef278576f707d5158c7be20f, 0x2bbbe0fdf834d2dd34eed269d19dc3a57d9d267ee93248bd98aaecc4c2c2af73) (0x1fa4f03bf092e575ae552663598bbf011d5c50edd2094f2b791a19d786bfb73a, 0x18665d717cae9a85b7488e5c0f4ded8bfec1079bafbb10c9923833e26900d632) (0x27c0d73f77f2c8e6bf326c5c9c99ec16f0c1e40204f290b0e295542ad8bafb2b, 0x2441dc8f6811838c3d9e3fd44cc77fbc14cd086cf86db4d1d6e6f3e878e1678c) (0x252c73c8227d53bc5998d39a9b131980da75148db17eb3447302d28b1f6c8e88, 0x444c9d3fd489de40c5898579f2a69c69f7b4d8afc80fc11e8c99b84d0f0fbbf4) (0xaacaee2f9aab11108b1c46be0ad2bac0b6e33ce3489e85d7cd8eccf762373a0, 0x26cdb853d6db5b0535a69473078d51b56dd8a5bb02edf394815ba13e3596a6d2) ((-0x14b5063cbdf4bee413b34662741dc66922bb0207553d04fab20df0c645b9f7c0), (-0xcd95d158146da9cbc1f76ffce120852ffc61cd10f91567b5a32570b6f8c4045)));
  OD (C (0x305ca1bb937ecfff996b7700242bdd10b2df558722e95c52ffb667ba0a91d6f4, 0x65f588b2a7f4a1edbc98f0f080a5d5a804e65ed845495a5da69500274f4d6c) (0x2dfa56b88b35ad883726ebe7854272af137430fb4b7027a7346b01a722123a3b, 0xbf92f2cead2f009578d782940ba1b129972256d0410325c0842ec5e7de86cfc) (0x242dcba80e92d5f2a75626f72669ed1f8812d7df31c23a410bba7a4c865bf890, 0x11918e4977e3f0365ec25e00b80261791fcd92e14d6d8fb68cd69fe9868e8f08) ((-0x169bedfccfe62a4432009bc3c2b1a148c1faeabc72d08327fc5859feacd4aeb0), (-0x35b0c2e272682a9bc44ad0e31d63cf753b65584ff492d5b35cbec5ff70d65c88)) (0xcbcaba481069f39c979a6cbad200ca2b255e69e37386f0160bd5e7c83b0dc7, (-0x30541f69418b91b6a23f036ee0bfd78fb4c3b75c2661745df0f77889f1ad80a0)) (0xc4d028282cf22caba4a6ee5da8a41bdb67612758b4b869236397c2acf5d6ba7, 0xe6d4f2083b9a611cd5e3233a99a87b642907a938f4aefe2a03d633511d3ad98));
  OD (C (0x301d4eeb9fcfb9d80dedb8cceb1cddd4c71c3effe5dd606ec21e1b15d1fc32c7, 0x12d1d385a1457adbb37046883993e1355a46e90b522330dd90919ba6b0d79aaf) (0x2e0b21d8ed2de1bf31f3ec20f948b7db62d58da0dfa5547144f478edd0106bdb, 0xb59dc4c8bcaf4cfb6ade947ddc9cadac7f47e17eac6dd4ce8748e478a12ebb1) (0x226a5cfe34b49c3a3e2bccbbf6e507ed39edf7bee53c98444580185e5802fad7, 0x26f1b9d000b4a65653a56b52178d055bc7c6bd4972fdd35143633efc87f916d2) ((-0x52e4b49558fcd7b1814e53cd9aaf620ff73c9f03a34b760f2a1d6c372beb998), 0x3fe3277b1f663c1f9d52775757e2957928a0ca5f6d6ac2ede1d272d4a3576a7d) (0x256c6e13ca1ff57ec39f32a74f268525317eae4ea65bed63fa8e7a7eb7acc6b7, (-0x28850f19ecaabbfbd3cc3601863f8199e2379c0664913c0aab8d021d5f1039ff)) (0x97e1306f9e53cd0c453265693f1118136d1539864214f634b0a0989248274a, 0x4ea88cc5bdb1850de3504a266096bb2c1fc2e67b4ca982058997d16aea7d5d));
  OA 5 (C (0xbfc9fb73e50fbd778b96be7d317396286cb0a3cd50b4179f29ae2ade0b2c359, 0x12001bf5ae1ab8dea51578b229042ae7249f4d0abd44fa5cad933599eae32608) (0x306340ef696ff6354e786988f07fdeb7daa807e87aff24039cabb78fa2a63118, 0x15715f2e131fa70ab12514a1c78d0957854f866587b257d8cc2d5dfef4f6bdc9) (0x2b412250cf5cf4e4ed138837c07b673cf7eab3ab4a4bea2af138a53abeae2a18, 0x196f90bece011b7bafcdac451209c11b00ab5aa802e7cad11c8c192de1f03364) ((-0x8bf8d13ab844a259051dfce4de84f065fc3851bc217f96ce8f40dafc4b9b3ec), 0xf648be2236a91540bee668c519002b5a0ab3b963962f63d44f362bf1c253ea2) (0x8eae3296286946be23052da5e47554f1ca68f5cea582cb67815b6ff2a62df16, 0x3b9fb5284a38fdffc546f31479f08680e9463ac9e2b0235d09a2a19abd24060) ((-0x35f2c3e50c944df9c85d1db62d322e1ec2cd8fc6ebfcecc80baaaec83d812d9), (-0x32c57d445fa1819da5df8bc7c5ad05ae3d613b2b516d2e5665a8f7f6a020cb7)));
  OD (C (0x2ad34b84cf236603e0cfd86727ac4819dfdb83cd0de9f7d645d73ba0a1600dde, 0xf7cc11799d8b072cd54051266519ca1fadecfcfb3a80caada2280dff7be6333) (0x2008d29df7efd2ecc2ab510706a37870bf39cb6e8b7c690023c3d7a190c5fcdb, 0x426c70c4a8a04d7f6473930dfb8e6c312c76622a3031f566df6b1241fc546fb) (0x2b5902eb6d1dd9f93999f0cb6f7a867bd66294e68a97de8c34581078536e6e8c, 0x1df10c8b1265bd310337fd1e28d0c329eb85d7a72c6194c31869820c2597cc80) ((-0x37f0a482ad7fe9273ca21b62f80dfac1836f0b84e902113854fd4df112df0f70), 0x385e8b1fb9940c560cc1c7b74bc64bdec443605e4f6f7bd6df1ce637a1c412d3) (0x1b696315d7de2899bf7cce31e0311ce7e4dfe889f8de90b2157b7620a9a6f9cf, (-0x20f1521760473f137aa92650dc67ed717200c902f0d4a19bc5c422a76d33a9d8)) (0x14893bf661a5d8f9f0300817d9737a2079d67fda5ea15b5171ed196874705b21, (-0x8f02efbd812cd7652e04133e08c12c53557531b1e85aab1c4017c1866d0c940)));
  OD (C (0x30083da4fec37f0343ebd035b482393a3d0e018da12e5cece95e1fe316c7d5f9, 0x1bd7f490ebe65f0dd269ef0ebad1bc53f047899daabfd95c2097a7e2e24e581f) (0x1ce2ca6b540f35a431a62c4b409069f9e0c56a855d9e733217d3cb19191177aa, 0x1ce8dba95cd99a3921e338f7ffd7dd09d2090b2c86407a954ee702fc98b98be2) (0x1d87ceb41f92ccea08ec6f33cb88e17b992b89644ff505ce36c8b59b8a62f40c, 0x28c2cd3fc98a30595042bb427c1397f3ebd186784894e993c040c25183d5455b) (0x5cd4e294f38ad637b7e5f9d02fc06cb3aaf14633bc9bf9bacdeaab1a8ea2e1de, 0xaf45aa0252029140b7e7fdb8c59e3620075f4b93e1b35138db72b918e0a2258) (0x3745f7340414ac9002d6020ab944c5c60e45ddfd97b1a1f8002a33bdccfb66a2, (-0x1fa797bfcbe96f6eebec77559cfaafd2af47b9bbd4f790adb91aa37658ab5f78)) ((-0x16c33489bd8c18fa1d89a26dde4d2005f61251f984ef2b6db9f1a936a5aa9fe8), (-0x115ed504609da7217e546a9b25cca80733c66afb0038f3a67c8fd204ff2cab1b)));
  OA 2 (C (0x1ee4e1f9ff8fc7ce0d5a530d5ce373121fff6d3b131cae4218f350ed69610b61, 0xf45f23ee46220f38879912677568aa3428153d5e7d14fd159b24ad16846755a) (0xe8a51d0e82597ffa1ec2abf073147e7e6b765366458ed2289c1585abf65a99a, 0x1156c074e3632f6a1c4d89d5ba35f6d6fc8751261934f89dd1cbc5f38dc77fc5) (0x1a70c61f85f8da7d87768082706274b027ef9a2c6fe502b476b336f94619d755, 0x70975ae2af3602137829a26ea197e938b1ec9d1d40fee7518e8426513465352) ((-0x12a6e12f94ad725392b2bd3217e5892bef817afb6dbd8d229854869c1f5f1163), 0xf3e16d54e510ab11d7d92b5f81bd78d41144e242e7b7ed3f8463d0f25a1851) (0x138056874ce3eca44e50704ff53e3efa454eead59582c32f2db42b5248af7bbd, (-0xee71c0a95c2c39f2a432e58f54c2b31f8268b88ee461be364d2b949138ad7ff)) (0xbea24ce9aefc9647467dbadb0ee431698fa8164fe1d7e3c6c929a59db887fe4, (-0x581ac686fba99485885600e4ba8f5943a99807cdd1fe41352f2d2693121d39d)));
  OD (C (0x2053af283ba32e7f7a74530fa91d0b0444045ee2e6cc7a3201ca32b2977e92df, 0x6b4b58f2ab38012eab2e0cc6fec8b3632b807c9db722c968529e368003af6cd) (0x2f090387427e9358823d7ac4381e8fcd78421e896a4263d9a59c66b99ebca8fe, 0xeb22c7819e47cde3ca012f112bd8192e9b2aa57ce4fcbffc84c66fd739ce93c) (0x15aa72cf03a2a6c021c17f0cd0e4bf1eead621017e85d0137e32c3ca2fb5bba1, 0x25c70f53f24456c06186493e8e60fca0db12c5502cd753e84f23de53a144149c) ((-0xe877aed33b03bc0a662711903a313f7860ec19e9a85334e773195ae55389082), (-0x26e806f430110bef6f23de823ceebf941741ed53170d6385306412b2cd5f87d7)) (0x8f59afc41b3f19d909bb166d97c90917db416f9183562ec327996f2bc12d16c, (-0x14aa7626736adaa3234d18ea9d810d41c645173c667a797c68aab0dce0ad1932)) ((-0x2bccae28951135d3d5fc9232276c4bdf095ded1c09f495b2a2c138d79932d35), 0x1612d7cab0011183ae81c23fe4a832a47593d66326b6a0cc4ad24d3c52c2ac85));
  OD (C (0x28ca0fc38100be6ce54bd0e921755d7f2e5ed557b8d429b2694dcd9ec5dc015e, 0x14365710109ff118a345da165af18e0317da3fbe2af6a55e8b48645c53d17dc1) (0xc19c14e9a911800da830ae7daa67b232149acfbd1159f4a1a15634c4e66252a, 0xcda9929fa654a9ef52b806e87a81f947f3991f0d46365412a53e1066a83acd) (0xafd439d4923e309902a671c39cac171866ffc6f6e299842833c00b3bd320305, 0x23ce8acd869aeb71e0a24eaff4af2bf32115c4859c868a2b758f2492d0a770) ((-0x3eb8cd26f0cf860997dee9f6d11a6a2acfb25d5569b7887ea48dee933a71c32), 0x76cb6f688036a210b4c5f8fe51ccfa25d24da7fe5641185014a0992509bc6468) (0x2212de149efb75702c084269ed77e512f9a7562cc7326284e57e5e2c585429ba, (-0x19f05cfce9dc2455ebc82f75903b1ab2d2ea749dfc8a6d2896443f63adb92178)) (0x1a4d2fa09a61748757d97da6c8ee1bd05f33093af499179f8ff0b5858a847490, (-0x17a4c2d45daf0366ba47c3dd56352b319ace8b177f3497cdc345009dc18689a3)));
  OD (C (0xd0b99eb7689a2c5491b556ea3d2f02ccb0c011c304b40779553b259c81c941a, 0xfd92b66d46356918cad506160a04c23eb61e7f9ff1a36223af86603d393e423) (0x2ad4c2e1f864204f684e943c098bfd468ef035f3122718a157273413ab5bcf50, 0x1481886364d864a021df926cd1c5a47d8040e69e2cec3db2afde85b913a6435b) (0xf15c3a4e57f243ca9cd5d70638a2436d0153f5a6a23c7ff835443b365a52113, 0x23583a6f209fa25567b94c125db6c4e0830f351635f8fc301d3791c0ba265a9d) (0x6116e8c26b73ca54bb7b1d9e39783043efab79769fe3fbfe4dd13dd36aed81e, 0x33441008d555174f9d9ad829506ec675a264646ab75c2e2e5992226875ba84b) (0x88b70395d20c11b367ec85fe1eb234cf084ba0f5179a9d5ab47d89fe9bf7ac8, 0x1ac7182c9b4a7fd77af83991c339721795976ac09f4fae851ee2c008769bd50) ((-0xf6027a9c71154cda08fd66f8a3fdfb8bd755887a8e116504b0257b9c549df9a), 0x1d4e55b0b43c9caabfbe13559a90d132ba12475ade1ebe4b56984d8148c50f3));
  OD (C (0xc9d2a204e1fe9148d241024386dd7281a82b89844a1970d81b583af46b917db, 0xafb98732f71874e9492490951adbd9952eccc462fcf146eaf00b1e9f1ec7ee4) (0x24b208da5059dac7cc8738af0d58ec9c8e89c4abad45f042710ae0c61db061e9, 0x148b6422758539963a92ed16da3489cd568c41563ea4d69d9647f3346f35fee9) (0x13dc9c4a5a300531429d5e644b6c37f268f61ad07cf3a202390103a6a930da68, 0x1a58d2c160e18d78448ccf7db91770b414f5217d4e27e433717995661d67a422) ((-0x539fe1102644de3601eba4aeef3e79437bd6a2e7541bf94dbbd72ee0dda15f86), 0x5fd6cb7bdf412b16af9bb5db23831c045b573604c5ef2d98f7c9a220034b318d) (0x5b9c102f367fc0bc0b9b1150029c5132de2be62df1c960c11ec3633dc544d79, (-0xcb9d38a0a785c9f9bdf1ffa298082bfb317b619c54cdfee70aba435969f4d8)) (0x161ea5e89df457d0f7410a084d14912c592aedd1fb493800b7b192384eea781, (-0x19baaaa157b67efe9b050c729de515e90635d8fc1225968815a10d39c0cea0c)));
  OD (C (0x11e34544476ce8e1c44877938cb70a1dfbd9f96c034953c19d3baf82c428b40a, 0x82ad43a4aa63617961c634b868b35c0ff5602154bb0c995dec321a5dfc2e155) (0x276cab58c07725d4ebe7623d669b033163c268ace4b10c0524c6a55f45517692, 0x164cdbf760925cfbfdeb8f10ee271a0235bcedea532c89eb9f073afdb1a816d9) (0x43b4a04d2df3b6280a19aef785cebc64a2bfee8c560c51f641ed19c142c5d0, 0x26bc443a65a06f163a73584b2e9e55d81b07a2d4554a0e5efaf6554ef348e772) ((-0x434a73cbddb5c1e31e8c990e16768f71efd29782b4959defc7efcdb554f9e2e2), 0x33859d9e5ea3d0d9ca268a16c698325b066b4f2e3e99b1437916ed2e350131ec) (0x609ba30d2fcd990d419c3b2de7cf64cc4ffecbb769b76b7922c36d48d8cf5c0, (-0x53bd300156dc1d4c498a9a0610666a72bbdbdde1d5f7577ffe73e04d7db3d7a)) ((-0x11c0e1bf437786f26d1e46ae2d705319059e5ed565f9a061df2471f08f44c23), 0xb6634a2eb808d181505788ec7dc4d845b70c304bcf67b75d0b82a9997dbbfa));
  OA 4 (C (0x15f685937a2a14acf8c184a4d987a14849f89b58c2754639b08f26d9e2170e51, 0x2aa956532ea8f8ef6d69ff8f0d32dd6e603ca59241277c25f92147bdbbef9ac8) (0x1b116cba32cedbb0e6afc2ac5eb2cb571144279ea9a8c9a01d3ffb707edf5076, 0x22c46149d7639164abb5064caad3205ecaebc60ca2509ac79d209e34ac44ad4d) (0x2b8072f973cad8e671ccaaee748891f264d4bf36ceac7a16c4d6f21a86397b78, 0x1f0c7f10241727bc753e2d99070dc9e7c290b707941cd6879f0d794d39e36f37) (0x6d8a6c2b6bb623f0bf91f018766352e882ffb8e85ffc76331a60687e7de49d9, 0x9da99e080546d4166168436286d706eee8762d5caeb2a000abbbd030ca88008) (0x26b9745c612a7ff3b5777b59476fc18486152b3a7bb3de765e3617b25fa38cb5, 0x1ba4421a46708adf4f56a2935ed91eb5620b9dcd544c82fe6d7d78ea03fe4987) (0x53c2c1fb3d58fa0257149819e58d6589e7097e6352dd966ae203178506c28fc, (-0x1099418e609513d6b87e8c5082a1fd01de8a12d1b623ed2cbe150f3c55f25d33)));
  OD (C (0x25d49ff63a83e53bbae1df01780d48c6b23d5f2c756f26eacdb4d0d4e275577c, 0x1413a17b613ce2d565d3ccc7e2b09e594ab84ecbaa506a1a3d0b196224f06c7b) (0x4cbaab0ccc3a0eeb4447108c072628010271736a0ff3389bd4ba11514989df7, 0x109e2df14b4e87dc46aa8635fa5b7b791236038343cdfdd86e3611422dfca3e8) (0x26359e46a919c92c41fd62b65931ae1b7116678c85eafd26df4d0351ba9980e8, 0xd65cec7a1ab89e807cad61e7b47bbbcc93f10c4e0a279f591d5b978f291a11e) ((-0x200a96fefd881eb6f57556bc61f896b883059be58cdc55318affff45548a76c4), (-0x47c41fc9f877ec1d8b6751c5984219fefeebc214c34dec81438731610a40bb23)) (0x1f63de2475069b0970a56dd8eadc3dc46f107af81b754c28a61e0a0ac6612a13, (-0x153eb08c0bcc8398932e5dd07da7b8cbfb927991b7deea798ad86d67c216fd3f)) (0x176db94a3b12cb66a8e9405e73f73631a8fde9c2d3f6a88790f445eda30b9567, (-0x9e1c67837bcb1a1fbc2a3b00383081eac61858b40dbe96233c028241016971e)));
  OD (C (0x151c23d03a94dc8d3d552eceab1e2cb9e3374dc05aa69f8234ea21d7ca6f1462, 0x14a3c531ade9d0a9db6535ad0423361454b0d04cc2a3abb7c9bc1dfbf23f462f) (0x2d8d652fded7b5fb13e2e58a5f4ccc63c81c084a73b75b673c24efe73e5a0bb3, 0x972964dd72c5f7cdb6e22b642a9d7f886998aa3a93d5badce98288aa3b8be89) (0x21e0b07758fbf6c0d96f61be749826bcd676f080125d9bb4b1b35bdf6e9f9306, 0x33adda0912d7e6d17f67461ea7e71acdde20d371a4052d296afab5f65678ee6) (0x2266d3e918fd8912bd5fe44eb94cb90f93a2fb10f5e8cceda574147a9f46e028, (-0x259a0cfd0254ba675ccc52a7751347f6224cf18152b4b2165a0fc9fd0b67e2cf)) (0x1201de6b42f358970357a7b8d034835166cecb35eef769cbc32ee3aafed2724d, (-0x67d90fa54556383bead5e96a4598c46f429b605b523bfdb7066ff0d36874e4)) ((-0xe41610e1e3ae828fde79c4bf15f9fc06f5505c881cc0e33e86c0fd228d51a4c), 0x14d6664b1c87ec7b9136ed9b5c86230378a01ffd8ce21c5d13fd8be03de062f3));
  OD (C (0x368e780f5bb195cf7bb5d2b21c2dd52433fc8d993aadf3620e964bf0938ed1e, 0x1f969f6ef50f49f904100af4183454c39094aee0f9b024fd0838032443b17d81) (0x21171342961cffcd37c90e0439492e4d2d7d673a1fc6f5b7ec19137f03b39581, 0x2d78c87d64b15544b065f2cdcefb79f424efc1d0e26e4a04c0dd2d1bf7df619c) (0x2633df0afb3c8a2fedddafffb57f70c62c73608da9329991b1bd08fccbd008e0, 0x261d73c08dfe4c9f472b422725756416aa849bb4351e5033e4a424e156d62b25) ((-0x8ad16892f8c715e34fdc80ebd0ee433eb8cd7257aa268d23874423652b14dc2), 0x7a8c29d5453ac9448c0f48c9cf2c9ae0a542fa646b621e5acd38a8715e912ab4) (0x47399392d3482c29d55012927a41c85b007b9057f8f05281ca944fe49992483, 0x1461235de0ccb3389866c4d4b314dfc656eb46963f8493ba46c8f720d4f55839) (0x598b520ce058da9e4da48048f34c8d0cf49bff38cc0abd066b2c0a137d2065e, (-0x1864b35ae62e1722e854986b51023b2d74cb1b06c855a2d963903f8cdce737b6)));
  OD (C (0x2cbb475b63530531fe5dc6f4568dca414663f07604977b1bd8a63947c310dc5f, 0x2cc85cf9df6f7bb1d8c9452e47fed73bcf9672e0991bd50749b172728f24cc08) (0xee1c8812390e710bec8a8db6d862d8446c58c4a67fc58ed9f45399b249a0f40, 0x292f01fd489998e3b9d152aadfd492ff796367958333fb977971114862f0e13c) (0x2c37a97e985840032008761f98bf610f8ef71ee678da5a8a091d1195b265be47, 0x16a77ec3288d3f6de8083049cff47d3b8cd94e038061ed20c8aef086b7dfe422) ((-0x2d63c18d19f4c4eb3709f3dc9295d64dd1e54e778c4ee83e5cede4d9d2e9053e), (-0x3c62785562d5f00f0620faf31c1ade69922aa9bb07798d86f9fb0a85de82c97b)) (0x52ca7109dc8aa53b19a50e61cacd4e5ae97a5a4354fa4df6a0b45e7784da4de2, 0x18340efa09b1b750869e1904fbc253070525321d43d54e169dcaa67bb8c49d) (0x14d062c63b556cea38fd53fba12a05d430320e92bc4fca220dcc8e097f6fadf7, (-0xcdcd1d1bd376e25ee44b3845248ddfee5da0bc2ddc4195658be909347994d6a)))].
Definition cert_g2_1 : list (op gfp2) := [
  OD (C (0x1048f445112f793c57f52b1fcde3194c06483141112fbcdd454f06d29959d2a0, 0x19670c000dd6bbde3dcd7da68571f7e27a6a7e49eda92529ba2f6dbf9c3abd8c) (0x10b572fd1266debb09926aa46a93b06230f9e904d6fadfc880c5f88e922b6b8, 0x17562f2c0840a9e5778af170bd74bc8d5e227aadc819bd4c57763dd56acbb015) (0xd55e3ac32809146fcc718f3d2b5420030c31d2251e75d25bed088e8ead879df, 0x1b9a63b4fd02bad698e1d6ad50d57505bdc36cb1b41e7d0706439510d7fc10f8) ((-0xe524bca49a3c5df1fb9910fe6a761946c37756576766be4ea76343f6ffe2168), (-0x6164cded1b2f558f36efaf59f94f15e3950053e4038f55ad0040dc6158f17440)) (0x1118daa1548de2d8830bc5912c94c04a7495583476eebf51ba0fafac05bcabf8, 0x7dab8d1ede98b447ef8926959a185f27490c684eaeefb1a3a9344a5f33eb765) (0xd4510ba258770fb51b56f5814d44d179764a0442c4a840abd651352242b4f96, 0x4b637afc8c4645e833b6f0cf248e4d2b70bd4a73f0cfc01b267db891c7410f6));
  OD (C (0x1ace9af31b64e8b92a6cf0c284461dfdb9b34b74d4fb2b54fbab3b1be2637774, 0x155368c64b7d6c8e3b9521ddcdca2be64f10545df8739971ca1cba8f126c30bb) (0x10ca9bc136ea0e16b41a58c6bc23876212509c5c709f78edd3c5d4b9e70a48f0, 0x227b73595e68532b79aedaafd3b1794f03d4aa4ef3a6900f18d08a34c48e08e5) (0x1e91039c2172b791ffcfdd48cfb63d9b57ccfd030eaa24c4fe3ad981d13d7673, 0x25b4d343ae98955dfcdba60f78c3a3fb73c7da05aeaf948e504e8e4fecf94a28) (0x27505e1eb101093cc78d08e9b4643250bc9f625bc45ad76cf85a2140ed693736, (-0x1823db0b797b1ba6146a6f3329bd83cf39c78e9f52217971148fc165377f69b5)) (0x17a091fbc1b9647b31fef7300c7375a1d405cea5fd406026ff93539d8d6a7628, (-0x573aff04fcc0bbe715949f98ba6caca04fb367f327373fc9299d48ad9c1f5ca)) ((-0xd1d21d2f2c157a4c721170f3c5bba412bd77ffadb1f07916183ce9f495c7bb6), 0x3cfbf338aa36bf7c0934142ee3889ab8fb24aa4eaac9ca5feb6a9c884fc6730));
  OA 6 (C (0x28e1774147444a653d3345a50eaf241dbcc09f396d21c6187d9f3653f6c05d2f, 0x1740500a4aa4a541780c77bfa2d056ead5421e9daa63356f4ffcbd07cc60848b) (0x5c57a2965241e62270aeac953a77f79c04f505243dc5812197507f1f4d17320, 0x64aa9301ea356b992722e8bb4f76e9e41279138176d37fb5bf9dcd9645a018) (0x670025f92eeb8b0c1f101629bb3486cf939db1dc354dd6f40433bf1533f9930, 0xb7336ab9d44463158830d852ab3f21e180b24325db22e98ed0a230afc1b11f7) ((-0x4c6dd98c2cab98127a272a56f5be8a3ab949efba208ebb2c4a83b79a4c8e673), (-0x1690c755504d133f5d97e8d2bfcdeab6c3e281d6869d316cf15c60038f35d716)) (0x2748dbdf2c10f2f9df2d7ccaf0d9467528d1dc785fae14954e53a61ccf019efe, (-0x175d1ec22958ca155e0594c9d76c906a8779536c0522c14f82db0502b02b4348)) (0x2217c19394dc7f6a7d82aa5873b119ba7fda7981e83f86f20374d6d52d2dc190, 0x711c7686dcd79b4205260b212c391fd8dd761f64225b45a81a853f618e12200));
  OD (C (0x15bf7ac2203cdbb43705e878d457325337c46647fa9aebea76c186d3797c323e, 0xfdb33b9cf3a0c9e3d85d65c5c0f21d8f583283522ea3d7ad391ce5ea446c6f4) (0x2c6000cf4257000f93467f0749eba6a93d5e03b275f214446e3d0101bd2531b2, 0x2eefcbc56fa781d77779d1c43fd1d3e7e293f0ffd4da52869b59957be1b0c65f) (0x4ba90c61dfb8e4788c9945cde12ff11a1ac03f77c070dec0b2103c846ba693d, 0x185df688342b56142999c89c90589cbed23a033d7a9ee95976aa0e9596a3ea42) (0xe3a9bdff2bdb77e9c31cb74e3f49e0617689b65612c93ceb29dcec0442647bc, 0x3c5cdd2d7789fa484f3343c021dfa99d34e39272944d5f5496dd43285ce4068) (0xe408675adbd5fca714e66e03200e8471ccc10c783d6cf479527602716529ed2, (-0x4940ca47b548235b511a788679dbf02f89eda3f7ca0ec427caba50be4c9b865)) ((-0x2190f9a7c379420a5e491ff2fc4194a59ae5e4be606c24fb019fbc2712b74c81), 0x2192ff972b0117ecdd6c2fb6038d32bbbd2716078600ca3e59b752ea231aa51));
  OA 0 (C (0x1435ad591d1948bd9e27606fa768edf324261277480e5f00ad99310fc221f0f1, 0x211c17156c7fa2a8ab3620876466f8a66628776b50a6b58d6f9bc42c593590da) (0x359725dcc33d4ff355307f733e383a0b47483e5db65ad8081fb08f7540657bf, 0x116a60462a4d50b5328a288b55f422cc77c62f8d594bba5ef5fb8920b633cfc1) (0x217af6115084d65e3440b43ab48475243a9cee1492017e5748331b272bcd1351, 0xcbc2a9939611a22b37f325b2c0c2d3829c312c03d8825fa8dd354f569a5cf75) ((-0x1673f0106e560b015913027966851c01ee7473445a87362269444dc345a6f0b0), (-0x7d5029b5fda2297352faf0a012655e554b177f245585eb0d6a4c11f1e798714)) (0x1ba7ab3d84b677180654983c7027aa33b6c86f69cff0dbfe48d14b48f8c7ec37, 0xe36afde4e0dba137195bf83d0ae78cff86f62e1704c749e5ae91a74b98ccb9a) (0x286608478b0afc8f3e2ff3037da64d048dcc45ece49b929e7106b759d79306f2, 0x310a778fe21c0139611005baeeea53afae3e42a9594eaa6f9c733b3d08ffd5e));
  OD (C (0x1f89e4d397dd5a223541f3587d47c1f05bf91b981dcc118769b7285cd1fde7d4, 0x2334538ac78e81c5aabeb6a6ef5fd57e9e27cb3db42d92a70faa5ad695029879) (0x12dd90dffd4f016930a88721923f61e0a26bd35c5a899257b408ed152f874479, 0xa8c8ec5d57f8f50b5465ad54d8cef7e6e311d4f2eb7b0aec81434d6cfc5608) (0x904cb3140bde41d0d0d728001376649f490a204b2424330cd74a175c31d9756, 0x28d0a8f8d01e067aa02ca84967c9cbea0ba5f0f2556e90a80eb38b1bf91798f3) (0x3a148ccb0bb9ddd4b1e3b7932fb1877f64b9c1150896ee9d87822eae2f62faa0, (-0x2b3803b44d1542eef6c91f1979275a3c25d9a157cb95474a4b89a8ded3e05e02)) (0x2de34c63f4406254e2c6233d6483229a75b702375f373a2976605fbaaf2a8e87, 0x50e4e6ec257b148556f0662a0bfa52650b03ad3b2e89f88b65c4ebb7f7e02b1) ((-0x5dfc78f9c739f4968c82a59ebb533f27cf42b7d56787579c24dcf7b6bb853b), 0x164d63aa5387c554abb252092ce526c2a4215d3db4b98c8eafe2c54ac293cbe7));
  OD (C (0x286ee2a9b2b7dc3146c5f5919bd2897f7397ce5994d74c5790e34f07d526a1e9, 0x26145cb5a8dc14e4576f4b2deec472bd511166635b3c357356ccc2842d29cae5) (0x7b712b1616764cb16ba1e400117298c3c98466dbc942955a6046a5d85d9e59f, 0x1a66c37c27ab9bd05a397acba64041ab9511a11149294fa054293a8685c0ad8e) (0xa83983311ce2ae9af856d95c19acd4fd41b0f5e05bc9d4d518f31987fe0a21e, 0x1308754cae62e62aca18f035a1cab15672877c9ba2af7d1c2518f097644b217b) (0x50db41b44bf3971d24c7c38657071e958370241bb35cbd6a710fa3f261c3bf6e, 0x473372124db6ada65b8aa6dbb078ec4112a180e13b0a2523c85655f702dddb53) (0x3fa23ad4dc6fd54014bee0b84c30cacbcf9646f38b1fc6c7f14684962a332def, (-0x3d18e5a104669a1903b6137744d016b613a67499ceb4728897044de25f34d7a)) ((-0xcbbf7d876f5dd61114be6525247304dd66d900cb835450d79c66fa797ad6d58), (-0x1d92b0a745ce5f7d5e1d246e1fa7f535b7144a6db57b27b0267dbba2bf8e159a)));
  OD (C (0x10b8884e4ccc29845d3e4bf75ce7e98d7e0931127682c9d8eebf5d1fa4f908, 0xb81ae818e989d77b2d2b797ebc383359e475255dbaf35e85023d1ca7a0df5fa) (0x23c6d334b66df793bd63d38f17572b957b2eaefff189b0d7f679028e75882340, 0x19ae2f2ce12377b6e8008d5602354fad0cdfb72d5854f2f194799fe8b8574761) (0x1d391577a3968b3764abf1908dbba4a12580b9b5fff2bfd69cf0c8611f76048e, 0x2976309a5d2e89932f17594c9df93c4599ad66352c16d947efacc201932a3978) ((-0x143426f1f35b66a7804904c8d791c1005d6e95de2e2d3d39bbf40b8c1f5f0ffc), (-0x1e7fb9f02941d59fa62636382835396586beceeeebbed95fb8b32d7887bce36b)) (0x7f3a4a95331a5bad0a5d95d4eca7e9356a4eba076b98126e75252a9035ace, 0x2bc66370ec56186ebcc98567ee67e25a443a623ed23ac1d0b64b8f1a81f06e1) ((-0x6abe5d0881efde47d8e1b688045aaba69611839ee6378cc12065ed5f82f6e92), 0x3595d1ab5738bea2ab2dd103687e4e58b9a2db592307f5e1057ebff3232341));
  OD (C (0xd811ec2b1a706a27130a1abe0a603c6aa1dd520ac6d27f7e1de77c625679b40, 0x1efa05544c97d3fd446fe31296e0e3e1ed8a7c6283eb9cd0ca51907baf8b9161) (0x1b92d5cdd96013ec1d0f343870e2542a7d8c68486ccbb3f315eef0fac1bc5350, 0x2cc27acd439aa835269279e8b4852d55d8ebe7d59dc31999565281d9f3bc58ea) (0x4ec3dd5fa0cec2b0010e089e914e994f0c036ba50eec80e01a6db38ceec4faa, 0x2918ead7f6ff66a3e0b7dcea0957893a8b95b1b3d61201494b4777ee76dd1bac) ((-0x355c94a9699889eb8cf834d7d973b944ea426e8fc1e978076f597bd4ef5c5afc), 0x4b3cbebc129aec43ae409c64bfda386308f3c51509ace99e41bd3ce7e0465b6b) (0x1149f41ffa25c3b2061306de8b7f52145d6ec9287e8bd36d7401bada91efa5d0, 0x100f6bec584b699cf50aa27ba5fabfe6f7a82eac0185e8c4468cc9490e754ec3) ((-0x12c746fde68ef5a445760ac51f71422995eda9c79500d689ad86aa760c3838), (-0xe809278efdc50f6833b018f4e8e36c38390324d6140a7484cb5f91be8fa9b0b)));
  OD (C (0x8b8298c2f63045ef5ed12952020592e18b5b2b519f008a0fbeba02d8d4eaa92, 0x2610458834a7fa5326360ff7282e70626d8747dff10e491b3b4741fb7e0aa0) (0x2e958de466270982b875356fa40308997d9568b2dd070138c64eac5232cf98c5, 0x24c799b8cf7a73a94166e111f0614c79b1be840a439e9e17f232f785aad2dcec) (0x1cf79a22ac7075d5376e7d242597b979d1b159bf907a4a99ca62df6606dd6ef1, 0x21c85c4bb28b59e350a9121adca0e3afe7bbbe054e0b061194f03529be6dd6f6) ((-0x8a2f00fdbc85611c129e65effb371765c55cb16623957186b28457031e8b4970), (-0x4e967d3a1e771bfc58954d12ababab26d75bc5306bdeb9946a45621c3dfb77cc)) (0xdb78119f54612d8795e7858a94ce6a5af41fa04a43cfa25a0cbadc50ba98d, (-0x19214acbc762cbf753ec39108d30096c885984b87c919040e5cfc6521c15bdc)) (0x16123910cbaf8852a411ccc5d41aaf364b14ae81b62b4968df96d49fbaeba57, 0x3732d498bcda1f8a916776f62a5081119d97d11f88583ced8f2cb9407d70e68));
  OD (C (0x1c5c4bb01782eb68d257d74a7c9bd565b38ba54f9e6113731d559aa5316ed336, 0x3aeb2ffc7a064af48a623298933757403c8f0040f7790a2379c0e763fbcb525) (0x2382bebf98d1215266ecd09a254be93632bbd2b2710584bb3c80f939f5933cc0, 0x1e5e723f9ba7364b0e24239091cdf60aada8203a964ade33b6e7fcc398c88767) (0x238e46fdf6c707577b21cdef561ff55d2f03ea2fe432a29b84eae1f04a79771b, 0x3c24fe2aaad1a8355bc68a42497220dbde6540ac913b2fa476b5bf1cd19e99d) ((-0xa86dd3b2c615cdced0a20009604370ae379cd492b7bd900b4567d97e0c08771a), 0x15dbcf7a563a6bd73a6441ca56771dc0604881c1f32fa4b354e1ce77258fb79d) (0x450f513baf2f5cf21e10a788fd679952035004ebcb00ca94039f2233a0ccb1e, (-0x10573c73940daa7f09d54223134657725f514bcc4ef1b88c8ff358804034f966)) (0x4998864d0bc6cdc4786d387b0bf12c37d5d9112384b16a92e559cefe35df2ed, (-0x6007bf84f5be8a682b88c0d6f75a1df3c908632d151bd0f09b2b296db0e1558)));
  OD (C (0x3034248183ff1a0e28b1b7cce5bd44e58b4125c4e4dbd611b3fcee3cce03e03a, 0x7bd0de12bcd25b2a75663359df95a5705577a07e361daef0e7c669e9180b917) (0x1e2489a7113d05562f05e4a0a6762f1b8173c0f9c67f4797d26a23febbfde2f5, 0x1f6c23e002460c94190ce3e5398a7465161a235686591fe077bfd52236866132) (0x24f906c62d11906b0a61bba6011fd13bef2a7cf8b188e73de3d0a0ca43ddc345, 0xddebbd82eea945cf2d0f35207f48e55ad70884ad2444815c101308cbc50784c) ((-0x72d9d1005ea07065ed8e062d1de955195a0cd4dc6561889ae0e321a6163add6e), (-0x30a20e9290bb75fc20f46b6322a8b87175f777a013bd7f5236ed4509cb7a2f5f)) (0xf6ab45123377af49a78e5827754a526060b03cb903afab8ebdb3a010b22add1, (-0x2ec75e850fec2e763fb675607a7ef9c54d246952938c532922a9b5100a5477d5)) ((-0x30e430a2ed38bd3f93e19f4d22e707cd85679c9f2478ae57f07774c87a4d57), (-0x583fe08616ec4dc9b8ada778cb3cf48e91ba77d0e9dd41264a747a34ede72bc)));
  OD (C (0x208cd6a8945cc36f5a6197691086191d7827de8e9d5f1bf4f96e5bf32b3fd87f, 0x17c5d7412d6e6427c79a13e095848e374d12966a50f5574d4a20b679a130c827) (0x7de374d0c1e0d13e061c395fbb6d9837d1e36dc05fceb296190ddfd4bc92166, 0xf60280aeb35909477fb9898777d514401744cea9e2e577a6a75b03d312ddc71) (0xbf0725b2a8525d3d6e390219af8efc15ab654bcd6d294ef429a0f6c8115be85, 0xf51d23ca15f305354bdf4ff3298c6373b5403b02b514d0e1ddd93bc17dfa24f) ((-0x3e73660915cf2d24d281d3ab761d52b32dc75b9d140f0dfb26f8bbeb8c6efee2), (-0x28fec431cbe53d13ecbdb9f1b1d2eadece45f235fef19ed3c76f15c1fee47cd9)) (0x1ffb20eb14ecb6066efb5fbf9c3f86adbb27417482b3fff8378e3e1e896fee8e, (-0xa37448e7f3159ed9b4536326c846403e8524f1294c2db90ef38a9497d008773)) (0x15bc7d05ec76def47a8fd944b924857f5a82ea63be725546e38f17c35b488a52, (-0x71985093323c1b180ed6317055ad839cf20203c3e8318b31dea778bceea1e33)));
  OA 5 (C (0xed2f643b7794f0c7a8aeeb6fe42e6afab02d7c48e795507e8757c932b1439c2, 0x3060a2ccd93cd49f0c79202e52faf1cad01aa0f03a6b75d9588c69971c6cd6e2) (0x291ed9b01e63f8aa6470d1092109fc0e17f1192b9797aa9645e9da873b1f57c1, 0x23d1dcdc915fa26e3e454c7290f9dd7c663de980090d72f9a9ad04ff919f275c) (0x7f117f57785e46227eb0794305d5f213d71c53bd3259cef6aa34733942be1ad, 0x1186d8235b2f863741dfefe7c81a83f3766744d638b78a8f744af262166dfc69) (0x70417afe86a3526cb7772642b932bc3f702426d52a29124991e88f970125b08, 0xcef4aaaaba0f2f31cde339a91328f7fbcba118f36e69d899d90435b84aab6b7) (0x1da3acd6079692eab0d0b7e5ebda58ade207e7996dd9029835090544b1b63632, 0x2bd2709bb0f546e560eeb0e1e4cb80669dce06ce19fa17cd0b01675a4c523d92) ((-0x2781601963e65557d8a370496b38d03599ae51f26d1aba2a961a6f6d49e91272), (-0xa4071d1157c588ca8c86fed1ec5a8479089e0b112b175a6c92f993374197a08)));
  OD (C (0x135359762ef150886450aac229ca1c438a53637c878185284837a86aabc439a0, 0x27d0f70d864e43d17f59202ec424ec56fa3d4330295797dfcffdd9091138d188) (0x2e90dc91a69816d626b8159f9038529d7ca8c254e361bbf91ddca82bb36e572, 0x503f8cccfbb9f81fd27d9d4cb946da4f2c2f1a6b9e8334248bb422f593e0157) (0x20ac704c65e2cd5a28ba0a3f0589a75851a4def68794f8b8af8e12993f113b1f, 0x3afc1302020ac9fdc0d520413c4249bdcf7128ee823d86cccfae10b37a75635) ((-0x9b8eba666be878073d7fba4c20b83d00182631c36da71a562d85f8461e603828), 0x2fc832fba8ef4dd40a153e5b5e9612520fd9dd7727946970d67f50ca2ce64dc5) (0x1fcd406c37bad54763579c08a8509a977e795d5b52cef2debe131a1d659bc894, 0x190ae7f8de40ddc024aabda180aaa5e6bdbb8e8998d6d4db7d11c64f3b8b6ec7) (0x2bbda342c215a2974c1081e6948e990106792d2814b4b0ad1fd683ed2e639754, 0xa1600c48cc4e4918bc1aff0da7b198953857562d1bb0d63fec753ac54869b06));
  OA 0 (C (0x17931b0af0bc4aa572722262a543ab8602e058e8e7c77cba4b14c67d73e3b75b, 0x1057b87aa2b08d4f31677ccba459c2f5a3cfab80ca91117fe365793e05f3d160) (0x154d8b3366092fe27a3b453c8fa1bdeb4a738cb8f723ee2edb53f30451742935, 0x114c5018482e13aa5f133ce2e7714ed66948c66f7d5dbd4aa944f541f2de03db) (0x1f258925309806c32df418172a88af56b44a68ec11bf2983a13732796445cc1d, 0x5562b42acc1b3d3ade959bb0dea05689e4cba5018567f5ea49aa1080fbb9b1) (0x10e5f46d74a0aa74b2fb74d15483a023b52e449d17d25f25d73ffd1a88923a3a, (-0x49ebacf02fed61b987d81712e9ee990b59ded97a46de457582bb5277b06d4b3)) (0xfec4b862a430fa1006d33aa607df3e68a9970dc9e3eb7b04b058e0ade6eaff1, (-0x5f72a1c993e8e70607d3e778b0d9a43e0c6dcd5919ca14b070138f44a0975c8)) ((-0xc31ee4dd1d4009196b831ba67ed01d9787b34fde6d07e92d6544db32b79fd78), 0x4cfe71f7846d80a5b27b9e5bf26570111016e9bb3730e8a628958456810c43d));
  OD (C (0x9abc82bad38583b5a398c74212b286799bc881a3590a19770ef759c28c90086, 0xdb09ab65d226cee6b890e3b2e20e4dc05488c2dc35f196d9c5cf7276f40cb8) (0x114b0da090dd03cedc2685fc3a46772258ded8de609b22d086ed04cac893e5b5, 0x292aae3eb150a9736898eb286dea3a3c2fd8ff44e25b5b4d61ca4cf9a2043fdf) (0x2a1b3f3dbb89d1de479af0d4e271a0c02bcaf6cf79d6cc2311ce284d9d8bd70c, 0xbf95cdef0b87e6bd7df4114775748a7546351d80ffcb774a807bd52cbb043e8) ((-0x2c746ca584cf1f7b9e51af3b1a28098e672fc77c7d5f456f1a92f2e53a3ab182), (-0x2da91a6acf50df712b86ba49cda0699221e1daf3976c2a5d17849b927779c94)) (0x578c7457c54347b9ea582790a6b6b7e809bde7fb673a306a4a3c6956f9fff7, (-0x1eae871b4c71b8a13f059ae6be75e4e66aa72651d955fb8ca0cc36cc43a633f)) ((-0x4b2ff47dcf54ba4270915fc07a92ce004476ed8cb33d133f0d4992ecc0e6937), (-0x1392e0af62c6408742aa328453341a992a6c73fa2f127681352e1dcc259a73f)));
  OD (C (0x26f1125b9651e04411a0561159dfd533fc9c14f9485f0556dd98b256fe0a219c, 0xc84fa33f4f2e2b393114b6b45714f41c87717682bead2e5addfad524355b85e) (0x681de58c8b845d36f29c5625f5be3393265213495eb9bcf0192233275f55c23, 0xcff39afa53f962f465a97660635b81ed1744502d87c495d6c09d8779d9e0af2) (0x3d885bffc2c21ce84b1f0248ea1195d0c50a66d44b07bb229adb347ee3daccf, 0x2dd689532a867e05aedef877cc9d8f9dd5c49ad2169ee30cdd766c533ccbce84) ((-0x2f35907176955c6351a37012c76d60d28ce32e5792e9311ae32cb7684b95e6fe), (-0x9417e7d90f725d2e20a1c1dc6984f2f608970dba1e4a71c85382783d4d468c28)) (0x142631e00826618ff869f17893f6fe3fb82cc5da826f516827150877487a5665, (-0x1c191d6638142bf36316aae8cfd85231e05bd87f371801ecd0a0a37ace6054e4)) (0x1975856b76a84716c21a426f2bc69e10525b9abef6b27b525fc2d249d2a05beb, (-0x1644ba29162ebbe8b64c5846fde19f22d90952bc8a83ab60c28cc06c52bf1b2)));
  OD (C (0xfaa2bfc8104703c71af65aa8a8eeee38d26f41b3bc6c561e37a4ff90dae679e, 0x5a3827a58ab1fe5b677c82a10d26741b12f9d25f1a92085e6c498a300d54206) (0xa908ca7e212010beb624b5c2acaa0bcca7974f7e9fadbaca40497f42cd64549, 0x2eb5e6f40b3247e813fa433b781144ef64bce7dbd502457de53cbed205506a8f) (0x1a54a5bd221ddbb806ed993d6be26275149970705910b17c3abc4b8cde9a0b31, 0x1297df3be80d2203620bd1157c92bddd6960509a14bfff8b74f4104d78acd887) (0x14160766dd12759ba278e9b28a6d3da5381b7aee07867fa0a1b97e46bdadf0e0, 0x587221ee7e5265c8023c2a4f5641ef52497bb08386669237d37f49613f6eed) (0x3a68bce53eed7a18007b2d729189f967b51d83cc59f6f97a4ea2a02859c23df, (-0x469eabf6f8bbdc21994baf115e461308b70e91ed0edfbbd36bb8362834d2115)) ((-0xb62d5379212934d4ef5562d008b16947962e784c352ff34f5fbdeaf3a6c0de6), (-0x29d6f951474adcf180944915bcfaf1b8f6e0c9e03c6edece48d97e0c2250513)));
  OD (C (0x1adf4446ad6964a95991d94d6369e553664d4ef9b65ccfa6aed2d57041f2dab9, 0x11870d7148c8d18b6c46005a77158d78df03daca064ddf1f19510e4b6ab763b3) (0x10ce8ad5354607caad3e38befd9ef5f6fdfddd6da64fdad06249401c2543ff21, 0x2d8f5d93002acdac838a2c470aa563fd5d0dda12f2caac49071d866d2a9ffec7) (0x18b58affaad71a77a3641ec81ea5e00b6448024028cebcafa0d6c58246dc9794, 0xad2829aacdee06e7ad7e4a158b79e07d08408bc662fa57dbce6b981c7499fb6) ((-0x15763ca0b4cae5620d4d898afa50d2639b66b9f9d5cd1b0edf15551fa176cbca), (-0x901e2cb223b7efd35fe8035421a8fbdf744dae83b7a63d3cffb0e34b5722e108)) (0x1377597ee97910d9c948c7538476a6209cbcd23273e01147130a28487ecc9265, (-0x892dda533c55f1386e3e55a9591dba2a5f5f9e5755e7a3afeace359f47430ab)) ((-0x19f3ca5093975ed8007388aa4bb9393658101027e218a27827d130057987b13), 0x3e20d4ea54d51a4200f3dbc276138b53ae104cc1e1050dd9d9f3275d1f4a635));
  OD (C (0x258eaf29807859ea37d545caf902fee18f6d6207b50270de75aecae1edf078b, 0x1157d4ad994434fa7c8022512e5c96e04add72d1cdb20024eb5d4cb0a14ea500) (0x48f8fe5162ce171393f1b2dfdb65832d8d8708c41c55bd2d56fa316d575604a, 0x2ffe7748da08cd8a7425b5f613d3754eb2248a257b83fb55167c446e7f210dae) (0x29dc3a7c3b9bec0c224bcd184b233adb42d385a539d99e1f79da6b9de2f30633, 0xd7b12e6bc8ad47870305c107686a2590cc5dfe0f64d148908a5ec44f40b1b17) ((-0x4c2dcea691b989167eedb49d31402d86b3d998be278dcd8a44658f0dc634d08a), (-0x69cf758a5629a173563b643a5e3cc2a1c9e5ab8f286d5eb3c7d1357ea53037b8)) (0x1aeb974f3d9d350579fbbf103f165189e1c176dfa89a02603949d0162381eec, 0x61a0984045fbbc195567ca105b3460e367b2ddcb5e599d93364f93d0d0ecfdd) (0x44551399c4f2f59e975864309e781068554ac0d7b2714fadfb4d0ee722bc2d4, (-0x17761592b4d562f4fea789ddbcb354101d97eb35a282251ab92eebce9e03326)));
  OD (C (0x202633ac7761ef46ecd6b3e382972748835ba50967af50ebabfeea030a851b12, 0x2b0c15c01a899ad64df66d92cca211dc500550278b35f379db32f6a431ec2c7c) (0xca9980a4214a22296725ac7432ee69f9df471fc34db2bbc0476741749ef7dc7, 0x19ca836a08a9d9709afa9d033ddf6963d9367cc181dbef3aec3bbe083077153) (0x2826e587e574cb4552101d773024724c08bfdca8c5726ade083cad01944c82b5, 0x206b435ae3e750bf6ac8062529a4f417b3b7b7b1b695d6f052c29dfbf48aafb5) (0x413f087e64abe6fce72a4c1cf3704cdcac8a2c4ae680eeeb54c7bc7f2071be44, (-0xad2521f4d48a7c32b4924e3a7c6a5d5eec53c8e6956480709a161bd8c21e045c)) (0x393270eb7d9912b6776e6aa02bde694cd862bd054e0817b54ef352ef41fbd2c3, 0x10ef38a7d04cfc6aef6d766d3d31bd6e55a4158d551e563172edb3746abb277b) (0x179b6d8b8d2d55a1be6aa072374f52828761c8ecc3be556d8c90c9fe4bc5d77e, 0x2ea44c8bc265b09fd9ac3db9c49aab4201c188bf416dfe2eeb827549e3fcf15e));
  OD (C (0x8dd4a256078e0a79ba89a23d349f45d5fb413edf65bd8e17a275e3f74e4a8f9, 0x2dd0185de3f44172ada260fdd76c48895bec3455f1049b7892641dc92bd8db54) (0x99f66f34c662e3b4ef81d63d88efc402e1d2c5e1c76ae9ad172631982c68b14, 0x6bd23603bc2f53b53fd3d73832ed077615cd4fa301b7f0e9a04356150cdb7e9) (0x1f869a545c4860136ea065b351704defb103789aa2e83a10bccff9a4c0774da4, 0xdaccd806ee0efe16298ba70235d9fc992e9f353a4bde9954367e241d7eb3b72) (0x555eda6c48e602a3aaebd00a5480e35a68e863496bd5a7adf2c695957123581c, 0x387391386d9e60521873cbe5767c0910cf5d937224ded8071a053bebc80312ca) (0x10c8b44d5f0f3418fd180146d844519812deebf019c5fe1d583773658329920a, 0x29bf6155e9c0d5746fffa4aa845b95d92e75e3a2caaf3af4d08e4f2fe951fab0) (0x1f04c9bd4f3876f2686e4f7eef55d01a57d62c132adb59a015b9a2586c6331b, (-0x5691585069440f170cf26804142cf0e6d06f53fdaf95270da153d2ddb8f32b6)));
  OA 7 (C (0x17e5aeee1681ed10aad402f3505a4f42fb5cbcabf1ba9ae5cf8eab1d5da49ee6, 0x3053b7eac7a5852b7883f053b68893fabebd5edc03bac75fb45ea592e2000815) (0x2dcaddb61f92ca0814e843d42e411f42b1070b7b7f1fe9db773723ef861cbe7a, 0x1276df8ed840179ecf7ef0a946150d34fdc01dd5ca393016f31328799397e374) (0x262785a328218280811238489454ff3dd54e71ecfa6fa63edb0ead0b497d5c21, 0x2dfecda50437ceefe962b0477c0762e5e41bd8724744762d71e16cb7cf423732) (0x54cf1073b823e80a5010fe33b8e4641f946738137becdcb360cfcab600c318f, 0x2158646fcab4157b21f5367999fd51399c5b694b1abb118ee8c37f97cf6de89e) (0x2fbafbc103e2752714628d45e1f6c52692eb51cf7586f7c1dfe737a731d4c73b, 0x247612ea09f7a4ea3b8a991a3bfcdbbc5552fe4e859c565c30d8a0ba2575b4b7) ((-0x29e9676df8f813959f1a2be94b26b24e8309c2d3695ef4c461122e98987c4453), 0x626dc204c12361f891cd282af7d45a74b5d8a8a5d2982398a23d4375c7e9f1f));
  OD (C (0x1bd1f0fc2455827ca21f1d5c36524e9b18fdfd2af25ca640084cb8ddc4952f34, 0x239ed1cf5672185e1b9867348766011850e682ab9467312d1e459b0c0877cf24) (0xb833a9d6bbcd983e78a1796fcffc6d31ee1a6d9e0653371bf5e8604cb4a9b01, 0x7c6a38a11076d41772dc124460150cc58c026ce74446142bf7691797583c923) (0xd133db187fd65ea544092bd9c7ef98792ebf40b7221b34e03d8f0918498110, 0x1681c1ff8726d3c320a84cb8f63f9dcb03054b6f81ac73259825df291d597155) (0x43816332cb1511840962e46d4fee15f54325c63815ac5347f9435ec2dc334d8, 0x84b4ada1ff8a7043015e288fe613ff5d233f2e6d6703f885fbf8ac34d1165f7c) (0x28f4ad688c43754f495deaf804a51538a547c77ab8c270e4ce5351857e6d0d7d, 0xa39db89b49f6f7739e1d63f3d86bc3683c2bd196f70692d7618ecd8a631a863) (0x1f60a2bd088ea0a28e038da0dfe4a9a070b20ed4df79f40c9d44d2b34a7cc701, (-0xbd6f35876dd909abea407cc44e928ce10f2b1d6906169e7d6e3bab1f93b7011)));
  OD (C (0x18fdff8f86fa99af24768f018ffdc99948369a8e4072b995c5d73017715e4410, 0x21d4d102072113958dd07de91b9b83f6f538152e8bf3272f2e8f5116b34c7fc5) (0x285755d5ff3924b9cfc9135812b9799b5e09977d37a70407d657e0b19e4fa7b8, 0x135d9aff21bb1b9dd3a86b90473724f5b02645d6d799766b4eeb6ba9d4fd7d04) (0x2a27c4078214965afbb4841d736b3aa235ca9b57cf46da27a7fc5ff51ea24fe9, 0x2eb377c2f53272cf450f4873fce45583a5a8ed892b0b7c7ebc4e7ce6e675ebbf) (0xd4a65f652950debadbbf31de8384301553552754993335ce08d7b78364b8322, 0x2318021100f170d5143a62c468cfe78d6ce78abf7b24f97db4a4f8903e102eb6) (0x22f1d66c262116de5c6ffeae479b518f0b840944745f7712607ab590a665c0ea, 0xabe9b53fc044cb6baeb63ed49f7c2ff9744a11e1c3982d6277111191b9663b9) ((-0x1a23d381f866bf15076a085a68d4dad3b87abcf2ebf22281b0a85c44d39ef244), 0x6c93f5b9be9f56525e3fc742a78173fa6673486a4b0459df34c5cfa91002691));
  OD (C (0x17243c8443e34ca216d1250339cd31abbb4868427038ab5a70d93bbb6460000f, 0x1807e619e89b4b2711226b1eca9a88fd776b687bd384cbe312fcbf62ae54578a) (0x29ba9517e9a5981c5befa8cbc6b5163797652400e81a58068e38139f167c203b, 0xfa14191d843ca9df179e8cc29881e49d8b8594815e69b6f8268881a679386c8) (0x2b7aa84381bc832c8e43b12270ec46d0a6cf6f8c68eb01a8061924babd180155, 0x20e69c81b9108857694de68aaa406cd686c1bf8f48e91f6b7bab6e737216ad40) ((-0xa546131b439eb9fb5d96ff7c8e69e9fb694a44303b3dd086de61b844be5ac06), 0x53b43fe1d93f19b00f501cf93ec794ddff89f301291d485a44f2c9e73de3e262) (0x16fbd2c2db6f2a1eef43ffc3508a53defdfc8f90afd69c64f992274a412b75f7, 0xddecf479f1cda04f4d9cd54bd7ce0f8250d9709458cbaca43e1dbdab4d3335) (0x118ed031a8e1957ee053a6b682fe6309935e79672ce6c27fa3fd1f0c3800e18, 0x284cbcf5c0a7373629d75dbedbe9e1ed3a06f5e74f35ea96352dcbf43a0dbca));
  OD (C (0x9eade0a4850f64b30982c5738592485e2d59612eff553c9a36c9d456b09a6c4, 0x74f264232d74475405f920372626006587acc3e4a34a149a8980e31ce5048ce) (0x1b8d96236634a95b023a581b7eec8b9d7b31df178c7147510458398f1a08bd08, 0x2ec2c27f0721073cc2799f4d2b981dccf609773403104fd12bbb05412214b34) (0xf877012996554226c0bd2a41d5ae1b405e56c123f6b62bdb2a898c26a0e85dc, 0x3040ba867c1c1b6837fc58a8540aef0929b185e121facff78f5af8e551fb6475) ((-0x363f539c46945e1ff4242008d6b8ea1abd24566b9c3914764bfb72d756fb221c), 0x54ec2cdaf2f0b5ce1ca94987aef76ee6332e9c8950acf0acba0a290e0baebd85) (0x2fef2f820bed2c44b244dfb8e2ef6e94781622ba80b23858c19fe2dd5d19b7e, (-0xedb219371bfed6db63fca586b98a582ac172f035306afc75f9bc8378eee670)) (0x4bed17d0e3e5d9ece337610c1b41e952986851a94fd7f14af5745f3d4538e0f, (-0xfc60b7b07e62ac920904aa57824f6f7ddc086baa559902dccdfb0e46281d8f)));
  OD (C (0x12f736ab9c09790888ec35ef1ad24c1a22fe6238d4ad9f296cb4fab77f7619fd, 0x1f322762872648ca6b014ea2ade9e889a3675fecf79f98278fefccd96c9b1524) (0x204e0e5e2035efe712c452991a5c54806395eac4d02ec490b48e962a9cb47b91, 0x1b9431401cc1a6a5c6c18f721ed445c7506508e0ba58783a763e2bf2feadb833) (0x1946757cadb60c52831fd4cf8dbd39d3624bafdce9c478489a30884e4c23e25f, 0x2f0374fdb738f43ee48772bb2a898bb76e770753eabc555762d9b09ce4e99b6a) (0x2fdc266f4b91b008158301da934d4ad654590b862d11364aa18e987222da088e, 0x60932e5da4d09b9311e95287b8bc2a87e7b1346be8a2582f97c1d6ce4dacc7e0) (0x1873da1ca03992f20621bdba34e72b989293b5bfee9ede9477cf221de5594fc1, 0xcad71a8dd77dff02a507741596f9120441be30d0c444884dc9dea55fd81f834) ((-0xcba00545bb65f290c486c2da591090e02f5c8260e8068ad2754b405d4e86d6e), (-0xe084d6581f1c457995588c34732de4fe313f2d04998ca62d2980ceb3af87ffa)));
  OD (C (0x47e100855919cfc2f1d044d7e87b69ae4b3536e717821511a06f42b8435809c, 0x1c17d995e07137dc25523da3a4a27cfb3267a069f04ab8af2ee83965072d740b) (0x83310812123140dc571a2f9710e03272b50ea68ee7d0915988b18b67d1c8ba7, 0x25b4f252e3c1edda73a374539c7d4c73b5becb8d112c2896e5bd7bcb58cbe9a8) (0x2154fad4e24cdb1b881718e6020c983f95306e3c6294132cf22a8953b23c914b, 0x1d7858872dde76addc41b2a9a4e40cffe8439e1d560033fd8e1608f198bed9ef) ((-0x4863be817f34d6ef920f3fca4ec23a60b79a4b4753674e85b6c945fc79ab9e48), 0x437030875ac3c4661872108ff5dff472471d9a21fc11a69ed79ab2fd70a332e4) (0x5374dd5c86a232fa6fcb6f7103f80899a8fa7a453c65444f7247bde2854f3e9, 0xfe45b90707bb2f89d27eb357a38a48347bb2b5ad084675b4ff1fc1f53bfe74d) (0xd0dc82039781c195cf34ab02fd5a39ffbdf66b27c14378e5e97130988376b28, (-0x81e110d58c16dd6b7651d15d17df59a4b33d36b82adeba4c6ae7003db1ef048)));
  OD (C (0x1538577c2a0adaa73a1b8130a15acb401c1f25401524927e8d862d709fc6692a, 0x1d9242a6ed2d359a7552a2669aa7ae36bc78ba1aa467119506a5f1644b37ff80) (0x370b723bb712000d798880bdc9382f4959cd3f05c35299b8fb3ca0c715fccf, 0x24e642ef0522e961db42590914e680924ef10b34977e76e533bc2e6d60d1ad9f) (0x12c6201207b64a69c02eff4e87e1975dd083d157bedb1650576eb772999b2bfd, 0x284689f2ff836eb1e00805cee557d0227e4f6fccdd1c905cf391f92509dd7057) (0x1c3fa33f893d9d97c41acd3211796081db85882a74eff056547b8c7b88dd4544, (-0x4d30ca2b43078882c8db9d62b186a73ebf37907d9eaf67d88e970a01edb57caf)) (0x19ef33feff44b2451b64d564d0b9c0caf665b8788f9e02eb0fbbb8e6576c7485, 0x8c3ee578dd1dedaf5cceb2952a1caa73fd88bfa4a87d9120b73e2cdcead1ceb) (0x53bb1ca70b0cd5b62d6e95438d050d54303b1af11daae3d17441f97b625a63e, (-0x302034272ccd82aa54d0b1c2b6d3ccee783a126ad07efc66687b7918cdafb1a)));
  OD (C (0x57c5ac0e4afb0809219c813d8a49ef21246865a737603852698400b19b324ff, 0x228cd5af7b3f78433b62bf0e1737c9c9af6a3d7f83dc1df81bb6dba31830c2c9) (0x74ec0ebeff12aa0f11322503788dce1dca97d5c4338fe0ff141081d003b0902, 0xce5a09fbcb956535f772d95cb35fd868ee18e25cd7ccee36ed0f80382dc0f84) (0x9ff95b3d60017a3f8bb8bc58a3d6aa60d41cf7ead1b9dedfc7ab1e439353f6c, 0x1396702a2aaf83307cd38d7c0d740ae4961b037ab8bfc8f03adfbb32fda2783b) (0x22f49f34a6963f7cb5b107cefe7cd5fe4692f8481961568ccb306195396a2a1a, (-0x1f26e579a53238eb56dae855db94261125cc0100b85cff2dec6fbd71b7e84638)) (0x7d552eaf09daea1c5a75679a9e69db872d0e1c15da9c7a43a5c32aab9884ec2, 0x180bb7283b97ef12af0d59c714c5ed7d6f6e104782364ba4ae838c99bf16e582) ((-0x257ca9db9a83bcd8b32283be8ca392ab3f76044a1c9b2a5bc6c9cfe21b92a79), 0x11f0e4b7af7d87c637ba87735afcbffce6d10ce4fae55c098e7c7f52da0da022));
  OD (C (0x16964eca62ae6d63e9204520914e6edc954079a802036ec55e734786efc2499d, 0x1a5dea80c7f2a0ffc41c03808b40d09e183f716f77e24accdf41ef0949e9cced) (0x18b2a40ce61c8e8c385a7b538af45ac7002fbb30d468bdc1bd4ffb9709ca717b, 0x108444490e848814931227d6a8d41bde081a21996314bff0cc9ab8e2bd0c54e6) (0x30e4b9b4d9678ebe79647d17077ed1d6c79c914e75a104a7705069cf32437c6, 0xb1059f46d78b6d62a9f090a2ed13260407981780c040069241f71011684aa3) (0x117ece6c627e520c3a4fd003de43b5c3e06149e444b3414a7e19ee1f08374faa, 0x502b137ebdef966ffaa8a51ec8915def31eefb66b58e05864c21ab40715b94e) (0x189d1e45f83ec24a17d7cf3efcdbadab7b2f40daeb306420135b5bc9377ea2b5, 0x3d2d961900ef52c1788277956eadd2e34f58927c421e842262d01b23d8c323e) ((-0xb2a2d6fb3c6a09503d995d04cc292f6810dd2233c29f2cd0be5ac5d8b0897a7), 0x6250d323b1dcfe392fd35edb12aaad1a8f699f5d0379bbb5900f725dc6698fb));
  OD (C (0x993b4584bc6e24e07e37decd397afab77ce1433411a3de7bbe81814debfc8c7, 0x2ab87a86cfad695008a3032ee297227b8623c1be085af79ebe02cc9838aeb09d) (0x1d7c3c18fbfe2aef92acef371011f772c7006a3974e6d9e18a6109fd5c3794c6, 0x55136ba893861968b29394dbed30829a49e365ae1cc7fc57f3cd03ef55770b0) (0xf7fb48038d430f31ac050215862d397c764b73047261fc078c38f5f72e48a30, 0x83541fb06bc945931b42e2f25d0a98f9c0aa1d074f97cab9377a0ee3cdea767) ((-0x2ce8a0b5565a8b704f6cff8856c684ee703a700bc986a23ed4e8950500de840a), 0x14ea23bb94fd882402f8635ad096407b28a87f65e6d1080e390706bf79913f3f) (0x10e8c30225af8cfe704ae317305782573fa1d46c74cedab153ef25eabb1635d6, 0x23d1976e5924b0fa5b9841831990a911c2d09977892d2c6b867d9818cf4f2a04) ((-0x2028f1e7ee73d144ff997ba254fb81550a64547e81cc6fb14a43996e84e08ad), 0xad59aa606d6baea9e616500fe1f87e7d224fe22fa34330912790e04ad1fcf17));
  OA 3 (C (0x14cbebe82b2d28d0e1dcf2255aac0dde086a5f3210e9e6baccfa446b7b51c80f, 0x2e27231154fac21838f76f89e20e4b626c99a9611e983055b5211ef0436c643d) (0x2a830b3f2c12dd4b9445e0a49cc46cd0f656c9e79ef8e6339f481acee837ff4a, 0x9fd5657bdedad7a1764e67d627447c9447e080b7f4618a5a70d7b3769cb414e) (0x1284bc63aa533ab9da945159b311d8a15d1062ef66107b4e287b3664e16db11c, 0x2e4050579e791134a0aae484049e23d137dcc4c228f818a3137f77617bcac417) ((-0xec5f167431412d0b96c7a7041b0620d6ec2e3a079e8a96739c563848e826f4), 0x2f782b1ee0aece4b61d9f56f79a4f9589e2009aea24d02c2919f4c2ac468ebbc) (0x27ab33152e4c5f2ed47e6590403beddeef54aaa70075a27f33e5bd7608dd7a63, 0x231482cdcaeb3d93c2dc6f6a460d9407b96219c371238739d86ba09a1883c79e) ((-0xe6e8e658b74b027275a046a6ab3beff886a837624a631346e57fc0f4cfdb2ee), 0x1245d474ca1cc3ab7454395d40242bc71e1b25606aad32977712daa540142a8));
  OD (C (0x42c47c7841cfa92cb431764e558f39719cf70cdcf10c6158b603f48c169bb61, 0x2c95f24e9c07e3cc9656fcf704dd44e48e8b84e8e4447db29698a8804556fab8) (0x71fed9480a6b2307ab3e0792c7080785874ce4cd9a77bbbba529e619f56dc8c, 0x21da7752183303dd06c3cf7e8dd939a46a6fdbe0a1af29835687ae34141fde1b) (0x214e1ffcc7d79f7d72f3f008072dfdc2c5a6ba8d681598113ae758c4b1fd84d, 0x24502cc22bddc10d8395771158bf5f6c76d9039cbac8b91398792f1aa1c12597) ((-0xa8dd4f79cbb2c5dd415a380bf9c4e714193d043566dc9ee4c79fcc79aa21496), 0xbbe2ca78d71dc0e687dc28bf32f5179fc791b1028b9b7565e242b1ed8e43af88) (0x7b08452a7d35632008da42900a3e8b50b1c9fd3b85c168cbce9a9140c6f5130, 0x28b819bdb4cf4b99d47642986e68827627f3a98053d9d08e28f3d3ac7d1454f8) (0x1e8bcb35354d7da38111b879eb02204623c6b9b80943b6342a3c152d45482eb6, (-0x1909d4a0b4d824ecb243675bd63834b4a122f6ebba6722d5cbeed1dc1ee616dc)));
  OD (C (0x773ac353505f75856f86719ae255a9f3aeb6eea38fd1b10386ad56507d3c56d, 0xc976fc20ada37d3f717b25f0ffb3049d547d773c5756c2fe9bbeee19a8e981c) (0xceb1e0ad795e1f62aac8e6b91a7ed77bbcda66aafe9502d1d61c1859cc31433, 0xa1e6cd81407f56bca0a3fcc3d5368ee789cff4da1691c2eef9f71869cbc57d3) (0xae536b6858e2894cd981a0054b35417c6ef74e1eada7f85c7c3390dec73858f, 0x21efd4576a4508415b497ccb45c2b79a7c62d8be8a4d6de86a840f8b69bfacb) ((-0x11a36dd202c5b64af49e498494e93b8703dd4e02757c07cc1701225ab9d19c86), (-0x31a52213cf27dbb43f4c0a650b70847fc935d825178fe569ef03cd6c24e509f3)) (0x3e0c0ac133a7d038b8534eb334ef3c4f62fe1860d76052f8752f0d5f79dcb8b, 0x220f9d2f083eaa67f62422165c112964e2728617f0115178df811e52b3d6372) (0x225b8f53f3a41c88e6bdf6c1947b5275b3bc82a80feb25a971adcf95f886738, 0x71161a830e409f9740946a1d14c1af713c3dd6a31cb5aa5940eccee98bfdf1f));
  OD (C (0x252a0f3235c39697dfb669b0956a4f36a63b8b8b9eb79e0be64f2b5b21f5900e, 0x22cbf96a9316bee475b2dcbddf18da442daa89ef57d4f3549e84f38dbd16f392) (0xf874b60e817d6eac4d25b51d19926f8c80c25a90a8835e9262830ce357554a8, 0x1ff7f7e298d73ec7c2898ff55e4058392fd5ccc54991a349ecd2de705268af2c) (0x6878cdd8a24fadf821d7bfcfe6593b452afbd7742f369620a5b48db14a74fb0, 0x1af04a4df19e94c87da6637c7f6044a03f2b92dc2f26d400a70b4005908c31f5) (0x2b819e123e72775dd959c0f7a3a3e330a5209e0c79c3350a6ceecdf1630bf16, (-0x9afb6adceb5be1357afb67f17cc7472a7de84f2f2429ef4bc19d5209ae1a5e8)) (0x35726b1d64ecb3a243589fad2627f98f783db47aba94bab4df78135f32096ec6, (-0x38547688ed023dab7d619135486ceb618c440750c6d9e2c29a789ddb7a87e1e)) ((-0x12a83afb07f38cddbbe4f816a68ecc0db201c24a8da658ecd7ef985d05ec82f1), (-0xdb4f58dd96dc9611cfae068ee169dab4160c6e240ba06a740e21b9bb155eb04)));
  OD (C (0x206fa2367ea7507481226e3b08d3514e7680a21d1680c08c03625e9a2782007a, 0x86eb1293b0582889f48ee1f71e621f72ab976572bb1e6ce52e314667e56a30b) (0x7aa9a3c1f202851f0b02e0230f9168517d40c948d4bd28f03c84ad12a7f0979, 0x1fc3206d5569d5fc71f6ce5a65fe98ada579749128e2a84d963c75f51fc80831) (0x2d78e65a79c6cb6de88178a96c77601db4dc074f149c9c8dbd1f0ec206585398, 0xa03164034e5d1fe52573114d42845d4896fa6fb500a28485fdaa3576f9c5b89) ((-0x172987d7880ae753bae4ce81d7031bb80f9e1694c9bbd8be97a67139152e6284), (-0x2fc60187d94c7cdcf2996120008b9670eb293000acd15210156b25edde8d654e)) (0xb4ddb26871e9955e8d5b6f5de83c61510ddf6fb9dff94b72144ff243bf29c35, (-0x14459a1f5faf74689d6009eff0e37cbb893909b458cf428f355bebb61ecf3a2c)) (0x1822294840e95c0c583de3c8ce236b6927a04dcfa26a6208f8566631e81c64d, (-0x53bdbfcd326a119c17cc5258b4610bbe7ff9be24be0ecae3243940e1abefc8d)));
  OD (C (0xaeffb2c3c91c48cfd25354323bd9faa72ff0674fdcbd3f3cbef37932fa08d41, 0x18ce20c2de391293d5930fe9b0c33f3da2e21d07cda295d2f46cceabeab90564) (0x7c4cfd51462cade805f7108f77006dd26a7cf0da977201728c32d794e1ddb56, 0xc02d710e6582d4d3d63f6cfea0d6d7eacec337f46a4a224dec1763c196af38e) (0x168cd4a55bf21047078eea7c56e2b8c5e4db07a9a3f96fb9d126b41813037a41, 0x2643a43a28b0857c8b2cfbeda63792e1be944b7b4a77ba81c5d1d90d31c1086b) (0x14f3a740576ad91989b944c8aafe69c256bef7dc72d40367af0e772dcb940fc4, (-0x45306d642b4cafc8d1d7a7988a4eb816efa2185039bcd786521e8c044f5a5588)) (0xb367cc4469e0fbf9a37fc3ae02744e3afdddd710dd52df32244d742eb209580, 0xa3e2b37c05cb1cda6b17c2334a2dd05aa94656b6b5ef72a83be64d9fb73cde9) (0x46960a21003c0088115a956830c516d8c04b1b204bc8c76aceb4dbda5c53e1a, 0xa25ba68b4991965d1783a0f74d46f326330ba6bde81d97cca3028e94b9b7303));
  OD (C (0xd910cdf0ec03b2c5b24edc8b1fb26bc367af911da7bf0113fa67738a2bc8dc6, 0x2c276a50d5b594e3c292d6f061bbb6f086c5a57f471fb8d618ac7430e4e69385) (0xcbe3265ead37ac8d5c3ae25a8c6c3ab32fc25a2fb80036629c57183d5bbf3c2, 0x3329d501b5ab4d1dba3991e7282ad37baecdc644a933a550c12fb579b0c61bb) (0x18183ad2f33dc8168cecb4e9c6a252159b0b4fbd2f48a7a2d22f849a445ba5c, 0x135fbb89d18638e2e0493e2e47995d852932df37345a56315efef267385038dc) (0x330929c51fd78f99d15717426c0d39ae99c818dbbfa0810632a503fedc7eb17a, 0x33fb0f64d7d59874dd971ef003d800e144ff74a1b1987abfb138abd0e3f08bee) (0x18c1cdd927535b2fdd15364c4632476a1bed3cf48b9a69b525ebef0d3318db42, 0x247bdda246a54efa622c01990b8774de6dac755812a8a46901f953367546a8f2) ((-0x21156ce4b6ace6b31a93b612887025e510b35096b32916b5f4e426390e65ac1), 0x96fa1b3e5f7e0f583a0f89859edc828bd428aa0bd818ab43c920ebd7cb81720));
  OA 7 (C (0x6e2e99bf10ed6f43613e24a819bb5127c5671f041325aa0433f62612ea341cb, 0x1795c891f88c495a63f0af80d672a31154bf183162a3369b74e10c6497f1dc2b) (0x1bb4548071dffab3a970a5150dcde1fd59fc1d167014f828b3c2975e929c8ee5, 0xd1f57637ca473ae9aff13ad5a616648dbe1e302755dc23bc1a869e38df4b2b0) (0x1ba4ced78bbd340cfdd9cfe994b9a86ac287e12372eb0db0fb9d6585c01c17b4, 0x2b8d3eea28d58e4db58d0b79a01b83fafdd196d5bdc59e7e7f94de58f39aaffc) ((-0x149445f4a3a653a410e1cb5f685cd096fa9afc7debd1756867095d61af4750d), 0x118e0fab29cfb2834db3f1b79ea2913aeaec462c1e1ad369ad1e3683fc51bdd5) (0x6b66885071c2dae34781e0df0d597031c9f5d422e1deb796aef6f0e0e0a0f76, 0xa83cf645db524dbdcdad19af2e17b2c08ebc3f2ab1ecda0406f8cb1da9c2a32) ((-0x8b4473df933919c743dcf803d171939810f114617cf38079ffeba6e677efe08), (-0x2b53f7d8f66e7ee6b2b89e0913c4020cb144d7200d2ea036a5cd1fca04d8ed2)));
  OD (C (0x2398cd3f8fe0e8ce171185679f5144bec6dab4a94f5d0430a169397ff50582f7, 0x569a5aac0b923c166da666b43ed099c38fc0fb06dfe9cd7e2b85e44ff035d49) (0x147dd090763e9cc94ec92de70411c6a6aea43d3dd7cd22c191758601a4a0e0bf, 0x2c679305160e655831c6f2ec43f9ebfd7059dc9e69c341d6c4baeb76ba4185d3) (0x13db668eae6fcf7ee79a6b36672a4e107ef90fc62eac83bc8f5c324487a9db6e, 0x122255cc772dad105753f37ec475bb1a10fdc9b20f51f20845e528abdbeb98ad) (0x192e6d1b32b42ff2c6378c87b8bfdb6041a4ed1ac9da080f925340ff8e5b9d30, 0x5fb035b81f882d5edc134c6d2b7483093103a0d54b03b9733c83b2cfeaa223d) (0x7f68e501ce921c7b2ec8679888ecf2684d44e287849edf2b5f4ab6ef3b78b83, (-0x19945d23be31af093c0e9a0a98af6ad4bbdd48c241d061b8b9144138efba2135)) ((-0x16344c2e69e580d9b9745e70cb6e330c58549a8c270228619cf55aa365ea22e7), (-0x8ce05992bd20c8e9a9c6a1fd5f852ddf42c920f3b5b2e48faecc053451b6d42)));
  OD (C (0x1d690a864e8ec5c4af02985aaddf8ba757508cfd47accc3f3eb0d1d85815dd14, 0xf9172f638be52b932c7a70664471dc4335468ed4ca699dd78d3110e20ad680d) (0x2d06bb96e327965be4b95f737a855a71b171a28438660ae653a234c76187acf6, 0x297f95663085a0dfe45cf88c5700e18a61e6a76b673fc5e52669afcde27a3e49) (0x18bb82b41bdc370e859e7c6e14ad90e03a86354e5b184b23f2219807494f133e, 0x2d2d2e80fa2962fff42ce94c7310a5d6df47e3db12eebc243c72797d1e15f651) ((-0x4dfff58d9d32ca102aebf25b7f374ae4d5cdcf638cd30b8250af8efb7fe785d6), (-0x6cacc4b53b0c30ef68611dfab1a2f23e4a6e10f3592f8d817f68fda6ffbbf87a)) (0x12ec5819f95c4ce94d187ee3a075518efafbaf020758328b39a63164202b87cc, (-0xcdda48bb7dee28af932d0140915bf8da545374c05360d92ee5bf3baa20b797a)) ((-0x620797744725080a07eaa2ce6ac982303b7b6b22a7d58d59cdd56621ed3a959), 0xfd89a15f21effe9de3fe624b2cc96203526b285f7bf5df272a44d5ae44fc330));
  OA 2 (C (0x16d6e76173250b6e9b6ef2f5271c9958042877a4c2cb90699ada110320beac97, 0xf9b1042b32cb00c4579f50e93685aed0c0eea7dbbff06a9e7d21cc3e21b7d1d) (0xec3cfb2ea0b0d304c4396e53b758178ec2ef3e24f93110286a694351e648864, 0x5b944265773af634bfa5d013d462109a8aa87b7b2ed89b2352d13123d3483c8) (0x1684de7f8655cf1efa9ba766ade0cbfd4e4b656245db4b026b4c6de12db2c78c, 0x4791d9be67cbb6b6d55348c0ecef38b12df708b043d3b86b983b43c66b8c536) ((-0x1a13cc812dd2e7ced4d22343dcf3e6b0b3969be796d0566ec7eb6f600d028a4b), 0x238d47e4f5ec0fbf65e332578bb6db6795578f85aee2f39c4a73cd09549f5bb) (0xebb18d05543642d399f70f5553ad77812906b8a9ac04f5b813a8aba7574e071, (-0x5bf34c26470cd39122487eba26258aecba3c2eeed378cb6f003484e68484ac2)) (0x1aa4b9dd32f192e2986fa334b86f30856ebc5212aadca4d8dce70654af349ef1, (-0x2bee04ad65ba7a2445bddabfd5bd8395178615cba644801cf71c263da415bb8)));
  OD (C (0x2f7294aacca5d1bd0e647a70edd9c217ffcc149ece943ab3f5e6c4c58407dc95, 0x1ece6e9ef9655f05995e3776c547dde7094f68ed8c466481a02e5653acca98d5) (0x11b99b4429a1470b7c8d60cbdea9fd2ca5b6e175dfd3ec5f055b8f37c684df15, 0x12765f1dbea077ae619361d5ee09ee012a711a4936df0f1ac23479023ed13306) (0x67d068904e249b47d6aadf27403e92a78e987945a426b168bde4e49c2d7419c, 0x57a97b61ee1a9e55f7923bf44c6be8bd028836cc51f884ce049417b8d9db0b3) (0x1af6fe5634430030881e5530b9755a22b2fb3aa0b06ed2111b4dff57fba8ce4c, (-0x1afaef8fcc516af82bc08041ece6815d83f3a45979e9a9c7a1e32201b76873f4)) (0x3c6918fee73ecba3716d911394e229dab5b475e0e7bd80b4c514f5a4270545c3, (-0x1ae90bc1a462716bfb54209b7d9688bab2577d6732d3d640e110f57088502a3a)) ((-0xe5fe35069caaf0a35ecd75a232c02f34d398fcd5e028f1a67170d41d054bfe5), (-0x535053a4e5af4f67669527a7dfa1fa678e436ab5b349f67cb23820899ea75b6)));
  OD (C (0x166c7ff2cf06d61f0ff44b9a0ee96e9deb9c77e7deec841a499c2971aef8b754, 0x2556004fdb6d72d24b428e6240267abfa03dd9bbeadcf65cb80f267825dad363) (0x11e4de66b901ea4286fb9fc19167abbc0a847107a0aebcdc666f7a4b11d20699, 0x109adc69d904d637946915b0ec490d7af5d783e9a28002d785977efb58f6e93c) (0x61f35bd2bd87c7e2e5836823a5607be74e8c3ea20e9850d85fb2a6f0d564043, 0xd8ea3fd5dfd7c2e11f5104f169fa05936bd4212da3f3d1eb357cb1cd7ba6c2a) ((-0x197c260c265f52aed55235d1ce71e8434a28852046296b1cd8e54b374eec508c), 0xc97263579a9d55b3a754818b63050deb3ee86fd9455e52da9d646957fa7d27) (0x2299fba77191ec3fb15d6bf9d5a4c3f866e2df89115c620d6fc3e54da939f6a3, 0x126a49d49de0f50bf82cfef3cfb1ed6c570306863d6cccb4d59c499b65b01387) (0xbaf6ca77ceedceea9064ae55fa78db3d073f043a808e377abd466d7036a13b, 0x182eb64b7fbab8dcb25426735af982078088b1c3eef67249887b9b51e11fa67));
  OD (C (0x16ccf4edb9ab84126051efc9efeba4161f5d4b02118902be52e3d5f01dc13d2, 0x71940faf53f7528fca5c067ae261f65bc6de2722fb03edcf3bf2d6f7951f7f8) (0x1b7d397bbe26733145af7756c8e5d0bf7246443cd1656a227b48876675dabf52, 0x1d5bd364e83425e5be3f14e9adee22fd7015019c65f2e869b473e4c7146ed5ff) (0x23070352bb0a3a9abb761971dc6560e8fe1e8d55f784e867529df86cbd79fcc9, 0x232c9ea031c306c69546289360e3b723ba27d07e7fd4fee3ef464a95587533e4) ((-0x223ef087950ed6567daee89761ad55eeeb6cdc32c53e0f1f9d612c339b68a410), 0x65fb7c5cf272fbdb43eb255b1c5cb9a420f0f95b2681f5af97ff2699df0c131) (0x6b075720162c7c887f9353f7498236cf961cdb1b6559d153e247b3f725b4c4, 0xffd4fe5e8c91451a4d2b2a9c975522f1b12d811417e0129a5a1e11656ed2d3) ((-0x1c878cad7e0520e675a34c66a2ce7243f76d64935f467824e8c6a71c7c512f6), (-0x1969b49a886c75602077583522b57b677b64bfd1940463047b60a2cc829712c)));
  OD (C (0x21da34e6154930c1d9f28434c632a078a0ac7d5aa6a97193209693b2f10ed654, 0x270249ed8a936f3b3bb8efaf1c5fbc411f0bfe26ca3a631a003114bfa5704235) (0x89606b6f2758768c165764ee509fe922046bd6226a11bb92f1aa470b199f387, 0x278df27b72d657f60f9d0f5349020ba72ceee2646c77aac29a17f0e758a3dee6) (0x21e25c58fd327d3c57f138b60ab0d587216a852e3dc27619788fddc5ef09ec0f, 0xd5e8ab64a51edac242ba552c5978af89d464279486b6dc4b875106df89ceceb) (0x59eae85893ce62e5d50b3ae38146d8e0573a541f339fd478811346a6742440a, 0x11cf5a6ef39b1dcdb2d2b3c9307f7ff4f151275519b2f6fe1ef81808e1882ef) (0x3693c361f1b71173d479c210a965b9f8eaf27e7f2ac4ea87749598b1ff5578fb, 0x7c3960d2bce3ad8903900d7227bc11f8685bd2052277a99faa3f31c366ac1d3) (0x81b00ea20e42e542f099f45a2b89358912b0dad5f5b8d36d9b9dfa0eaf82a05, (-0x1571486d9c6e0a8df26920b9a6d6be42a8a7b9f1c70ff6650c7099376bd995d2)));
  OD (C (0x1870709382ead407a432b2b429cef210efeab14f5c643272f30c843fc3be969d, 0x1796979a4e08033e9134ef8776e8f47a1918c6cfe1aea2e8e686ce5d8b3ab94e) (0x1341c41b16cf76814c806906cecb97de0ddb876564e2ed3b8e498e51dd0c57c9, 0x1b2fd6ca400eeb02755846a165a7d5b41f24a748fcc5e61e75a3d8b7c2846993) (0x71d351706936e438a967eb51e09e2ad9f8e59dd338599bb8653674403cc5f72, 0x2ed0644405563796a6ac4940b6c7f7b28e5825357c8bd70e5b0002f084715da3) (0x46dbd860abc0d92deb23eb744f863d0757d11c37077f879926b15a47d8c0a2a, (-0x719d40b24937ba3dd41d70dee26f172c818f55c5e340d174f8959f55f322a39d)) (0x17d350801405ca6676a29065c31aaeee4381504f318463e19c8a4a3e36762d03, (-0xd835135e9ad1657c613c1d9d6f1ad66cdde2892c552a1e8bbf2778c57ab2fc)) (0x10b67d46509880744ad2f0d8a321d30a38246b99894667d5ddedcfc8c19ce66, 0xb6ae6d4277ed1e537dbd38538e70a97cace85be11a8840b2f74556d9b8da91a))].
Definition cert_g2_2 : list (op gfp2) := [
  OD (C (0x24133716ccec3494837d879c331160b6ba1fd4523b9ea5b26b9a839d6e2a8597, 0xf55297698a4c0f7b50b30fd49b52a39113e5db7915ee9264775dbe8cf6bbaf0) (0x1104e6c5c510cb7920c411dfbb0de0f9a0a588166df464ac50ae0118328ce648, 0x1e90065248ad41ffaf744565f7595bb4df9fe564f462cd768c651879ce183a08) (0x1e9a8757523c06bbeb1a46bb10d070278af5a36b57eb4d2ff84004923a46d1aa, 0x2d7b039dbbc04622bdd4baf8edfdaac5ab8f1e2f1f307b77ec642aa359843b15) (0x964d26c95cfd929d3baaf20025d2cd29efc8ead785ec3792b9a7224d8cb7e38, (-0x3c606a54cdb35abcfaf66b86e320db275d2f337c765108376748e0c5e2e423c)) (0x16dc3f4407fb11409c5667002be52ea0777c837824eb0635cafdfac115e46f8a, (-0x1608fd3e03f76d6f0ff2507db0574049364203dc1d2c65d8e4bf7da1cba7fe49)) ((-0x1ceb916ae0ae636549703e0c3c6fb0f00ddd79e3bfea8d84d4b5977f7fe8dd9), (-0x2bcdecdf1017979cd718649abf393035d9d6332c5911cd440117832af099f09)));
  OD (C (0x2bd0ddf501ddf9c9a0a13ca5d60f6b7e976573fc954aefc8af9ebc732e6d50a8, 0x262551bf5360dcb410dea5b681435b4a986fe3ca323904bd73ca0277497d7382) (0x86eef06403d61701fdb9acfc61fc33219e1d9a6b1e17fdb937b3136925dbb0d, 0xafb6b30015e4c2bb643f7961a0302305f9fafd0b1367ded6a280618d7fd9723) (0xdfe475c9022d32360ade531a9f156f363c2bd95edd5fa0484d7ae0a8a4a734e, 0x1ac72cbfddfe4fe012cb2107520d2ec8bf40f6b88527870e213ac5b4836a104e) (0x421d86abb16fd3411135c6854f020fa30657bb64da6e8f43bc19e6cfb9b3db88, (-0x17aafbd6472a83dc5e451e8d0c30ba0774701dc73fef680dfc8cabbfffb883d4)) (0x4513d1d300882d38b942f25f90eb0790953c61b067375657506b381bcbea6a65, (-0x99a7fda08e8485b8549eefd053455a60659d342e139c85a683a494e20639499)) (0x187f341f120266a3d791fb693ef81de5c9053bcb69c98eeeb5ef492e5235f28a, 0x7a9279daebbc992a373e61207d51e9fb06fa081774a9338d4790bd800b9d4d9));
  OA 3 (C (0x29a33bb50354eb310582d6d782c4c1340ff9032d7805e1420e94daf640c4a62d, 0x2ac83460746a5e323f7d9cede373d5f034f4be3cad0fde37b36fdfe68c34ab2b) (0x1c39f7d70dea3838f1771994c43533d305e1cdf6b46c4107730653845c5d5d5d, 0x2176a0c3a6f1b64d65b074aad5bc4f624f13f807f04bb6c1adc2b78d80eb414d) (0x17f804a5514435e05d6c5cbcdd10d749c5413fb6582988b45ef0f67251ded0a9, 0x2462cf32c207deb7205f7b9cf3e3d06ae088cc0c4e7ac4d0e50039e73a959480) (0x1fd48bc2c9f0922ef1d71cbe99f6e48a04ef6b6aee64e50216708083ba8e06a8, 0x1dddc4ac66b2cd391bec4621070a34783011f0c47375587b35e44bcb3a7353ed) (0x499f251742712538e72e62587f598a325547a06139670f0f53133a6b262c46d5, 0x1ff16e4ccebc5fe47c5ca102471dce785586edafdd23b4265a7ecd6b9a257b8) ((-0x24d794bdbbeeaed93b4a2136f155caae4f05df93d9ccb6526fdfeb1eeeb5dd6f), (-0x2d83ab371b5784afda4419b8e409f272d9899c44e3c50a0dd384d46d49f57d4)));
  OD (C (0x1bfd38d03efdb13a8636e8c34ee4dace39723eee4a03e4704a39c503f0945f81, 0x2d4c2bd6bef960182e6999fd25f34a4a69cd8ace918260d1e4c1947024f0cdb9) (0x14675a69a55fe8e4c0a656e81418c352b12d658b1e9fec1957a1de546928114b, 0x271cd9c3c0d6a4cee1ec7ab449a2f68be87e0cea619858fc2f5ba2938c9c61c) (0x2a46160c55ab87c2c5aa50412428a42323a1d0a37af8cc53955d2db35da7a6fc, 0x2e7f12dd16a85cc849bce61859e54908b5ee4534e239389da568b2c039eb8690) ((-0x1e267f0de7849e658665ea791761ce201abe65467f5a2520a6b00607365110cc), 0x145d36a86a887f55ecef59fbf5812a6716bbaab2df7236a934e4e33b5995da02) (0x34661fca3e9444b5d44d153951a681954ffc3be7323029d9da1c6511569818ab, 0x1a366c687d5b549d885593380d8abfe90a1e39cd3ab674169cb6bb18973d8d36) (0x19436cb3adef07c1b25ef83ab508dda3e389e9493bd53329fd45310f6f81f082, 0x1882c977296220c339ff3f94ea15888d879c55b6b9f2fe2fb3aad92b76c69801));
  OD (C (0xf72803bb6c50f11689f11c62487d4c725a90d3dee5eccbba1ecb71f5a0ad6d2, 0x2214eb237a651c6bbe94765f91e9fccdb203cd681442ee35f989ef84050cc2e5) (0x2f3b1bc4ff12865094d3f5d670412f5332234c2dc43e2ac70157d5195aa9e8d3, 0x1716fb79dc514547bd20fd682751b5858b6ae58a5265bf75c394f7c87ceb696e) (0x21ef74dc23930774d09edab08961158cc221ca1bcfe0867061073809b61b9220, 0xeec561017a5bd1ff16af94cea9d2a24b734a1a7344f34374156b6d1a2467990) (0x530bc08f0ea4bc2831971628b223f0c4665e24664967abdaf4e9586902fa3320, 0x3ff17b79b59fdf36d09c5797b3e7925ed9177575128a83601fbe35e1eee3af3d) (0x15c234458e3aa932cf45809053ffdf5786413eaf59ba13393c1cf73f5f73c6dd, 0x131284886d568b93176293c85cc83c1c7a05b8a17ae130675ef1409df82dbd19) ((-0x197bf67e35fcb4a43a09ed359d8aac13b39483e182d0375389415b3f5a18f0b8), (-0x5fa0226819b097db9ee82bdc3af68ee1dd670698e60450cb952cfdf6f3356c6)));
  OD (C (0x40dab8ac37696fe60da4c4f42447d62d9cc416498d6767406a28c19fd03f58b, 0x24d78215a53caf50bb5d9858bfb2846e94f0c06ea13819cb30399073f815f164) (0x16f6fca491a5d26c4a4220309a8ed045b1d63af31f25abf0a5cbc33aebcc90c, 0x83c113eec5809fd5881dd68d27baf82b9227a07a7b01cebab41e68652d4ae1c) (0x2e325bf9553a4e552c23bcdb256926d1a535271915b9bc28c769399b85d9883, 0x1f6f80def819e9cc32b0efc71c5602285d238b74e036a7f99782d8af2e398b9b) ((-0x510b2209860366374b8e02ba63b012c314a3f6f8e8c62cc38508ea76c2c93284), 0x7a47a678d4bf3b38c7155e54fea1ac34baeb823d581df7fba8702a4a0dd52c59) (0x62c01503a97fe16d0db7ffb9be41f6b7b18527ef2fdafaefde1ce804511abea, 0x1bb582c9aa6bcf86c16762041f616e45742b4bbf2560efa0d278df3a1dc8f9e9) (0x241c0bd3d3b7c9f9d185d9145542ef95247ba8c123f02d643251776e75c0c0e9, 0x7793fd8e9752d29f1cdf7c538d1a2ebfc806199b6665a838a95cb77dc775cb0));
  OD (C (0x4323bb01ba24a15be4dd77d08b34551606f6ddf609142e811e7a66599813454, 0x24a718820a4916831a557fb26c11ca125c28fc98ebc06a13a7be65e6f71094f6) (0x23b1d877f2ba6a4650af911b16a95d0ad5c25bfcf8581e919e64ff8b292095bd, 0x1a5e1cfa0bc13c8af58386a5e2b484f7c38eea28be57b8c51b326ec940b1e8a7) (0x3309b5411a22784a8c4ce0766275e0dcb2a78c7f1e3e6eca8777f20aecacbac, 0x27087c21cd346e8ebe80d1ff304bdbb33c47573ee0d29f2af8b92ab5d7612b90) (0x85c2fb7e5084b307c13b7b7052000f524f3348dd97e7734953563424ad94784, 0x2b0af373451a40a4bac4a88dd3c4ee5ab8c19f263e24c8628a07f2f5897c3a34) (0x65b48214f3a8fd8160ba9d1d29da392041a2d58166fca18821fe141ec6e6b0d, 0x1b65c081049d74d002ec802fdede0af784aab0ba3c7e572241a37d6e824d8ae3) ((-0x1b855f33b7340adc399d29512905eeb89c50b7cdd4b95249db9bd98c11695197), (-0xac371e7ceea2833ca2e59e0d5408204eadffc30e0d83b98e8aaeeb28fec648f)));
  OD (C (0x229a4fb67fcb084753ac74da4c5fc38d0616609651266c2c2cc0183ddb939c8b, 0x124439f75ef489fb538e9cb0d6e0a1a50cf6f8e50ebfb73aca74345fc933fa5e) (0xcf788963b64da34211949212fbd7c91341b9c298c020161750c71a8ef9f5f, 0x2dfa2bfd76cb94a20bceda62a35479295d2a108f110b47e4e68b7af7386ba301) (0x2c7a35e5d31d9d5b7feb607192dd3accdd21ca213cc15105949374e86d3fc592, 0x84730483538d117ee555a7bafe1ea9bb4c476a736ae49dffeaa476e127722c8) ((-0x3a773a06f4ddc2c6e33a3154ca4ca7fb2f814045d368d97483f2b6b5e49a635e), 0x3ccaaf5f84c8a30fbb1eac4c2fd412735d50343a95e9322bab4ced0cd2108740) (0x1a1f82e61b1bcb220c18998fba66defa22219ace113533fd90fd0a51de89b06d, (-0x11d90891ed394f989ad9e16444989c4e9ee669172e5b839c5cef11da8db93a9c)) ((-0x913cbe2bc11de3144a38f7f48ee17765ecc56940dfe36842708fa2fa3d69a8), (-0x20e3b5c0f696925ed5e771aa85e27a7d12d1d74688438e2a2553cc5920142f22)));
  OD (C (0x20dab3e29011c935e2cf088799a8bdb7b3b97850191203f0ef7c06f395b16e81, 0x2f50f9de871ccae24c82ccad7113a2e06d22504d732bfd4a514e8c80a796352b) (0x79f6be64163c3519b99a5d2ec8880165b3f06587fc8b32c5efb31e8bd7df8b9, 0x9c966e8cec73e8c3e32193ed08c3b2fc158bcf1b509a113dd6dda9963b40269) (0xe9ce1246a9db267bd1116df49dd61dd367ef77f445761efef06ea30088bdffb, 0x172d811a07c6cf61ed7b751db404ec2c6a01892c85a1f0e59e58bc345b97899f) (0x61edea1f8e7d6128aca9f310ee235c4173636f48db495522e98b562df8451f8e, (-0xaf412260bf1344e310d94ed777c3113f43a10141424a28bf915b8d1a6c78902c)) (0x403f8c9b012e9c5234b41f1d8cd179152d0b656f4964db270321fc33ba6df2a9, 0x17f58c3a96b8848fdd170f75b6de0cfd8fb5bfa73ee6a1fc188962ed7cfbe44b) (0x112ab0bbb8cb012dd70c968059fadb3b287c370f5f6099421f0686632a4e582b, 0x2886ebc436ad0b3298086f36a218397a6c867893f5f6fff33007b3549f277e2d));
  OA 0 (C (0x2d88f396f217393f3b98cd48259b8ec17873019a9dafcfbb33d45b7af1f2f9e6, 0x1709d79fd1a6048e88959112c7188560fc088afd256045298bdfdc0029bf0a73) (0x1861e6d02edc1af317523ff51afbeb8a1b2259abddb0c7c063652686ab5c3af8, 0x258c278862f8d8236f1891238cfd4ced55e806fd0f4fb71c44d5900f31d5c7eb) (0x262c906567de098dd37c27fb2a46607f42aa626babc03bf16f77c0316afd7140, 0x18500e5ce19043082cd75be1d21e472da77610ed6111e0dc550fef65f2cdb735) (0x15ea5f7ca2ab1fa3d9a5f54fa99b0ad6e3b8b7dc2267829b838a0d6b0844d425, (-0xa1b6db610fd6262d8eb88424b5d668bb1525922e7b6d635cb666da1555ace03)) (0x2b5b50cc44083808cfa3b0b63d2e01228a7c43c1bba7a28be56f9d27c2c70cc7, (-0x1fe0eb7760e50a1134cf38e48a85fe53cf6af5dfa7bb1191d0ecbc5459617fe4)) ((-0x2219d10f8b0dac0019c5384b7b1e45aaee3458a25eff8d403f7097b752db790c), 0x28dcb8ae7a4893dcf4e215e012fd8b457650a9ca14bb8503b1de37e2a8887a0));
  OD (C (0x6e475ef405b48ebd5d4aa840f122c7728dda5d8af8abb592657d9df670fbc9a, 0x5c798d71caf3ced1a340d2c58e8a15acd5398952dab0248882b63a9b8dce4e5) (0x36c41b6ce63faba13accce9f6d352554523ef84069e68c32d05c711f3129d5b, 0x2b03d8407825ad710a2c8e5aba9af5a78c0b8f6ecd20286e91eaf633b4e787b9) (0xb66c24c9ccafd3ce62e6ed0869afff2c99cdc7e220cc227028286780fc23883, 0x56534f1ca13036c171af9a218418faff452c4317f2a21641f798bfb085c3bf5) ((-0x617766ef805b91996d4d6d84950b7383774e3a061db601aab86f3878c9063ef4), (-0x379c67bef8a7ab0bb587e1bfb095b4a3db46ef931242cba66e4acd45d8cb0b1f)) (0x1a57a040a3a3a0a679472a5b6650442b4e03a8c77ee40ffbd54939a42d3ee7f, (-0x4a987e5cddc5fb8689365fd07895f6cd1fba253ff524439bcc185a3c041ad6)) (0x1b97d08cc547b8e37868c7e50c68b9ab9f4812cf6c7b6da0f4dcbbcc4ebad2e, (-0x3a365f4aa12dcf0d19ad70ec3b554cf1a4664e7416e8a755993cce0fd97370e)));
  OD (C (0x14487d41a56a739d418871ccd2e713e23ce769f942c743d1b166519704d8a371, 0xcd0b210f43826bc1beff8cd4e14ef4de36a82e2c88c4e175265f327e049a097) (0x105e68e925b328a74cccd827530dbb300aeac135daa75e8348b71e960f5d1e31, 0xb674768e7c21df9ae55e83fc5cff1a5ab4821c7c6b1893f84a7d6556b4020b1) (0x1563c4dabda4c3241fcf18404b2cd57f761af14c319280fd04d1a81f0e2769b9, 0xacff658367e8b96e9f50e52a9c77fe127df5d8a5dd25fb76f39bbced4df8deb) ((-0x7b19f7e75a2f6e5f5e2381198282a223efb00ac558b5e94bb3b98d6fe47c952), (-0x78ae3d557eeb0e484e954831c21b7ae0a2132a234cdbb5332673f4c02ed4f418)) (0xabe2b9cbd37f4ea20bf74510328bcd5bb87cfa6172b263d8e2292092a758de1, (-0x51b9a42feebd01933e953d6f2ce92bec7083680b93e947ecd13c63595e7e6f5)) (0x9d24b0a25253d9221a97cbe338aee6c90d869276c32d651f51c8eaaeb0d3e5e, 0xdcc32a5b1a69557022a0181fd832e9599634b2a1071cd5da367bdbb0c30b042));
  OD (C (0xe834663445aee7273560b56a328a162d9224ab01311ed252b72662cbee773e9, 0x1ba58e7623e3858a7ab8658480fe926d72ecd67759e25918f24a35f856c7d66c) (0x251bb46699c022b7f524b27ea4d824f4b96303016debbd599d93fc96a6711dae, 0x1f3e9269489f708bc729d2d3dc0bc53da6c988536f2f1007a925855bac064d79) (0x5fd69636a4ec35c5ffca1f653ec05ee3898cc6b84fb92de1abf034be33e4c5, 0x2ba3e45d4a894da5d16a0d6f704b835ed24a64b9b62b16c36cfb7488ab9edd91) (0x7c82e8efe784369ce506898f008d40c7cc9a35032831493a720f6a087b52ea8, 0x812dbd27e68fb4e39be0f1fcf263b28add9dfc159f0254b87053c9673adbc4a) (0x109524b2934792c9e8f4c679e57e57066a9384077bec82a327f791eebb0c3138, 0xb7141e2c8495c9733779c03a7850a58d6150bc796628d72add3a4dc4ed1183c) ((-0x11cc8a0bac66d4dc59d92c33bd5350bae218dcb12e1d33f7992031334c2f2fae), (-0x51d94c69db02746353f74b47726f44da1d30e20a6dd05dc678c73e8c2f1beb1)));
  OD (C (0xef9e20495515492f5aa3cc746264a2af01095c98643454dd31cd1cce619a41c, 0x19ebdbb825610f1993ca6843770af3e0216f2b3f8e46276e3c4d7f19d03de7f0) (0x26c242f49669cbe728e4dd37c89d8c34d638d6850d860b56bf38b2dac7512e3, 0xef3281c6c424591b55a5dac49a47a1c17c0a539a4736a9e6664d3db28d93db5) (0xf2d388f0443ca2dacbaefe71e92b96700f01ec500d4c9da3c2d21edd2e2b29d, 0x2dcea7ab3a7f4695529fe33880d5624b7eceb21e11be563b8531964ec73178c8) ((-0x7457a7880841437cda4b294f19f96bf5659db111e87643a3d0f0ab08822102c4), 0x475e372e52431d12dce510580574f52d770afe26151ad0e2744ac2aa8ac21477) (0x100b46edcbde2ad667ff40cfb5bce3cc1bd8d4f9feb01689b84c795bec295c37, 0x940093f453badf7bf890bb500123a6582a69c51d57571d76bf1edb946e0b0ef) (0x179f55ce8acae42db6a35ac2cad3a0475cb7b97dbb272fe9c2a1bd68a2ff0eb2, (-0x2019265710907790fc88846bd9463cd621308fe2df8d1e06215e71d85a6ff4b)));
  OD (C (0xbcafd7ae90b5a9e8751bc589f4dab544f6bdd62712bc1d8dafbd6db72e27796, 0x2026ec298a2b1e0dd7740b44f7776ec81e0fe4435d9ff462be31ceff9fe2921) (0x5ff413c8fe5b02a634156cbe8c88231fb859b9e1862873b9b9fc85594528420, 0x1272cdf735039b58aa5c786f1a424cb412dc0373a2edaa1ae198889de704bdb8) (0x1a762509ba59b7c27b3fd6c926399d05b4bd7a67b4d30b662d34f5a92fdfd30c, 0x11437357c3d5b3f2871e3e3b289cb87cb57e4282ac2902afb923d6e4b79d9253) (0x1318acf8634717b23496eb6b196341dc415a8f1f2dcd17c5f3761a5b4ed80920, (-0x1115978d59ad726a7150cd0c7ecf8c99ff392d396c45ae5c3be1e0ece28ad1a4)) (0xfabb2c4c182fecffda3620da8f34bb739428dea5615138a2d37cb587141e0a, (-0x2ca5b208dca2907de13b34b297289f66b7d8d45b8d5bae4dd0c02f52ddc8993)) ((-0x1004465f17f870bf60301114ece43e78ad328efd4f8986b0fea0e9cba7b6778), 0xb9d15c99f6c8af9bc448bf7dc4e61075c13641881024e8a6242887a2a7ffc0));
  OD (C (0x41f6829a185448b2b073ce03fadcf8034548f9849b106410ebce71197afba41, 0x19ef726875a4f8fbc4574974579274d9cc45ea29f676a70edce1084ba0f37423) (0x29760073c4e14eeeebc75e76e1e6d119e607fd81a9295b36b066f75bf8b75be5, 0x211172f4325dbb8d2e4616bfcc8a7ec6e02029054b53c3be8d9433d9a014b187) (0x3bcb3a709fbb4ec4835d641041cf7595264cb423b29ec263ce03b20d84f9e4d, 0x26d9d8922fa3bcdaa16f42369e0b365e448ee18f73f707b6d81fd5b4237fbb2a) (0x11966f244e957bbcabca62ed5dbcff22c39266a2d5118f66764b6f6f385a1e22, (-0x4dfb8fa710df413905ab64e3e57129f5a62ea19d11d71c1bda82e44e96ab7aa)) (0x46b47873081242bc5cae1fcda753e85035b9b500565468d7685b2538a22edd7, 0xd8c764d058d9ff54829cbcd956e4f068b8eb56fb5c4aad039d518b134f89ea7) ((-0x14408e636a01bf988287baeb4ffaf675bb88a8003558221269b4c2cc992fd5f1), (-0x4d065bf95e5b1ce37f1e408d9a69e834bdc7120b156079dace26c62ea374c93)));
  OD (C (0x637d707bef109927d5d90473e19eb18c7da6f64e5edfbd28f6d83875700713, 0x18c7b79f94c5a39a913c9106bb87118498d3b43c78ec5d6c17a2b1f5dc103a9c) (0xb96630de5b12ebdec8b9923bf42f0d10af39e6392d0f07bb662936dce6d0ec8, 0x2ad5a2f2f76c45af573554dc37d18d36460153fa61c8e4bae4c20e81f2ce7924) (0x1fa5903e2813d1aff905c56c79e1b3a87ed293bc7fdfe51e9414f51e36332d1b, 0x1405c50259f02c453ec800330099307d4740908ac94348a959cd5bc21c16a3a5) ((-0xa58a66ebaea9365eb3d35ee1fc57ce1eee62307a69950f9a5ee14a335ca65892), 0x4e81b462a0f3bd9982f05c7b25438eba9bc65f7a31662e2474157c94d07a6076) (0x65e46cb3c5c22ca92856807cc618a98ab219bf978e484dec592ddbd05e99ba, 0xcafa5b91afce5ea3cc32e8417a3e868dd456bdad831e6a9b8d369af09c1a363) (0xf380ee554b5ff60dce47d8e2118436c9c49b1b951427f58572ab5d785be0cfb, (-0x53db23a53dd953ed481858f80036208707ff161426e3fc26271309f1fd32b4e)));
  OA 6 (C (0x10dfd2545d13793f1692f53073525a1999f180edec9883320191eb4f75a45b6c, 0x2e07a9808e279526c2b5ba77d7f1f69ffe7e7dab40e5bd7cbd2399720e5a60b5) (0x23219014613cecf9c4f7a86c34844e5664ccb3c59afc58e07ddcf5e1829ffc5d, 0x300ba76267de272551516ca40de66426d10bc953709f48e082f7f5a3acfb2be7) (0x2bae886cdbd74982c56602a212db8f9fa366f865827cf1f8102069aa1604c8ea, 0x28ca5f6e2e61776b1723d656dd062f691021a2d1a38801aadde78e51c92a7589) (0xd6e679a5f4e105780ea60d07b7781729b87c3d1b4ca172eadbed847fea92e7b, (-0x1eeeb14e3de68344adac67dc9445a9dbf4107c80e5e16ec7a3bb237c89969f2c)) (0x2019f65e8d78022c3531cac61af0087cef6b07cfa89d955c2e7871fdcc89641d, 0x25e6335aea3b67c4455eb2731be4676ea2ed3921751dad36932dd1b923fdac9d) ((-0x18362d69d2ca756ed9171269213d0a1dbb0cfbc604ef23f5463ebb8d29b3a04e), 0x340c74b1e43a4fe637f35ab653e850a25bcc85ae8e4f63793284650bad15039));
  OD (C (0x2ba3af0aafaa26d5358fcfd5cb5b95d5cd6f4ab7b00a19376d7d00548c02cada, 0x234e9c0162446190ee50397a052229c49215345fd3854e44294f7ee928c0e941) (0x8b98cb3adfd0543bac5d028e2d91bf52247d0691125185c574da5c2a2b4bcdd, 0x11ff34b5e8e1d98432329050b0153db2dd05dc945f37e44347a90a0a1f962a7c) (0x28d47a46fad584eb4259b49bd2387e4ec516fae3504351cd8cb15f52c9d335a1, 0x2079a10931f426b2776da18059669a62a896eea8e9a5634a678cfb31c8872132) ((-0x47f7c6cc5221bde75de7e9d0cd329577673cb41d6947730823acd58272626cd6), (-0x55daa7e2b910c619415267207f9dbe26f53842a45376148ebcf476c3f331d0a2)) (0x3fade733988b6d289b1a0cfb806443d9a72e6fb235cf5ff2f088bd61ce03107b, (-0xd97e6347c2af70c6c8c429b210085786586a5a34b7f1cb11321076638db35ab)) (0x2e5d275fc842808607426292b6bb96a8ad2bdb9ffb46d6074ae29ebb2bc038d5, (-0x1e3a851f26b6b303be67be02cf665136240f3be7af896d8527ddeda03fcc8f0)));
  OD (C (0x39f41641101cf53872ccba234918a4b63ef74eb7da480a7527d3f19c4f8aefd, 0x16796b931c9f3aac9ba293b2753aee0f48af232864cad2b2b5e3d8de3d211c38) (0xe3e805e888f3b26abe369e0b27d2d52d5be9088d93cac42857485d9c81685d1, 0x1c1387c79de5f6812a24b1f66ea99026c385b57751e1c342735020eb67fbf350) (0xea672fa3109bc34e0228483a39d73b71d86e52a3be82726bd97505327a7c1ee, 0x1c5580c836c91cb3a293bf0cbe6a1310ca0521c9fe3ca95042f38703af9f1654) (0x17515a475e8b93f709023f318afb84d856c9091f143c417061b19d605c679124, 0x8b13553f9b22e455a6ceacbb2711ff2533fbbc7175f9e29ac015cd2837a9c27) (0x35d4742dda0dd8aeea17c35716593469ad62152fd2c934f049b79e72c0dfe33, 0xa2a9e75b33e85325f9c747ab2a7224d1184b95d2718e159586583fb0f738e19) ((-0x35157e4bf66d536f5186d9a9c6fffb599545bc3a6203f46df59de728551ab75), (-0x4449ad80e7ae4d78767ee8ded434756abffcb6eb1b3a6f4ca473160970f8e2e)));
  OD (C (0x26504ed03bf32025ac7ed6c7bb19534aa530fd347357cc9fbc6624f75c4274a4, 0x156f6b8c4d5bfe16a0e7459517c42bc93480b29d1a52f9ec9bd5f696099e16b4) (0xd2f022dad9602679bc774ea99e0f3b1cacb9457eb380409489b513884e8d5a5, 0xbc1cb624ce18b053a29bef95acf9aaf6c596355403491916a23fa7da9bad29a) (0x2d1cd46f44349f059fd247c5562994b691b5c0a6d95ba2408a00989cc9b22f60, 0x195c2b65dfbc5e958dae7b25fc6231f1082918df3c7e27fd7c507f443615d683) (0x842641267ffef7532282bf514f0f1775768c1f2080a5519246ec98e9c725410, (-0x226322c0ad1293667f370da3ca5048453708310aea805cf7798ef1d29ce2a32b)) (0x21f136143375ba5c5fdb2e3dd7e0ae446046376c227e70909932c406e590e85f, (-0x14d6f5d9c366fcba4f7077c46e5f8c9fbaeb0a7d62b31abb3d7837cd91424376)) (0xd63ef7f403b91eb28168c5029984d5fec8cde0167e7d36e96862c43920440f6, 0x663954c4e0a3bfddf2d1de8a3458da616b000d00e4a7352f3888d837d791207));
  OD (C (0x7fcf157111b7d08df9cd1915bbac56ed60354e415d53be17916fd36091540ac, 0xff096b790bec694fda1c72d7de8d698a9f112614403b1814e81f132caed3cc3) (0x156776b31957bf4db4f66964c1b2cd891f5b79710db4e03d384c3f1938be1aea, 0x15e8ddf0056965e167465a8e8139a0d043378e1c7dafcf64bd8c9832b31e8016) (0x23045305e35f5ffda228a83b33e6c7dfcd5e6232b1998549ce28c0111919b376, 0xbe4f18d7c5cee4adce02752148e0b22df667c643db24eea0c8f0025565c9f9a) (0x12dfa2d40bf526efc875dccbe260ee7f3c070b20150995e2c4110497d0cfb764, 0x404dbcc88b224e76996482fd5e198f333607cccb68bb318b679091f3564b547) (0x5432b3a01f5d2997991d57a19c7ea8eacfa53ac89309646f2959b3eece4bb8c, 0x3ee8c0d6244cd1d07d57e4d78f758131f88ac682f12945fdccc52827c14fa59) ((-0x462379990b159845c27d2888b7b884eea960271c2f2596e6abf8a613b64b723), (-0x1fcb9e5b4844dcb5e50de01b4e0d557b25787b35fd0ca0ea6e82e921e2afba3)));
  OD (C (0x14ad6b63a9f7deba3870236004f361138e6687868038f3876af53173bd5b5fa3, 0x1986b937a76560446773d89513f6b13e9d6da629f1c33323f1a8af70f63ae3cd) (0x18dc98281e0e914076d434fac17562132ca0a5be2ce9adcbfec085cd402addca, 0x28a7f89776998325b540f681f4e01e03711509342a4208fe1495c97fc80e6c0) (0xd92dd71fe7675fb0c6208cfc701e0d0403ba7d467608f1eafeb7aa429331338, 0x304643fe2543976d6abb58bb6c384fbdc7fc6ec0d1478bd9e0e9a214283f281c) ((-0xb09c31aa1771725aff480d712e960a20c73f3d6ca355758064de4452c5ea3f0), (-0x12bbdf27b8f8ce4df50485f6e442d95797983e9c839e0d9bf7139a0da1a08360)) (0x15d07713c18079b9cf926b871403c2c136d3a531c9ac23cd267ac7d15d648310, 0x4a12d035ecfb7a7d266759e73cad9f6d031b450be70956f5fc0ee4b525534ec) (0x673c54bcfa7afc06c4d0535416c0165ebe999f5d4a6c8ac33bc4e8249b0b4ac, 0xbb1b4853c102078569e794c2c4a1826ff038b429bddf920f21929eeba3e04f8));
  OA 7 (C (0x2c968506228cdd4531fa24e3c401b634120d5d41d2c26357e6bb12af87ad4249, 0x5118b101b078c0523040cb463e23df58dca7b215cab10cc2db969a01f5f1069) (0x1630515931e41c6ccb3a28d5a42ff6def02bb731641762fa090fb13b1a88b400, 0x39da7711adc75417cd6e9ac17accea5ddb1ebeabad00c1ced3827eda6e0389e) (0x1099751687043e0bb6edab659086dc36abfa885120f453e99242df09c502351b, 0x2edd39e8113ebb2c6666334df08e52df4b7fe07019947175c17c3dc8b06ce35d) (0x1bfe1e11cec35094f921ce9652cf81b577825d864301f40c45602801b8d4cc9a, 0x19ce6dcbcc6ad2d492b3bedde3c588517f7c3b0e255063b29107c17d7470f9ac) (0x957194c968554d27c8c2e62d4277eaa99bab37aad1ffd0046cc5b8854df5f01, (-0x288d5fb12d1db84dade15a81ac4f2c203079a2381ce3be9b4c34693e28e02ac3)) ((-0xb5db41d6358fdeed9287d8ff536ed041a9367bd7ccb138778e9d0ba0ccc881), (-0x2934ef75ace0cd244874748996210374bc5331ced9fad0ccef8feb02495bd57)));
  OD (C (0x2ac12ab5e0f02313af39f75e8e217c6d3c203d729bd1887e90a180d07190c6d, 0x452a1ffc93b682f5fcf3817ec9d48a147bf244d1aed4fb8fb32d8b9cdc3eb9c) (0x28dcfe00aabe8142a96620afd2be6b880c2351a90886bc4da5a60dac02b9da9, 0x2d3d4c4b7b891ca4b277a8035391bc7e267ec09280a1839ee145147a5d1017e7) (0x2d90bc1a1aabf662e8b08569f299d8831281611deecb801dcad97744496923ac, 0x11b5dc84b4a1eb55f0783d2007f56a059e4d1206fc4f05fd80c3d1386a5536e9) ((-0x1ce722ae56fa8521f005051a23edff74d6fa0bafeac9bf9efb3604ecd4aabea), 0x24404257b76b13f776d2c3614eddfaeab79a8a0ca6ad025682f718170f464ec2) (0x7a3700d1846151da2d150a18657a3f26e13d551fdd85ccdebe6368da3414d9, 0x3d1488e241f1ab66038c4b622fbf59881f3fdbdfa855fdf15c53bb2a029e5c) ((-0x8b6280f4de32cf5a99d115f586aaf88e4a7eda1f9c9e25f48568dea149c868), (-0x4cd6a7ca895e0d80839ff3a3866c9e5376c9437eb784a37fd89206fec0f674b)));
  OD (C (0xc16e23924747dedbc18ab8190e9817becd94081f00533c534e3c70dbe16037c, 0x230b08aadd48bc3630a1275925c5ecf448c408838ad9c5505c3d268144a8df39) (0x2c1c156ca3d1dc3bfef3e3742235f9a26c3878c626a0541d1d7a654dbfb0405f, 0x1332e23db81e9744fd339c241e2332937c6023c036869abeaa89de57ef3af84a) (0x2669e33796be72b0885f3d0b5bded1258a1c3d0dcdf2bb799e351a199afb42d5, 0x2ee2b5a33c80c7dfee9a269924720b0799effd0a60db6524452c7ab10a0d1768) (0x3c841d3b19d2cebf4620e4f37f554530394daaa5b5e802d67a3571224d8a74fa, (-0x7b96e1033bd5133957de3d37bd44cee62d9863bce3eac328db2ec35f70648b92)) (0x11825745315138f74c4b1aa49ef018b08b2e42039abcddf144a37090821121c1, 0x165b3b37eb7fe81e246d824a48cec7ef355749c76616e1c91aae51cf9c7e3daf) ((-0x1796511858cbc58ec3c3893595154dacbc1f2e0ff6aa80cdf1c720236788cdad), 0x1d3d30ee71825a1650e541478d9451b0e86db80fee88ff44542f480f817ebed4));
  OD (C (0x121241efb1aeae5ff8b8ff31c66ce21c7f2a78c7f054d5ea1a35506fab872f14, 0x1d8e672243a4c440ddeb3a88976808c5ae660ae537836285c7b4772843ebc0bd) (0x1637e04512d1d7128c98e415eaf6ce83648f40f48ddbbc8f9083c6d9f394961, 0x27dd27f7e42bec8135c4c5d44bc4d501f648aa72c16520bf070e3ba7951e7847) (0x1cd0d2d639b338cde5471a284f07d72b725afda9c3b29ecd4d973f0bbad46bb4, 0x979fdf61099b659a1ff74e0ebb0d65a9aeaf945f48b7eab5769020b0f201946) ((-0x170ed5615b5a1342d13fcceec7056e8c030a06d0b66e750cf7a57546a239faee), 0x7e59f659ae5c9d965a55aaf9f67869944cece58d413be7eb234c775a9af9d2a9) (0x161328088b6a20d02c874ec282a771189745c6f9c19ad1f407452c90df642bcf, 0xb4db651bba4f7186a2ddcdd3d8c7d02c9400fdd139bd2f60e0c2cc7df7144f2) (0x126027471582e030647f38c79d6bf6f6649ef4a47863aae6e0c96428d5ed5e7f, (-0x1c93456b16b882da4ea8e698a9c8d36b2d5b8b094d8c783c3b6cd6f03ca50cb9)));
  OA 3 (C (0x1099a34f4f299ad833b93761bb2222da43033d0fb6119f53a2a78dba6ec25687, 0x1bd66ebbc8b0afdf10a8d59f4ac6238e3e253b5674a4928ef4454deabfd75bd0) (0x23fb51815730d31eeeb82083f80c0444346d5ad0d8da48bf1ee9950801d23fab, 0x1eb2a54377b6ff692ab5ad0cd6a0fbbfa7865be02a4f8831e5cdab2e86e3f865) (0x196ed69534423a2fa9a5ff1883ca9b27c03f7099b54faddfbabc8dd844b206d8, 0x2fe5b85746e35e01b0e23ecd2508bd12545cbbf2046eedd3d31728fff954e466) (0x73154489867fc7d2ab773aa934806857b5d804db7083e61931ae38fcd3d9af8, 0xc0250d6eb156b9183ed1d743f49c11d518631339ce65d2d7027ffbd26097a0) (0x13193fc53347a5d294df9297d2e46a73c5214c57202e4321e7dd667b849fc635, 0xa51bc1227aba35bb754af6946aca03599814aae1c440fd253ae69c3af8a6add) ((-0x10c16b1017e55ecc6f7f975fa79f7ac54579faf13f8bfcaccfd23120b6c18292), 0x1123b5ebf7626a3ea2d3424bbcb45853f47ee366647fced426747aa04377f036));
  OD (C (0x150857d0721110d10ae4cb9e841540b5b602c61c7dda37d33426b3f1186c3874, 0x1e761bbb12d10e2078af1e7dc24929a06656b5b9d7ab4309f94e45330a7c8b2d) (0x7832aff4c69a96f9f499067cef5bb782e79cb9e42445ac740cba370c9e67cd4, 0x2f44f2ea635eb9d8a8ea7a5f0ab6ec66d124ccda52a126943c49f8a317e634b1) (0x421248d73cf4b8279445f1ca9f9f32b5e9ff839696ccd4cb6e43e7c9df779ea, 0x1fd2f0b918aeb3693fb09b9f52f38c5a9b6d00e7706808f3f7d727957caec341) ((-0x3f4c4d586f2ff3d74920cfbf876d7f4660ba5e292b7723665af8a23c38312746), 0x3c08cec2f94ca2c537613b5b5abfaebb6f1a08c5a75deb6231acff6f83aa3ae4) (0x1a7a99bac56866f68d14f0d35071dd744454bab7df78b45651dbdea94a031d72, 0xa087f8e64db0a3311e7999ad1a46cb26d5454eb8decb26bfbf9c67a59480c32) (0xab7dbfca4de0f1aab6d5fe39a1249645c7dd0d5ce9394bc8de2169b7568321f, (-0x16ce12ccddd551d2ab3dacf22cc21830d618d4840d88e4ca8b2b3f52bc8a5199)));
  OD (C (0x1f2787bfb5b7854d64d2df8c0cdb60ea646b91aab309ac0334619979ac273d2, 0x16fe7ec0e1a9c43ee32fecbb24d2a03ca7416e86a7ddacb826e26b163a63a954) (0x236edd453811b489464a98c711fa100194720aa2cac5fbfb9bd80ab29c8c0a7c, 0xb7b5e08cffc8d653cd84c58cb4b4c93e57e261fd0c9f1e38202056d2b60cbbe) (0x56f3506f344014c413149b5f74e0220b64461a40d0825f0bec3abd03fcf5f2f, 0x1592f14f3d78f339db9f05acde5e7921d94d2d333dd7b81b1c9fac59ebc6df81) ((-0x258b185243be1dad2aefad6952d93cd0b2293d3dfbc6d36aa4f93e8d2dbf629c), (-0x691be4ac016e4a3a7ad5cdbad86b2dec7ccafc4aedd2cf6ffd6dfcd7741e8c35)) (0x1d9b648c24b623df69aa6a26f6302db08b255912d540bb97f703d4ede0556f4, 0xad9008407053ea7d3c0796c4460d325da856bf7ec87af01fac57fce0709be74) ((-0xbd3b3b7df74fc96fd01352f0d1e3e800e6de33869a2396d533ac4b5261d6a85), 0x1220dec4e1f1c31b5eabe43416ea602d00502471b3ee3a4ae3a9ca94bcd0fae6));
  OD (C (0xce913716ab31f4e77edd56f5c3539170b528dd35ba079d15061a38f4ccf991d, 0x95a515a7a56954fa98fb1f813dc5269a225b3510cad1b6c553ce0e46e31dd27) (0xb1ef7879f29ed24248191d6b68ca7f1646805f60c60c1067071cf239b73565d, 0x706bc3c7ca74a41c1b30dc2e3fb845e1bf2506dbcbd8d5139e458f4c0207775) (0x2c460a1165b1b2e2974d4ebab96208d97e2b2bbcc00b704b5dae5ab29c741ba2, 0x13c3df065264215934262d20e3a26c2fe1030440978b51999c16edfc3b4fbd8e) ((-0x24d4bdd65473fe93ca1285dba858227061ecc8903fa77030b57047a1c929303c), 0x4b19a8f65017e31b8541c290b9cef57d6336b1505cecdbe4657ed08f907d51d4) (0x4fd8f5974880d2dbaeab1965891b6274e00859e13780ee5c57713ffda54a2f7, (-0x1a3016cda0569adb7d609a95128278dd1c04a739fbc8c6b54df6f1a06713def)) (0x5e337812f8c47e7063d8c1b768c751c50c575954968e6c6dba9a650eaee6aeb, (-0x5a0054ee26b459b2012bac268e3beae92dbd3bfbae10477e4d5d272397da275)));
  OD (C (0x2498b0986d93d4932bfcf91dd10ef1b59ec691228f1ce53d158411a56fcf64d1, 0x1af8d205935a1248101b0723db3c8959325b450708566be514c70b29a9e83dbe) (0x1b72cb0b7ecb6b13e17610ec412a87a7eb0ca1083945d7f950a67937606d5c76, 0x3650bcbe3f6a73c3ed68288832fba9a867df7db675fba5fd33b272207a6f135) (0x28614b381be307315130723f0407b820853242aa027aa317c42d691995ee85c5, 0x183aabf363f74637b28f4fa3c3297237896a2ad4f89c9013926ced7434e603c1) (0x458f48e3f1931e4e769cf48ed5e0ec27c5eb739b0716f5155aa2681994040f42, (-0x28531cbf0edec91cb5ece97f9784049faa408c6d5a34855302792b2e8bf412d4)) (0x28cb93e5eaa019cc1269938a45e21f0db7a363dab0982cc56adb15c63867e694, (-0xca495b57e56d7a7956309f2692e592ac8132396685ac3178d875796bee3e664)) ((-0x65a9ce94fa8e73f1600278d2b827a7348baa05bf4a9d313fa20a3673b110e23), 0xe5f2e8f965aa3742e96e05e29f0a937b684518e38fba5d50757e8fa29e03f96));
  OD (C (0x2de8b7db5ba7fc27a4b4c08e85120d4dd1959e54e73722cd1c370e7ad5d7d809, 0x73f91fd42fe30ba1cbeb839780f6c1d6b53bbb77ae6fd980815ecad7295dc17) (0x2776da3b672ca959fdfc82bed74ce7607d2017fad1a03aa73e51e15a08f19246, 0xae81242d6965b9fb78b77ed9e2d6fa7f9f17af9349fac3648eb2c6d6661892c) (0x2c4a92923a644712a4b63dabfd543a89b0c1e8d74e3cb9421bb0416af760b718, 0x890f1f1c5f02ac275541ec048db3ec5932a4397e0c0aeb6eb73a1e2458537e0) (0x2e84013ae6ca8724bc6ff63bf92c1cf3e8a40c990df0bee5f303756d9ac5387c, (-0x175d992ec41b63cf41c6730d118cef908ebc15c306105e30f0b9178d145dd33d)) (0xdc0bd165a9f5d0f74fb6825ee5bbffe79092b94de0c9c766198dad4ac1f1434, (-0x2a77cde9dd3f5606f1e40f51ae497b167e4245bf95ea5c91d1779c591c75b27a)) ((-0x8ed1ba59bb16f547ecbe3589bff1feb5520c5e30ec6bb7803347f36b3cd89e4), 0xa4633be4d2c59b41b61b35695d34d7df6dce7feb9f99d5a6efd233ea0d85d92));
  OD (C (0x1b8a070d260f13e455c29832d70189fdde2614e57faf3f402938a10404300652, 0xddf8d96c10b0f6143d431c24ea56bc5cd1c5296d1b043dfe391570a1f260921) (0xcd2e381b07f215914ff9882924d61b8d40654ec266c7bb5651e91714016d4e7, 0x2fe4fdd3eb16eaca0278d3a47c3ff427c4685032590b4ed3ea743c76396509ce) (0x180b0177d816e11379ce4d44448104293da1bc49beee14dd9b65219976fcac98, 0xe9bd9602d521709855e2fc124dcb07e03093f3ae22ca281182f3bc0cb6be150) ((-0x1238affb865d8f64c9dcb1da494c9138d9098ae7d8e77c3ff3e59557f2766f80), 0x2bad5c4f7635cfd8961a4c297a806a339c57f14ccc783468c2a45e1991548604) (0xfca498e1f99c1115f1bf87ea916eacacc02a8acaa7f525ac0025e2e6f41eb47, (-0xbb1e6930378b16354e78e57a508b41d393a0387e9c7393cd0b4059c3e7f970f)) ((-0xd697450e6a9f71719a51a408a6c48ff9e9a8253e6c3622ed01b5237313db883), (-0x19c3c2beff5b97d4566ffbca6582138021b530bdecfd02ea156fbd0f7e25e980)));
  OD (C (0x21f55c195f13f2c91e88591b830166789d09d94ea57b1bfd376afcbb645aea8d, 0x141cc56402fa533c31f06988e415780fb62cd270dc654442c6eac851a0ec64ab) (0x2486171ba3c77b5e58c560233079a7b3b61c9a63bb39a2f2b1757941e3047d10, 0x1680fdc3c7109d3ead9a00d48b16d8ca6318fee92dc4ea89753d3a3824bd4e6e) (0x2a3c1a5845a86298b1fd3d2b057c94feaf460b0d78fe254fb068c381a166ad3d, 0xad1df6caae39e4fc575272a559caea13679d51d302d159ca8f84b6c0bbfc990) ((-0x23a9dfe577efd68a7c02be1d0adffb6190b29a21a138f49a31fee4a18b413d04), (-0x999ccec68996f0d08796be912f2287de1ca99129f42cb42fa22358e3adebc1af)) (0x1c3a30456b008bf0df8ea917f0c4e0ef7cd4ac1d449d60affd4bed75c7729a80, (-0xf788ff8bc7ae91f8083454eec6384978bf1832746f41ed6d727123672565fb6)) (0x7f7aea7fc7a270b4de4fc87fc3543655786ecc53c8fae7292af3e1c53945c18, 0x1b2f17dc0250b3e4039bd0304a542b41b4f6c3298c5cf10fd9f3093e07e46903));
  OD (C (0x1c04f247877082e9e684f0989b8d361f5b4df7d487f708dd86fe5a59226bb02e, 0x25c37ee6b80d93403927d28bce579b7180870aabb465dd690f6d577409522116) (0x1c9d5fde248fd0eb15a1451452ae8ae08508998b60ddf107454c56496a21e72b, 0xe30d772e98eb4318886749b13bd44185b4baa38ac946cae3c73587c78765a59) (0x1b742ace3cce714962f8087ab7fef65c5ab570fc4caf30ffcd0d0a196e6a2781, 0x517c1ca8621f65fe0a3f88eae97f2edfb727e2aaba9d245c45e6ad36425e9b4) ((-0x1776308163cdf856ca205eb69d9f32d33900df9809d84f0b8875ca56a5c54cdc), 0x13483e61216f8d4d43e69d3320bcaec1600a00acfd5018ca916b8fb07e8803b8) (0x2bbb24814c90f1b50a7a837584eeba43b1dfe0c939f8c928747fa60c7458a2fb, 0xd3f0bb24807b0f07078ba58bdfb3b18976289a6424e8823814c2265238587bd) (0xafc406929bc6a43548b2383fe0290da9e5f0fcc4b2a2e06a97b511f8b16f79a, 0x1e86b9713871b6f2d098397fee8211cd983fd1607d149387d548aacd4b1a27c));
  OA 2 (C (0x2b31727dde63d0e91b5f5aaadfbde1b814c1afc93605948b8f8357e305962560, 0x19e63ff7bbecf836cb06a935250a70fc8109f2480ebca0f35a4b0a77b9086b43) (0x1940c20f323490cc56ed18bfa412574169619f8b0648edc2e21a053a0a63cde7, 0x1344c97ef443889654559cdcb10c666195408413e1688c91a0fc2bcb21bc4010) (0x5fbd778a0ebfc94b60b4034eb770d2d43ad004741a5d40470bfd9282681be14, 0x2001c5ab45607ce9e0536af4db7688f68ccd8f8957f382f7e51fd433fee7fe34) ((-0xdff5df79156e4ecf7b346e5f53b9898a7ec7a4d2a1a29457e95cfef33e4e345), 0x6d1522ba44790ee8d5d7f7d09bffa9c1e8b8750d137fc618b5c7f6782449ec7) (0x2e3bf12586e57f6d98b2240379c6d2cf1571116e3a9294004978b9a642873e8f, (-0x18b1091c7eed32833d840d70658fc6cf09e8397e7a8060d999faf4297bac6d03)) ((-0x2bbb0b1638d7e5a5ad5bde053b0320401b4f802df601839c72e4b234e3018cf), (-0x5b7e5365b72bb142751b1bf7009901b7d54fc8f6c34393381f893c77c9536cb)));
  OD (C (0x1e065670fdf3f746196d1231f3bd2b01c1147a236eed625163e184cdacc0a9ca, 0x3e6b4512b17ae618c1d0662ca22c42ddaf0a79e05325d02adff599027ebb95c) (0x1f99e5998f81a9f50438f8e8d9b6786ae2509889712e4f682037b7421409bd62, 0x171c80a2169b6be22909c81c5e37e937bc66d5299f843316c9f433e93fa5e9a4) (0x26a614972d7db8860b526aceef3d2e162544f2b1188c3856c31675afb21b566e, 0x2e5dc25afba37e4677532831f6770964e069f91471bb2dc6365408e25fcf8546) ((-0x13a634d1f5f0d1f4f9db543ae0143cccdcf013b8eaf2eab17956df1457110850), 0xe4098b32908b8363447d8c73693b9dfefdfa648187643c9644701f12c682645) (0x4d74b592e9693ac1b3dafc144f54f6c66595c4a9c12bd3c5b781d16da023c00, (-0x12507be5e363639cc825df8b1eba66043345b8c55ecd3f650447f9a27726e728)) ((-0x2e55c4dbaf3edf248615ad83d3997090cde91807e35490d8d07e72e6d592892), 0x3a103e3f8c3a8883010dfb7c5f6b92345c842cf68f9eded3d7006f918d8d57c));
  OD (C (0x2957491e68f2037e7e4b49ee3c3017bec41d3d26e71a545f2ab89705142ce38f, 0x2dac79d6ac9adeee72f89f0e7ebbb75ec36faf2ab90d1b83dc3722e14daadd8) (0xb00edacbd1479fc27bd6a19376aaba1147eb926eada13def3b8258de4bb54b5, 0x1bad2b1d15494cb28963afd76db59614e30f1d304e2a7ff418160eac91892e5b) (0xe67f48aa1993da0d3fde57bce9a81e07a617b94235a92098f7f3688a6fd2095, 0x25d16899f6c321b85c1d93adb3c0f63848a3f41b148dce0637224c209febb35) ((-0x6c5ee8975e3b78dc32ca6530058de4cd550d806cd0d2da14441de91a10f7844), (-0x1fc4c2469761d0637787ff8809957e498e8c3282574ed8de272feaf13b017158)) (0x4e09ae24420215122b97807a849135c004b2e7849ba5802b94adc4cce71b8f1, (-0x2326278e0c458483435164356916cda98f065ccc28936ecd1522c9f97173a29c)) ((-0x2af5662b6bbeb17c7e68cd08115467c170e905835e72ec08db30cc2a925149c), (-0x11dd9df22ff5452b3ea2e6cb9ba2e8ec7fc75df2565cf6518056606d74e8794a)));
  OD (C (0x20d6191245f6ca9fa473cb35f2992a26c1077d81ab8360e5575c6cd53aede3f3, 0x2731746b116ca646dba6daa02b0e96506e7415fe5b6d00225b81cf021c963a40) (0x21ca0f59b8ca891cb6373cbc32b143de1fa6795ccf719385b70d7a898d561a41, 0xc57b28cba233304df2c9fee53e2e0d42feed15d9e1535226b17204a841179eb) (0x2ece74283d5b2ef7ed8abaa8f33c986a87de3f63dab361e4c05c1d2355c1dcc9, 0x4ed7e1e7061b7f410e20670d87d21b6e86d68feca0710a770e7d0ad2887e854) ((-0xb3765bb131fcdab7c87b8ffbcc0a721bd4d5e99eb0ceb0fd3cd71252dc9d3b4), (-0x37b3bbefdafe1955d3fbe9ce6da65a8b27a3fef6578b15ea4b92e7724d1c6b92)) (0x35306bff32d68b4d08d5d71426d6cef9e87f250c6ddde3a88fc289cfae65d603, 0x976433c933af077d6967b59d37a86cd58a0faca0842be01ff3a80d6e23bdc9a) ((-0x80cb2e474534b45963158e4e8623d810c6bc95b0e193bfd1a08af950ce0fc82), 0x1be15e611b065dc81f0a97fb5b12dc40840197c403df44c4a7d7588a231e1e4d));
  OD (C (0x13729f1d7e8495bf02cdb2ca760dfadc66dd30161c437d630680d9a0480d54d1, 0x1c9a05605270cede16d51571307e2a81b95e5974c6a837e0601695d07146c8ef) (0x1b5d8dc426a352299842b092dee4f731a538a304cd28c2f3f7fc1426742cddbf, 0x115a38e69010e15c49b551a7360836427f18bf434c344db397cbb4adc8aadd99) (0x9054312b54da8225efd2542464bab501c7849cef4997dacc4c64965390b2474, 0x18737dd92280ae73f190fef8f5b24c7b3b61ecfa110a71c9881e001afcfb6eba) (0x794ca6b0e5af1777a6b29fc8fe4818961033344b383bf23165f54484ae64dec, 0x1d8a06a425feddcbbdb0bf838600d798c428b139cfc0a7f9b4ee029e7abd0612) (0x16fd287e90b65f50c6d9ad9c00e2c77d4b62fdb841ac4330a379892000c46e9b, 0x916d1173b781c95a5b5db4dc503d2aa896957d47583ed91981144b88c0ee0e7) (0x1c88d40aa990c5b2b9704eff4dfefe2118a735f246f2b9d4969f53eda30f1d5, (-0x58aec2d0e8cb94ebebb2b81aa2f07a90af5a6604d1d44793d5724a57b797f4e)));
  OD (C (0x2f3efa356210109ed827b9f396a7edf18502b70c4c8de09011c7c1ced75aa5f5, 0x98c864513bfbe1cc60bc1e6d30e8b0e391adf9193c3f7d8452689fa4ac42a3) (0xd6dd0f6485d285b189e89d586613cf5fb76bfe06bb85dea2beb60e921afb318, 0xc9985a13b0790078f29c1bb1bc70c05e0418c91f0e87e6455c9edda62658953) (0x129ea619811cf8a6167746d6cac8b9f343bc54bbd6c37de4416f540736ff9001, 0xe64185c4db873ed3cd7fd1c12c65e0a925eba1f1e80af2fce921db8811fd8c1) ((-0xae8de5eaf3303d0105f18e7d8e62b9c32f10a389809c358403fe7e1096fa862), 0xabf642249566c63a03f9c51afbc976f8602e9aa8a5d216c9d20a965f51b29dc) (0x12a5495d1e878fc5fdb4a1dd091692ae686ef6945b4aa6fd2d632a9dcc6fd58, (-0x2e1eb5a0ea8f532dcaa117d3561cac3f02a2bed69c37b5d4a201d88fca86efa3)) (0x4cfe442bdb0c55e3546b48b1e730d20ea61bbb828f7ab7460a3f9b8fe953932, (-0xd8c4171b189085bfdaa4a8df0135a34e5df50f1ce160cd631d4a93970d42864)));
  OD (C (0xc6388a4d1e5b57a0b5510df4b63de07aaa284c2615acbda7fd07ec7130147a5, 0x2cfb892fbc4be09f21314fff2f54d711ad457039aaef9c0217839698df558c95) (0x1d8efc265c4c82cd830b43c6491c82f96b7ba695c47b7b8fdb49a1e3e51e625, 0x504ee7ebc1f060078b928a4a7bb627070237df75ab95873cf14a33c0139063c) (0x154f87e3b6192085f1a1f6e43a218f6409d2f131a580f36051f56d84d00254a0, 0x16d07063dd2e35eed6fc24ef3d5dcfad0981ccacf6b673e96449eda0b3d34f4a) (0x150168914e2899550c0bb9e3775085f75497660e9b7295328ed7cda691077c9c, 0x128f0864f7e8615605aeaae47bc10fdc1872777e2487164a84ac7bf99bb735f3) (0x170830e9b6c8a377b9f7b1e254ee682eee175ccf4d256338d4eb9c8ae3ddeadb, 0x26a44ecb3bbed7fec79eac5b4371d7bdde8132889e2cf9e1c14dd4f1bced1592) (0xcb4cfc29b82db84179259ecc061dd22f9418f7c4f78faf97cef7c4f7e6c87d7, 0x414d5778318c486db2c332f84c107d94e47db247e3c7e55cf754d2a2c8407ff));
  OD (C (0x1d2014642c9d654a21e10588886f149eed5de72f2b6e50f96df8a953d5b8cfaa, 0x1b68daba646cc5def917fd5c5f9ad7d1fb44d318715d29a79d40f2c51d4a8dca) (0x1c99b89a4e25fcb034b6239e9af11b4f2bb853ab96c124b857174f61b44a744e, 0x19fdfcd859344c0132d0e0fe76592dc8fcbbfecabd209778282422e09afe36e8) (0x214b19305e1136106bf17a02127ff6389d4e37e89727de6a7ef4ffdae3b3596f, 0xc8efe44b8c41b0f1d57ce7b8821602c8f9774723612b3e3860f3b52f7db74d2) (0x32741c6b3de080dc7d698e3c587c65ff91098494afc9e8d73f0d350e1c16fb40, (-0x1287a768375d9e6c9467d8ff057524d6a90fff0f3afe6355bb6d61cf86055bb)) (0x20fe637db17dcf312331440ae444713c93a3e894ce7192ddb690e738a6147ed0, (-0x20122a6b1bb0698621d4a66f8fae89002f5ca6b83a7182867b7362d619e8c20)) ((-0x1bc6a8ee12b77c8968ff4c9c43497b64e6e022d92d551aae6187b05eb3f969d7), 0x438f4693fac565fe90a626d1d78e9e355aa04bba4c4bfbecaa1ca5ad866816a));
  OD (C (0x24356a02b193a0a1e157e45e3b98c875c358df885e88c85b76092a860ea9dcbc, 0x123beedd705801e4d7310afdbf8f1084a2dcc133a4f72040f975414f2dec4a0) (0x202bc7cd58fe60c340999eaefdda4f1c57ffb6a6593ce51cc0653795ff874b66, 0x1e8e45d8f95648af315ec46e9b0256607d5225efaebb4314f5453b5581b3e5ed) (0x246ba342880d967c7501b49b2da5f04b393b4afc7f4bf687dce5859ce61156dc, 0x23020e3a91f2c6cbe458c2cd2abaa85e221ef7de42820398459398cc81bc150d) ((-0x47cf2e8311b5bf18ab7f1870430c10784535930be2039f0d40d30be55acb1790), (-0x286751605315ba3aba720278a516acc3c9f94015288c07eae31e455f7840e224)) (0x1b49758e26c35de5783798cc62c5d33ef375b1fa7ff3d5a8a11b4153d57f812, (-0x1b10ddd6baf67e91d2b39a9fb7ad249f4ac08695f54be438e8db400d4a7f6a4b)) ((-0x37faec6a4d2e2701842bb7e2491e0564def1ad5d7a3ff5042ac7719893114d1), 0x2906bf1204ae7033561966386f9627ca2583a6455eb36c7fcd1e8039892f2d7));
  OD (C (0x9593506e46c0b14196c49ecab7f17614f5cf03076596b8a212c4de743ac9e92, 0x2a9d669bbe904223299aafcd55110a6c9106a1e17d686808e3fbd08a02cab931) (0x29bdd33869e775b0960528b29924fc734d97e5d272600890739a99220ed85f41, 0x4df56c5b70c36c838c5beb1f291f014002bfbf08a87c4419959c4f39ca86495) (0xd1fb46e432a320fea63f999b974c1797240bca3d4d0328c942addfc8f20cef5, 0x2b83493aad31b66034ad8cba6ceed9dc87dd858330615c30334bea244b200c3c) ((-0x2c35cdb6a819dd08c37d74e01b288b59cff6a3a4a8adbd9a5cf2f59b5758ba38), 0x35de0340442bff2d217000d0b8c27468af49e5dd3f23267cf84750e401124fed) (0x10770422a70f17e901652c1885835b695bfb447706d7341e0ca24d7a48341ef1, 0x23b8b827dd423a9249b11a258849ee00252d619b2a4f535e4a6ba23314afc1e2) ((-0x377658191459c0893c3e15725a3829c254573eb6f4558e48de33f377382e814), 0x1877548538e5c03b57b2b5b7cc333cdbbc6d7db67dc2318dbd201d78e342a563));
  OA 3 (C (0x1784a1a9ad7e56ac727fafe20ee99858fb01e1c67ace85f07efe8016ab6a22a0, 0x3c33ad172a532642a113156bbf8091098815a5df1384e7c8e58f051022eeb2f) (0x7857dd5ab306139aef25ad2ddf25b242ff21ffd8eb6e6e1c6bb38450d9ceb11, 0x24443b151010a7fd566c133cf8f17fa419c8448788e0d43a8a9137032fbe354e) (0x17c7a1236497f856c737798d51b4e46c0c0d10f0a0254cbec092e7435fa2344, 0x2f55db47b689091144b1d5a1fc2080dfdfae7836e98bd010b4390ba3e230be44) (0x11ae71bf074ca2a359cb928485ddecfdc3a9ddfe4b80926eeb967d915868ca5e, 0x12a17828b7642ca56d95b524ea35e8ee23948b09e0b26c5525f9f9d2a8ba4b55) (0x3a83efc72a6bae986a5dc2a5fc3b83881e689f5cacdf825029d848f588a8a4b, (-0xb23175bd83d720f9befb6d128e867990c236ffbbadb0cdef45f3c7988cfc816)) ((-0xc98bb04dc37d163eb0f5ff7f49bb32b1d7260f4acbdab434a48db398dd9d52f), (-0x13125af3ca00965f6b1506c95be6da826c80180bfdb3fe6bf7a14bdc37c1e651)));
  OD (C (0x1016603ec2d90ab9be9f2b5eb886c02ab180d51dfc4d859603fd37cd823423b4, 0x912af4c9a96338f7cf6f59fd02d1741a85303f713b53a5c2f6db7d23779c3ab) (0x9a07e0a0f114093894ec9661e4e99980fcdaa90a73c55a7d97ff88151030c8, 0x2a6d3ad68add3a862d9b469f7207e6953c8c4260a5f607dec0406335f7edc0e1) (0x1f927288df22241b0f1a2f7b0b9a5b9983e990216c157d00c9787ab3760db61d, 0x12a5b38e8a44c1b82d155c66c6ecb15ed56e5cf87107b926f105ea310129ea95) ((-0x1ca942529e23bf1ba246d246b5090ded140eaf0e99bbccfcc057ce316e77c84), (-0x3d44f8e5c6f1192741e22161a69502c66ee9714d193cc4a98725a039099cd047)) (0x6084f3544ade9f5fd758bd4b0b7eb2703022b8e5a1129e90a672ce07c814f02, (-0x3a5a28ceb3b639602138e0dddaef3f176b1e08c282818500aa9c24d65bfbd8c)) ((-0xc0208cf1c5a94ff93089a5a6b5e580fac7cbe74cea7ba70e6c941e447be936), (-0x37493c1abf977157f96e73579b134860ddf8ab7bbe100a7d43940c417be88b2)));
  OD (C (0x190834707b7418b28d6af27818c81c266b28b838052c539516542fc5050d8d70, 0x136b2c57be5f5193b496908b0ffa9296dd2bef567d3fd5024ce0b417fe53359c) (0xc96a321ed6d32f2690589f9078bbe790387df19d8179dbfde919f16b3c83ada, 0x17a2b49a11a4a18a1e03954c395fad6c0fe2d80878c3c2b35fe086d2daafa5d7) (0x2e270b49768420c020ef9db3a1d5a2bbfc43250bf93628379b1fcffc54305765, 0x595beaa12fe349ea052668d4d6cb197f6f06302c7654e432fb96ef963973e75) (0x29770b5f1df8479a51f0a053d22412a2df6e805be1aa2bf7c2c14997028f70b8, (-0x814401e4bcf6275861ab0799ae4561f769cb647a6b396643b896ec326251a6dd)) (0x1416f656cc67f7d735a3ba1ce1503c1db9705a5e24287d58cf11fbe6e0482e3a, (-0x527ff3533c7ddff62db5dee97ecdd1b5f744615998e5e31ec52b175707572af)) (0x4e90319b644b72b764f73b08c52972fd137a978fc2b8ba25d31ce6fdd564fea, 0xdbdb05ee5fac6461525edf10d943bf506dc3f434e52f5bd60f58dc39deb22a2));
  OD (C (0x13eec8f2979685c572c9edd19c93e129e4dd73c797b27762a8120113340bf556, 0x100702fecd05b8b49fc8d67507815f9a4b5510c4d27df8990e3056d380b08a24) (0x2d85ce50969934720aaae9719588b44e3e1d3c129753e18aca3eeb9931487a3e, 0x7d87ad4bc361d47d38ab2e7aa51ade3fb97deecf3ec4bc2e8e7ce268a19bdda) (0x28795a22dcb3880181a3d446385592609dad04a45523981525b01240e9e2861e, 0x2ac8847645c45d835d1e34d353869a9b9138f9ab2d3e9634750f1f446cbe1dc8) ((-0x1b7e3ac441f0443942abbdb0e0fb885ac25c66f91e35cfbcf18dc544e8aba80), (-0x3b2126e7671d99b25bf6364b0abe95e982619666413530daf1b9681866a973ed)) (0xd3416ab0dcad4ad5ff66ad9ac28abf2d0035e3a40a67d2e2af467b54c4cdcd2, (-0x2e6ef6afdbcbb6d95c7e501db3f0b76e764f1cbb77a9440699520ec7da765c4)) ((-0x467665fd4a190e23c5888699e8d9fe61e8b327f196477178f10b2f54976fa43), 0x12cb9d006836f1dc5de6b68c9dcaf34aeae1271768f1face7f5d941c28344f19))].
Definition cert_g2_3 : list (op gfp2) := [
  OA 2 (C (0x152a09a1c301a40a4e2297b16f4fbb58dce4a627bb23a67e6d1c55b38c2e97eb, 0x24beb2934e57a005e4e0c1e911102c13945fb55c1bf8101a1cd6fa452f8275c1) (0x2dbb94f1d6b3ee4f01cfe03c494dae378909661919e528e457a1b9971d6e3e59, 0x2b4ed29b1d594474590a7bf0782c8277be864cdf1decb605e06a057944340343) (0xb0c4f944c4f40afb4ba6114cf11218b111cd4ebec238db7768467afe1c35ce, 0x270af57329920c49528d04380585c0582c1aafb9685b59fcd7c18ee305417227) ((-0x172723d0fbc0277a274abd08c00151446173a73e13a7d70fb490a444a9037c9c), 0xb7e7ceaba77c4d3131c23fbe00005b57415bef8e1c847a26d1d9dd746c6f929) (0x20240e68608117b257f4ae69d6c6d003a1a05d0a713bb561d15fadf6d02a83f6, 0x12a51dc53ecd1f53504ff335ba0091be92e16ca6e023a822c5ada8130310dc9a) ((-0xfab414b622227ee7805aeac237fd1317a5ca071b9d373491c3e68ba9fd74e06), (-0x1ad5dad129d369397ddf62e5a9be07bd38b2c82e453ba40c1632ebea943b61b9)));
  OD (C (0x19aefc8519bf8709f7f676dd0a258ff5b278dd05380faa9f5d540a940776f6dc, 0x214e90b00477811473890b7d4f2e2de7156ade98b9fafae152b9e7e5ac43c2c1) (0x1b6d73b4bc463636a2d3a7b15389598d8635773b75753893c555cad43b165483, 0x2fde1dd1ff6186d64e75c818ebfb4a4d95e623d31eabc53cfaee9784a316e4b1) (0x569486a3c937703b585732fb57697bac4273c8a4aa119890ec3867c064e628a, 0x850e614fef4c8401053339e1d150591d37b8d54a9b98b926bb589066911419e) ((-0xcb2cdf25c874e948449389d2b6a29f48ddef14a31410574a2fa7a0e26d945bf2), 0x426581d0ebd760bf866d3970c7ab19a227b78e4afd8346346c4ed4dd45a5cc5a) (0x235acd23c709a47b0755886a67fd154155ab3783d7e97f8baf13f9caf67c8ae5, 0x94b01ca2ae7967c3903c3ed607cf1fa5c1eea39ed9045786d7f6e24f90e6df6) (0xa2dd0f7ddc984943dbe8f74ffe92533db665b8d81d9e3c8ce6891389578b7da, (-0xcda8ad602a8ddb34f06e01ebc233c452045df30f55875de984a87cb876bc90d)));
  OD (C (0x1cbda5b40e3e788a9acf04320c879391c6ca5098277d0a3d7dda495bf2805dca, 0x2d2cdc05652a9d4a148d3aba9c42f3bb12c45c25094d6353d1e85c3739ce829) (0x19796915ba3c6a10e38989e99719de6032f5885354a6a78d88af6e2de9d6d14d, 0x4025911074425cedc40ea6bc1b9ef28edb1e21681099343dc522743b0d33cb0) (0x140339bb0bda3add83ac33b3124332b492a4a768110ae41c55b1f0d92184df86, 0x7f3e4d729347452ff0cefe66a5ef0938af9d4f1a2942ff7eae4b1fec10a1149) ((-0x9845f02834ec8633409577f53865a370bb7d3c53733a304beb4ea9e5dc77d5ea), (-0x64de56a923800918814cacb63bd2e2adffff474f289323b08a3b60d2fd0c992c)) (0x35a92c627c3df97dcbf2729172a71cdeb13e29dd8e88d570d6c4ca5bd1e1917, (-0x10e7ac0f5d5b42ad6dc4495acd5074848734849366ec1b4b1ca37fc54a965473)) (0x1a298eadb64bd48526d0f75f684dd99969c31be7afd4b339ff368044b61495a0, 0x1661b7d2c1f4333012ab703f3bcf5756b5495e21153c71411e7f900bfa46f2a));
  OD (C (0x18f018f106cff844d1be766de29a9b50450a94cb728a917f4dde81e09679e142, 0x29a15d9fc49d11df200df5a0519b879972697051b45e237d3c4034c0f219a8d9) (0xc07260ce517bf76a8796cfa3f570cbff41b4d51b0c8c75b734e6e128b0b326d, 0xd6067c7b9e706a77bf1e3841477abbd25ed62b11dc5124d88d95e42466ce471) (0x18694572f0edcdc30896cd943a757bc87905a4897f2242b673731366c3abb5ca, 0xa5692c41bc6082b451ab01c41665954c9beceedb96d1b554aa89a59fd70c7c9) (0x1df7622ce5c54c865bc436300704aca18bf900dbc0decbe8a6aa570c726b3750, 0x204a605de2ca2ed0b8b5ac456376a5711eba351fa3c90c8b4d689c73d73b7c33) (0x2ae82cb8faafc8a08d510ae8446780b69bb9f322938dd2a67924a8be33a306bb, 0x16f6586bbdf4a2ae2fe4cd5c0a0e855af6b4f8e2249f7b1c4c9e00db68f7e004) (0x6bd7fc15206c0c3eeb6cfc7d7dc7d029c2ad2c345f55a8e9d618768c2538ac2, (-0xefce6c377d6511a3fdd012ac8185bec5850c0e9cb8dd0ada50ead586e0d14bd)));
  OD (C (0x4ce82a1dbd9b95a90cb3312987d7db3f328e4fb97c4307ad07f2493cf0b9ecf, 0x11b266054c7e5ed17b2401402524818eb499ef4cbcc41afb5a05beda46e40958) (0x2f4377f46a541929d94c60d3567707e4aff4180c824f6b6a561cb6881005cca4, 0x636b6449ef6b8a6677d482276999c4b82109004c1fa11d258e37bfd3a7d4248) (0x1a0e159460d0ba702507110fee7fcd87f211f556c4efbd38b69ab66c3f151ac3, 0x18d25a600aed8164a356c5103faea538b2327b86115cbdc35d662a58891a18c2) ((-0xa6708851f5bc7310ad7febf38ae4af03f147976d4c0179c4ae5cdb0c5a740), 0x967ce877813d615779003de59b16756a3e6f936a64891d834befd5457b9404) (0x383fe83c2501001baeb1cd6c06af8e2a78aae650c02196a891bd5c8f7bf7f9e, 0x5fe8a4f81d2fb90c9b1b042bacd82236f4ac39ee9754f042abe1b00bc085123) ((-0xc2c96e7fdaf3e0e2c949017a609250eec94b751610ebdb6fd0706ed37482f42), 0x61e8df9aad047156201b17767e40fa8679fb009ea382f365b22cf8e8cdd9fca));
  OD (C (0xb4cafc51e277aaa84ee09dd62d65f28286fb7b14e891a59e10ed3c0221b0986, 0x2658e7c9abac5378063fbca0d54323414f1c00598ebc9c9c09fdf21ac873ccf6) (0x1dd34c64ae8e403599bc59d1dcdf8f2be051f078d70370034932d73a5ee38755, 0x1d7f109f5857d066625d13900879f593d8e783b165f93e03e269af8417d24e8) (0xe4f4522fe3bc98565811eb4be692055d65a121199ce50626af069a1a5ab2169, 0xb8ba29e60a3acdcb88739dc49b82bcbd4fa047ec74a195d564d266b06c74399) (0x1078f2ff95a552505fa0984fd501f27200a8b38ff847d3ad5546677f800ed404, 0xa3432f730c8c50df2f8d87c363008a0cbd949e9f3513d0e4d12b0c79bac96fbc) (0x11e88597f4c8a0021f4b1ce1bcead8016fd3141fbf9cbccc41e5fbd4cc32053d, 0x1bbfcba9baa099141835ed60a298c54ffd9d0e7b098293956a804e638b969cf8) (0xed6ca86c6b96af1c739acc08c15a0224bf564e1ddeba0913596b0859fff2512, (-0x9bd6cb2827b98e07fb79caccc699922aafa20d6412c84cb8a15ca9752d5263)));
  OD (C (0x29e0f0c6c9162e07705d92cf9fd6edb5465aedee80829b9627a560a97c922397, 0x1b403d4f1874e3c41c7a5f202b7ac112d4825677c4a94543f9fa16e6e7e478d7) (0x289a981dde983a6a3508a87bfcfdf4b8bb1669005e049fa61f55fcf606d134eb, 0x10a9cb71d54a5023dc4a022e264365741fc357e121838aeba88b07e691dd4e7) (0x182937be74e2c02aa084796536efcee52d618ca13daa4322c0f82ba97067c01b, 0x2156876c38ea17e3a66ebbe02d93ce15d78d866a0f91a798edad801f77f2938e) (0x1d483ac946edd3e705538083872ad641d130f83144c2df025346e12d5c0e33f4, 0x2b2c0d179229824f279d7fbd9f142b7ed4b5f980faa410d6089f92979ca4f61d) (0x2f2a968d0a7c3c635596d68c8df221b684739f2af954696614d0453361093e0b, (-0x14e573aaeed5a2067403710acf7d6771d49d775d950da940c4da3b414922b891)) ((-0x56026bc1d5798ca222665eba954e875a739ad4cc0e989e9cd46da5be16e5961), 0x9c78b52b62b5197eef75183ad0ff6c356afd9dcce2a358521daac66d8a5bc86));
  OD (C (0x1f211d33e52a7dd6d4ae06fdb73b9d420429ece5b5e40bfd23209b4b0cf299a3, 0x11e05ed1250a9e97f9c0a1bfa4b31a91908016662f2b6ed95ab6671de12f2f45) (0x1afb435b4d00e91b9b9f0553b2b3cc624ca56eb914b7183e293b3df5226bb4c3, 0x96e52dffd34ff75407aa00ef13f7fb96af64ede4b1eb6d79a8d3df1fd707b32) (0x23b68a61d12a10237bf8aa1da65b7e97684663d59c82c7166baa1c888826b9d6, 0x2c5114877903d162bea28e9c99ca855136453a3a57c2c89d914543293b0f4ac4) (0x377fac69c8f8ff92f34f51bd73fc8f5513f4b2210fc2350bc13bcd8eb2c72e4c, 0x5fafe0b23193e3c7dfca5cfa4b1dbe08f4a7c968d6ef471b6d11f8ae2cc7dcee) (0x16ffbfab026fec313a40a6b02c5c03124295d34cf10fda86be713c592a18b713, (-0xd6bca1d1247264ded6964e39afcac980c9ab7a87136b4803239cc63ad468c50)) ((-0x5d512786b52a6e8081dfb83ef1c49571384da10f628bc0e45e7efaa5e3e1c6), (-0xbdcb51d9a3f544c73494845684bc5493bea0529abd6e155461f157fbe6b6d77)));
  OD (C (0x2c127cb715dbe9a7a353f2c9a1d937d23cc16ed2bb1bd21d71e656e0fb56e3ba, 0x260828106c22f0c208478710d8158bcea2df8b4970c6267e93e19d038ec06c4) (0x78006682155e0ad4a3d4c1f49a54f265fd32a144ef158a5ed2bd2d51d50da32, 0x21b42ce6f86fcd50813b0709ef981fd0ccde4d52f8695b1dd225b027a2a25521) (0x10280729cc1fab504610e3b37e67a6d9a8b76c0cacaad88c77174f6e512a2418, 0xbab56dbf52e5dddb65b9e1ef80d8397d090e1117e39c04237a39fed7a338909) (0x34ae1857baf5165481f28231456afdac53e17267079ea9ed300be3fb7e76e424, (-0x1514387a40493bb09ee08b540263e30c192bd84d68df36c9c4345d0c7fb50daf)) (0x45462729b594e892d8514f1725fdcd0ae1604254ab3085d5a0f7c89b96cba28, (-0x28057cabdf280c06086fbb072463d10e3df0e33ebfcc020cefa696ee19fa5b1f)) ((-0x1526364bdcbef970cbe3be7299f48102577f53c4d7cd17f88d2bccdcf133f5f0), (-0x12ef48b24575500b993c409615aa488d4bf1b3a79fb2e63a233ed2a204e6f345)));
  OA 6 (C (0x16badcae17b19378d691c3beda36a0731560e1ae9f963d768a32dc71da81f431, 0x2790e36cfa2b91c47b8ddc7643589f313a26d8caf16385fcc10cdd4e9c01585a) (0x14be3ed54a2974fd17ead98b7ccfb3018c7900836ed9b3adf6476337335304aa, 0x239e69e6bc78cdf89ab9d745bab3b6410060d11c0b658dcfdfefa625dde18d50) (0x2656b039e6bbef0444430c4e5fec6923c4a1f87c2f03187e0b1dec8f873a4971, 0x1619a10fbeb700e1cf253a3ddef95f3568faf4408281962e2f725fd8e1533daf) (0xf142ad12c7dfd3295c5c6f172e0a4f36622a9760cb77b4f0b33cbf6341c4f8c, (-0x18f1ecfdeee87fb4df8ebd8d657fbd9049c8d12b09959110d9cdeffb9cb10dab)) (0x252b3316ab92f082903a58e6889ecca2de9d801979d88b41a37944b1c4b8ea70, 0x15ac6543b7ac6fb2cc81bdded7cee8991341e4acf35c5ea554cd3df80b515c89) ((-0xbba2b56368f51d0959b3183dcfef42d31c1aa408014ea0ed67aeb239ddd0d88), 0x4a7946f9ec1385db5688e28babedf0c9add4328e0d48dd6974541b4961cd576));
  OD (C (0x150e2e49ca315362cb9564b3969f200e38149044621810ab5339d5fcc7d5f614, 0x2016ed4f2a286a948d0fc846bc53012372a09f4fa7c86013495ae030436d5e73) (0x1cdc77dec593429a5059f051db4dc7b5033480b784b123de203743c90ef709f7, 0x26ffb84bc7a06f8e47a63922a2ad9658beaed7664abb5f1e474c0df868133330) (0x70ddd4144bffa9e575022054dcf5f36a7037e3f8ee491ae6026378b9bac433, 0xb9861f31de05f7be2cc0671be9ef0ff6e691abb23d07348af9250873e00919f) ((-0x1587b8de12e4bfe22093ee6176100dbbb797550dcde635448c8e8239503d2e0e), (-0x380789ea7bc2115fdc1eeebf95180900aa53cc10d155486cc46d1164cdf9842e)) (0x1becaae18d50bcc70e12ccf8a834bda1906e628e70d4c953f75880ee50bd7a6b, 0xc1e329f0f37565377c73d3352b4c9d822b7395a4161436efe9ab95c3ff475ef) ((-0x6da9b5160dff20b62286ff8b5afe730cce2234dd0a8802f6c587bd661b610ed), 0x14a702b2c9283bec16c005f1137d909f0394cb6ac8a024756953603039b753a));
  OD (C (0x9c3898a286fe9be5382881a0a4648494e97edd5e1b34cbfd96bb65557fe8c0a, 0x2dfe791d4a225054df3e1b712f6d1a85162901ff05122d89d7369206141de87a) (0x2cf5820c2af565701a45a0b3f925458b0f2f8b89a256c9fbac42e44f7f6e3ff0, 0x1a781102e6d3df147c27b11edd0886e28f1e5401bab6e3be5d873e2ba06c7166) (0x1122162ad2bba53b162408a987a7440e0c936a7a8a824da7db035bc60c137910, 0x265f7f6d26316161dabb4d2a1b3673a0399583337e3f01b98716d45065b972d6) ((-0x8609c1adda660de383d4de9177d1e300a9d67b84e741b89de3af7d8c1d837a68), (-0x14c8f2ee75b6ca5370d3437136dda6316a9b2c168b58e11d7969d6228488001b)) (0x128f5f9141afa00f8b38c29c4e5d7edce43b5e948f77239618caca80815efa06, 0x29bebbcb4a9450b0b50ccfab318a5a4f3d621f4230423d7f801ef53d584f3336) ((-0xcc5a6529a4f4bc7a5bb87e4b78a85a6c4a3a4236316805c9905f3f2aa594c2f), 0xf283383371a8fddf096a1c976facf7fd84bb86844be1c8cb407bf72401026af));
  OD (C (0x811ef87f7b73ae75949e30f962639f082e87deabb872030bc8e71453b29805f, 0x1abe98dec9ac74179c09d3048208690236a6659cedd36f24819f2c45afa6d255) (0x222960367c30418f18b2efc61ea5867565fa9759c8b5c910ad96b06ac0e418fc, 0x1d76f7985d31db5b109d06a2a296c01e33be6ec21a70b1ba12b74c1444cd5ac5) (0x33ad83701c980b1cab0a3d27531ef53b005bebd5a6d17cb76851a6014dd1bab, 0x7ac7cb13968a984a6e1e90157218cf35f9022aefdb0a9bbd29ddc021f188cd0) ((-0x73cfcfe471e471db32af24f4f08af75e6cc4afa8cf6bf7c96f224c6cc0860954), 0x7693839f9d788f50703c0cdcecd5316fb319b265fc105311918649520e885830) (0x8eb8b9681dc975a561fbd18cdb52da755a27fe7e9d62ddee69cdeab2773e0f6, 0xd6f5b43e84384952a3d546d4207bc7f1bb69e1fd1f33c951a1f93db7e4fcce1) (0x577bfff9c0f1d0a0ff9af40939c28651e43abc8b44e08d94941aed1e8b83bb8, (-0x374ccec5ed221012f15203e26310da315373246341939d3b5194a5e8a44b5db)));
  OA 3 (C (0x24b40bbca60ffa3e792d3c27fac7a35d83d6618cdd6c275f0182a2eaa781072, 0x12d28eed5f71fb3569aa80dc85d4163c211c0c58cfe32e5a9576f3e38c94fc3a) (0x7f0fbed1caf07958ccb96b7756990c7f86bd2513dc6c208e8e8a5142ff5823, 0x2763b4abfdae9040b38c57d8843c1e2a00d6267bf2d6eca79399883ec80d79d9) (0x23e75a352730f89368feca92c6cae6853475ca593d60d2a7241c4fb3b205530c, 0x23b9c0d00335508f1c9f1fc9b4fa57b4a5a197b625196f1c80755c0efd64ea0e) ((-0x8956d8002e5deb3912714c1b611dc5a962c7869fa668fb05d8fdf3b80c4e520), 0x7b3bf8bebeb26abf1c614ec826bbea8acdb9cf3ef16a0df777b65120a57b7e2) (0x1c8d60408aa832283a38a9f061a76e4340ba944e96e2adac1b62741dc8f94d8, 0x73663b2ac946f3ffd8c5d8470cc4f57213a3620e3001cd452762957b0ff00c6) (0xc9fbd9e5b1c1816baaab9d6299a120e6fa0a34981d88006c5ba00cd09f5759d, (-0x574c9803755a36ad7bfe721ec9ee92438dc295eebd4b6a4c677eb04cb0931b8)));
  OD (C (0x26acfe7eba515740899ad98d4cf50fa7cb58e1ca0ee81d514c5de05ac654f806, 0x2b849990f63cb941e96c2acf6251c77662a8bc8704bf57dc97a005c345593021) (0x1c758ff1e66d29a6843617f98724c89ce0451f2ca7ff78e381b530f5337315d4, 0x6d062b8daed83314458a6135a5f57f057286587ae3870f38adbb9164a0b3d76) (0xcb0446e397439d030f820604c53f5f7902595cf9a65198298ce713ed4cdfcdb, 0x180ba4c4cd3fe98a5c700822d509c0d3ec03bb431cb2a2d98ee7a11270e6867f) (0x7741ac65888b5d52601ff78f4d6ceb56102ab561f49c8a659bd19284fdde3b52, (-0x594e2ccb0da2b7137d062ffba8fe90f09ec9888d9969b676def319794bb74634)) (0x458f9a0d1c493b9ff6c810d5b84c8d8c73a15c81d813d7f270623cee2fc969fe, 0x83979d58c972cc82941023b7e213c695db3fa1488652210247932a274229be3) (0xe370062288a1f0752b1b4b30e7abf233a722030874d4830b70b3c8e4ebd196, 0x33a4a313a2df06a45861d23914c2aa36a14a910b17f5fec3e4ac5fd178fcd8c4));
  OD (C (0x19a6e1dfe002ad6ddeb59bdc5a63e648904b7a5bcadbc945e417f503de81feb5, 0x175d79c41516197a329e9ab313f97221f6def17d3ad0d564329b97cde5a152d9) (0x77ec0c881a908c8bdb7f6b1a3b3e0169f878ea991573ddf7999bb817940cec1, 0x189680f6648135d72d4b13ecd79692f44f407e07e88bc2a7e79c74658d9b25f) (0xaa6dfe8854d68379e0b2635045b1fbda42974076f9efdf883254d4a1b937b4, 0xd9128062dc730f43e0613bc5d50970eef4dc03ea27e78e85e7846340a570d8a) (0xdb38de4ad85570b11d71a26a3df76aff4eb246e1860707e011a6ce5f7ae3d14, 0x3919995a9b4b12d6c142f3b02bea1c14cad1fc60430e11f306425f1011c5cbbc) (0x18c5683245f1198455048939dde92cef5f295a74b81f8a77fe254d35115b0887, (-0x250f849a3bd6c3c614e46d61dd8f6bd9656931a6857c4545f19d39caa033595)) (0xceb67f3740d4b5cefcb8fc3a638c8f3732555e02c20cf504a8b09bb089e7339, (-0x8909489c99ca36b04bdf919f5a09c9189bd7d01a8fc57de0150da6262a7febf)));
  OD (C (0x233aa4ffd8ab5389be4681b4e9f7d49bf87f60a7d491399a2a657da8f8567f3, 0x1fca91962cf69f7ed034f1b86dd903f10d6e0b0b096320739454f49c79d72775) (0x1e0eb80af8b523357fc999cc74cf6c4a7a0eb2948b55c903db6c0ede0566b588, 0xbf43c27b20932e389d20d3e8681e59c627b4fc557c2df40b0f6031526b39524) (0x272617edc965e295dd03d0453370f3dce461a7b9108115786191ca2240f84833, 0xcd15de8faef174b171603b92aaff1b40263d0f112f444ee33bd70cb1bb1518c) (0xae63f810cb550c3b3afbd0972ac73e0b3d0340d8e03cbff370a5fd077099e6, 0x1519fc2d2d390ec9ab9eb027465bba64defe0fa22d926542588097882412cd74) (0x2e49b33a07a240509e9ab71e16f61fdcf38c277b6dc858eb889062594fd264c, 0x14c90855a93fed8ba9bcc20571fc347a141cef4610900cdf509b9a6bdc0386a2) ((-0xf4be4d65b172e03785904a49f17b7269a305d9197bb5c92b11409064383ebdf), (-0x5d12ed9d0b5e1c5d875398d588ba81081b2febd65247b5ce5ab7c5ac49c5cf6)));
  OD (C (0x131d970f0623168ca1ca4b7a3ad89c328556c43ba28c6d658a89675f301e35cd, 0x1e0ce366ccc10ef549fca009492e97f87972da6f6952566bc144983596f1654f) (0xa319f960eb9dfb5837f9106d0ac760fbd95d682ad0ff29b99954385487dff98, 0x980528323d04b3b406f3fdf30b28c676384b50120b15a5e63e558bfb3c0e53e) (0x2c586539f50ac5e1247a12abae985cd551a52cb8a6e66c805937311e6664da44, 0x11397dfb99e2860ba9b07ef0e08bcbad527e76418d88ca1e04e967454ec1bb5e) (0xe32a5d95494bf1e013c4aca192503c6bdd1dc6c2d8d64ecd824d716ce5c847e, 0x2023ddb5887973b82631b330166c9dd97572a1ee639678dfffdcdf833235bc66) (0x17bda42faf870b3c7ad51f0177ef2f7fc1cde5c119d1a71e05cb8c8856eb4c32, 0xb1c13e5cb0dabeb3015c36b2f4f28f892c05473745372da97f6d8c852b132be) (0xd4dc71df92068de19ae67f5176af39b22432a3a053dfc2ead5dc2f63ef09d81, (-0x652c70680da825f9c7508776245406b33046b79cd17952ae1b64ae6fb44e6e0)));
  OD (C (0x224f81ef9db500f22f70f64e6e81faab791e3a059a8777642ed4993c8931a031, 0x169538925694104561c96e499c081bac6f3b4e446e21557aae3d86f827565ecf) (0x29850ba9208e20dd6960fc33672e46c4c63c07251627dee4a06d364e30247a7f, 0x167d96ced709659b67f3bbd0bf0b1f9d2ca3a88bfac0b5b3292799ed43f60344) (0x11e173f5bdc9738375230422c46c8a8546d4f0664e31c1707facbcfcdf0baf3b, 0x2b1dafe1f3fb5ae2fe84cb87889fa838d5d1af247ed934509f6f6fb56fae12eb) (0x35ce25b0c9b0c4862d4fa4404ed55ceff581b07946c1b2aeb70960028f7d764c, (-0x2df60baa9143a15cf6046564da148435bdc0897088baa77600c0169616723f30)) (0x2005f4d8a3e1ced42c25f058d2c85e587b0e9d58fbc195fc0cbb0543475dcd79, (-0xdc9bd3298aa3260b57dee36134bc4e5a1bc1d8c4616c81de6c86c6eec251640)) ((-0x17d4125b59949a1a6acdab5137d5b4b242a3cfdfed74ef4497460eaa660ba822), 0x10261abf38bbe2bd168e449848d9de768bd05cebd234d46f09e61e6e57c6344c));
  OA 3 (C (0x2c1a16e70b3382e87435c8f724b0f9cb3dc4f7ab7a2fa500a2b91668f38a1c7b, 0x829104b7ed60ebd7c551a429c4841070ec91df1117497e69d4a50bcf504b321) (0x2192ec671522b73f85f4d3310154bc20004866240cfd4fd91e12ae133ea31e2c, 0x2e8685cb83bc72d476f73f011bb0662f0518e8ba7f4c9174f5630d7c01f62611) (0x1963d53a9e346a9b1489a44a944b06b3455b490e78da4b98c8c9190fa46572cd, 0x27082f7e2b7f2d68d41c499293d8293ae4cd69d429b2ecfb72df7b8156f0d3a3) (0x106a08d2cd554f76b187f8117326f312903066ae33f739629f0a2802eeeeeffa, 0x20b5cadf1eeb3753da894d202944d7c4df3239e184bd9f970185491c6fe9a535) (0xedfbd0c91c056cce5d5939cdf3fab589c9abc422b872866351d5c5ce75a4b46, (-0x26d0f23265654c022a0a04a2414d7a8c77386d557bbfc03b05957dfce213c353)) ((-0x149076169ffe4c9ea7168cdb082e5f7791c588d2a90cc69ddf69c38d95228c8c), (-0xb4b610cad3f493041451c793824f41ee467d46d0c9cfdd2bace1fded88e8544)));
  OD (C (0x140579b78e35b41280894c605a2cd9d50172f745f5049754041caf96f11e5927, 0x1d0cb7dbb77b20b169ca6fc1004b95d6db8b78155d5af904e6441f602bc9573e) (0xa79a355190f00e15beefa87668d3463c97b36524fe131b64d85ea8d56697799, 0xfbf1c5a6bf0a4be84b835e69ca3c8b073eeac02c951a2be93b6a4c2da50bbfa) (0x201ef29e6ee4dc30ef922dacd8690b58faa15878aba8faaf3ae5fe6fb29bda9e, 0x25455ffcc10d3dc6e1c7243d88dd761c58c08e1a37f047d94688ceb7db0dcaaa) ((-0x82e4b0c761c307235e2c0ef477b7931190a835a92b78db7fc4b7fb7eb36c39de), (-0x2675f77f3d2ddaa3d6dd611fc498e49b87b76641f8a3c8aacda63f3477f84ca3)) (0x1809a91cd18100121910878efe3235b4e2d8f9990d76461db4901c1e3b53a8f5, 0x927af2bf8f39e555fda502a7cc3364573115d4a16bac091b56c92f9a306c0d1) (0x1a99bdede917e985373c3af326f729503c1e1de53a90e963902443722f16b2d0, 0x8eb7d48f61e3b0742e8d369336d18a5dab09e9f8986cd4fd59bc236b4a74020));
  OD (C (0x208f5fe413acab69564ea47dae53daf76ec4191237900f1c769c1aa33cd7e6bb, 0x23332f9726ebf3718edd875bfc5f1074bb02cf853ea3cebeedce52b573fc02bd) (0x20f2cc4547018f193d7d10757a45d6da321581b683c4260643e10dffaf51c6d1, 0x7bb5cdaf1b46ce8cbf4650f3d6dd6050de9f7e66f7af0aca9b6a0d49e467c93) (0xc3301f746a6450fece71cb771f3e6c978fbedd7bb7a48fd07c9e65039379b7, 0x18e52c086b63fc18480b7edb31bede740fbe72cd22cb8da842dacdcd9e886ed2) (0x4c6ec262c883168a0d66e38a60993f6b31665ab32bbf3059923e08f4ce9b1174, 0x26d835479c0846495ed3eae69f2f879d514f3d202737999e3e2660acbec76b1) (0x2f5e360dd0151dd91501c3e80b36c885a3d742360f09d370f02d83f4bcbe6a8d, 0x3b24bb7e2ca235056569f5ba3992ff432694de8bdd6631cc67e3f093fb73ecf) ((-0xaf45076d8cc641d60268d184669e7a03808ef2becbdbd1f88910c1d222fde10), 0x14f3660d0ce63785ba46a7e52e7b65491da75e1743f948c80caba0a000cc2251));
  OD (C (0x2ef4ee00ba92f27e24ccb8322919c694429581b92bcc034b18a01bb0e1a92d8f, 0x14ba3b3be4ee6a51a3e2790eebdf1f9c2665f615c9f37b97674b24480379b3d6) (0xcaaeda52f436cd445cc67eae2db1e002a4dfb0e56c843156486c8bad3346ad6, 0x1002769bbda642d6e66f8f3f385bc289974e479afdf5f90754c9715d86ba8eb3) (0x17575ad026cfc553820dc1b976a97fd2a0c916640e29457e56d171137f74c64f, 0x2580f30ffbf0e564551423198fc6f53a8107ece47fffeb93f265034e8a008a19) (0x116173e2055332128103a345760ff85e1c06a42584118101dc8d3c0be0aa2c92, 0x5370f72cb29d4281e568be2fabc9297685cc847a452c891d3cf3c7e1541d5342) (0x2839bfb6e9c4b9fe07c106a85d1ec072a4c12434af3bacdd8dd75b1ac1fbcc84, (-0x24afa6d64b8e1cddf3858a04df8b9ac8e5cd6e79222ce49a3ba0f49652d2757a)) (0xa78da863958720d361a07503b220a5aba7cef2a21715acd3dc7ed4e26ab9b4, (-0x173991d008769d39129a17b5c76ad8b651fb9a5001bd1600f189e24dd3a37120)));
  OD (C (0x8694f87ea22dac5eaedb435e10f759019cfcda6521060c2c76486e416e07782, 0x1ce344effcc9b3f34322d3b125ed1bc286dcb631c2c8b4c0056be68a6ad56b72) (0x28ab708935554b41f79a84940925a2b106ba66c5805c25d33bf3654fea1d3a13, 0x2458f4c9bcceba4c2acb85b018f9be0ad40eb46e407e2ffb643d8612d7a706be) (0x2b85177eb9b42e5253ecb83a4b0960d29d1c2cd42ffbcbf8f454c6f94522479d, 0x1d8ff42078e0cacf1488b9f67d96b394a536dad5112586496a07d29b0d42864b) (0xfc277f1bb888e92983d4ad613754b575b804b8acd557e15da92a3c31b98206c, 0x1eb8723f43a5900b56eb1d77ea27a23c9577694a7147bc7a2d6effe44f9b077f) (0xa0adca29c73ea7835f0d4c434aa084f71bcad78b80766d9a5a2d8239785142f, 0xfc85d0d6a4ba2a58d1caea536f7ae8380436e29ece191c19e9a68aa8e313c84) ((-0x144043ef461bbe64d97f997fb7a114a25596f9fa6ba9540438568e49063cf7f4), (-0x7460768ac68c8021f28b90de87782e435c127aa53b553d5c7fee6b04cca2f30)));
  OD (C (0x27176801e6fbdd6d459f41f7ff7ee59dd1483f9d475fb94bce58b245228d075a, 0xbb398f1e1884e0e40af865d8337fa0e239f79b6002864095cd813a273ed436) (0x2488c33d4f4d071ecbe4db6fc4939dbeae2be474bd3950571674115b8953a3f7, 0x29e10e10b45c22b00aabc80a7032264a2ee67dbe9ef2fd5bd1a0640186cb125f) (0x1408d525738992db2c23690e8774caf62e8df5f6f0d5f65bb6204cb98938aed4, 0x1b861e6d11657f85c9957b26c0cca099250aa12ec19978a4f688521aadd228f2) ((-0x8634fec6d66aa2c2eb2dfa8dcb5996737de54c57c5ccde6e68fe6357ad85213c), (-0x30c805d193f621043b46ab9cb7b80d39d0d360476e9ea59df833bc0666f1d067)) (0x12e7c05050e273111e81c1cf921885dd857260152c151fc8ae2b4916406c0cd, (-0x1f914299e07eae4b1bf90aa6204622afcaf79f3e1d0e788983cec8e3b97c508d)) ((-0x467f09b8424b59c0369f7f0deab1d6168b1b011c249bc75b935dded6517fa45), (-0x36c9cb174724fea90209d2d4a8f54efa61caa24a7c51c5c0f37847bf682301d)));
  OD (C (0x192895c439b6d5a5fccb9884a43f452d01dcfe98596f363d82a0bd08da9f6189, 0x2666d7ecd0df5c5fa570c12c5e279394dad0bd06e2ee72d16e25dd0177cbb7f3) (0x6a181050673cad58c940911b14cb2a44396ccf3995b34faf16ac7c794a80560, 0x7fd74a9954f371de45be9df9f7490d0b68393c0199b3859b1fc485365aa2bb9) (0x23705f0e6fb86a6e6ca4e1dbf9c44add7569c98933dd87dc707d1415b4574eb5, 0x2df839285e691a0d23800a13f87ec021f788f33774350fcc365f7051faef8a35) ((-0x8149c168bb07b5a7f5dc4f5a61d55c4b92726c683f1e5807e8ee3618a861eeb6), (-0x32158d16984039b43d0603209d1ed13c7ba7f94773a33f3592c7da8894c2f54)) (0x27edf59fb8a98afff0bfaa6e22a48da61af5947812880bb23cc7e37c065db2f8, 0x1164efdc90c53d31e97a5e396c7e8deed73827af90d34ee93413126bb80d8097) (0x2959457136b96ccbe8b1179102090851cb36f6ec38881deb7915d6d7c3c62a4e, 0xb58af105847204a6ba264307d088fb32dfe3d3efbc13c0630d55ca527610884));
  OD (C (0x72f3bb1863efcdb6469759a6ce869f0f61557da0a91bcc05d91b57963c82a2f, 0x7eeb23a4845e6fa3ddaf9fa966d6752012e2f20f63de77d2ab3deb0884d12b2) (0x2fea9139607854a98df9bffa13c9f13e7e463f0211488ca0f5217e666df659d6, 0x14346cc109a505b15184fcd504bd161efb637f0a5b6a849b62ad2862a88d8b1f) (0x4e7b2b81745a3778c402b96f7d3e1c2d31bf8327a8394da22210f4693456ee4, 0x51778dca6d8d02cdb5c8beee4880df2b589907d69f3694bde4609c1ac09e503) (0x12b2f87568933ca08bf0bcf864924420fd0176f9d40dc4e5d022ecaaa7e628c6, 0x350da635d1c1f35c3c77454376d069a22cd2fe664c25f21b9f6ca5f285823fd) (0x25af9c6fd36d7d9987640c8f06cc282fbcb4d2c050e14f209a26dcc816f240a, 0x3bcf70209ca28555403ec3f9d13bcf04eac5198e49f271f3edc08dc4b3afde) ((-0x894bb3e7d07e65d4f51291a028d9a3c1004e87335ff35fbd094c03221277529), 0x4209091cd10f7313f161a6a51779487176becee9fc7b80ac08460797153114a));
  OA 2 (C (0x24b2d660d490c02ed8280af5b4b0d142bba273e6fd1cf9af9f6661fa8c6c6bd0, 0x1cf3b89ce71b8e66ca1aba5cddbf1aefab991b8682292a9051acd5752a899df2) (0x116641230d3ef5755801223dc09f6e5a5a82b94f681ea75cfeda8b4e3e602ce1, 0x2fa3fe1a1ecbe55455ea96212294842101aef1fe2ba98dcfe521c1bee0da1b6) (0x2b8d0c96eeba543312d2e315591b5162663c3b7b0b91e835973c1f85e86e5603, 0x20c61037069ecc3b50fe771258c013c64f75d85184e06f20e47dfff9710d7bf6) ((-0x1dcd056d156ab59f14a51dae86ec1f2c5eb84c9e4157bbe5ed69d3d0a2ef4980), 0xfa8e5de77fde964638b04cf9f72e2adb03b13f149e24fb5fab08c08f1c7e338) (0x2be98e1f2dd9c9c94ab2642e07b0ee9d85897d0f3d7b55133bbef0cba3ba71dc, (-0xa8263823f7684b3b6c9f870c5faff06f629c52958caa96f15267851b7823dca)) (0x1f527e87899c8f8e970f4d89fc4623a0b6ef38722ae1a2f80e099e4290903165, (-0xcd609300c42708872fa2ee3714b99a7801ec89d88b857c4ce1f2304408f3c81)));
  OD (C (0xb08a42d1c84920a6401b159d94ce9e9bb5a5a637fda9af4fa6d24ae9ad0265, 0x1a830b3fe8c093e45a547fd9b7e36e30860b48557f1a52a95e5d73a7c1b1d726) (0xfcca741b97bd275c5307bf3efd4c9930ce0366cbb7427ed56e5bfa5dfae2ccc, 0xc05a2afd415d054b15e920456b72e329307f6408d92efae38a89e8fc6f92605) (0x73bfa8256244d0698f8ed8349eb6753683f7b4ae4e6fe1e4c84d0904f1b80f3, 0x6390902ac6e03dc7726229ab4866edb79d2aa3dbb117ba0d0ffe8c67fb98603) (0x2a3aec1a38ad808e0b370b2558105e570be4d5230c6c1a696d6f707753d73ee4, 0x34e34d58cbf4117cfa413e766a9d43b318c4a350efdb12dd438af11ddf1c16b7) (0xc17028023acce45ba6e4f260bb5f2cb4e6a654e8ea4b193bfacdc10c6b3e22, 0xe83d39eae5fb3345606dd8b1698f37b315954bcd628a527705079b9f304add6) (0xbf68794129e7020dff4065b0895cc8cb144d42b338935df1c020b726283c9b, (-0x4fa5783051375dd16e8771c484d6a08675c5b7c7c6ddcda50e81ed8cb7f5524)));
  OD (C (0x242f7ff1bb57f2c9ec0bd9baea12aec9a092a2298898aa207a4a54a562019171, 0x18fb500746210d14ba1e82081bbb1436a8ef54eaabdd2e7bfe0989af48c156f7) (0x19da4cffe8177a7ff293c60694fbf17f182a6ef3b078818eb2702c97cbfaff1e, 0x2568196980cabc3f6c9f5cce319f1ad397e429f90d5990c413ac8f2abd78e361) (0x128aa1335327f51acddf2c4c8b030e527a11269c29bf6e71c006faf0772bdc76, 0x15a1dcf70685a878e4b50bf18ac304b644b2a084850c564c7b098179127aaec8) ((-0x6c65a286498c867c1f0f65665bde37217626077fca18e67ccd52a72591096e8), 0x21ef7c2e63f1e0228b2047cb7f9d415bfa5b011ab96bf91303ec4dd6052568f) (0x255c569be173e385b343aee1d0c1f027df7d4df4ef7d3222c1fdcfdd6d4c35e8, (-0xe296310dc4db318ea09afbaa459610c664b2b2cfbc846e00ab0150bb65ae8ad)) ((-0x182bea744362cc9eb6b2b5c0d0e5fdce8fbff9b758e650f2f0acb074d8689c45), (-0x59647395628108c8610e8a535c9ec38e284a5ae003c04295a7803d2ae340f3b)));
  OD (C (0x12d60bd7f0fc8bd129021a436e0cf8cda36f242c1fbbe9701bae5518c81c6935, 0x2afe4d7e04ac5f8f9767003075f836b5047c15947fc7e5238dd2128dfef32e36) (0x1bf9bc0f3b499d505de1c376c2320886c55be3536e205656db8bf90864251e86, 0x2cb357656a93e979125423115a8af5eb393d85e900452ed97966fd775509f35e) (0x265e1d340f3180b776c8bbd888dcf9a41a95848e0f7f830d8996fe2a5b28687d, 0x211e931481ced412b69d69e2b60f4e4735ce4efe7bce6c4a0f6f5bac2a2c138a) ((-0x461e20a5e45e383a87655aee9516877487d475a3cdbd4dca6d92a181dde80f84), (-0x154e9db79374acb2d4e99b3c96514598ae39cbd291a8388e0813a71327f479b5)) (0x217839b28993bf079382964fb9d0d833bc95a16f1f4e9c83b9e2c6edc1ebc696, 0x1edd878ea41dc2ad55da832a92e3fd81ee9686a1166fad3b1ec263e17d8602dd) ((-0x4b99e587a1501caaf81aa82c5ffa2f3fc332e2aba44b40bb051ad5a7c121e9c), (-0x5a7692c9c307b6998aa195d1ee6e807cccce565ef944f81e74a0055672c0b98)));
  OD (C (0x223b151f01bdb82d4a5e40e742951af351dd3de3b7fb4f82a60ca83c4195d1a9, 0x2733496d370bec239b7704bc16d1d2c38b469655d377eef34837f1743dce0d2d) (0x2712fa7b6f48cbfe8f1e1da543e86d2ad0c6e6eb7f99cdfe92391f8063d9c89e, 0x1004f89292b48247c6469b0334049d5974640cebd5a1b8622da99320b1f4c590) (0x28d8ea385be9b963b4629df8820c10ee4a48feb0e8d2fb08d6e8c6673776ddc3, 0xcc56eec96c56180fdd406e89b715fd68dd2202b0417505fbc7d32547fbefb96) ((-0x2e08b7866b8bd7c9164dc0dcfea899b2b75c30b268186170b458255095c0bb5e), (-0x4bfa0902b6f4c13e538add460bacd15852f48f3f21264cefcab53896bfc5e82a)) (0x3775445274f8fdd7d48ee325396718e3f820c6e0bd60630d25e6497691983840, 0x78a7aa62186929e776063d7e7bbec62871c64658c9304484c9e4eac841b6994) (0xb4c2bc779b862cce43ae5166313ab0a8a7a5eb5b7ab2171ea2a8f9d83d0b04a, 0x1f159291f459918e5b46b17c76eeba958562f592eaeb54eb8d668b9b0c8bf9a2));
  OD (C (0x1dad07b64e3d6453b0b31901a2957fd398527113e5279151825d2210351b386e, 0x1a993d3b39451d3eb552405aacf3292d7e7b2b8d7ef2ee0a714bf7926ac90f0d) (0x30330143fff31bdb19b912c5934421bfe8fc218b0cc1883f3bac7f11e587b9b, 0x1bc6bd9f460c7e9e9386ad999e38244acc71a4d332491a7cef92b8cbe368453b) (0x178e45c12be565036892c303b1395c8869591a054e085858b4b271facddf71f4, 0x3002605305901b74e7f22106c73f6c62acdc74bcacd81c70d9a49d52c19849a9) ((-0x110ad956c0d43243ab2e4e59a4889d23d0bf13f1249aeda5718f4fc83551d426), 0x2aaef64f4d79c305d084d6533c92e420eaf7f988afe6ad5ad681385e7c59a12c) (0x209f6c5a23332da1aa888bc5415b8d710673b6d64e81418d161c361fbe0cd183, (-0x3941dc07f94009ff002c1d631f12cf5c5f51be5d5a9f0c0b43bd6250f52025a)) (0xc9c8a9439d176b09c3d67af7f0f5ae0a98b7e28dda9938d9a9ec1f8cf47c85a, (-0x1c93a4bca61c609f84f47d15c2a8256ac6ce0bbcafcbc98fc2420d167c610d08)));
  OD (C (0x16e10c32631e8f4979b765a2ef32584b98f85172314db74c08308c979aaf5fa6, 0x2dc5befb79cb1148112dc3d5c9bd8a1e391bfca57b29e3f777e8f6e8a4b008aa) (0x2ed7d7f503a3367dfbe0e9a28f2e58bab694309a8c0f2b47fac98fa42d136801, 0x248694add4c334da7e2af314a948d70111534020082b98c25c886e1fcdcbbad7) (0x945d9899d3b87e12baf1a48edbbddb69ad8fc294a5504207f60b470b66f83de, 0x2d7f9ba3c93b45e3efaf467128636cbeddbe0e98e0b8f575ceb32d694083298e) (0x4f954e028109c2939e032613de2ace9f8de6c990193cc528f2d5a781fa39ecea, 0x1547ba4baeebc383e13f30a15fa8dec3ffb104fdd11cf7daf7dd34a9ce32eb1c) (0x2b4807669091bf33dfaf14ec4b384c5320b9c95ef08bfd5c812500445077e937, 0x207a567b8d3e592857996a318d97986ced60ae8f10906054529ba4bbfe0981f5) ((-0x2d9844d9acb021e652a4284715c98fda8f5f8a9624a7ea549442219d26ecb49a), 0xc72652297400e99871ead2c6866e409c31d569c2b6394bdce0c5a662a060483));
  OA 8 (C (0x10120a31f1716c27bd0c1a017976449254bdb3ae0390731193955d33a7f5d05e, 0x6b8847d71e0f9c3f5c633e3149f644a62b69f69a50bc83c5ee992b5795bf6f) (0x28e63c122ca6b71f9934edbbeca6d17dab5153be901f760fd112c2b789507b51, 0xd32b729bc3da0ac731352106da23e9d9be605e1593c5501a754f53dbb485ca) (0x2cdc8d4e848dca81103af60687eb0dbb5fb919dc4bbd23a33b46c671582adeef, 0xf084310ce5ca0cc47b4221d4a900823217aeb8821298e3d35f53eb156ee0827) ((-0x5e478d09402b770b83469b48525037ba533767ee220cce77014075b871f6b84), 0xedb258f89dc5b08342a977e35b54bcbebbbe57190258d3f35f55c818226a0e5) (0x476bc3e10bd75cffacd3576cfddac1e9958ca55e52bfa31e62a38bbf213f21, (-0x5554ceae610be7ac530794a75c688b576442118399e2fc5abd99433347e4e9d)) (0xbe851f09dd228251235e63bcb5db8f131ab517fc02a70bf12befcf9af8245ef, (-0x1a9fb046d8e6163569cf7712eca4c1115b8dfa2c8515c218979c5f19b7134be)));
  OD (C (0x17172003b4bbb22fd124b8329a6bfbbc98ac37caf9599526204689b4c6af3a34, 0x183473689c05d2030fbbb571a280bff92c68dd3d55874ffc369f84ac1497747) (0x1b41a0e399ca3d35fd00a1e94fe67902a15cdafd11740fb51c18c9f9c972b9e7, 0xb92d13f79f22f48829bc8060456128e598c19a41677b39bfd35b3c1405e2be0) (0x2647abe2c8986b0f59ca1b774d187a5ae16b657621e7bbdb0127b51918b662cf, 0x21c4058049ced76a3c531d2a9326d463742ed89a1891adfa0ad10c24b6754d91) (0xcf7a0c6818a7de1a8ffe2986f9b0a461a35f9201e1eff8a52fc656f1294d2a2, 0x3dc96ce6b42ec6b023157b7106e5c1b9c24d8fb8ea086d0834c04431946e9337) (0x17195152aced5f3950a30e55c7220ad184de07f47c83e8f9db8b579f444d8b9, (-0xaf8685e3da8a32108924492b7e161e79a06cde3fd364882e0cff8ac1b841e95)) ((-0x4b3c62fcb959266de02d6d22a6420f07dbf5b57cca3ee6f8a62de57682319b0), (-0x6d887cf676a963a3f3cd5f927203cfc2193fad037b7d19e9ca9660b4df62cd6)));
  OD (C (0x283dfa755ab37115ad720d7500f3e1fbe239d1a08eee4b70ffd1a018d73886d1, 0x370426018825a23493bcc50c4ec39e20257c84839e61aae946f36e6a3155be3) (0xea7d66f850bfb20350cc086f6f2fc7a1f44bdeb607152bfefe55f571fd486bc, 0x6f2dcb051fb82d62754bb417647928daa77325d6715e4d682e892911ed08ecd) (0x531c068c5a0167b3ddc29753a248bd3295a9a607eb65a66eb7b758a89ad69d7, 0x1c2b71a031fb6c01aa7b7dcba1383930d1349d9fbc381979887e678fe27a8c0) (0x167c78539006671b006685daa234a4d7ec4354df9bcbc9801797e4f492112804, (-0x151da9b4bb11ac69925452f6765f25241b7b55ba12e4deca4b2d7073d01e3cd3)) (0x5b80718dc34e9b247c81acf849a3b44e14deedeab3267e1f902e6093ab8db04, (-0x213876b09f8d2891a07da1a42557ca3b001adadcea03c05711fca1869860bd73)) (0x4bdc659def869c1a2d17953a01cd619506e3a92e64a3765f51d1411b5d16d12, (-0xa2667ba3cce6db4aa3fb0e87a3d9046e0d5a967179247e0200a00613a4b7b55)));
  OD (C (0x1b8e3edcfb25a0dec58290481fbc1d4a0c1c7c05b7104a6b367c0a361a9667e7, 0x2702af88fa098fc44a5b16ff6752f802b6c11bbe60d46b8d5679a60cb51aabf9) (0x2de3ffd9053db024100d60b0ebc679600d60c602bdaaa9649e74167955faeb98, 0x3cacd847f4585c4829102b3a0f2c950270ecb02a907f57963dbcd04973ad108) (0x19782f131b8ba0df2ac00f1d5dbe1cc57eff9b147fb9c52e2cd8e3319a355c58, 0x1df9603efeb4fdf2a54bca57efc169fcf3b1265854b6f2ab3e01104ce407831b) ((-0x23f2d72430ede18ca93f0ab3b66000c5e66728b3abaf0c1bfedaf1ed15d6626), 0x73ec2417984b084b4047e2f187a674e84c4668d76768c418bcf29dd9e3214b5) (0x2c6d645ef23ba0de8a076b0943850400e6476e965625476cb7087d1a525aec42, 0xfc1c3b5384c6c8c262b6694ca5edcf15c1bdbdb31281a6ea96b3139c3e926f2) ((-0x1761e112dc48599fff2d7ccad673235cc78ef9d4e1832fb74b32d477b5db9c58), 0x1454a4d115fe39118b93b9080266f4441fef26f2e09e9740b1bf3feffaeb128a));
  OA 3 (C (0x535ba6bf3372378d151f22b0173ba3d2d6c7034ac3f1e545d4be6c52005d655, 0x598dc24f9cc22ef8571dbe3d14692e25126eba1ac92bebf5a50ebd00901bde0) (0x301de9a347238f22b36fa7c68fc0c7088d09f479a9e3d7725a132a270d505983, 0x289d6ddf97c0e17705104cfe35dc56965f8497064ca1a4189d446c371cf26416) (0xf7220476cb25349c916152243104ba35c242958ee06fb49b27f69b15c1b5525, 0x203014036c49d6b02799ca803133e69b853148133c791c79e0d014d40ca3b5a0) (0x6eb862d81ca1bba4ea13442b23fdc7ca1cac8368f413c249859345e2267d73, 0x8c78d3a1fdb824be7707f8415c7d64d8fd9f8a8fab7c47acb697e27dfdb0998) (0x134862d41fafa3afe884a6e235a06cce7a90876e21f83618f7e76d9c9fe5adc, 0x16236aed7e4daa87d9c3bc1faaf5feda2b263a207f35dfff0df906a6a01027) ((-0x438ca5b75cbef5ad18af64504548ac17023ba06bdaac7d77e98e79bc687a1a5), (-0x404f2bf016980f5c4442507ffe5be472860194719b82e36efe1dbad03d3106c)));
  OD (C (0xb3f0c08b3177baa2adfbbfb1079b3523a779b1e1b24c01b70dc478e62c14126, 0x80652610e54486abd5341f873dbbe954cdadf529b12e3c831b0211c77073c41) (0x8438fbbb709d15e2659e277c5410b56aa8aa029e588e9585a562903612f0de, 0x180a4006fa7a214027ba8c8b7ae85bf2261be9c10571abf35fd8d87c2938b28f) (0x2980f60400a237d3d9651c4b3714055d43705be5940a3d38aa0ca98d55af4c86, 0x261b323d0db21eb29704c76f04561e40ce8eec0227cb5737a8d47c113f0bdbdf) ((-0xde38b049edd7a06744e9554604c7d06fd8312e5e1c6fbaf76b252bc644a2efae), 0x2cc33e85e052a2b9e06ebe17131bec342e04105bdae30613b5619502a62c5035) (0x3bad9acc04bde12b08ea3e8baae542f2f8e42af78715163c08ccaca2c2cc758, (-0x1486db6172cf020a8be046e0c5bf0e38094eee8dadaf5bd4ffbea5cea9fd432)) (0xbbed6bcd3a28538ef9d3c7ea988d66b4a8570ca2f5e226cce80780eb7ccea9c, (-0x85052b918d52cc0c3b60e5c5ef8ef8271e3b72c8aa09adb6cf4475c5b813d9a)));
  OD (C (0x173f66fac2fbe092ba0444f474b22ec67e45adc5d764d342e5142090180344d3, 0x22e80225553bc4411d684e06747612d614f0d3cbbd22ba9addf5dc7bb67b27a6) (0x489cf066b9f8397885788f40e652b254585367b2d40115e0092f3317a72f26c, 0x18bc90cd054b03ca24a5d2fa218111eb70e48b8694fd83cda12a75cf70fa2426) (0x2d99fae8302a30fb03cb09d7a9f526417130184008320e88d09a25ad451f6204, 0x2a4a1c0bf005671d51b9587495be3f623bdfcea806881ca4e22af252b306f6ac) (0x5ef2e5a786b13f2813aff91f9fa59b6f2a2e4a4fb8ebe5b9cf98839d7cd02cfa, (-0x14b6e2025ba8645aba993d88afea0df8d8af7f7b2d8869121c115a589c656981)) (0x2189cd9e4204190e941604e71586e7dc7ee63f3a50868d2987c1dec6b672daa4, 0xe02b1826a13788f2816bf64efb79b9ad6b881dbfa5aae124b3661b6f6888b51) ((-0x33c54b7fdafc252417f1a1089d285a8f9ccaf3c129419d4e9cf3bd17d6d1ed5), 0x16dfe97b613ed6e43ae5b0d75f9a1d844bddf622f488eea2495e3a44a666d43));
  OD (C (0xbdc6980a5b6cf5121a7cb106dbb9820a8cd735c14599695ab82af16abe98b7b, 0x11144e8cc5a49769a0fc02355c37618d4b538e5ce96c32d1e449de54d044bbb2) (0x2af03f2b254921dc6366e98ceeb5e0a847c7ed38fd07911598c11ea69e452e8c, 0x2b8cd8251bfcdf47fb4a745e2a4caa3d966de58ed2ffff4cfc89c6c753633975) (0x23d477b083ee478faf564c5df530b809a9450d82ba8739b5b813163bc34849d3, 0x1cbe6e4ad01183850d4171b164598ed4ae03bb6f3030436786c54e16ee4784) (0x27001a5ff1afdc214e4aabe3fa6f99c00f371b7496d8a4f6a55f87b2a4535018, (-0x1d28fec34b6cd0d8e69c26a421c75b22c72521a4a8c727dbcf3174ef9b7c19fc)) (0x85f54efb7c20f8f48776afcb6b177bb9282e140659a3423012fd2685d67f118, 0x31eeb93887da42db9a972e9cf0a1183ce1fabb100c06b31ecc5fb610d6a0cc6) ((-0x122a05a7286e9371202751c7f38ede52fbdcbc94bbc1b5232c98c4af87127994), 0x2c59f32183968ef0f0816d7db5a321d78607125c69fb52135ca0c77939c5fae));
  OD (C (0xbe923aaa45d8781a6b4cd3310dd86ef968ecd63b29663a527a4075261f5bee9, 0x1cd727bcd2250f02adf91397000b6ab70ba882a3430df272c604fa5b1d5bd3ba) (0x2cd6fab7c7fb14a935b096d632775dc5b2195d4c15404894493937e791bd0634, 0x48fc4878e03172dfdfc32e440ec86fa0634946760ff1fd15ba18edcd24270c0) (0x293b6d418ec312b3e419dee6a55e17cd28e0ce4315130af4f92c021081aaa1dc, 0xe2db86ca1ffed5a3724921e1aaa1044054a61f8b9caf6d3765f2c4df6af95d3) ((-0xbd17729678fb051f5c1bebd32506f04fa3b2c483a2c44fb9600fbba88f01d4dc), (-0x14c8a03e8a5f4e980347e3e515a71090b0889c8ffcdde95c7f387aa3a1f59977)) (0xe327041594ff565283b97d2fc15fe3b1bf686b3aa7eddf48c9a5f2886617c78, 0xe41b5daba4a2ecae71e496166501856283e3fe9367549b138113c1010a1a5cf) (0x87690a1d6b8c523abbfde5eb219515b8e98af996df05c2dfbca3f466d57e012, 0x17b44caaf2a0cca091dda6368c68dbd7a1959c93660babb66c5852ccf9ce17d5));
  OD (C (0x9a78920b9d9e7e1cc5f3a43b964b3334d8eaa7b150250a4804a002beb0f9793, 0x2d4a9456cefc4d3b2905b5a30edc337c7e67778a56e23fefce3ba8f6a2017f01) (0x1b778ffe23389b7103e553fce8a58ba45ca2f6ad632f02ba8053f73f0dcf7ac4, 0xff5d4288e5cb8fc74e48e2b3e8b0857aebdf29a2137d1f33e08e988b13b3e70) (0x80d8ee0d80d8780b95e946724cb68c727723ae3c769056c95b40bf60fd49314, 0x2d41158434b47c04009bb3f1d3e58f27fc812a75bd2f7c92815e594672a47c9e) (0x397a424684e36144d2db495de5035c195c243c7a880bd685be483aa4b2ed20a6, 0x85718db4d57ce2f5854803e2a21207400db533305adb65cd8607dd9d50a7aee2) (0x12125d8ee325eacef303155269c2c02e291ea7ef110bc8f8a76bde1314c3c336, 0x28769f3dedac2f24d78008d638603c2d78e2ad247f33c824e50574c70c9e1718) (0xdfc4c732af30ae0360fb7d9cb20b49a0e563f239f584e6337cd6b3945afaa10, (-0xe22621a8e4a879b1f44795f020bb8a7b0efe2cc2ad21c9ac01ad29e358ab787)));
  OD (C (0xf03320c6a6385962014863cb0ca757c47dbc21251e71c3be5910ee134d1e24e, 0x8d6c0df1f1344903eb0ccaec812009ad3e2ca00d68336a606fd42ea7303937f) (0x17cb6cc9e7368a8c48bd33c557fe72e4705a6b8f0ddbcc9441a3a379105e5e39, 0xd283b1e9160d0da766bf1bf2e3818c78c8f3d688d0611d6362ceb9a4f23910f) (0x25fd23d7d2adf71f5ad3be61d45599b7aeeeeb5ada14d79956e16b717c2f9981, 0x30614e1cc5e8199755bc134a7365e0160cf81cf80501a660e16d3654fedc32b8) ((-0x17557e918b93e451dfdd1f9747534ee743cb3059a698afec63180ab3c5fd48a0), 0x2a83931b6ea837bdb538bde979b94dd8311764185d20639c37d2846f0ff00c1c) (0x57beffd092233a5a53e713e8b6dc00b23362f4077753912da3bbbce677e0ec5, (-0x30af7e626bd7cac261733a26ae92fca055fd788e983661ef7eae99133dbe6be)) (0x18a5647f34aa5171ecde09a1484077c1c06cae974cf0c7e04e3ac7deba924a2, (-0xa095f33751f7178227728dd65871a71c8704535db2eecb811fe4ca3356b667)));
  OD (C (0x57c9d74c1c99179e80efeba624627290f2bf0c296e6c881dddeff0e1b3f01fe, 0x1e297fbbf23ec5d461bb626a55820aa26963699d13066dd703aa3ca2450ce5ad) (0x257c569d5cdfac97f380f4a4dbbd08eef23269adb8357f839ef55952ef2ef03d, 0x2a254be96df47daeeed9dc0e8d125abcbdcc2c7f83982980fe5dd2744529de1a) (0x1413af5fff937ad729a1db9557f936cf3435ae2bcc2a573fbd21e5c8f06c238d, 0x908d3007e7eb83a3b26e24a4cd9ba9c4fb64cb3eb7d167df66f4ef19838d336) (0x1382977e729af177b08601220fcda54686469ee9fd40e9c4928d4ae063216b10, 0x4c1031f2ecf59195cbba6228df0e87188375ff07d59dc8172ec332db9d7b44bc) (0x6d6f68dfb7fa11a3c19cd361ea777e3d2f6d2641696e2f2140269d5ab0404fb, 0x122d781ef6b2c7db4f0caf5a6c59c0a610af6bef19d86eb54f02feeab8b7ce6b) ((-0xbd1fe25576974c584eadf442d96f6ec39a575fbd354b5fa398886b65d1b5ef4), (-0x1084135a5ebc7baee88f1dd93f030e6e9f964f79c385e6f6445be5aca97be9f3)));
  OD (C (0x11192013f5a025a47fb66be7dc396fb71cbbec800ad99f79b2446cadf9cdd2c6, 0xdf46a8f1f743172fca5f83dbea150d24eae17dae4bbe5cd5a29dc8ffb1a7f27) (0x2242a39e6c6ac3a52ec957bb06e6879b9ef2da9ee13b908c3bc7a7cac5169a39, 0x14161594f8c03210f2b37378367192b36e2f9f383ebabf32742a196fee7bf8c0) (0x81d6f96790f6af9376de7d22e1b77a4922dbbcbe59c82fe538ddf419b7db75b, 0x2e7597200b585e1dc8cb5a2a1e7e39aa6ef033ea692fb4c44ea5dfb332e9b835) ((-0xb1eb90f3dd5b8db1ba66444360704b6930a33eb529ecac281309d322a24faae2), (-0x1ffb50e65b3daaf46bf00e6c82e5f31516e64c11f06e08f3963375af667510bf)) (0x9dc76a62a3f0462ab9857d967695d69252eeae30129d34dd7c66a35ca042dd7, (-0x204612a22001560777e4c3761a4b9bf1caec79e9db1b4212cba5743b3d8f821)) (0x8b96ba1bf226bcae734248b59b4e5317e849213bc1f383b4f9d5ee350165a30, 0x538bea92d5498221c0d91f97171bbc05e32098f09072bf9b5a4f218dc2d0fb5));
  OA 5 (C (0x1b62026af021b2fd3ceb8b4981ade5f655a1e50826642b741e666ac9b15213af, 0x605faea0156c6b6faaaf3386b44685afacaec12057f4825cba797e4fd546a60) (0x126b2e4ad568dd04c38fe5712f2e5bf875d9e4808b58c79a8194294c159e9a00, 0x2758c6da87f54c3302613e0f55147496f0dbf32e36292bbfc45cef0d0d8b5ad4) (0x22074cbfdfef0f74393be716c25aafd5a6183b6368e5bcd8464a14e7a3005237, 0x214ef82b4b5fd1c236ad8e0915ad2b07e82319db504cd85643e036dbb73b289d) (0x233c1cfd81c884359f95a2484380eef0cca760f43c975fa00f72b66fe9bb1a1, 0xe7c4249d2005784243142dd900bd55c28b990f46fde067bfc8ef4da9fc8f085) (0x6d11494372ded23b34a311675d89842ef140d207b4bc24ebf27ff9c1788825c, (-0xebebb3ef4a10543465e9700aca11cc3f613add965bd00d89c3a63a9350f2146)) ((-0x8ed48010b86506abcb5974c302b4f40c351b6fda630c70f069fa8497d6d4632), (-0xb5c892001bb2876e4a2a23c509a81e990e9781aab7514c5a2de84377947bbef)));
  OD (C (0x20606b6919afd49ccf93ea85efa698b3e9480eee651ad92f689bd1f6b1d5a7ae, 0x246fd6aa948c5573fc4b71304fba8ec460b7652b41c3cd9293a7f39ea1cd2511) (0x2ccbb14318835bfc5202f7b6b7c0adf9cab90f39fcd1531f29a412b3a3fb23ef, 0x2caa1366c08468ffe041fa0c16decce18ee9b9fefba307fa70218d654232b939) (0x2228f031db6c624a08ff0649a2d89efc933b7853183b3c4345919a5d9682cff7, 0xd1f1e19f12fe968116500a7db4f1904adfca96268e5298e57e0b8a0890b0f76) (0x5f54733027851eda5ff59acf45bf2a824251278b6b1c6679b14dcadb10aa276, (-0x4651e8084fdac122824c995ab60b34e2c94b5b90c74d884efe62f107565e4396)) (0x30c19d98a462f6d4ab4dd1ce898e3580fef4cfb10a30031e25d8ac54918affeb, 0x5c60f9edc4b03a2d0db688b4902ceb67621eee8b832bb8e3df6ff947ef47c24) ((-0x176b1e224de193df6977126bfb0c9792189b0f59701a43b6905cb53d15ebfe35), 0xda4c89132511729a9722ad641cd6a56e1e6eab34a26ea93a23a96421e383c06));
  OD (C (0xb5c2aaac1f438f3c959f0236e1c3d565d72cc31f9dea5877396932009a95610, 0xf2d6c4fb5af8cb5d7d9ad8c6c183386c945fffab822350bc43da137e78c6d8c) (0x226d0e5facbb3aa599b0781ff533055207814f4c5d9c139249e4dad589a17175, 0xf182d15ca75c55b031ab6a6339d69ca47537bbc9e15ceba4380d411c7822f38) (0x19c49b7a29bd30877d3a15380c4035b3d7b5989f16608c907ccdb62f9e602c43, 0x11deed273fedc5ea6be0eda523d162ff3352f363adc1203dfcc805e3faf8e84a) ((-0xdc7bab448d740bd4d0f102e4d98711c24dd01affb624c9ac8d866a2822985d8e), (-0x7143ec18e3a99f2ba1d4fb60a28cf1cf66601aa1ade8297c00507bd3b2e9d80)) (0x72036a7ef7cac34820a41fb798fd5c211967df2b2b13a0c403aac849d9c38eb, 0x217ea3d599d52bb6ffc5c8ff583f46a6156a8d99e7461b686a2a80e0b13e9ea) (0xa31a1ab9526b5dd8509ac7134e415e9f10b07bdc68e4c29a2ba785899fd1402, 0x6d7046a47860359f331a42b80ed2f689371c47272a473d2f8b024c6ef49ca74))].
Definition cert_g2_4 : list (op gfp2) := [
  OD (C (0x16dcd349026a20f1fba06b017411c74695dec2fd3ff1271c645c370af2163a6f, 0x19c37e867b53ab8cf52684c5311330269e2474c2b8699e073f540efc5bd719db) (0x19d41ade48845a7d6599de5abc63befd974fe5aa0dde82c03598e2fb6ef621d0, 0x2ea112b518ad8bf14bb92fbc5403a97dd492e43099c00a716d50f8a9ae7a5105) (0x1c0cdfe4b6d4803b450ebb2d10125a2fc08df636d2f062a961c0603f093f4250, 0x305098fb4dc791d8a3b0ac605f7418a55dc57d8753b4e03c7845d751bc8a2b) ((-0x141b06dad8aa714dbd66ff891660a0358ecda51b7accbac1fa1864f05623802e), 0x3607266876d975e0c74ae8b655c9a01b27deccde7a65c8b8017a5d4ed97b42eb) (0x18580cee90b2d62b01ba827d1f59bea260a4e21f759ecd68d125df572d731b50, 0x2ea4442dcdd949780d326acdb1781738645941ff06f7c6f8adc04920c20b1a5) ((-0xa523dc5efdffb54681169f4a5c7bfd842292a03ade8429bc55bb37e996837b9), (-0x14d9d179628b727e69b1ccdf648482929100942776c1414d9d61ac37af896429)));
  OD (C (0x2621bbc419c63a2d73a289713676c9dd497332d17c17b3ed721f97f677e7800c, 0x82845a7dc38947b8f0c5b5ffb201e16a51da8a8eae06edebd0abfc4a02490f5) (0x20128df6692d62044de7dca89984478094fdaa64bb67ec672aac091fc59c3363, 0x5a03878a41625d358937a80922dffda8b16eb065eb0dceba43f7fc7db9255a7) (0x1f3c4483eafb52b585a529b1491b1c3234bdf0058c48e1c97d6a71dad09587c6, 0x17ac052f314f317e1b05239e199983fe084b2bf57eb8c0da5279fcf03dfcad5e) ((-0x8b9283cc6d702ca55ff0dad2fe2f51c073c851e89ac6f8efa8b68b3ad3791d08), (-0x8993eaba59b2d8831bd7b74077f346434156f095b7d6e4aa944d0ee791cb421b)) (0xcdb0827a4d9ea248b19e8de9346e2e17703e01fbd6bf7692b8523a6ac5526e3, (-0x1cac08121cc10c5433da5a067bd36e857bbe90b51ef83eb4f7ea95a14c72e7f8)) (0x1f41dbd8064d07b49b90826e87d85045e7c351d2762a2cdf627942a6c1ba43c5, 0xbd4faaeec0422b0dc139425e9e2d47dab5f3bce21d226d04924818520fd95a7));
  OD (C (0x2f5238301f62181afc61dcf2e29e85a2d7d5674584ea465b00ff6230eedceeda, 0x2b5005d6c76ea8b7614c4a2f5f297d3f00c158f84e1a3a1d00703fb8f0272cc9) (0x23001feca97d0270de133a52064bf0b048dd82e2974846f8b6d8b95d65d9793b, 0x2ccfd6009dde2e01b123c98c1e07113a85e69771ed8f2d3edf6264c6d65fd9c9) (0x36b996d3512c5e7bf2f7cba73886de9dcf642c27904f63fc3ea839966a19189, 0x21e375d1e139133dc575a7b126a89df57eeff35c49df0451e790275ab23cd09e) (0x4fd6a8a713d28c40d646c8e93c962413f6c12e4c98047576bf507e7e1879c94a, 0x2b17f1e82ea84e0d5cea31c60146054a635dc5b41b29bd41f5ee434089c84a34) (0x54b568897b787a838cf3431de94a73fc8e42f8869c7311241f7bc8f19fb18895, (-0x781fa9aea768081d8d67146712c5210f3b9dada9fee919b962c177d2d4724c6)) ((-0x28f09070feec70d194540f5647c8a3a8e5147e645aecaa78e1c550cb7aa129cd), (-0x2035b485a4b3d04201de17ea641d383768be51b1c66b65790b365a327f930652)));
  OD (C (0x3b40febe638bcecad4adfe28849d81cb790bcdba57b7c195ee8958154ea5ab2, 0xe236bb192decc2ac3db515295111afa294370b316a6b4e8fbe367553e97f220) (0x1877777ad166229160e8eff87c79c1bd175113dbe7daea69fb7a8bf3256b0257, 0xc9f108e9fcabecb97bbb2f6616888032ed8b8d990a7a5ca77410021d3954751) (0x28712e1a3fb1b8f9e82043aea3bf018cc9bb2cc739e6639c061d3a922e80fe65, 0x149ad8a5ec7c6f47bda55b421646381f073a9aed7767b555389c7b9d52054337) ((-0xbb481dd5de484e1fc46c8a2dd52cf6946afaa3e1a2c1903b8d33223393fd2136), (-0x1d4459743bd7d967eee96d07e9d985bfa35976ad60900a6c0a0a0b1fb33e4cf4)) (0x229fad5b3e990affff0fa87ee00f78b6f7863429d2ca6896c88fa6bdbb4b035, 0x3d8e950e61060a3969c2ff218967fafd7b078e779e78c648c114cfdd2d4d85f) (0x58a8601be32038f375fc3e81b4381a83c4de74f34895a739fc040c932be7cee, 0x899497bac45c7097e3e7f99f003ba0f258f2382201e755a65bdb7cb63d907c5));
  OD (C (0x126775bbe9b26de2ba495d5f2717778d0ff4b2841cf66529678d2d796e4f3f61, 0x118110e9a126e3796a344fc36a425beb03daf0b7078a1b316d174503740ce29) (0x1d169cf2c8ce5dd01de5bb519091ee9d85cf524be9d2205cb558a9b82ca65d70, 0xfbc0d0d98ae37be893cbb121280e01a972c843bb1bcac16342fe9d5c336614e) (0x1caf0fc420b6cf5a15d8e7c9e976c0c289c0c7c5c954109349f5f660bc2f1ea0, 0xef556ca99dabfc6d6874566d1ab71d081b57fc71ea08a467cc27a0514a5d88e) ((-0x14c956df09cc8e860e0d01491ace5edc925e1544c3fb6a037ef555739da2b2ce), (-0x2983e7e3d814fad8b83b707fe48bc1ae4f995848403859d8bf3e7379b8c9804)) (0xd506f214bf0ee8257c1aff5093934c21f2d21940c26215c8b4bf4a6afdeb6c, (-0x6f981fb6088c4689c6321550ca5f4a6ac6d75130404898abfe0377e78233ee0)) ((-0x149da8cdd9a0091d5bb88ed3bc09ea3bc69611a9a4fc74922d5373ae15de885), 0x1aff35fa44c8471c39c0f169f37f4ffe3dfdc21f182a580302a825f1e0f69d9));
  OD (C (0x822a588303b72472d36365f3bf46fb8dfba4c35e259b700b5a21e824e149efc, 0x12e9692da02365181acb228751080f3cc70c84a2cda0dd2066d2efd2ba63e620) (0x230dec1d9e8ee7d600105414df16401fcad37fa0f3ee664a8f61f70896ba87d3, 0x122e4e35ab601ac6ba8b84143816ad3bc738e423a6b90faf3037350115cb3274) (0x3014519445b1ad4758fdf207434b8732db061dd9c973c575ec616b8dacef927f, 0x1186c8503fe4cbcd5554aa93b29394a202be5abe0bb359f4b4a53da00d8c52f5) ((-0x1d4ca231259bf1ee8e4c40175c771c192dcfd8cc73065d9590ad28f70069e550), 0x27276ecc77b0701c0406fa6b4d1dedd8724f594cee7106f1babfbfa4e790702c) (0x65bd126bd4ef7634eca1a2bcd954ea74af48f77577d81091f3a294e6d2a63cb, 0x605ecdb444becc8c6651d099e2c8367606e69d299de1eff1749ecf3c33e3220) ((-0x2be297ae01c5f22f244a648ef694ac9ac81da2d3461a9568145fe23cbd6cb61), 0xc04c27a7a04f2b1d7cd125c8c31c99e77eb5e8dd7402a26fc8b0c733f1bc7));
  OA 8 (C (0xb4ea343ba1aa7675fea582c13b4fd02ed5744244cc8760d9f070969464bd6b4, 0xc1ec9263521581fbe333104ca2731d72f57ded7df01cae4ba955a38d071f152) (0x23821bbbf7385f65cc864070451876fc24c60ce25d9ba45d6927b972941760bd, 0x9ec1bbfae6ee3f2d039157e9ed6cae7dd33301afaa244baa0eec0348793328a) (0x1a83c87911b9709f79b7554a5c33189cfe90ce454ffebd14c0d2080ab0e5655d, 0xd41c42d26f35f1f8e1b7f921c10d24058856855a8835d6c7ddf4f616481738e) ((-0x7f19d2aad8d82d6f9f1604c98faef2daf71cc8d30c8c09f3c3109ef8cb3d9b3), 0x83edfda81f407f50fcab464e9610e54a00e0f625f8be018d8224807757f4524) (0x5a9fca26e0a7f49c1d951bc82779f819a3bd5e7917777c0bb4efa5af54ad123, 0x64c4bf6e2a7ef28e776306cd71ca1522400751dec568976587ee4b932f0cd9) (0x1d0e69fa31f4640d87380705203b902e5324686d168de6e5ae80ab75bd2ae88, 0x22cabe712ba63db9bf9345bf519b079bafdb753291e7ac2f260db4731d8b3bf));
  OD (C (0x19db58f158c5e4f96af396d92dd9f776983c732ef9f8626f210422170a35b85, 0x20ab5cd79a4e51d4fda376995ef458e4f24866e810649b483439a244f5f24abc) (0xf015c1f75db567e6dc5c4c8158eac47f0220b25d7dad38b421379a60f6f9cc2, 0x17f8ca72f43f7d6dbfa56da3d49b8e661d771fb39f509b7346a0e9d1d23ebc5b) (0x9639bd7ebf23e394d15555252a11f981042049080c1645e64b944b4e37ae722, 0x101e20006b8f962d0bc553fd31c6d46c94ae8e06b4221c6315314ddeca53a917) ((-0x6ff8150c92ad0281233f764c9f96f1c319f1c86552c5c20ea43dbbba6f49598), 0x583073f187210bd3f58f5ded313e19bff7d2f15174841ecd36baa102b239543b) (0x22e97607cd28a4bf32cd2f707f1c9747ffcaadfb2ca78618ba42a4a4b8d2404, 0x16004d3dee07bcbd2d26bf817e15911416c741a74f73a33278162e2e40d13238) (0xd5f5359bcc375aea611daead28dce7ff45ddc99153e6f79285b0e37816c0cc0, (-0xa2b686d760a10fe572ff18c2e18ab15212b7a1eb4a46cba55a1a792eff52938)));
  OD (C (0x81fa6c445f9cd60a7360eef56418c198adedf52e21ec028cd5106436446bb37, 0x2327b1c97ea79d228db5ba8e16d4289916b8777bee10e243d4c3487ff7e8c6ef) (0x101df673462c5009baf2fe2081896c706e799c51711322749d05305560e245d9, 0x7dde999ccde0f615e62ead4dad8c17b50598f47806ad95bf07a304ec1f20c43) (0x1cba783535967d96fc2b5e8c96fd882ecf8b60e54f418a51d0f4e4f48af82d2d, 0x2909b4eec0110fe60d88a0d8d1bcadb6b72913861bde17eeaa4bde03590bbac0) ((-0x198bc03d951ad78f22fd483d34a1241427039ea757ed016a40fc24dd8deacd6a), (-0x16691f006178b36950019d282b199a6ac0668bdb9aa122332512a08d13bd38f)) (0xbcd988813d3240e2db532a6dfd13b7b7d901067258501ba0f1792c3431d2683, 0x182cdd53b30f3ba8f1aefb3b2ecfb5f8be8820b9778cffa69a8e39dad6614471) (0x1e55ca156e901667732c99210f16c860f5c80fd49329d40bb5b92b8adb1faa0, 0xbe2e956e21cbb3ba94853e57fef9cfb1274728a8eded213e7f8c8dac535a96e));
  OD (C (0x21e8089e1890586025393200a13876590c1be7037afa4d7bb553e9f334150150, 0x58d2e1d5c7f6bde61bef3ee28327031bdab9e3ac2072db139f4e1dda439f9ce) (0x2119fd1a1ef7094fc92f9797c019393a78d04264b90149d288c37cbf625218fa, 0x2b41221bcccceeda5f317e18d863aabb3196b8836e55f7d47040a9a710742609) (0x1ee384ec004028d1db7b74b3cbde15641265a6b45668da412b77f715ad3d2c08, 0x11ed1fb8dc4d932644abb38d811e7fa6832864fc1e7bf0b27444d692ad3be9a4) (0x3060e4db201f3e811847c4d75eabad6b263b572b321d9a0e663402eacd4bb006, (-0x12934894674675e27821e4a245ec3d3dee8568dd798269b3094edc73b20fd4d8)) (0x7c789b9513878d4528ee3dce91c6f207e588605abd769b788aa3ba16b9e614c, (-0x171ebed0a697ace0950be2f5d638551e42972629efd0400e3605f72d092d555d)) ((-0x1abe44ac298759e07bf92dcbb39fbc396516938e96821cd142a4f6a86e8d25c5), 0x7d73bd9fdfd423b77ea5b76a5f8cae1c42baaff2a554b65b0b8537b356f2ba8));
  OD (C (0x14aeee4340a2dd9fcb984c630f5b5c237624e5ab4412a70408c1fec91c63df4b, 0x2305c482d7bb46beb82bf538b2b0270fb0948349a50c255ed91b0b5da2bc7cb0) (0x292a59ae79abeb34cf07d5aab269d44202eb79a5d442b7c24fa90b47e7f2d06a, 0x2ec70b81e8fa09c279aed01956db5e7202a3b38dfd4391ead8ae8289678ff1ad) (0x1cde71f9a0cdebc523ca3e5b14d888abe9925203ec31f6be76743ae575630626, 0x1832dee19813eeca6428285325c20b83c7baef35594df552ea529c0044e7c70d) ((-0x757d84286f6565cc58f9683771cc88d568edd7e5446f2dcf9b80b9a3f998a13c), (-0x3084550f826d7199f4fdf10c22123a5aa95fcf4c8a33a46bebe45ec304391e11)) (0x1df02e9f54f3d8eb372a3d0163901346b705fc064faf3528e59ed201d874862e, 0x1081a77273aae922b9fdaa18e4141c0a095367b8b24a8d931537ecde0cc0ae78) ((-0x75786b65b3350e4f0e166411b9770ec8a3bb47c4bc3062c4b49354e7eb1bef6), 0xe598e4e4199b47c9dd56995eaf16616c8d8211ae7743c135dd1c694ec08429));
  OD (C (0x6e15a94e151779bfeba96f0d51d941df264d1261eaa9f9a9efcc11bd97f3520, 0x268e513e90bc0f52134a025dc1e90016067a76e838d56f08121512dce73d416) (0xbcb658c7e47a075ee807e5c76a9346fb2df651bd40f1bfb033e2e79685b5df5, 0x26f4fd50dabcef77712b7509b463ed06da2127337014972403970c8418894fb1) (0x2aec9cfe48a639905a101d7a5bf9d5521d8de9f592c918227b0be6fa592bfd13, 0x12419ab0da0e90b1af3c32c9cf4f3ec3c0c77ce871fe6dfdce53545aa83264fb) ((-0xe4ff36c7eca8d928e0f6d7018dfe1ae7e0fdf1140e439ae1dbfb74be9bb39bdc), (-0x246552493210ddd979e6a7954495045013656af746f5e8a4cd7d2e387b6d6a95)) (0xaf6b2d91d5e2357bd4176cbbaaa82a9cc216fd0d0da072cfac4b717c15a711, (-0xdbb5353a346ab32932cf2f41e0ec2a42cdd937d1f87f64871cc5b122662921)) (0x293114fc80441a992d291bcfa1b508423775140e4e0680eb028d7de278ac183, (-0x3c957060aca63256f4c5c86750b12dd50b7d4fb69a642353196422916782800)));
  OD (C (0x4ad5997c8231a47793444cb369c5b71dcee7b596f85ac34e378bab0ea9297c9, 0x2cbb8f4ac5bef68e2af67ab64f19e4535f9d6a29d9a76b57ffac931bbd456d70) (0xbf8f720f97fa782ce3da4d289dff35170f87d2199032aeaf1413583a5491ee6, 0x12d03cc675465c1b733ffe04e26129db6e22016650723fe0037a3f5b06001747) (0x2017b3388c644b416e31fcaab0730d3b05ac01d15e3fa7949f889d62e565fdca, 0x2bb834320464c57cc618cf525acbd72f494f03cbf08e4a6426d884ddddc49e44) (0x19ea8ec4c4312a7ad5c0419f1f83e6921b3b36082747ddbc15b92576887a9e58, (-0x3c01b679c90bca5a377bcaca4fe7a18136f64b85387df7abc11937f2208403a2)) (0x8a59fae9f34835e203c4bb2a68bc6782db17c10d4ef6800813b89ebc6ac3070, 0x28e5eb7024130665ee6974d88cefeb9d224943df3eb606815d078d150212d84a) (0x1c84916b1ad31edf93076bd80d8cafdae9cc36c19391617bc65bf4bbead132b, 0x12a339fe9fbb78f64c3d624c197c3ecc1c579dc98d464a5bdbd65d2a881488d6));
  OA 7 (C (0xf6c362d5cb78d95b4705dfdcedeb9a24d81a5d60bb1c86c3f2f274620254c5a, 0x24f79b6adcdb6fa0c2a30aa2055ddbfaa7e29726c73ba3c341247aacfae7cd69) (0x2a0301359a2542b7c3834a54088705ac497275ae0daedae0acb3b819d3f9e0fa, 0x16a59b3960a406cf3bd7e03a91bfb2d1a147ebd3a7379561db052ffd300ca9ad) (0x26152e22a8688f55d4acd5ea849a453dab4ef5e8f1ed8419015dd26f1eb9a09f, 0x207cdc2ddb6c8f4f4c948a57f0c48b7139b28d8f1dddfea8af473efe548f3a30) ((-0x34c1e739b5a1ad7638f87b8a65ab4721661930b8e5e513e7caf9b9f799e2865), 0x108022c3e2b6b16bb8e43fc91e0df33732dd3515425b54089643bbe88d91f332) (0x1790313d332a28c2bfd924cb128f7f079be205b4f4ff78206980fccd26fcc645, 0x175312bb888bd319aebc53f5c44dcbd9c0518dc5956d5c692c628cf23738866e) ((-0x182b4cb2bad5951822036ac3d651c22dd99e6867bc415f542a6c44b89c2c183f), 0x6a52b78328530a7dd33ddbf32cf671dca82e5d1d5dc4507b612aaab8424c852));
  OD (C (0x2da59ba27d0962cd2b4a1d764226f5da2e8a48ab4ddf7c6bfad411420d65f1ae, 0x2f3ffe1aee395b86bed30ff63482f57aa9981a7617f41320712e69a594defb57) (0xab9417859cd1176efb7531c6fc2143213dc27d8fd8211ead4cf4526b95d6ec9, 0x128a74542385ef1b5ac76d2c62e02b9781377826a3d52ea8ee92b3ce6ca716ea) (0x2e5474b7cad419276bdbde6b439cae639d5b797018357f51529715f5895bbd47, 0xa642df8e47947ce956bb1864d8d4957d8d78f05418e981d89007db2f6a54a59) (0x11b110d393f387da6009cea225b5162a173a7247a980a6adc0b63cfcf63a102a, 0x45385351776b5c2214071d212c93fb54b0f7451dff5c4aa29d146e1733041aeb) (0x5923bff89cb178f544abe3dbef41034c593cf07f8c0e04ac20b74b7a047a83c1, 0x313cec8b5406444be09122faeee8a06c00dbee46e03258b8b719f097a53ed2f) (0x226c477272a03c411bfebf6d932b03e6a5d6ece4db2738d0ef25756c20a20fdd, (-0x198110b0390b68195c4e0128ca21ac3e0aea05678a53141173ae1864811b02de)));
  OD (C (0x19f54d540e554703a5ea56d2c2f301becbe5f77fb54a601dc0cc5a0bf431b168, 0x25b1b2d25393865c42fb3c9ebad2c1e7747b37503ab5b7cc33ebddd99e87fcef) (0x3f9e2d9a0b26c4b09e58860575fd7ddde7735233ce6ef7001b597b7321098cd, 0x7cfc0d1f5169f46bcfb2a232748cdb18a1b713cbe8fb38a1172a1715b28aae) (0x2df1847ed7d22f068ae753430704e059418a54bfa719b1d1303bbac1d8d4c9df, 0x752923bf58cec1c01cce2dcaa05156f63bfb946b0c456eaf60d39a256bd8ed3) (0x3aac1ab16564ec429bcaad6a6c6dc187d8143f6a49afb381074741ffe453e44a, (-0x2fb2b4a6e95e67b230056ffe744afcbe66a6b6625ed489774b8c4c81cdae79ed)) (0x287087dd541e3b69db14d304d88d4e1b316430a94071131fdae6e9b3cb826c27, 0xf6fd7ce9ac99f5db439352c783110d168ce50ee1d5e2eff604a1f82b3b5bc29) (0xef08c019f7acd35012df8946fb25fc72284e8c52f6c5d11b4bb0a39dac4a792, 0xa713d0eae839a8e3fc653a37896d3ab57f92d0e3a566bd80a97c5e44ec09fc8));
  OA 2 (C (0x23a0645422744d2d4d2f59484f3dddd29f1c53c70904aab3879ba4e55b61ecf4, 0x232aefaf9cfb6b36f1232cf417980ec97c93c6e00b28e955e41252fcbdaa836f) (0x769083813865114a0ef677abce9a267b320e8550fd9a16616593ac68728a580, 0x195cdfbb2463c76eb637e1f86dae233b2e70e3c200604dc604440274d21b9698) (0x8d6562565f7c148af7dff2c16bf1577772eb6462392a336533c144418270cca, 0x2e46f62d321a868924e0652d37284715d90092788c3d38091c0662c1a5b5af6b) (0xcdf45beaaba5a847225f3b46016165ce8969a65b28cfba9cc63cbb89725d0d7, (-0x4e3322dd5cb9519fe3a51a7fbad915ee67ed17b03a711b62969c4d6d6e5534d)) (0x33c8194bbcbf322ef22c01098a5874996d21494f09f711ae81cfd3fd8b804e0a, (-0xabd491cb523d697f10617ea67b2fde5e62a47614a553f6d38876bbcc6c4806)) ((-0x14cf00b11d4738dc343aaf560b4f556a42b1152502553f328067ae96c7938842), (-0xf8c7dc800d70ea81a787cd3a373b92e992ac96389e9893feea9859449026328)));
  OD (C (0x12d25783fec333ec12177a3fda995ad36f7bccf7b868873d41f7cc65e13f3585, 0x10958007f307d23f3b4de2fb37a8b900e719eb7d262477b0ba0cb4e93aa24152) (0x1061aeeb0217c0d7f4d9e83d7d05fd46802eedab8d0b779a007d257971213c64, 0x139a0a4086621e6ec43bb4143ed8347552f9db4646402f0d8074a84505fc6913) (0x166cdec0218f044c9654bb58d3035af501386af88b263c2c07a4c3892a3838bc, 0x2d6f4310c42ef4449af26132c8fe1a91a7d1b03fcba7a0391a08a34c25579b09) (0x12c0a37036ea89054c8048887f38c21c1a5c5f6943f0a1c051d03f0609a7edba, (-0xba165bb6831eea5c2593dfb4d34bfeeabb78791d6b4b53a72069fd5dcab9528)) (0xce6834db4c1e6a31571d167434f31196d873f3e890c552b350cf3000b30fdb0, (-0x1a31de4a0c0a83bf822c3ac08bc5da51af285e643f17e84b9e2a02959018428)) ((-0xd5710715a12e773a04348448afd5ef8a532a091a67b008e88ae92d19383b63), 0x576b1d4b67c044261c92c024b5a87a91c67962135576e0252266c874d5ac096));
  OD (C (0x2b87cdb94679aa444d9792418c1a848685da3938cd4a8a8c1c6f3b41b0c1e59c, 0x2ea0a4ec1256719f49d768e9f9239a5ff1ab64461b63c63522cdfa13d1fa8a70) (0x15de26ff3cc5d286a01dda8c01ce5749cac40ef766187d844d1be0a26989abe6, 0x179d4c39d1c806321ea86ded349ef46f78d25cdd36dd97198b496dcb49fbb60b) (0x26a57abb281a0a847966cbec21b7faea17188a3cd8293b774dffb48dc949ad70, 0x4669c5e67f01e60c118d1d71d0eda51dea9c878b65de1e9bc74853607059fdf) (0x5524863bd8e426044082a25734ae4c371b5f9b428094f94b2fb85e00773b2b90, 0x2807294b1ff7289f91a0ffbd8d9da4249aaaac13940406d7a05900517fa58b23) (0x53e30761b463a0e62373f5403e2f64f0ea75f31f1f1c116a07201b365e6f4e9e, 0x5c520d066b69fe5d8cd30aef2dbd73ae191473d1b5e133b0e1a22684710c3c9) ((-0x8e55351530889ac52c7e77905593fb06373270bd24c91bab78988abf1fc5274), 0x11192ec61ea2a94a959e6791f2f653175afc5e3ebf6225aa7322b33e4bfd3b0));
  OD (C (0x32c4bdeb1bfff6a06c49d9d12512748a729cc14eb2b8e1815398e120c1d7e01, 0x2641497eb5f1e5bedd7574de44e37f3389e6563051eb37103ce357ccdeabfd87) (0x24fb9d5154a61f7b0c9e56d4acc1e67bfa7cc87da2ff221578b48c39992e6247, 0x679dabe2f3682bbd2f528bb6c12e38e3e655964fb25a749fe16a2eada0ffb85) (0x2bf2b49ea0a17b8cbd9d10880d324d2f5c1e90a9bf6a113d9821b9534466d4d3, 0x19c0c74d9f9f4c7ce948b6ded74ea5c0fd4eb52b2de705b7908d7da02793f297) ((-0x258ff36f25a546bbb7440c14ef1156b2dd0ba8139fc48471ab30bc729409a22), (-0x308f8fcf2675b33cc2e1052143d4d24badb8a1c8ddd3b7e0f197b77bbc7abeb)) (0x50448b07f15a8e8f45e412f40d571de441ecd45286e83ef4be54436639824ad, 0x1e0897d14015e2e6c6312b55eb341466827d045048e8c0158197c183acfb1043) ((-0xad33af34ea35571fc2287e85a29578a20b1595a9101bfe48286089471cd14fc), 0xe8a1c367266e2e281930d1717a8e619ce6b35c88029854525590b3130dd0543));
  OD (C (0x169c571feabf2e46b71d623a44c736ff539d829a17c278656c9ff0bbecdf0a64, 0x1625275e19eadbee9cab185bf24abc616c22db60adad6350758dc97409a9889b) (0x1a7b5c195bce1d94a7f15da3ae79f7c73dda535ca31b956f153f650d9fb01fb9, 0x194d97af429d332e5245c25785f97a0c4192aae20c0187c4fd28994df9587616) (0x128cbe1dc4013fcdab8ff41a528e1833fab9ccbb421534e1ed5b2e099790e75b, 0xc6bf69b6d7308f9e06779e83c653830bbdaef0d4794a592db7bad7c58e1a6e8) (0x229800fba32a62d13eaf7e7a3d53530f3646bd59fe73e9846f27f51b4dc2b098, 0x40b154faa9a4dd4765ff0fceb9eddc79f950f8fdd0e40fb402a7aa4dbd8436e6) (0x14b1bc89cf5c1e2288203059c6331e9d69909bacc249a588888e08caba854d27, (-0x6e3b36ebdee8048618a1173d5d535f9eca95240519a09719bdbcab544b2671)) ((-0x3fdc850da8f3d1e8f92ff6ae291c4bce0d8ff3b0f04b71f68240548c7802a68), (-0xd85ae6e7adcf8f96e7763b3f182797753bec8db495843e72f07bcdd686b202e)));
  OD (C (0xc82b516986417e9d91e0841c96865c9605f3e7a094661a763636bea2ca5e5c5, 0x23bf7068adabbd61b6608297756bffbb72ddad9043ae67c623801ff73ba9006b) (0xe721f30786225b5b354a8f468c54dbec9859d50f31dd2ce44d82ccc60153639, 0xbb7a0ca4049edaac495e435a27aaab069617164145e2dfdf27c222d3c517423) (0x2dd32555f6da57c4428ec74aa97c6a3e0cecd46ea8970a36cc0ef5cff926e76e, 0x10426ffadf6b28847338e5abc5f6d60ae5a5aed4ce5fa281ad22b621a9c263b) ((-0x3140942e872880cff9f9d029b9b73687401213214fd943fc65115d891c3a6eae), 0xc8b9b159b2e83e852d311f5d54c46d2abe1fede779fb508c11964a2ac4442ef) (0x127bc8244d2cd5f9c6ac4656e84624417a1bf3b525219e64a81b6297ae7fd065, 0x172c5416bb246b99ca2532a07c0924b7bba4d8a0e1d1cd608272b8d5db8beb27) (0xc674e550c8b03d87ee02ed94a3ce43edec60986f00a65079891dc43b212549a, 0x6eca5428865203257e75ae9541ae825bef165b016d45d4bc4c31cfc7f188ba2));
  OD (C (0x140f20e6f3673268e3095ff02301f6b5cbbb15fc8c2c8f928c652a5aea1a25, 0x18426b8253e3ad3d8478183853f1efd2c56943da7b097da04c62477e574b56fe) (0xe23233262d0dbc5fe0905f81d431d29637ee154cfb4e31e7fdd0fffec3b1f62, 0x2ef25790a3427145f3c0402dce1f9c7b324c8190d315e4ddda3e702d90a9e221) (0x210370dcbd08be4377292f9f74ced50f76d94268b0268ac132a6b871c59c540f, 0x2eb16999e99b1eb83de54ea7a5ebba9a567f16096ab2b11e77ede19870007f94) (0x18f6275099176a5e07556de91ed7a75ea5fa11484ac02a484dcafb740b55d8cc, 0x54bc4fb3d52a7767031c8fdf72da2c6affebe77d025eaf048e4cd521bbf7100) (0x141c9d3650fdbedccb76b592294b22f7a31aae706b057334c8bb5e6d1aada8, 0xc29550cd56743a556614c55cc236fdf21e529e2300145e77e2864471fb3bf9c) (0x18fe296f6d1fcaa15889a8540beeb3906747fbddddb1be7197d6ce33ac4c69, (-0x11a953bc64cf9eda40cb4b448e5efacc06cf5750af679a9673238131d67364ea)));
  OA 6 (C (0x1c76636ddc34b1110476c966b2ffac67f8d9299e71374fc9a536188d8d1f645c, 0x168362db66be8d97c4d01192d1a1635e383ca3acc87ebfeda4c8ec821fe2919f) (0x1f1da21b295086da19ff9e911abc5f0244aa7d626fb8f8ffc31205b60f3be0c4, 0x101f8548f42f1520c043be6ae157c864d73a3f50b6ae5de784bfff95b6a8875f) (0x22f5c09d7a71a8bbdbfc096d22d89647a76286027dc3224b4882d5ba3fbd9777, 0x2f359c2a42f9935367352d80821f77c0f2b666db0cc0b4edf3155ccbb639324e) ((-0x71a0de69a3f5618bb2d73ca1bbad1735781ffbe01dff6d97bd25b8b5720a007), (-0x1921284eed334cd9678de67172507dd2ba42b01be164c772cd681e5dcee27616)) (0x1a7ba9abe339e349762423d904569f36adb8b58e524a91478b13aecd59d2f496, (-0x644527fc3c38c29ad41cf3b416c8cedfc133ab04d1b4ad6804d5edb3e044d4e)) (0xa3b01af7dc92f0a8dc4bdda50211b8715ef13de10f837c3284967757cd69b0c, 0x18537e86834b24f6a71cb3add70b2ef6c49fae476f5705f3ebaca5dc027a158c));
  OD (C (0x30643de069d870028fa0acfcdb16222316bbbd30c670147e08e9dff3b2e4a7d5, 0x35964a707c966c14e317305899c667fe7c9302c6a22d56b9cb8ba4180787212) (0x2237546acbfc5083ab76ca95a98195eab26fc9bf9a9ef7a8fb14bf671d1ab4c9, 0x1d5165342c36eecd3ab5996cfb49be1931b5a602b5ef57083fdec6228e253f1a) (0x1719c2c4d45599a24c5a587ec3baed4c26691679d2b9cfac47eb320a087a28eb, 0x22a52d39cdbd96ae7acc27014f191c8156f05678c76bf7b51cb067386b963024) (0x250e098695b1540158c3872ac351a07d88a5a621840888146d490ee7accd38e0, (-0x137a843af165dbfb5368fd0d31b94d5de6e300f639535efbca7c25bf51bf66d7)) (0x6b2c702d1d7d23eee4eaefb6c31488773facf4b426b0710fe5f55bd102890c5, (-0x3028d63eb407c3b5a493b5e9d6e4d104a54794b922a0eefd6b1fdedba703184b)) ((-0xd68c9e65fdf1ec1251293bcf925b864e696dfcf616e1ab5a87b6f22b63e0c95), 0x22fe8fb6daf80825817241dd48dcde594610be1194700d983757a243ef45067));
  OA 0 (C (0x2d91ef898c8cc766766cfdeb37c42ef121aaba3cd78f5e7041781f711368d28f, 0x15f751820d0a99dd49a220858dd4c568ef891864409fe9d60ae6454ac7f29260) (0x851f041fb95be7a13c677e3aaedcdd0e4b978c8fab92789f6a9134bddd741af, 0x1c0bce1fbe7e381fbdfb0533a3a7d711daa31dea62e317e75e2e38c2129836b) (0xdc3517c4026ec1320812f38f371a53a05d0673c466259be74e8de424efee577, 0xf59e469a5b43974accd4cf33edc16478f11acbbf67801eb30d1c956cb9903c8) ((-0x8ef6c5d1445a083b942275726927788205da14b20cb293f14ab34d1095571b5), 0x5bdebec100bf0510dd9dd11807131586b323c38f0945cc2d1e230e72356a1e5) (0x295ed66be466d6833add23212862e34e236888b9e5fe89a8b982ce1e8a60bcca, (-0x20f12452396cb36168989df8e005798614e046076ac5c2664c5b350b42033195)) (0x25b666e8ea81950d54e0fb55307285e61b1369d122965e50921e4da22daafe69, (-0xbdfa88e9ea03ebd6cde8c7a90b91002e669359a5f6fab37d1d0a2840a211e9e)));
  OD (C (0x1710f85953b4fbd555d6382b02d581210199eb53e3617d73c706c3cc7f9db043, 0xca33fac57be2ba656baa7f53ad907b3c53614ccdce977c428ffb2b7fa66cec6) (0x18892317c5c18ca2b42e03e8ea6570d9f34375d07d87f5bb72fb213891a3b486, 0x2a524e94711d84023c23ecaba12f861dee40fc76989671980c2f1ccd02a26038) (0x31b9d4ef3eeb8369abf0a66c07631f42ef6727d411782a575656449696cc959, 0x11fd5131914b3d99418686774b016aaa9281fa0bda8a3201cf2585345a84c226) (0x1403c29833450d47478b2a487420ef0e122bffb4c603a993b17675559be34fea, (-0x1005effcaf96f90cd77a8ce15109d3872f189222f8c53375d6014f869c8113e)) (0xc0c34d6ccda9cbe904c793b4bbfc983a8d4f1978ea5313bd56566770b2e7e40, (-0x7b1bf673adfa792611a2d9cb1f641c710e32b352b5a11a10f1c1776c279ba75)) ((-0x17927399dba27d7ab5897e2574d37795ccdb048dd569b63204beb95544dbd9b7), (-0x2dd87b51b81368ee5052dcae134367d76c96e2d19bdeefc601f5e2180aad991)));
  OD (C (0x2be4e3ff1c17ddf988674e29f917bc8528991fbce62ba47778bd46219fcaad1f, 0x2f13cbaff8a810b5328fac1cae9143ee30353f33cb4e85348c11cda0935f9aa4) (0x4c341ae129cf90997d101175151122c28898e7e74fc4073291df680b1809b80, 0x101baabc3a80e701eb5e3bb10ec9847114965c669c73c73418093167ab7bdf05) (0x1b97bb05ea1d63f0e1d3a71b483ca876f8896301272a3787d4545ed6ff096c3, 0x1dfef5aa240c448578b26691614186ca0350624a39ee84bbfc2c6db97e04991e) ((-0x5a10c989fa9465c6e2a4b5516d8277782068d3017942bf5351506ece53e33c3c), (-0x2c5a9b7bec81b689b198c911d455f59a237b7ef26499f0f13f7645f66bf2c03e)) (0x556750142dac778fcb0c6169622c5b2937903549009387579f4a1cab12bc9574, 0x5fbef1ac9a913eb2543470607cd9b4f03dc3506c1fe075793b0a49a10d71656) (0x2b034f40fcfe811d132304dca4e492915c1b4f02c2f499e5b5ca83f998ba914f, 0x790f1d7f6477dd8f871ee2af007802966d52a7e67d0e62be73a0e7a6452cfe2));
  OD (C (0x237fc0e74bae247f113df81488a6c9e9a5b0d2bf4a61fc3b9196dca60604ae33, 0x1385e405d5546972dadc848fccee0b2710efcd2ecf66f70958dd01f44809d316) (0x236096995a94a5c10a546d1a6514b8ebacddcb59c53e8722c4e43ce705f7be10, 0x88e73e54dd709e48d331e77cce6e8d8647ab33cb0d874f94266ad8e7ca01a94) (0x9a32ba4a64a104deb7b91eb81b3f3056dbef61ee4db4e73927a794ab107b919, 0x7b51aab7bd1499727e3a83f9ce2f7bbc649b94f8e4c21afee952105d42bd615) (0x23e34d2ea2de1efe8ac60c5b55e8a491dc722966e49673645e9e8967fe860bc8, 0x6fe4f0fd050f0cb014c11eacf28123d9baf99ab6f19dc2c81f53d2dec47a2fd) (0x1ca4a81c0e04983843ae8ff4a536673c820318e49bca087ee35349bce0c90eac, (-0x122a385dcb4b885d11246a737743f93f0c778f5cfdd3bb007683b50147ee4d85)) ((-0x6cfb48135b847cdb0ca239ab8b706197a1dc01eb97f92bd2f5168b18e7052ff), 0x1981333d6461f944ea6737af7b7a4c66584b03c954531e8cebe0c07f1e8513b5));
  OD (C (0x28a671d1392dea2b4c60b5e741813387c4a41c61d946b1ab3e103b0e4986c71a, 0x71967bc6b995f7f7e24d5c7b1c7fa5aeceeb2a21cdc728f6dcbdc18527a8dc5) (0x2df0d7190c766e112048e1bdb40ee09cecf79a395f21bedde206a9b5c49350c1, 0x1d1bdff172b7aa213f9ced4e419822453fccec33ba2457cd31f18c5a1d4725c0) (0x443aa966a125786c58cd07b75f37826455e5f16db24e140e887e1119a3675c0, 0x2504e923ae927da96962829e7380104d4e3bba1b39fcdc0c4e756b3c364ed0ac) ((-0x15c1529474fc8597d9d3256f3dba154042352aafda48a09a72d415bcec21482e), 0x3b1ec26c60cb2ed8a12198e2a5e4002f2e6cef3084588ec4a046268fc7134902) (0xbed51b4a320160c4389a50fb06075e1b00c381da39c5ca7f595f47a8e967745, (-0x211b04c2b79543e9b610828e804a87e61a6952c627e82b6cafb915e3a4475df5)) ((-0x12d06e3ec84c9b467e5463d9c561214b45793c6349a6f90a8d504c0a2870e24a), 0x5dbc31757c3be1250268b73837cbd0159c60a62e87192dc47b962becb4d4e3b));
  OD (C (0x2c026ffd4c74de5ec869d67701ee9d110726e1cd6ee741db8ce88691ff7d5dc6, 0x2b304d3d0aae19079ebe17bf14e2dea1b5acb89d92ef19f3cd6e2b7ea42a2d97) (0x7552c3c2f826aa6b0bb4cc9a9ee49396db31b08e1c323f69a4afca154c46795, 0x23eac9f5fb089834cdd3e012732a03b7bf12b0658ed32ec0b92c46639f2f6757) (0x8b82c290290a88f63f87576fcd82e9b3803bf84a4d65be40f81fd66a65c52d1, 0x28fbc0d63fb622c50c12596c6d96d6cfd1542e9b60da7d3a8b6e2de32675dc11) ((-0x5adca9c4c9bbf50087de3f92f2a44fa2773b6754ea70c87dfc0c20033d94e090), 0x88a245d47e668c4a27da946d4f492d7b3a508195f3d33e134f4e5bd7346cf3bd) (0x4e8e1d5d703678e4f80ab098688fdb3cc677ec1e5f775260be426d158c3fa41b, (-0x17aa5d8b72bd4e37705a96fe4c6395668eadbabcd8a9bfe78d51bf24d968cc6)) (0x1c43e2e09679657466868f33f236b6ffa56affbcb9dcc4c5f4c4af9a5a6e6d1f, (-0x2930211cd9eb991047a1c737769ddf6663a8566ad6523eed5fe2c6c7871e387a)));
  OD (C (0xafd14ca54574c2ddd07c5b572f51309209e82a8c878b8d04eca728efb1ab663, 0x218d8d6a3395ad9241eb640c6dcae5004287deb9af7f6cd2001840ff5ccb103e) (0x16c7a700973f11dee0e9869f1bdadecf14765a5fe67569b6df63b8c1331f4f84, 0x2e8f828f03037d02cda0f25b361bd9eedab60a886e96fdef6d0cbf183def37a9) (0xb1d4935285cdfad258b3b7840b4d4a9b533c52494ac7f05bca0430cc3329623, 0x21dfb07e125cbabf86225c2662fe3e92f0f3f4ce896bdba60998aba258169997) ((-0x1f35be68b4bbab1c4bc5f6126e882b33eeefc6001cbd6bdbdfd5d0daa446310), (-0x17c4d458e5975a6c9725e1b8be7ba2e18143c27545ba175d84972a965e7ef77e)) (0xf3cf44b5b4c0afd459325007e5d8c4045709978447ccebe4e07067afffde78a, 0x14c4de17fbeb68ce4371952f5c23dc16ccf8b3fd92dd16ea25baf6685230507c) ((-0xd20981f2d90465ade1498d901dc0166aacf4f5e493ab2e6c3f6a9a2e5a7b114), (-0x3df3f0aafd3208d24555893daec04651d4975c64d05b84d05afedbc2a9e30b1)));
  OD (C (0xb266f31006f9b4c684c57687a30fe5a764254bde22b731fda0d3a5b6dad5271, 0xa349df96e2dff5ae208d63fb701821362d31d7800a18251238ddb6d414ec442) (0x22548b1561a583804a5032dbc6b89f9b015c706a152d0746af980c3f6fa462f0, 0x15191d37787cfc161e5991634d4be8f95906fbd10ef02512517960b76ad8787) (0x28831308962f4f0d469ff567950fc7535ffe79ba16b563fd513e79c746371030, 0xda6d828463058a4a67c4dac1ee99513f33dc176a63354e19f7c3ed616ad93d) ((-0x6f3592fe89dd8e77e597ad759d2ad1c8dc33e5aeacb65b16ea37a82b06548392), (-0x5d0f62c591a1dd5b1a6afa28b351ab6368f796263786392eb8d512921681248b)) (0x4b3f70ceb27b66d7461385fd63348f5f39829836d65757d430b88219c05ab54, (-0x6ab73b2368fdaba4dc1feba3629eb66accc8450bc958b426f135f0710df99a)) (0x7fd0bf0d90cac6cca7fe3ea52cfad6d08102d1faa815e2c620ce55e6b58cdf1, 0xc33de0c6692ec7a34927877a62e580353e3db21dc3599b1b893abfcc547f084));
  OD (C (0xa6fdd3c7555abd27223dad2d9b023806875302458e57ea97c859f5c8f179476, 0x1d37a0dea82212a08e132e93692a2a49405a8144541b49b1f04549f1f29399ab) (0x1300a7e52f8b70e5cec94110a22d8285f8299eec8617f7ac6c0c773970f0ee88, 0x1e8cde493ec70a9e4f0557a316e3e0ad6ddda254b397ce3323b4335420f1c28b) (0x228bc56f2824f873806f81b900c62f2aab961c610a4fd57f11e7911f501c9d79, 0x247764a257340d8bab31c01a7f7bca7282aac71e2a341cf2f960c4fd8c387474) (0x2bacbaea0c3f30c12394e815bb4e83a4e5e8dbf1d900970956523bcd0979a524, 0x3882f199f38addb01560897b23f107e6b19592aaf1aafe9a682233d98f9b077d) (0xc9a5b77189fcb2c57c0cab9b1617dda2af0a9f924502437247e0573808616e4, 0xf63ae7bc35f2147d4d7901de03fecb933b022a8f881dedd35ca8ace10f74be4) (0x2f322f0b0ccb293e6f2f6aa54f722a9f6e2af5cc1c8e521bac6c8ac449007d1, (-0x14f471e6f942102f98ba4da5a57f627d2de227c1103b31c9d61b2086a9cf82cb)));
  OA 5 (C (0x1951ab628ac3085f2f046edf909fed66389fc5bd1e41cf27f54fc4b9ecfa1c6e, 0x1d33d61c79d195837d445f7566a5854be17b7914167ebba90c8ff08e6d04baac) (0x20447e72a774d9e0841e303b31299480a5a50f4b985c8ff292ebb1c9709e2ad5, 0x22167112bbc1a3edd7dc4d56a3ab4e9dd11be8888c7d8365dffd2f4ec0f9b94e) (0x18c7b567416d87b05610022bf491232d0cc65208979f8c58ca73f73fe3c41d8d, 0xb15f82c3f97cb4011bd121495cfb0b311e9ec5b09fefb2bce94d5968e3fda6d) ((-0x5c1dada04575f550fd357d93ecc4259f37c5697841cfa6381a30766937a0e8a), 0x38832b4f1aa9a8a2ae415f041c06571139eaaf5f89b17cb8ca8fdcda8a8831a) (0x1e8ed85047ab500997108e729f540e9b7441926367fb0551af021872fd09d590, 0x4601887edec93da53e41983591c33cc2a037491147c49138419c33736ebfbd2) ((-0x9db0da4746835abbe5c759be68496a90e0066c77c4135f6bedf24c1f9f2a514), 0x4ce4165ecc7d00bc13ecb75930da6c9fe77386e971bb1890a6b3fc442d27dc7));
  OD (C (0x1b5e692169372fe69b7b7164d5666be07822d85ea897ea377112db6175bc189c, 0x58f4160ab08eee96c0607efe71802bb368de6ba98e16b19bcc04e062643dc0f) (0xde4963c736f64ee1cf557bcfe0c1500604f3203f2ad84581dda6c465c03004f, 0x2e446edf909fc751a375e1e94c693aa3027152b7db92618bd053010f0ba26ea9) (0x12f80b3266fb973365fb1c78fdbfe2dfec9fb1915526435ce481d634d661ff05, 0xf5bff57584e9a7efd16640c98144da3d136c6b59bf4dcadd810582183fd3646) ((-0x7624e2dfa1b163d79d39b609ee3394bab93c951474aaf7b2f013cd4a13a902ca), (-0x20f8380ad3607fcc07a4dee082cdd04aab6f71c75145b376ac381c7a022e3935)) (0x649e41a4aa3732601353ed17756f020e3e58766ad55d6df59634a6092703cb9, (-0xed713cdf12a9fa92587af4514504b9873f63f64f94159b163e6d51940ecf6ec)) ((-0x4c7037aec3fd730993b93ffcf7d0baaeb1e13a0a02506866d56e1c40ea75274), (-0xbca96b9f98b403eef0b34b2cffaf8a6138999de6625b4c1aee361b8cdea43d0)));
  OD (C (0x292711e940c16dae08c11dfb4fd6d7a531d830f75eb40138c897e9accad547da, 0x1bbb98e202e0dbfce15f2ed8f7fd28795e5e5fc1acfbf520ba780f0e89e1f8ae) (0x117a7a64793c9c6ef4c03670136f6a5cf5cfd9351884d7330beb35eb936957a0, 0x2be2e440942f74c870322923ff8833a51764cf8e377e853284ea44e95bc4185b) (0x138dbef20de3315b10e42dab4a64776f466989e85ff0d05bb5bfea5a75dd9bff, 0x2763d162d884d97101ef0fc57976a35566bd0e5c98d00e8645b286462699d770) ((-0x1fd5353e3cb38d84fcf47a1e60fb69963bd5eccb790f037bd82a917d28521cea), (-0x87668a861a4f75b1ea8cf7a2083238a3e228e5a619b438c7d02e42e66a2c71b4)) (0x2f2b0e97b1452e41a937f28370a1a56e3ed615a770388a13f0d715e67e359016, (-0x131a5f1045dbe7325e30e4733d49cf8400f4728bd506c9021ac84020cd61450b)) ((-0x7ad1f25ca4d48f549dc889df95dee052c426bf4429f0d3e6ad019b86f522a), 0x469e66652ab4f008af019ac11e10246b235001deaad6b5e97a01683694a9c78));
  OD (C (0x1bc1e6824e64d3feb76d772485326619df921a20b9a19bbb12ac574bb5226935, 0x1a3a538efeb1f08b623755a3b47505ee1728521a8b750a6702f4dd5f8a89436b) (0x213e8c8f2d89d066e965898a03155e04dca62e3ac9a1bacbfdef089370a0a198, 0x1ec8d7ae00d92a8b12ae24cb518dfc75d46bf0d8e0c358832bedadb08b4afe8e) (0x5b3f1a77613bf16890a7be04189ea702db4f6717b51259cff433cf8ba63d9d3, 0x22da1322e821a256578ed0b62473e4679b31fc51032215c7a4c4f01d91132e4c) ((-0x1cb910a6aaed947ab66af8675eb0a5004b689ea405542bb5512240e58744679a), (-0x50322c65bf9cce91bbfad41b8671f33f22c5abd7b937962f9bb13250086d5177)) (0x1e16a3f12b0d8ee3fcf81a6a66c85cc95761784d2ce4fd7517c7abc52b2247da, (-0x1b4d5ad6a1874768c84dcc258ab11608b3ad878af3d17ba4652f2babc42805c)) ((-0x107a1e43a721750499573f4a0c65b14449f466db987601992e33e62a735c42f), 0x1024f00decf4dc401badb1db2b38a8dcdfc1017250608757cd94622f84b6d4dd));
  OD (C (0x2c9353e8a2261bdd6696384c674f876da707d3536942e58138aa574dac43e3ce, 0x1aff3787904c5000646ef35c0c93a10bf7d47c99ecce02425d344335d4ddecfb) (0xb60e434e0cdf234acef0d271aa0c834cf836b3591416e63a072a357dd6bd1d9, 0x1526ccd6fddcbe76fe70f98be68b533009a279b243c09fe8100f6df77fa393ee) (0x21ecb03385335f8fe0d5bcc1a8b5f2154a0f22ee94dd83b3bba9cafe38fdcb6e, 0x151cfd9caa6f955c28a4377778a6aa90af1012f56d937fd09010399bed15ae9a) ((-0x385224617857fc042d7afc3e3fcc8ac7e18810299a8dc5b630e4f28c6f5478c2), 0x2624e08aeab54054c60d25c30dbc0cf1e1fae4d5792493662fdbb18c2f76c2d8) (0x31bc5b08dc00f99efd6592aa8f83a91330ef555eb8cecf8564fccb37355bb13d, (-0x19ffc03d932efac83d2cb0ba95c69ab4588ad9d0571b1ac21b096564be747423)) (0x151265a41eba9074c4b3c1a429c142485cb541e39c39a4e0b6b05a71d7be281c, (-0xec472c5aab8b588f2d34151580215de57bf50f9fbe3663664e6e9a440d04b88)));
  OD (C (0x1668befedbffaabb882b82f64a0713bcb7d248922f1b9f18ff611ecb7a219e57, 0x156509451685c4d75fa6b03f1da040f9f999cbfe328b7aded0592c05439f3e7c) (0x27f82fd0972828eee19cf7e0682620495608aeef86bf6f649ae2f2d75f80e487, 0x239c17398d2dae3f7fefcdd530f6f6cee1215269dceb8a9e2000165998c848e8) (0x15774e97ea1ced71926d4deac89b7e67ee9e8a8b1c9878bb8e38836490138743, 0x1f2f713f3d6db537e5b363d0d890462883716b5fa0743cb2302f40bf9a74e51b) (0x13b5ecf439ca0ee6e4ce6edcd97632ef8683dad3211f33337a91a8c1db56def8, (-0x2075a4dd795d76ae71524047ec5786fcdb98b01b961598e97daca57cee23c08b)) (0x13d095a5c1f95da2f6c32a6d8cde929e0e32e5d2fbbe5200a4d8e868c5bb2af9, (-0xeb164626272fcfb3b1048e54e93ecbbd0e104b3bde79b581f2482b88f85613)) ((-0x1355f1634b28d81f4404e694e7e730775dc876c0ef8abeb846c0074ae06dcc19), 0x6d902cb3e4d5ab4378312b384f58ab6414c3450bac7cfd4894200183ac95f83));
  OD (C (0x16c232ca1314ab4008fec87e83e65115e9858174be845d09249881fb724d5522, 0x2dad34ca79f1c620c7738b135184cfa19c0a2bc6742a9128c6c781c6bf0ad4df) (0xf6cd808e1b2fcf2316f89eacee9bb513a35c334f265c50d67b365e6624ba722, 0x2845cd2da8d55ad832ecb64f156c44d322a2841553056fc5338e890d799007fe) (0x1ffe72b04d7eb95da0b5b6b12096ff7c067cc209c29a57105ef88fb1c3c499da, 0x96f6c3d693882b7a87dd46d15981beb49ec681cbfac404b638d3ebed2d64fac) ((-0x6a9dc365ad59565f4b6504378c916f5cb6f8d6838108efdfdf43fe67b9cf7586), 0x3b1b8ae8382cf7bd1bb52d9aec5d708b5eefbdb5bf0b0f37d2fe478298f1ebe7) (0x2af696874c397c975f6f1a2020b111a4e8ec863771a1a7279210825ea5691c94, 0x20690e9318862ef18dfc5ef03a07d466f08c16391ff68f64875fd691e0677419) (0x14f9636bd15735f96d00e86b0ef9d319e0efba5baf3718dcdd5e11b003182a7e, (-0xff1c6feaa890e008f19459f54830f59bf1f7e52f87ccb239cf25a49a2d0054d)));
  OA 3 (C (0x2fe42c66948c9502bb9bacf57da45e77d941fc573143d061a4a8a6b9d929ab9b, 0x6a8e37fe34cccefcbf4933b83fff9b4210af98fae37df966b3a66fc57698fcd) (0xe2af9e82adc1a052372990bcd2beed230e27d7cb2c7c5488d97ddf51615118f, 0x81e23cf1b4cf8e4fc8ad94c568f07acbf9dfbfa21c3ae3993b8c5a16957b3f5) (0x2065f7e7ebde0a2ad4c9ac4e1eb084b594d99dadfa644c31f338b85ecf7c81, 0x2811fdf754f31bc2fca7401d66acf97c2829cb9313790af7bd96c8d43a127ed5) (0x53ffe7d58c4063c8da703fcf5477ef32597fb1aa3680a3d7a6345ae89dff098, 0x62a10d0a7366282d4eed918228983a3422c20e5fe193e368d09e56374836505) (0xd2e8282c356867af4758d22559e8aee3af7ef2339bf42cc8d9d71bae50109b4, (-0x2e7abcd21b6a7f36e20524f855937472300664d5715a5f7d0b122b0ebfd90b2d)) (0x1ffed114501e40e109d73c186a5af6670164a1a3fbb02617a1ec375fdd24cb39, 0x32e4f2d29409f4150349a1197074d2fa1c04ee5a9ad7dd0edcda7f2be2f9535));
  OD (C (0x2457a97745f5ca37161ad06a5cfdc790a1f81efa4c48160f5bc4d280233f0a8d, 0x2b670269301807cb89c27c86f443d5ab4e1917a764863f29f0a14b46a0d5cd5) (0x2b698750844541d0d7eda6927c73adc6f95825560fb5f4c1b82982d92a1f08df, 0x2789a04e26d8986b87af053e9950a2561068dc0629d20e0cac9125f90ba495d1) (0x15bc5ba3138837d58b25867a759ac48ddb2b0681dcdbeaa418a288ada01e839a, 0x1698e889070f0f2e3f01c2bca6a59ea81b0f2c27202d1a81abe457b96da34043) (0x2df0a79f177815df166bfc6d28214b6b6c6f5802d535ae2a72abc61520f82b86, 0xca935dda6c12444aa7fdf5d129174c6084f5e61730035e44b1e9a8fe9ade6f0) (0x4130d095adcd6d8b78f71025bf32cba2b54acf5d359cb52a91cf9ee34e34eb3, (-0x1b2427db6f02e3aa0f4994511c7a2e41c49cd02a5797bdabaf972df75e0e91fd)) ((-0x193c5a3505d56bd72a2256d685db9548c1ff3d68b3bfba5ebb86ec6640fb4cf1), 0x14338acccdae5ca2cf96e964b63130ed5447e358ef9021044132bf75acff4ab4));
  OD (C (0x7dae491a8c4cdc425abf6cd6705719bda77433f1d24cd766875820115308766, 0x277bb0d62d0305b296ffe6f56b7f7679fde012a4226fd1d0ae119f0d7a023460) (0x15dd2cf56a1689a042dad51bafdfc0c0e2927c0a3a275260d15beb01cbadc214, 0x2d58edab633ac9b8a786360c10bdaba69558a1b29c329fb98be7b4caea0c6a07) (0x30cbc50ebacd9179bd29c8807a48ec25d8ec546827c6c82c76676378f786822, 0x2b8ec29db40f18c98c95bc4943574d5b0bfb940aa8e28b4caa9ded6ffbb3bca3) ((-0xaa028b3b84183badceef1c4be997096bb7b6bd1bb38409d4cb3fdefbd779f3da), 0x31be3136449d1025596c595603cdf89debb937683768759c93d04d9797fb7858) (0xcd165eec839ae3bb5628c2bd1f83011623a13392e49058ecefe8b2570eff0e2, 0x1ef082ec5419d747a3d2e03003f50a49bfec3a3ae845c21a0ee6924957a18e35) (0x10a3670faa0220796355e895978aa413f5a437c80dc52e203a049d5d87707420, (-0x83cec4f63183886e0e8981919d6ee5f0cc776acdcf3c9d1f6a26a325beb40b8)));
  OD (C (0x22b250f37f9114e5407a8f5f402efca13273231d087f0e79ec702fe8cba7aa33, 0x184ae5e40a8578c960add0b5cd86aa45255a3d0dfaeefc498e173afca236626f) (0x885c7a966e65f9c82b43ea7239e5ed18e4fce931a6711cc56dfd18b622f6a9b, 0x20bd44378ebec085dd58bde96e8583e3f541f6d533723c2350984a839074ea70) (0x1214caaf02be59b1399edf1b0c778cf8c1d45266aabba82d2f984031f4ee5f7f, 0x966b97a9ab20556f4eddd16c82f6cbed5ea07508621a43454e8b800466d1688) ((-0x396865d3e16fb09ce82a2cad71133e242286847be2c08eaed8491c8e23a95156), (-0x3a7d67b498c8d13c3a5acf28a8a798b3d187b0dcb93f3ba99d2c913d14e381c3)) (0x22d5ccc2d37b10c98ce043749d4984378d0341af47d0851114f2670edc92de51, (-0xcaeadb5ef7f067e21e3e24802545436c745dd16b16dce21212efe4b664ece4a)) (0xfbcba3ff778ad15517a5291db36f430d4f894900c07fc5d462fbd8d3c60393d, (-0x33c88854505632492474b31131b068eabc16d34f1a6102204efce7e376f8a4b)));
  OD (C (0x11bcd3ecb9d6fbcf3aefd9cbdc85705d422b8e9666b874f27eee7de75dadc066, 0x29aafbe0a01fdfab371757f5a2fd067a5b545e90b2deb1030e41ae391a12fd17) (0xd01397125beef9ba7c87d979360365265d217bc34a7f3bbd38663f357b64736, 0x16a6fd2fa6b6a986d4999a4fd81e43218eecab4444c4f1fbfa01b2e1b5934e2c) (0xf9b4f4c73304361fdf243d8dc1155c710d64733184a9f922c5b60bd73449420, 0x21e94a2f7de34455e0d83472e7a92ae1a99e46c1ab4a51d2be2b3eca075b4569) (0x36f23ff861c1980b00b55e3bed5d40dc21a349d3488d89c5ebb776c912c261e, (-0x3b02de05ed6571b31df1a75d7bb7cd1e779740f7c35b2130e3525beee7dd647f)) (0x1e8bc895928c31ba56f5304e86ad0152d659488211041dd38df84d7a8c2cb2d8, 0x1d606ed65c7c3126585413e6a6eecd15bce97d43083e6390a3aa55565b78bd17) ((-0x297f93200208b7f6d9ee746bf0dc0fd6038330f127cac080523fa4df992cec), 0xa541011ae8f5811f1b8dfce4000c222476736f8ed7d44400900a63ca5a21b2b));
  OD (C (0x75ff0fe0ad52ee7f31a9cf96465b86784ee26726bf063e39b1d0a0023fa5ec6, 0x2d53773879bd558ff10d2cd02b7d5178de2ca82174c370e339894f2c706f7033) (0x1ce2e6441e004bcf1e088862ee9541d9a3b82c71e66ebd2e7c78b4b99247510c, 0x26d3d48297deb4d314ee52374a2afe2e238be2bfa296993aa65cbef17dcb81a8) (0x1b4175fb12a604dcd491e13219a2e74bbbf1f3507cab55537d3cfd1b5249c0e, 0x225d11f9c553ce026e9aa5c1d4018e01b9e5871c7031a06d1cdf0fc982e00c1a) (0x30be588fe9953d9050e74e8f4660694cf740d71c9e23edf7ce270094d253aa4, 0x25716201289d00a54613a325f1548de268c545137c3fdabb8cda93a814e6949e) (0xdd0aafd1d7c6b9fb57377556d956c98f8c4af90eaf109e6fb36d634e70b4734, 0x2954a16c87051a206f9336d99658c86230ac2feb12fed525fb28a407a47eab53) ((-0x115727262ef093056a4547f8638d9fa8333e7ae2c6c75bd59c04a6fb8815de88), (-0xcbae875e4b1add80fd3b838983f3e06b6bacc37cddb125edde72fcdedaf2c35)));
  OD (C (0x20e4a24fed03717742dd650476d2d4cd5799cc4aaef7985a4f4d6e8947dcced1, 0x2afa08a3a8ae0e34a0f1e7d116f29e5fa6c675e3c6246ecb4b4e66974d96878f) (0x2b6aa8911d128f3158ca742b35c088197064efbbcb04e3c96968c6bda1b2014d, 0xc6a51982148d9b2c907184b9666b88989d23f59fbb5b52b6c0577f97fbde6b8) (0x2881dcece0a6195c3390b1ddd8dd6e5e17e2ad8ce15393f0af35dae4bbb04f25, 0xf11d232daec88a820ddc9561f7bdbb7098d862ed8dc41fe7cca32b02ca80e24) ((-0x59524b776f506d2c4214996e11efd532f689998e793cf88e92c0ee0f31b0b998), 0x10fd421649e85a307781a34bad3b6d74a953ba8d7d298604b6897e72752d9de0) (0x3a6cb38b488fb887a3f2d052cc1fb8f04d5d66c56e040b49ee513c46089aaf9f, 0xfcf2d50d1216143751890dee98c4169ebb3735930ffa725a8d3dc2ccf030108) (0x50c73de5694baf0867f6254f382b1abb13c367ca6584ea83ec49ff202160c22, 0x21554c2f8429c6c02e5c48ac51e339be83ad26a478a0eb740fb267e1a8ede985));
  OD (C (0xfb2d49bd88bab0c884ea0c52a37e9a61ebb2a870cd3a7f6fea6e08bd725e050, 0x1e42a50727fda505fd9487b9139389010624fd7629e3d47cad4fb3255b19fc9b) (0xf96d896b9610377004e476744120eb64c54b0bfab08209105fd8454a9e34a4, 0x18eb154cf010e0e44dc0e43ab3111ed156aba97e78d0e78ac6d0326140b43a20) (0xc48d75263e086b8b8e9a932999698cb210f46e4b2d58d183b24a26ecab5e12c, 0x875fa24b3c3452184ed1be5c87cf5a29eb7e5d6e9f6422f92720b0bb13dc697) ((-0x665625d2d377a71ae29b44e9e8ff77665e920dc511bb743c4821e0fb2b0182e), 0x63de428e87b049085418ac2669194bd72378e46ac743fd2df983dec3693ac4b5) (0x13a21a5af9cbb870a6b7eb61b366b4096f8b59a200e34a483198a8c42a85524e, 0xdd465408a7b3054b748f1a83fdff8e20988fa130951154dbb0578e966e590ef) (0x167be447441ef684e2d350ec2bf09f380790271fae500345c5b23a39d836c76e, (-0x15963c6acd8115d01026585e4b56049261ccd642baf13014ef31739ebf91bfe5)));
  OD (C (0x2493ecf258e2e06ec7fabdd2bb568e7708d10d54a7e391a8aacd2bca8d5f6d01, 0x3d2bd077ab4509bc9d00a698661ffdd48c181fff106a56f874e2223fbd5650c) (0x2a4aa266d474b572827fd9d37aeec33262ff8656b5108dfa917a2996443bd205, 0x287b1f0a555feaf71bbb73c064d35b855c06b83f09ed0125dbe4e63f72331bed) (0x2cd33567e362f1d5107352bb3af2429adf6fbe0a2ace8286df31b9102bbee8af, 0x9d911adc81667d44da39e293b5e80989b10df92711db661d84a61c4822b00e7) (0xbb8adab3890214dcbfad92f19c24b205c890ef73b9318d102b4cc3ea571c042, (-0x37ab28d44dc854b3b5ae58b243e7e8da6611772cca3cee82c22f9c4de0ea6100)) (0x5c79820c86f6b80133208288abe7e0b06e0c397e1496dfe80a5dfe11d1d1c5d, (-0x1b58913c434da7e2b24a8a46b110f168e93eb33d9bed65707127f27191329872)) ((-0xf070f455c7dacd2907f71c2d8eea9da7e6b9c30e7c27f185a337545e5a95e2c), 0x1e0036c2e6dd1fb921ada3433899bbbead6b7ffb43bc7be9eaa93652865e5901))].
Definition cert_g2_5 : list (op gfp2) := [
  OA 8 (C (0x1f15f0b1dd3fbd1108e210bcec9e66d3c021ed8b956ae63220b453b7c05a443e, 0xb23d1761e6ae5e30842e7e8d177df9e87999ea8635daa5ff0ce371a4b581fd9) (0x172c2f4cf50fd34882fadedc82210a4bd3bc99fcc7f0be8cfd39504cb1d45f0e, 0x1d1e12c2394c711e0fe0986c99b60cf389b006b7f06fcdbbeed471db9a3d9c24) (0x2c9ad18b023e66e934ef3af21ffc63b27c3edb4cd17d3d3d122a998e8a69372c, 0x161267677bf8ccd182390b85962f9c9498da399614cb7dd0fb61133bd3129fd9) ((-0x1687c444f786450c7d80eeb334ef94ffd552e75418d64018df90f2d29cfbef29), 0x155e15ad3cd48f5bcba07826e15bfa5456d10831993fdfe9a060261759feef42) (0xe4fdfd23ee0a4605718a1692329111b817305f02c70d504e54b24f6dcdd2e12, (-0x11677cd15daf1a5337c2787cff79a315cf43c70a3dfab0b1175fd22364fdbd7d)) (0xbb36a1042e15541493d4a49d3d858421b0fe33872bb778dec304dfd58cce43e, (-0x9aa6724a66470ddd387347dac046cba7a22858c1440ba78b846430a8a4926c7)));
  OD (C (0x1391629f789ca98ec78c41f13aa2b8d1612fb70ef2f0c068d655c01b400c09dd, 0x1174e4b7d0e442828ea83ce81ba685ec0fe5f2169716095e1b6bc30dd2623307) (0x27dc894e99ddbe20c489d4f8d39db01ecc4c8f7805e6ab8769da7d57b807762c, 0x2880be4ba3d29378a01ebff3857dd40d3ad6880c8e664c8ab24f0e638c8f5b7e) (0x424599e3be4ccf1613d3e91c8177527f34bf8a122ae477f294c18a4a6bb8900, 0x173a819e880f28e617ce63fbf1e8ebe17451a678ed69f41c304bcdb42c18bd4a) ((-0x21a07ca3f28258192b2bd014d3f3504cc6ce26bd348ea7ff5c2bda45e36bc852), (-0x276b94a2ac7e7f2821bd927c181e744046d278456eb6ace093b950826a446812)) (0xe1e1e8ba1b43cf244a8c6d712bf2552033c8a43268d3aa953c817132573ecc2, (-0x19d87974a1dedbb44f918d8d261bb524682d2455b3eeeb5d176fa10b62bd1b2)) ((-0xa9fc60c89ddfd658ed98bc6c5428064ca189354f2418a8e648adbdc2e0b2bd0), 0x2a42988ed59a34def3b24ab77d9b4623fed9e18eed5fac9db09e3974645b3cb));
  OA 0 (C (0xbfd483430f77d74afae15f9eb420c54dd14720efdbd24d9e89f566343e0f45f, 0x2e68bcb3e9adc73850d9a0fdf027d717c706ee35435cb3100634289548968a74) (0x7f75cf9ed4d2d3737467a1ab31c10bff5d11061233f1ab8f08aaa17126b3fc0, 0x1f1522ebcedfe70fa2fc7b3efbe5abf06e18aceacc64d767619dda5fec1ea8a1) (0x1bf9cbd2fda988f30f8d2e8285ccf68e973c9142588f15be7677142e0544347d, 0x262a722c19b58f76cdd47ee8e40d28d0d4665606fd913dc4d8cf8c90979f75e) ((-0x11ce6a2cf892f13aeba4bb005a5f8e551ae61e551f6d970c765668b5d601ab3e), (-0xc478a1f6249b0c7ce999f8f53cf29719468b9682d43f10c5546540fa8079952)) (0x16ff0e98422c5b951a10d4b4062f3bd9d1241aaff66ae80994b411c0ae506846, 0x2989878ea3d48cb5dac02c116253146097abd255ca544a4b494ff37b697f7525) (0x20ec1fa3d4373b4d487b83d81f84d7308dd9697ca1b0db7471af070326303fda, 0x121d35bbe047b1ceb893221bed92d155adad549a814bc7b6b387e2b8d040158));
  OD (C (0x26581010bfaf3ace0c4af2a9b2d02adfcd5b4f414cb8285b953ed6c532ab84fa, 0x7bc9447e9e401c2abc3af9de8d14e574fe2c5d7487caeddd8b94a1f34e0167b) (0xc5e058fd19eb8fd4108e6df2099cad22855176af03e460483dde91388fbedd8, 0x2f1c37454dae5bcdbabb4d0ae0263eb57be23feaf0b96dafb47c0053e3da0401) (0x22adffe3e303ed79771effdc5d66cd4100e54886422ccf59c8e3e511d025eed7, 0x2a12372a5a6f1770c05642400f8d5085711b918cbb5f2a54fbff251d2a6f1683) ((-0x11f9b86fe1fd023d40258719f8a68c2846b80319b255f60ec74a00a00d2d77e6), (-0x6387f378867c8ea6cf00fbeb8dfe37dad411af51c41ad3f3681cf76ec2a7e155)) (0xc42af1e251c8a3978fff8ed216056ecbae6cde5c3e9c4299f24361d134377fc, (-0x1d2542f20a68d1636aa370003814268940a7f7894283db7faf94953293702242)) ((-0xd6743033b538d4ea516f3227bab0ecc89f1ec1872f0f3b9aac5ca7ae5b82484), 0xecbedefddf4548d10d72d64cc45c11c0a64a8c369c2601f33ce1d63c1a3999));
  OD (C (0x1da97b9f5a19d629c5440492821c2b6e1d20624fb0322a86e519e6e97c096097, 0x1f16475f3ad69bf37fd972418d2390c062ba682d478eaf1885df989e5568f0ae) (0x2d2ed79aa17bd425c3e86f90365dcda686daf3e712269d19af8b9691b1d6259b, 0x23e741fce90e62bd5db8390218f040dfbfbe26640c2047a79574c51fe774844c) (0x8347cffa9959da7b05c3cd4bbf02446ad01192c832bbb2d5b09fd1d2de15bb2, 0x1f865a19e0c55f6effe634c980f2216df36f3309898415194ef81f21c82a2072) (0x17e4c9e612bc646f63d4cc18d7a9ff00aea7e6c980da1954f2e4dec1de5ea152, (-0x749114e08877365a3f300567bb8c098affdc7f2d774e4a53f58580253fd97127)) (0x261c24fee1aab2093baac41ef4e975633dc894ea91afac1c115a4913d712ecbf, 0x1c9f313056933a597c78dc41e6c7e4336b45b21106946178d6bafe4f9ede673) ((-0xe3629e8fb445b153f1783baf371ec9dd9181cb4613d0a5952ecfa3432d43030), 0x1b505b4514d77e565f5a9a361da6c2f11d52108f6ca79c98dbd2788a5e8dd83a));
  OD (C (0x20061c4e2f3bdf8f4b122de3ac2c1ee42371c538e8adf8ebc7395fcc49a4d073, 0x95daadc415b6fcf2959c43c011d7fb380d9d6bd39da5da0260071c051c373ab) (0x13718f5aff8670dea29e1d56ecc26e1c084dc5af4f64949f7569278028eb5017, 0x1a9389617cd5ba3421bb891026d2bd901c8c408dc644baaecc03240783822ee3) (0xd8b8be875eed9a45f47e8b4b620c306dddcd4f32e78b57bca13b65cd2334c3f, 0x15d466536ba1f5753d77e570cf822a18311e6346fcfdec08192fdad04c6ae469) ((-0x9c3c5bda90f163f2a46a7080ddb8562ceb133fe5b886cb1227d8bf9b589e2f20), 0x2ffd9aa1334329584a865fa2020c608840ffd9995ac8137f347c3e5bfc72bd6d) (0xc655ed439414b023cb3672ff9be3b94d1075243d3c362c31c29de4886274383, (-0x13612599c0a12cea55caa5b0f29c8d6f1d218266e5ab9cdd1ca6d1cecda2bb3d)) (0xb27694511107bd8c77630c11b6c7b755cd121cb8e6f9a9902081d27e8655e6a, (-0xf3a69121219a1e1c14d14ab070bed86893b26c4643105146d08b5d5925042dc)));
  OD (C (0x2d5a2ca43261abd3c7625c28ee629456a90457e0c0131411a6d5ff0dc354ba9c, 0xa9ec115b417462e63100e60764d23871409725609bdb3e52039d995ff1aa53a) (0x675c014b05677c073232fb7b942c3b3a92a50accac630a79009784fe9ca648b, 0x108e5d89ea050c972a14fdedd024acd475b6d7a0cf3eb4040a39ef0abba4f1ef) (0x29f3b9e5cf33e26d6cfa0d3e13a59fbe67dcb190bb8d7c4609826bfa5ca5062f, 0x2914337baa683a453f00386b0f8781a308bd79744d22c59c2e8b7b999598afa3) ((-0x113503a6b624cb87c405cee33f3aed7aa39f713adcd4e7ffc807bdd577c71656), (-0x24280ae255830e643712a6d3cfc2bfd960be9718bf0864cd23c83136a9ea6644)) (0x13e7f7fb401ac05808540cf7bcfe1cdfde248ede6b921d68a448f92ed6bccdd1, (-0x282c41bc893ead3e354bfbd70989b030926a4233a027dd3e8efb95778ce4f1d7)) (0xc3d7ef23d5830f4ea8e377fdd735515852fb5ec962eaa741c07c91c8ada0136, (-0x9f81448aac0054e131d71bb656d0561d22bf0bdc648c78049f116cfcef5674c)));
  OD (C (0x1d3a6d9dce3821af4dab047505da78d015e2e35ea994d2cc7cecc0f5a2b1e4fd, 0xabfef978c6d62f8c32c0c12dbfe5c4209d2ea37c20fd20ca9468c602a41caba) (0x1488e3ee05c0480a4de88a456f902eea0f8a15d8c48baaa938a9ffc8081ae97f, 0x2b220f7ff4b558b481a4ed51dbd839a1fd227a1685600bc8eefe3ca1d36d0eb5) (0xb60ee6dbec57bc02bb618e7aed5769476085eb25083c6df8f6c307abb5ecb9e, 0x123831b718679123e6d74149975f06b093efb00315263ee76eb94abf09946ac7) (0x370014164435aec8805db9696e0aa3c5664b3871a05b97c774322000cc2d0b44, (-0x2ed524dd38ee2bac9fbdef814da121d6f601f9fdedddc3c13ce069dc998a07ee)) (0xcfc4a4a0a458f4e5421f20b4e2decbd38acb3ca91fd6b38b08e211ca5a7d1f9, (-0xf4401a0e40fb997ec6a57712c780377aa82ea27eabe670d3cb2caa560b52ac8)) ((-0x132dc5daf89295b02c972bcca1aca0c76df0c58109bec46b5463e60090cda4a5), 0x298e4b7d302c4a1edaa796ebc1dadcee2c3c7e53bfc3e979a02cc32b1508932));
  OD (C (0x6c27a29fa87bca4ba47f7a4e9186ac804e326f92a3007bff85af4a8223ffded, 0x94ee1e7123bb6d36771925faed3a2e2921827afe2c93599842f8b76bafffc) (0x1e144fcbd67bca8ba535c3aff159b059d93bb486ebd7fdfc2d124bb08fd98a32, 0x6a6db4da2b9c0d858f6a549b5ce7d2e6c1b14a06c9f78287b0adfa12b60a149) (0x11a8b9f4f4537c998b1b2e82fdee3c45ba128cfe005b8dea310fedb21c1f731e, 0x14629ab9ed2a834e5577c634c7ed800df95e929d5c8a89d8cc11838499667853) ((-0x68b64bf369096ef1623e309cf344bb4a793bd9f611da540c5cda7497817c6ce4), (-0x5c58f2abf6a6c1b31204e60251fd9ae0a8fd404e7e7d2fc7611ca5abc4d556f4)) (0x299b6568975e9ac3d9db36a58f6c805b75b80379f3d70a589a10e7d30c558, (-0xf1b78fa5242673db8897575e1b02c75f55c3add3f1c3f9a90e2f9e4539e994)) (0x516b92bb7c191b22f245edaf4d9c76e158398b825f7bb5ab5fba4b9e42f2094, 0x15c546998e3eac65c8792e8500f2d7704da149769a74901538d7ce640a2af2b));
  OD (C (0x3b982e4fded01b897f0f02fae87b42009c7be70134e41b9f473970f90bc3bd2, 0x21dd78b5351b671c9c2825d9207e3907845c3111e2b2607a8202883ef43dc7ec) (0x2f9cbb4f8891db108bb3f623e8039e015f12da16d9f184c43bc99ef5d8c2cafc, 0x29d79383dfdde670f93b8c2081087f86beb50875140008cf5762f6117b74f7e1) (0x2bb3a360705157fc8323b4179a697b1789c6441aabb0d229aeb44780aa71be64, 0x294ba67c7dae9cb1b6e9516c4d7a4c8d4e4a5757550447c5ebed00b4a6318827) (0x30be2823e122df7357d728cbfe07f0197f7e07f882f03e2855efda0d2414890, 0x4f29036bebfc9c5ce4e98d5b5a416159e0ce133c5704ea7ce4c094580457688f) (0x5368e1ea6bbad2bb775ba2fe8f0f7bbdb3ad575d6341a39c9551f8e8df281b0, 0x176999949b8cf62bd609faa008fd1c67ef0cad205cd86ab06eb11da616ec22df) ((-0xefa6f23a778943ed1f363b8f01afcbfd57436e3bf274e291150b1ba5757b746), (-0x1746eea6db33e3dcfdbd73d545877a5b16fd5f6e1909f34281e834a7abf20aea)));
  OD (C (0xf1b98347f4a69a71caac26c10645fa4751f3cabc8f1f9e4949fe7d177c5db0c, 0x12a0713c0a9643876d5977c76add723a0bf92f2772cf09063b7a81dae7dcb5b5) (0xbfb822d16c2ce5dd5d6f6ee8eb82b0dfa7e659e3c204822e8620990021ea68b, 0x6ba24f8c3a27f12a9e455b7c5f601dc31f03cfd16bc1086ce9e2a1f5e7bf107) (0x204b843ea881dc8c2089956d039cad4abce801fd523758ab101be45c722c05ef, 0x2881040fae32f0b35c79e115a8f385ac424d4775dd94cdecd7f0167fdbe0e788) ((-0xbb94a07fb2c8bec7fe6439935280311b69f9d722172b8a6dce803a3b96be3768), 0x24809f8f5a42d7b8d0f4a91b9c3ccbb25bee1c4cb0d9e4f3306d77eb0280cf35) (0xba1637f156e3174b4ee909a1a02be6be6decdeeed7137c9cf9e9527b1933863, 0x273fde5129f8f3bb6e579f02f6ecbd3b08a1d213a09abe1422e013200ef8260) (0x18ad5e7c70891529dab098936667934d31beb2a8eb6858d5a803b1abfc8f21e6, 0x2648b7f0ca95d91b3d73da4e0652b7f3bd22ccf1d0d6a52ea3630a805f65c21));
  OA 8 (C (0x1f3a99d29b1e7036466d507ee399d3b961b93f8c22bf3e15bddae8122d9279d, 0x20e451a557239021d10978964e57b454188c193e63086af22411d51e3addff42) (0x145d941d2812712dd1b9fd5da6b3b1fcb97d7182ba09858ea094f179e04e3579, 0x2541dde279599e57819381a1bd0bb005d3f6438eed8a39d586a3f7eb4859ee63) (0x1714b34b0ef71cac9a071743a4e23464b3d4c5482989b1a0b804b0bc7c5dd74d, 0x1f55542967d1db545ac37686c38cba755906eb032073382a34440502ed876dcf) ((-0x678cfb7764ac08b41730624224ba64757d06362c616ac6cbd9af2aca5ee3877), 0x96975df449a60d7104a449f90e104cfa4387b2cd078e3d8102ec2848431bd5f) (0x2a73d7fc8e3bf9eb9c916da35a74c3a171e556e4cbb41b63360064431c1fb73, 0x164720fe190014b2c61176a426d07cf751903ae1b7252724a35b2abf08a89ce6) ((-0x6edea8fe466c098da7db292ad089ea87684e98248fe9c67a20aa1724f50d3dc), (-0x1469c7ac63c0b36bc2f74889975bf62ddfcd3eb5299ce57cdb68fcac11f25e9f)));
  OD (C (0x142bbe1076c1844e50b7cb2c78973cfb918e31d20b6e1d255dfc0d4acdd9909c, 0x91ac6ec75e228309650fd04e1be31a7581f8a66fc9d07b601bf97fc435d7c06) (0x1805e4fce868d0ea423805c9372dca42c4cb1868920e61a9318efac50d85347b, 0xc1bf24b6f1c85d30c61da23fd06bf2e7a894794dc29b92c2fa801e15d6a35d6) (0x200e666f637be3959bb84ac5beb4b2db624525e4133f98e74a857beeab740e3c, 0x29758235c08d9afe46558bb5ba3cfa3faf8cea40bde4f92ee068ee2739a724c4) ((-0x3b458da46883933bc4170a1170f717fb896389b9950dfe85ff075379ef9bfd32), (-0x43caf7b4dc0523d69d866ff9b768054d178ccc5c8a0c89e1fc5343388c800d34)) (0x7970c183483fc765bcaaafb06aedada87fb8ff5649a0c5fce233c77d5babe85, (-0x6b1d9eac5edda7eb1d3f0fd7509db9cf5b6d80b06f5ac0d00359c947d527638)) (0x9cb514cc163ed1fa13da52d1bd8d4887c90840b4226ef177191800951d5ce71, 0x64187d10325a8314aba9ed7d1bcd4dbcd8216919c348bf52aef5beaec43ebf5));
  OD (C (0x39e38e24a5dd8b4277bf3bb19e9722e915f94942c787ce77d6042bf0dd85ad5, 0xf4cf50950252ed20de8cf9d4ad95f3701bdc280b9b773f9b9223242b763e36) (0x23f43c266373c9b44ea84c16cc942fbd92ccb3960547a1662a34d108bdb74293, 0x19005dc35fddfb37d31b7f70ea3bc6bf7a0a964fd3b9a011ddbec82900a82b94) (0x7cefdf39197df8f5847f0c8884f431063dc83467162049b16bd9d38730dd582, 0x1b654a7b712d3da64888ff58c0635c565ab52592b51ae8ecd98d14808f77e467) ((-0x1c99fe9c45aa4a994caf8659627dad917e11692e9cf7b50836617e3d2370daec), 0x17882bf1f90b3b074cd98954f9ed69f724d54c754ef0e2b7147c4bb7d3c70451) (0x249b58ffa62853572201df4a4639c422a4b09808447c141e21f44f42705895, (-0x4069797e76c2aae700140cbc4432129b1ed978606eb16e0f81b3857c5ab4c3)) ((-0x1331dda00a7e0267d994332cc5bd8fecc7700f758dcbf7ad2aab8c5e83672fc), 0xa323b9c1396aacd369f37f5f03570db2c2139f0f69957ba9c2fb722e119bff));
  OD (C (0x2ae7af01d81637638ce5270ce6890ef214156487c98e3c54c1601ff1fa6d4794, 0x11d66be0cb083d7f1eb46eb259199920941443fa796e43272dad13494ee322eb) (0xab393b48bc184fdd699a0498cfdd3313cf92f666da6b253e1c64b0ef428d0da, 0x2d2696062ae276c325f258d6b4fb9c64b7cace265eef069dc8b73f8fc13c1218) (0x1f3e05f77d06a9935e89498d255b604bc374106cc0f225766d658b68fc18ee8, 0x275cb2e685a23ed91f797bc65da5afa8c28cb3c242b5248b5d9d8786aaca96f7) ((-0x391e14facb7ac5563945c3a446787b4b968c05104f68f732df8858e3bc0afabc), 0x2fbd13cc9bd31a52f2c8bf37344a147ebbc9f461b5d2b9bc9faaf6e071c60c83) (0x1fa15585dda9c90d06aba3bb55894ce96400c1afdcdba76f411d26c2b4bd7a88, (-0x1f771ab8e2df94c253c9bb0f50f0f4e14b7d47445fc12c2f3f491ac9702363b1)) ((-0x88e71de70d108f5511ae5bd074a8d4a66a21a21245a982705a4fb796668fa61), (-0x1dd108ae8a5df653dbdbfba4827ecf48932d781f694183730aa879b2a559f692)));
  OA 3 (C (0x1c15e14d7252cbd7e93047f8ee104dfd85543e495de30302de1760302888c0ea, 0xa6640fcc16ba30cca2c1b7adddd39426b4a356578d83d4050d1acf67e2acd36) (0x1aa1684458f4e35a906aeea4a2ff18d09f4f99a86fba168027f3d6167e08db49, 0x5f0fe80538103f30407ac6fadbd60fbedd96cbcf27e09468efc424ffb75825d) (0x885eb9a33e1e7c36ab567b5970c4c7bd6017117b01b19f16180c7ea3ade6c9a, 0x1babcd93f56c9f5b62d66a8e22feba7fbf4fa6ecc9def8679d9f008893b69044) (0x8a38ee2e86ff26a0a48f3a1ca13431c9fa77187ce87a18a62b82ec0150d589, 0xa339778677728ab675cba0391a59f5a3fca0ea4dcee4c43ffbbf7c1247fd0d) (0xc1237e650735029a6b10fa38b0e2f5a32d7b8b5c9065f8bb01b8e17394ca26c, (-0xe10b7701d32d4bb2a356150f5a96e286eab42d5a1f935b856fa68dc7ea2404b)) (0x135540c3244fd3a17565b26a5fcf928e521e9e2f7d36972a0c498b93a5a9b1ee, 0x11abc2a24fdc035252568f2c62ffa2ae109707635ba19d9ce41c2eaead5d7a6b));
  OD (C (0xbe4bd4ae46a39994cf8d0ed9403fcbfc9b10b5e07d5adc2c6a657ee8a0db508, 0x26c21ef1c232e5ec01bcdca731cda6cfadda77428719793dd9ccc7b6fd5aed64) (0x9472eea9d9e4ac2abcf1fe9761f569a494ac678bacc62c8aaf47d6d4c576cb0, 0x1a9fc0ed15c02e000e7a71a8aa63103e3a8445b1c7db7dbf4679595fb7021241) (0x2953cc21d76da0374bf188f308a6f0951bdd7a27160a8c831f278986a28d25a1, 0x1d102a32fa8d7acd9aaf341b1de0b8bf022f1bfaa288bf696568550e8d82197d) (0x7a30dbb888fb044d8435f810b088907c06c330ae8e4da700ba75b74d3e251fe, 0x51e98449b9ab9bedf5e797f31406d804c9621400b6145b4679b6bd7a7ff3b8a8) (0x130d39568d33d32eede49255a4b51acbce2b2360aca582909bd2f5d061085412, 0x1c1e90f52d7560d27e59e55cd22f90c271d8f0610248b12252d2a903852e9003) (0x8d092c008433321dfbf65e26ac6ac2f1167231a6fd62329c4530c4cdb7d81cf, (-0x14d4804a2b37ab91ce889b1a63cb193c2d72b9f7a03d3a00f2f491698e9a4f1f)));
  OD (C (0x2bb86f91691e512f952a3b2b4b7a0789059e1a67481d8cd51da15c670e037295, 0x1211c8da64fc2ee02f1bd84af51f8bb014e86ef531e5a8ed809fe359ca8ea001) (0x158a8f9b0e67e510d2be0c2a949527610c8b78f13f8ec8809bcf0ebc122c7fd7, 0x20c571ec05bc715e469905ecdac12f09f0b3987eafe30fd6bfc698601320078d) (0xb735f1c9fd0b2b3de27c66ceb6a3c55a621677248a6e1163f1790e21a2c5130, 0xe95302df9353f166edecc1afcdc9b776949564f155e7077c9cf85216cac2c7) (0x34c041e27b4da87918f85deebc19e176ac7a3a97a0a41936ff76253c125cd63c, (-0x5b942449f2c58b091555db17a8944c93e3332f7440d38b662794a474713c94f5)) (0x20a67ea658872b8d87820fc44009bc3c3e065a997140566855cafb6028c8e1f5, (-0x20c0bd9a47f85955486e9ad12b1c06efe220a359beb7bcafa3bacc9a9d2dfa81)) ((-0xa2205544a65e2682f642d58841c9c3815120826d22e9c46bdd4f3ea9bbe892c), 0x8c8b61e6eeb5ccc2622b42bd4a2ebf8d050e09e51401b097113a56daf21a245));
  OD (C (0x126387bbb72154581e243a94513de7bf1d6a06175f25891435169afb62e491bf, 0x164e14bd6dee25496cda17c7bd3057e764985f92798dd10e6bdf949591f45d06) (0x2405a6b9e1503f5c1f54eae00c036924ba3783689baacb8791755b593997306f, 0x1e6d9aee684ce887a287e511d0dcd0f9eb2266307861278497f41a2d0c263291) (0x13b9cd71b77769b30a6e428bbef9b299e84be61679a72c5043d471964c4d8a85, 0x1ce8c839572c8e3d125891ef784cba5b23ffbd2d3a89a268589bf11d7661065) ((-0x4c47609f57bfa4b81ea85be500626597ab01f2968b94bac774166eadb1488030), (-0x2dac9c89aec2bd425f2c3da94b5582b8ec875fce614a60f5078185f0868507cc)) (0x10f3a32b8910d13c26188d02a0c88304f093023499af84a79e891504d490adf1, 0x34b1167705d0b1452ae1837ac6b5f7e9f7a73c6003639afd1f0a7ca5c037e48) ((-0x5c8c0c50f3dbcb0af255e8932357f8763e1f2ee7b2c87bcbe189f38d6f10f37), 0x6952aec9a69009599bb0c4a0533a84c15e294940f84727c8ceca203d39bf0bc));
  OA 2 (C (0x80952727502cb40f9efc81f24064b0abcbce019207c334fbf0abbe180729e17, 0x187246ea2258992702b402857ad8a9aa5c4fa68326ec30514c382a453eeb6397) (0x2ffffc135869fb423b8151b4666520d4a7ea871f06a2724ba05147743379547, 0x122fde21608b7f0f1ca83e018b7b389eca2a0e7d04e267a55705a7589a91c696) (0x225199c0509776080d5ae1642592c2a0fd3ba81928daf2e1316b766095025d49, 0xb812414aeb0fad00bd9d6c03b68b1ee9dc174ef0776dc280992867555ceae6b) ((-0xe20814540136188ef6305d9ac7207c86bf1a2ded305420029ae63661d844b91), (-0x9042b76826819c888d7d380782802fed318205bb88dc3027a3d3a65b0601b50)) (0x81e9ebe6e0a2fec29a3844b0d7c9647fd7a08e34f83ee81dc4fa91b12bc7b61, 0xb03df9de7d1f74eebfc8ccf5491722590ff0e3cd6847a0fa2bab72912d906fc) (0x12b700970a84053e76075808468b917df38a3fbdde13188c2106d208c6a9ea71, 0xb331b46d450e7efa3a63d26d03197c4aec65dcad8682636a888f12082f66b3));
  OD (C (0x5396b2b8d7f2f4bd23be0cb0268ed6df3c82e84ef517633c0458392f485a6f9, 0x550967e49a02b2111176ebe05f807c810c7b9eb5d203c09ff89f648bd0235ff) (0x24b4be6c2389130678db39ddda96dc713a7cfe14cc47e34001bd23d9cc6a72e7, 0x20741c5b1853274cb94f44275139203f1c5967da52941fd986c184a91940f9f5) (0x1aa56336da0a1bfeddb016a020dcbf6cc38b81b91289891849598d847749584c, 0x1309fca16338d303df5ab46dca90732d3d09e275dd68d47f2b18dea56aebae36) (0x341e8c97b4498f376e5b6aedcbb011dd3bf61fc342e7bccaf504134fa768448, (-0x18d49c866b5c4d35fa3a96f62ed811aa459348d25267990ada581fcedd9cc987)) (0x125c5e98d56e96e9c70175ea054764224bf5b3e714339e32e71821f474d631f, 0x50bc32ccd111c0a0315cac686b1deaa9358f6a47ca4a24b4d4f08c89e5759) ((-0x53df87b2677aedfc3bd93d04f610b2bbd1c58e333dacf51059f0f274d3749c4), 0x2126c5ddf74d3f1b3f076b2a2f2580dea551ec087829bcb216efcf11630eeb2));
  OD (C (0x4f6b48f512ef63d0e2e86fa8148e179ab2a5633f2e1ede0f39e738e7ace354b, 0x152f5591b5a564a5e01592ebd7704349743dd2e923819e936aaf3da65f4baa5d) (0x29a884bccf6122449234388446fe1c89c576dc3d06f3676a6df3369d741448cb, 0x1c4b592b1e03c57b36965f5eb502211d8ac02b8fd6e91ee594b049e91a02610f) (0x22b97dd15776dffd84593366425a9c8c2fbbac52a51bd0254ff89631b8ad7435, 0x16b1aa6580a195e2c7c51275fe6a4ff793a111a855c8205d34d29c2a610ea867) ((-0x7876adb66c501e9bb22d50f275d7b93d59d7a442721331bbd2501685db52e8ba), 0x1d6f8fb6676c71788238d9efab044b95c27ece6bccefa3ce362d455931a9ba84) (0x458932f3ee6e91fd9d5126e07fbbda3a3d68650ba6a3092fe8ad7e1e02b2973, 0x8c3e10f8ff2c5979b4441546746041ada11f37054ed0dcdf008e2b76e91dbf1) ((-0x1bdc9e5646db4368d01fa705b9eac853d9593228301ba410a927c270da616f5), 0x2542b6586376cc5bbdbe4f15dfe7ef297b15189fc36754ce29f6ed79c8945db));
  OD (C (0x1f57c5512978f1ca97f3d59c653dc4ba97bbdf164289a752826e213951fabe70, 0x152a418468e5aef80b87bd06e4f6a1d48de974c5fffe76745d427c16cb74ac67) (0x1170e9d274287653a25785738b85043fc4fafb1950ed1e438cffb83cbb6ce5c1, 0x10b1ae364fee1c2b8bcf81af394cb320a983457b9d1cd6059db2bb809d8778b8) (0x39e4d7ab4f22c98c8baba827808804c5963af3662716029225971f96222b7b9, 0xe821cc26a9ed26fe28f333e94f01400020362273ec61bd7d8a5b5f1d1ff0bf5) ((-0x565f17f43611a93b8bf9583ec7329fea8a81656debcec6f5c4236bca2e1bc6a8), 0x20d30dcdeade5a56210fab497e3d593b2344a6fb02db41fcc31e6600105c5fe6) (0x1b6ab0bbc56334bada8c16e12db0e38ad4532065d42248c01d25e988bffe636f, (-0xb0b2241dadb734b9ce3b296f749932f6d7025d21148a0b923430002883ad0f3)) (0x121aef11484cc330ad397071e213e5810a53fc89d328fc125965d7c4f9766d98, (-0xa9c93c0dd8b06495ac86069808b6f5f6365de0c5a9d053b4b9fc2fcb1eb1ded)));
  OD (C (0x2707ce0efb535c26859573e3946788fc26f361eb6d9139dabcd4b17575c7f4b9, 0x1609ea4e763d7675d836294b6667b25de12a00c17b9a8ad40aa7a3b2d65c83a2) (0x303a5d6744d39d462327b7fc912eb9ca78566d73a4c18f0b74bf565aaa080546, 0x420a49ebe31dbda04965510a71de5e5b881f20b9f05734a6737d271028c83d8) (0x2f601b50d2668db2df48bbfd2074f91d4ab0a58859c1f3d1e6d144c1cf751fcf, 0x2823315bc541e1926de022d962d8c38591beff8355897314c53178fcfb2f952f) ((-0x966ca84b9e46930aa93a1c3bd06631f412b03936bd329f7104e050fd003ec5e), 0x8f5712597ad75f9b70bf04eb816a16da14d7f246d1a03cef59b14e9196fae63) (0x238cfd0807da16f7d08e77fd3effe596e85941412d8c02c4cd7abd35553083c4, (-0x1571728ea51abac48e50ac01add82d927fdd06469d3c4a33c1a83956f3259263)) ((-0x3e2af86adff9dbebfd9bb5158e8702ca8943d770b1bd87ed6521c842069e79e), 0x1e8de824c848594d8a63ae6177355d0c35da446dc835244e4a58e0f4f7db1aff));
  OD (C (0x1af1290c86968b488bd71405ec08a96d8e194ec167f993e90e6b247d4510cad0, 0x216a87f3cae459be75c5b4ff289bf0fd90bf2450dc3b494f5da17804a18e73d2) (0x2e911e6263c8ccac0e63cdc538e4fbf2d4e5c9c6660511906e1d19312c1ad304, 0x2ff8d54c43513085bcc8e70f42eec59ceb1841dd4e5145d731bd884555ca8c0d) (0x25682a8d04d60cec81a3b72abba6ed02001991401af2fbb1f72ba2a6d8a992d7, 0x22046534dfa84d08b0e3741886da101c0acd5c98883d3f68edca6c3f898cc676) (0x5570b196c6fa304007a42662abbfd6a7c401a436df9d115834751e8e28529d84, 0x91d1720fea5167c5fe84debc1b593d4241a643768ec2033cf3124c6c6a7c8f58) (0x25356e0f8ebca65eb868e0843712cc8d6231099863d3346e160af7e7c4405ad0, 0x81334b98e59e94853dfe6dbc99bb33f07c4d917abb5338b8661cd37fa464fc1) ((-0x1743651bb2c7e8aa5c8d800f47517b1007a0272683ff8025efa2d43297b7f4de), (-0x1f336ceb135a151c37e211d0b44a76f3393279f1bcc4df9d667219bf93e2f5c9)));
  OD (C (0x264c89cfbeb22c60772dd8e2c8488976b8a91de87b474f30617730b2205356cb, 0x9ef27d4b6a1e827548c7fc9a73453ef2c2d8b1c5dc6a3f67bf88e9aba1b4250) (0x3e05ee54d67f85cb946fcd763e6d9888ddeaf482f7713be6093e87aca279ab, 0x1a75cd46abc3e993edbcdeb4011fd69b5b7144bca8cee49524a5a5140f7a9f6e) (0x7fcb393724e0d3e3381570f4adda327783e05571c9c2b3bd931b8f4af9eb7dc, 0x399c7963c1b65373adba01b99f5291c30bd469b6abd741b37665772cde59fbd) ((-0xcfc636b91accde7ea9c340a0c7be156ac87d651e254d06d8dde9239f7f71baac), (-0x357a9dbc4c869be5e5b447a79445290bcb16cd9cdccdca7565344dba93bf9153)) (0xfb97bfa19a4decc200d39b9fd78052243b7e304e41a8b4bc9aad41f6222ddeb, (-0x1c4593e97460c776ae0e80648060bcbd55df4f5ca1309695474d7d6721b0dcf7)) (0x1a88f8f51fb5335579017def736ea06c3a7b9c4463cf8737a79fde6c8c74783e, (-0x203f2e7b7503a6d4825f636181f35db3ad15802d9efc67d23defee1188748c3a)));
  OA 5 (C (0x2d839c66ea76457a4bf137a0a44487150d2b26cde1b36f611443d484ea777cb9, 0x2767deb24a8452515d17dd1646351f396dcc99b10d31c33c8ff2cc4d7c4b5229) (0x149f4e727bc210950b948a237e048de602470efa869913fb54c7d7a4f6ab0e90, 0x16e47716d6cca6b7ddbbbee1d89d6b7a03cdf9ef7427bbf31717d17c2d46e55b) (0x76fe91bb2cf94b7931852c0683050bd6de52d4c1be72f9aeeaba1b45ba430ec, 0x23e576915fe2a1df022c813664e24ff826961400b0c2080cc83fed10aa19390c) (0xb07e68e0679e8f186615b3cc6aace2e4258aad5a3e564bd4772ee41dbf7688c, (-0x79761c28a5ad03d477d74beb3cec1e32783919267c20519284c831bb6b44228)) (0x4a1ff2efdf59f7f6c692834e69f4060efb954c8392d68930ad074fd9fff86e5c, (-0xab81d0b243969343f3e2f7c2ddb231e52c24be52f6aef69e6278e0374d99ef2)) ((-0xd3d70d89a68e3679ee4d98162edd119d161642e3d994a1ee8f552ef87084776), 0x1612c32cf99463bd5288bbb0a810ba620ecfbf223549eeaf95039e4cc51835c9));
  OD (C (0x2525238e83d7f62dcb8b967d15b55d8b0165bd6700f4ed7f89eb11faa2833250, 0xf1e1099c5f842948575bec808fdf82c29b8d72329d52dd1b4755e6a68ca3870) (0x1682e97633dad9767ada78b06f266bf71ec882a63a089129671ef1526e0ff652, 0x22a4da26143c030e2af8fe00b3c6e3b29bbc7e9c5a01cf55c7d9bb062a5bf44d) (0x28d37251245f6672eec91d195bd8feb7899d7be6f0ccddebfe000abf0c4a5e27, 0xd72f8197bfe0fa33e28ab3cc69e13ed729a824ecb255872ad1e432e27d0ff28) (0x138522ce29701b22058f479f02c58c7ea8d4c475c8f7ba58c41b94c3f2fc220, 0x4e2e7fa19300a76f3f251e64d88da59be0548da1f5b88926df1ec964c3a7fe3) (0x17353ed0ac97c866b8bb0117496dceb8ed9f532bce5cd4aa92e9f39da6754802, (-0x17ca1fb4f8c04a5a8035447dcecd058a85cc65b906fc0042f1cc9f1a14c93665)) ((-0x99c48bebb1262f9dd07096ecfc380e50fa0b55cfb59c37d89a270028fdf6d55), (-0x2389961b02d6a8836b528f78689c7ea22c1053233385547ff3049ed0c64fcec)));
  OD (C (0x17731b03a22fdd8e10ad709ae32ce351d0ef362165732456a0edc76b78c17cd8, 0x2b8659cc2f191025cbce0da21ad83b1dd6012cbbe8bee221a977f23b9d2d5d34) (0x1d7750265e744a91119973e0faed1b312ded9e5b2e1df1a6321fc46ba3d56582, 0x1c19f97b49e280686fabd934a2a2cf82a0d5be7ae1a5fa555690ffe891c6bc1f) (0x19e0864f87d6de143347061f6a0ae0e3f5c23d5c5ac08a2ef04165bfb288b86, 0x167ce9df69105af8faadd87c7940a29e01ff0d886a2f25af0d457de2deacc12) ((-0xa38d4b7267534f1334fc79a83804976d6716ee9c3d43e2a558b7b5e82b53e3c), (-0x3a5cef731b612e6509566a24507ac70154ebd42be9fe91e66cdfe6df404c4949)) (0x2a2eaf470b30268892f2d5ac76ccca30d030b850ac1e589129b7389cf381a296, 0x1bc8bb6a670c5064667241d5888b83e7bdd46d6c8318c7813f54b754da02db31) ((-0x315ba40778ad4c7368d7cde481d413afe8ee00db7267bd5175169d0766cb4fb), 0x9412ba30197510178f9360a0ebe3511c94534380762cbd750a6c929de620d72));
  OD (C (0x8bc1fa47bcb1f1d3c83270d3a08c94fed03ee8445bfb5d1d96d0d13a914b65f, 0x29083ed73426692624985e1b6cacbd4797e674529d0fd5ad7815f261a2e6e8cc) (0x22fdf8482988bb05033de0e6f4b86015fb62af222b09f9897ce85adbe575e393, 0x1dc2ab6064315eae39a561174a101ef49902a99090983d3dd4382dc7021c4c45) (0x1d1520027e676615431b357c0332d8901c0f610cb179a414e2de69910b361262, 0xfaf7e7d8137d8b5d1a9656938af73249d149c4d12a514b67b7c4ccc2109983b) ((-0x636ab30b3cc3a0d7f65d38521675bd55b31f16d3f5f2d78021ef9b16bc253238), 0x6ab6febb5185a2052b609c43646ee94caddceac094c45cc59af220f1c5b3853) (0xed0173c821c3e19f4438595c44f139487781419457f068c06718177c9895527, 0x213717db68a2d9aa894c6e0e5ece85b689812b60965ecba92a39993f634318d4) ((-0x4fc2b41589e332173268c935e4acb5e26bec6489c13d15b0d931f37ffc36502), (-0x68c1976f4691d3d0387e83a878ad1de099bbcd8569e1adb8b6c545833d548a)));
  OD (C (0x498afcfcddd06eb82c8b7635a54761baa6aa1076cf1d7489c1784ae47736c80, 0x21d1ea0f0425b1fcfec93d5234524c70415adf6248f7e64d950f8b5a8472144e) (0x1f4d60bd095f60973fa273011512361d3ad2bfdcbf0336d162bf0dfb4b574ca0, 0x7b3b9e1c6f318fe5f70776e3c1b0516668a789afe5e69580643feaea79270a4) (0x22c2e971f2e0a74548ce30bdaa4ce4155fad42807a58ab3a01e6f5a413367f8a, 0x2646280409915da9bd32935678d8d5b76e6f8dc385b7241df6f3ac9873117107) ((-0x557d067cde9fa3e63136295c41c73d4680c2df81d668bb10dd5a37bbcbdb97ee), 0x2566a767695da779bef068d010a4e2af846cdb3f08bf42e6ccae92cb380ed97c) (0x66cb88bcf906d12a978382f670e959e20fe863b5fac1b58cb6fd1fda9eb18f6, 0x17330f368d9e8054acb8bbad2b9a9f2ee48e0fac59244e43188455d273d3bfba) (0x4ac859a41927a8cc178b1e08b6b5efeb39b3a5b9a8ccc4d10fdde9037484d72, 0xf10cdac81f0ffa0e64c5066e6f12a3f11ab80ac686595abe30e8381c96d3b54));
  OA 8 (C (0x15766aefacb4668505f064a7c2af3bad2018bea1d20c4f080e0a284585ab1681, 0x2d9678d615842b599bbddaa1066490022905d62210f14c0b66ac17b1869f5df1) (0xcb524abaf4808be40039bed3ba6327b6e168742826132fc6a8fd784476ee74f, 0x120c9df63774d54a7b949c12960475c9d4288c3eb956e798c87dfd6e2c388e9e) (0x12de0e85ae5b62410ea1dfecadbec30f726adf87f1298b9d46c51670d0d0ff81, 0x1446f66f3aa2f3d96372ad56e4cfbfbf3fb6bf40ae16807c3eefdb99e75200c3) ((-0x1678f024947fb9d34618fdee26b9e6923ee76b07f6b33cbce2556a11f85421f8), 0x18b0b68011eee9c11c58ebc2b023f4a2fa2ef08171742bf8ba1659319b00d8e0) (0x287017ba3fc19cc3988860b3071853cade1d276b91b6dde5ffefd04199c7d2d8, 0x216d5e1502ea03323305ec4a7cacf2236e3ba6c6d90a7228c463b15a61004bb1) (0xced94146395906296b75af955ce5ca06ec2ff3ba53865c8aad2a1066bb033e4, (-0x11fea50541249aceb8213c6ad05bed14beed625b301fb3f789351b9d1d57c6e3)));
  OD (C (0xf9137c5a932ecb3b5e723fa9c604e9d9123921e8c475c258c25d61fb0395243, 0x5c5b40cf4a299eebcd6045fd53dd884436be214c7c7826bd66080c016e15b1b) (0x2ff67f483fc6299383f204dd72b1c25349368d92361f99b0d9212fb21ab094d6, 0x2a0fa054eabc0fbe89f6d48209eb53fd76830178c22021634662ba5cbd9486fd) (0xe17be7de372b3281c3ebe6e8e7f7d3edce3e2d55899840028808e58caf045e, 0x182e714f73130470fb510607bf70525add31fc5336e9ef72593b4ca9dc787e47) ((-0xae4203f5e70981ae6bf55db277e24c0adf34dbf7faf0551c572897ac48e089c), (-0x117c9e9528774ed1056343413636d444958d534dbe91bee7c7b7067142f9a04b)) (0x3b6bafa7b8ac4bf647de5f505c717e4d1299f34c1f92ccab7188fbff77500e2, (-0x451bfada70f541b7c07499fbc066832b79618d1f429d1e2fff6a98d98099c4f)) ((-0xbee01a07fa71a8fcfe25ea6db3cea0ed560e8e4fd54ce2babfb1bc6df5693bf), 0x87a27b134d6c832ab4048d5c32d3cb8906e6abd7e17ae02f8a7f4e2ced2068a));
  OA 0 (C (0xfa986f3223405e1220c458dd6ea391752c56529c61bc25dbf377b798d173a67, 0x2cb7b7d85b24f52b66f54a355d9fe0adbace91a0b698507bfa9c7f3800df42bb) (0x16cb6c7248ca72de7d0d01c563099fa9a0f5b2daa3a57a2ce554f3f0210e0bf5, 0x615f192385c5b41e7cdcf4d8abf24ac08151e7e933c28e6f673b1ed3587a670) (0xfd1f907b75e8c417603646d1b60aceca2630b3d95769f72de0c2b864cca212c, 0x2cf41441285e01380373b645322e801422a4f545fdf9bf2f0a17585bd4f071ff) ((-0x1a8c979c52ce45d23797eeaba4fb39daae8227a48bf51a30c18c2e0973737a2f), (-0x96f50d52f91779ff31f3d324c2ec6054f3e651ce4e1cce9499725ef22d36241)) (0x1cf234211cc0c0a2dc87aa02bf887b7555295b9f3eb965a4e0532a1f1c18502b, 0x2440d821c3cc632a7b3cff7e2070350e79b25cf73edf905878cfcae921ae1dc2) (0x22e6a1dece4bd02af8dd5ce51c419c874daeed71c56410dbadb8b8aff10ad614, 0x19191af23c5e77d150e935307c60706c6c751e4c30615d4da10d52e2cd900b3e));
  OD (C (0x2bcf9b7d843084053a7afb8bfc7ed4197bf41da7fdee6a12bfb2ffbadb61dc43, 0x29987b6d7072446afc2accac23247a0678e6d1ec5f97d3e9ab4f681fbf2c1408) (0x51be7751c15a211194bcb85f2c2de02b49f8d5abb7f34ee55a6800d6f2474d2, 0xc4d233599a6cda1c9b4ea69d1c43551760d533ace4daf27053c8592e5888da5) (0x29d74297dac5d619c59e00a36daf35f9a4e88c40ea05c663ed46674392afeba2, 0x1e161536e19f55adc5f2ac74ec97b83893bee16f18b8eb6972723e8e35f9c129) (0x5b64a3fd19efc7e84436bbfae1747e126b850a6df43ed525845bb4406e309d16, 0x4e8cfc718c11cc6212c91d69c751df8a9e149b2fa1cb05a7325975dd04772195) (0x4b50f4b404d484816abfaea893edc857044908df4f99718ecb064a66ddc93eec, (-0x3e8eaf8ad1724df05412acd15627cdd8f41ce88cce09231846c781ac84afcc2)) (0x9931a2578fac6cb35b97bdcf200095cbed516df8a0c5bab84ae1c4f2187c4bd, (-0x155aa967aa91f885d45d0b43594e05f402223f9d925b76a7086efec18ccb6dbf)));
  OD (C (0x1087957a3afa9c48f47e5e1cc3314626b5a279826f54dc5b544adf3784871cae, 0x1dbc5dfd4b5b4171254ec6ea38642f128a49898924dfb31e6f3914c565679d2) (0x209b92383e106e043504fe8ee80a64ab14c5ad25e2b0ed31a7a983740b01a50f, 0x2b96d4d589464fd204b2974620495953cb4e269e6df10063ce830419d1870938) (0x21c43616eace30402c313b13b611425c459062a2e603a05bad7e08ddaa6216e8, 0x1c371f1e4289bccbe2770609c9c5b804231609301901e734865f669549c76b0f) (0xff9a2a2e8f26f80a0a1323f9adc5de3cba62e859de604e874c62e1554fc6358, (-0x220930a753f77136b58bebfce1e40cdffabfc96e89928f3f107f9c344d05ccb5)) (0x145072a04a9143944e9b735964fba144dcce13d2c85be369bd9e2eb4bdd9d93, (-0x59325cc21a9db498ea3898f31da9f6c56cb49a8b06c9e9ce32e091bfb002a6e)) ((-0xbbe4cfc47e46f17ea2371fba5b063a116cc994039ef20f190f260e527412f92), 0x830fd42b3ceae7d938a3e8aa1b1f3355bceb1c1ca6ccb08b23bfd48a6d34718));
  OD (C (0x2037cfbf3dc0dbf285bea1c51049a43d2429fc8507a5ea5e2bee82a1240106d9, 0x1cacba928e61ab77ac0e3e1a3e4eb16f48fd86bb6f6961d8cdf239450b920a7e) (0x11a5103b0beb83c206fb33002b6092dd4c34f8ba05dc78ca3916ebe38a6ccc86, 0x27c0b30531d75230b2a35788f771e11dec9a6588136c72e53402acf766dafa03) (0x230f7dca02c7462a5ec2dddace93f5ac4346362ad0eecd03a1c5ddd74ee55e9a, 0x16e7421a31799a594a01a8e098f8f7aab47ba6dbf5c5f78ecda5eda440e52130) ((-0x62a4780a5eca021857cd8e16826f4654241fea912b0196383f9acaf49cf64c0e), (-0x3f65b1916f9261a45c452ed012aed85b6d9db7f9abeba01c92820d9a208b848f)) (0x262e8822a2f2251a48af4cd839ef3f4bddd18497143dbf9edb959ce3c9d82948, (-0x475681aa9a43da4ac34b4bca2e6b586d174c6e64523ca43360cbd51119d02a0)) (0xb6ba83214ad234961fad3789b02dc22141dd1b40d7b11343a94b0352945bfdf, (-0x7b0496fb8cfd4e2c16feebe8e2eb0db4390db082919013af8e189caf1fe7a66)));
  OD (C (0x1619bfb68ce7ceff4c83455bde4a39197508358b2fb69dcb3ec4029a661952f7, 0x28662fc4c3dccbe431fadf24fca53e85d31d30a692e8295dab6dc5307bc85067) (0x14618e58081729a6e7dd55cf4b33f9ab40bf9474a53233ca7ba89b680d752b12, 0x218135fa92d4b1c04c1ed889fa0e6addb993ff1bf7e30c103b14a5bb569bbd2d) (0xb58667db2a14b03ef54c17a89214f28ae782888eec073a16a78ab0b72c29498, 0x147288b28f14b9e707cdabc9d90f8fa298c4256f7b5106b7cc1c2779f25c95ca) ((-0x78259f1b7e645878958fb64eea8500a087e320fe82bb981201ca19e23a89a20), (-0x487332ad6dd2b2a4bc5f44ab21ac1cc3a6d812ed6097c3db5d16dc890dc6ed6d)) (0x24e6919da05c8998654ec2dfc4528e8369fc820590fbabb7750f615cba9fee3c, 0x17a21de823bdb5aa125a3ebf05ff9fdaa59617741d278f54cb3161a2562d452b) (0x91b12de419113e133e2122524ecfbc8439efa702839006a93106aaaa10a16c, 0x677394933bc92c69e7d3ac50488f9949124e48c1a199ec27a311cfb46fd742c));
  OD (C (0x191c168195311d3fefaa154579025fe26e9d6d966e9e9a27b1192ba8dd15f0c2, 0x27e6e1e6fa0bf7b51ebab10300ad0e79463d6e8b0662c3a484fd4f2b11ed4597) (0x62dfd5d81a06c9987d52092b8033ebe840cff6c7ae785b38f7402bc572de780, 0x27f84da52af48a9d14915ffbc7a6bceac9680dc2e7a18532f1857e1f21a9865b) (0x2a55ad3b3c96dc0109e835395ebc6d9e91e7f820b0531fd248429c9ef3a89f36, 0x29ed3b0480ab273025b3e25548d5cb1fc5483f0156bf2184b5f45ea8eeb2eb3b) ((-0x2cbcbfbc96cfbefb866083553cbbeb9714c4ade109ac08734ab929a2c960ce5c), (-0x15e4f99e041449693552aa5a23a59c3da5a842d3fc6f98a16fa985486a21d165)) (0x2968ab07128a1bd4b5d0582f9b4586d98e6ce535ae3d6ed974356f25a5428708, 0x13df56aabb066c826d8554ce2fec7f83385916008dc4c8df4771ad5a595c85e8) (0x85aefc8f276716b09d22ce0b102766e2619dd0d71bc5d1db265dae1e5a319ec, (-0xcb327e46d3016295870f42a1d593fe0704f8a91ac0b3ea9832550904953c55d)));
  OD (C (0x8b99f74f97e48f0b829884505b5de20c0f7505466dad1f612cb73f89b9dc378, 0x21948428fccf1ee26337219b71136bcba24f8aaa9c5f2f51ac88373a71489bf7) (0x1eca1201bcbd05339671b4764116c54549b7925a90e5ccf664ec7b168a0092be, 0x27ef124ab0c6f47c04a17728cd2f70bcedddfc810dea40747c1f6d2446468fa5) (0x34e8f57c6578a329ebd669f046dd3d24506ce6b66eeeb6d5cb6545526df04be, 0x244bbce1577e930889b60bc64a5c72221c0c0b8b4612da7653745613a5c9192d) (0x2b3f6aed449977dbcf10736c5fccd335cde4438ebc30ecdb9ed93dac44af255c, (-0x35c08a905421c8060f5278c4b9753025249dab953c98500743098862cc2d0027)) (0xc1beb59fc521096e4e0672903cf31f99f1b095e9c92c72dd662f4890c3ec29e, 0x15ba9606cbfbed6b0e854d60234d0672d1bc2819bb9cd9208e1429a70234419a) ((-0x111219553d758ad0d68ba497c8b5bf9fab63c678baa9cc6998eb71784cad87da), 0x476510181acf9bf655294b2c2045aa5d5db89e9c787073b17ea3bb548a0f0ae));
  OD (C (0x11c5de499747866f8f3052c90944a179d2f83d18fa8a02c735040f8f1f7c44c0, 0x43ad37c0d1bb3f573b9412cfd73fab07b508419c24bfd1111d380b5a878533d) (0x2ef62702a221a03afc4787322ac4abc0801a403c7c5caad35c1665fc19096f5e, 0x298d736babac26eb2434720acc74fc659d7bbb31510d0dc8d8a2deccd7585f1d) (0xf5a9f58177343718763b944404af83c8cdfc8be2260abc5249e469d27453f97, 0x30611a05c2735879edd3cb10b6a36917d4b6b87b79aa6deabfab58d01ade850a) ((-0x7d3575d4810e53866b1060d651b2d779b598eafb726092b18b8e89a4a40a3188), (-0x242d6abc1870c4d51fc4237b106ee58d3b46eff8d7cb5d385557dfdacc30d48b)) (0x31b61b812257209f6cdf8388d7cfe51ee5d86798e8d080f6d6907294f62572a, (-0x62863918d0598090987b0e77e1c2de2b56591acd85794dbe9f0c03ec6133632)) ((-0x2020fefa2c562af6ef053160103b8beb344914b9aa6f67b0893d2afec8ad263), 0x5cc5030687e1f520931db2dcca068615c9970c5f90cc6ade742860bcf79e0c7));
  OD (C (0x194c04a52d4ce6e47450be791db0b23094b8d0a71103a6eb5a9bb16792f3d5e4, 0x2dd8a098e341d1cd83c76fb3e3f473fe6e078aa1bbfca97dee1edfa93b252fb1) (0x2308ae6b1dd9681744887e88635f995eac732700bab7457336789eef51034ced, 0xf1e7e2bcd5e703efe4bfbb811e9b27f9b98fe2b7b9839ec4da8dda959e3786) (0xb6f3d8f7fa4e60701c68be535dd1bbd809bd22b5d92c25f34d8ac5fe480c42f, 0x8da73654cb67760f7c2c9cc817511d2ade7dd6d475aab767cceebba32055c5) ((-0xa245e15ea508516e40a37bf03f0438f178fd9a9b6acbbb0f8d886d7ad6c0518a), 0x694c053d58620269a3cdfa7cec2e6a7f2954eeab310a3e7e727d8a0540523d8b) (0x2feeb3d8d3b72e2ec6ebbefccd853ce28369439e99a4df05957ac641f0b8d4e9, 0x1e35dfee53f6c1c2a49946266e57262ef4e7af05767c76e33b6eb7d28b7a5867) (0x2087246c8c8cd668e32759df12d0c5a7353225bef4b0d42d757eaf6d70e677f1, 0x203c7bfa5c5c0906761da23aebaad8e2480fa5b23fb0152e415f4f5e9f11be6c));
  OD (C (0x7928a9b55ca107eea1aee93e13155712cbd0d45032faed1f08bd0400b05d5e3, 0x1592362b3d4ad407de713a4e7b039972aa095d8de0a72bcdc15a57e117f67769) (0xbd156d8e99f3deedf104424cc939833d6c15cca0437f56640ffe48cbc07e0cf, 0x26276f67ede84adb896180c2016dedc73be2bf67ccc32667bd3e732c3e0aeb69) (0x1a1aa97879efd522e49abd6f159ae8b47f5b8a2aae8c4211c7d8da16e9be733c, 0x1f67596f7b2ca9d94cd018814edb226453e9a0f155f0e8d96a9000c714653870) (0x6433d6a958307e7997062b13350b080cd9b0a6a883099948f408bbddb855ba8, 0x48f2fd835658ad0dd4c366bde53062b1745d7593d4404e4008fbf801ed483ef9) (0x6c03f9d60efae6a71590ce05be4faaeb9f6628e408dc3b1d385c3138838928b, 0x86e3c30d55647b3f109f8de226dedb2207f0426ae50047e2bc04d9913501b95) (0x486bc0e000c1d271fae18352c9496e4b941c4fe33220a64227344fb03a76696, (-0x14381f9b5e47811e5216474dfc1bd38de8b6b2e686388eaaaf31fe326c8f5dc6)));
  OD (C (0x83a859cab46102900a71decd6ab1b3e1943cef62f446e1c51d44ff8cb053220, 0x863d1562a37d4bae336ebd274fa06eac0997d39f7bcd0af8af64ba581097eef) (0xcaa79ae2b90ec778509f24ba9fbc07f6ace711962d1ea1760a60ef4762a1aea, 0x12586ba6ef5e60582f2a3130c7ca6e2b07805ee5686da21e73d735df9facc4d4) (0x12aa06437d214e4d6f51ea80d0ddb0b5112d60cbe31e0808a4ff7d57c0dc0f2, 0x26461880d37c0caa0c8cb45a1c3e94294dd93fb39d7b0ea323011e5d9f822ab7) ((-0x242c8a7ae2ca3f6a272e7392fa685a9a15c9c843404edbad26d3c7e1df22f88e), (-0x4f93ad2f4b76cba50308113dd092e16cb4582162ab0adbd675f4f724a8ec2590)) (0x2da6f4f8700cd4d952fe9a5539d996c88af2cd8c2913489b3ee500e9c90a708, 0xe2e7f2f07f5fa0fc4a251f4c6d5b295923ca813a28519296bbecba380922d) (0x338a2a35da20fab1ddaa9b2763df8b9793f65d05e041bcde7ddacd0187a215b, 0x3941b73220b908969eecd66fb3c6c14dc2c4e882a82346545d89df32c5f4e0c));
  OD (C (0x115dc1830d0d7ff7c09c2e9534ae2b1c7073135f3b31e8bb3d82b75b08b42864, 0x17cc2ed6ec4f7f3b7a4d18ff936d8b8f6c9b71d499e49f7909127d61166fd79d) (0x2303a93cc5e6774eab94ddb1ab31fbe52e83b372144d15dd86b6ce100ab118f2, 0x29757e1cd9d23784dd12cc1f7a14ba452b05b8f6976800f2990e359902519524) (0x2b34bfca8e2f50ff51f1f2396a7a83cd40fbf513b22a71401efb1b1ab6a8d5b1, 0x5e9ee35b361ff68501c039ca0811bd86f574117b8ff9e688d082a6b696c69db) ((-0x313760919b0ccf3a2249cf889180a433f701847f2c1e330b0e92f8b015b3fc), 0x19e33b7411fb1d83ecef0902bff6b2b3beb4eefa4247fb843fcc03713e6eb18e) (0x111491803a6cf1589e5b8254122e191e528f9194c635995b0f68f66d60e3d60e, 0x5788292ee4e8caacd86a6b4ef409c7b5e2ffd60780d838c033dd90fc5168eab) ((-0x1348f1884c6c648aa775ccd20daca51f74fe8ff8ed48b66f2aa2841d64945a5d), (-0x358afa74fed701cae503d9be302728a8e3fb6d2e3bb4750db7196af33fd1a6e)));
  OD (C (0x13e99d71591dd217c2982c2aa8ba35d27050b7610ab878879083b6048950cf3f, 0x2019bb5ca0f58918c64c81547d1e485110a5858850aadb53d9b5fe4a26f1f20) (0x1c27e4c7fc54aeb82d395506bd19b570622d2fa7c9050fb469321ea0077cbdde, 0x18a4d2249dc313f0c7945c4295e96cc2b1b0694160e63757d618fa7b1f7d50d0) (0x8825f2eaa454e90be294a161d9b8664442fd7ce220b4d959cad714eea1f17c9, 0x126b5a262ca6159d1a3879005b442885d4458d23be3b86063d2b6a4c12c65161) ((-0xab89d1c22909924b6479f23dad6a0895de43fc0ba3388039b57ead0bd2efcfaa), (-0x419ece8295c99c7595bc85d2ae4d046fce01b7cdb3ca13e1d048cd5b0ab0dbae)) (0x1a6af6b53848bbbc580e7240b15fd0ea4e97d1d0873ab77d87836fe346c9512, (-0x81c4db9518adc1b09e9e1bf0036d6f915a0ebb9767446c4a8e88178a3ae9b1f)) (0x7341ad75ea5a83ad80d354e6d154609871815fbcf8219c54cbe7848a538c5be, (-0x22001808a8257e7584525bd12d1f8f06ae1cea8e1e597e7e112abe58eb74418)));
  OD (C (0x1b156c4b811513e26c19d4c037a4805ca8e7e67ce910051ae7d73637bb60bbca, 0x2272ec1fb4db09ee0a3a9bc9ceeb94bf7dc5d69b5d0ade2d76f289237a609a29) (0x290e59874dcf7f9649649b44dcf7e6b1c4805d1eede9fe367299fb9baae30920, 0x1352735195ddbd0dfca2ea85c98313eff43ef5baaea16b0098e63394ff03a9ee) (0x2a70beadf0ecbdd826a4ca3739476c8e00aff3462bf28718435a9288f6acdf0, 0x2de273ba88d6cb718b9d06c9cfb77eb79602e094ff037df3d2b37c91d1cc908f) ((-0x354c66866e430d37b8311b972d51ca33bb0d97e0dd05edacdbab8bf1136311e6), 0x1c3204ead3cd5849f49d309c189ce5e95e736ef857bd9006b5167603984e8946) (0x268f751524ea33f6d2b4f594a6b541050a3e92963326adfaf02a26a8d4e89368, 0x95d817ced649267a33181cff5fb28bbcfd8a92ae5d0c21ee2782e1b1a3cc2e9) ((-0x634735c141ab7ec417044913d8b6f8c50aa648832a979860fa139a386cb04d1), 0xb02237655b4ac0f9bf061e3898e1334f2ca92207898c04485c09a9a66140bfa));
  OD (C (0x16874cb1c58c7086fb2c1f39d7fb3ac8893d6a4e23c9b3f5b9d2c0e6fb4400d1, 0x94f3e0a7161c251a91e10eae746f15da1cfd93cdf663755ed515c8eb70fb23c) (0x2a5f53d429987b6610df9e2fc79b38c4a4fc966a6384efed5ddd96d8147291a5, 0x1d415322832d783c8c1d358d5c615f8acbc893788d357e7e64168b139d2f2c1b) (0x198ab771cad9f64788fa71d5cd27ec27aa4281f333858aec901405668e79ec27, 0xc86fea8b4173c28b712981047778f4c4087e05968c4979dc6abfcbd77c8578d) ((-0x369d6e981d021c8be4976f1b81744dc285f0e1b00fa7935724d3ed668b2b806e), 0x608962a8c3011eb10528402ba4c9ef208462fa0e45aa281498f2d110ad5df5c4) (0x8ab01ed218c9029447bff214e438e8bccfd69b4452fa3798c459f199c642ad5, (-0x8b272482f243637ee77947d64e66837e203322983df7b1a27e8f6453f241338)) ((-0x4e0a58b3800e3257205535f485a80755c0dbb993b7f80642a193cf77f8fb600), (-0x14c50ee3b9c31e73f9c18fa851a0ee8832e9284978926b278efd6c64fe15cd5)));
  OD (C (0x1d63626d222293adc8514bec7aabb23d14915448d593cfe1a5011a276f9dae87, 0x1e3091985c27cb644f36b8f8dbebeeb155367e7816411c0e45c2adfe43af0a27) (0x1f63f6a2a1cf30dd5155df0b3f0525f761567e1143c0c4da19de9a900683ddd6, 0x25cd5c42496eb05669109c5146afbc5f7d4dfd41c36bbcda4050e2e2747f1568) (0xaaadca29fda7ba387578fad6314b1f8930b2cf46d8b4c145543335c33ad5f1d, 0x203736bccc3096d0855115488ada30ae1c5537d9131bfa53b9b6e3e66f50343d) ((-0x6a9cb06f76a9533bb45ce20c514b0e9a994c292265416fb044f6cc9e560c129e), 0x2adaaac058c998e13f51e1d1c7b5bad3c6e0c0b4031a90240c96d6291f60df0c) (0x24ab13beb8c7a1ac6368304fb68d6c90f92f3db95a3a0c66f14a3ee4b0e2c0ee, 0xfc9d34548e3ae62138f2ab8610276ff6699e66cd31b8118351c99747b6a6ce) (0x1a91c0878587d66ec000cd22a7ce7aba41a0ea86a04d74cfe28a7c3beca0e06, (-0xc005c8ea372de678d0bf26f672cc65eddf01f3f4b854c41d9770e973ef9dce2)));
  OD (C (0x9f284e031ecaf4192a06800c76f2a7e982f435d819d76599bd674c98d5ca8fe, 0x2e9ee676b92c633e1b102c1709ca93213caf3a459752e20c652dbc1a0a355b6a) (0x15121882696934b4bebcd57fd9fb744be8b9bc7ab36aac7daa8c9e2b5a63e919, 0x2e01a337c5d84303e7d8cb9511a77f289b84ccd62c1ea6a3f9beccd76b39aad1) (0x1cb68f72fa24490be7d10d07f18a7e2167fceb7bccaa4d350630caf4e1bcdfbb, 0x24bf8ae7f688fd2ecef485536207f8cf1f3f7fbd90b8be2aaa0bd7185f15a080) ((-0x7154470156cae8490d4335c93edcfdaf427f9d84ab5d5489ec0770da3edc80f0), 0x1e2f387b541e187afe57bfd5f849ba62f7a1b5403df30f41d66feefa00b929fc) (0x132aa2a282cec855c1d1d9d72ab32a4837f99c263768de06a89b680149b96f55, 0x2adea16327d26f34dac6cd3c11e2431f56077a04b6c99c3cbe2e414810bb7b49) (0x841727ab665dea8a5fe9a850dd5cec59dae002fddcdfa71743fa0819cc78be4, (-0xa06773ff1643fec1e145e97400e980d813c2821c6998e685393de40158ba3db)))].
Definition cert_g2_6 : list (op gfp2) := [
  OD (C (0xd3fee55d3691d3d8351be0706f5da8683d01498e3838a3c49d73f206ec4e013, 0x91551ba851331279fce0a446fca2f5dddb700c0f781c3b7f930f45466031c1d) (0x255a1634e1a254064ba9f8ae1534f30c1838e487a7bfac820ac99d045c3b89c, 0xe9f5681c77e69fb35f0d8c921b0d8d818a8e9bc44dde8e10275aacbd00c9077) (0x2a0ece86c46b2bbc3b94228c24910d72507782d93f034248ad2fc40c6b0cd02e, 0x223f14f206cc916a92d6879d3daa35c4ed558ff6f4974302f8e49f0e1ceca93e) ((-0x594a2a5a549de1963d535ce583f3856a1942aaaac591426268cb48e305d92228), (-0x699eafe190abe163296a859d5a9e267b134ac7895ed7885e8cee83f02e241f1e)) (0x4f9597e96fdea794529d547e7cac54dd50efef55b1390d4e099dde46fea5280, (-0x1ec3ecf62ba5ffabc77df0a0c710cd6050293969df29d1003048dbbfd2eaa7f)) (0xc1c1bf6b21bd1fe0a74fe66ac7622e1733202262bf95bfbeba52850073cd8a2, 0xc2c876cb76a0a7e40e9ad724bc67e051dbd1d4fe7950d3ed283d532ddbe7eb));
  OD (C (0x128046c48990ac6c2c6c0c7c17f351d062f0765e0eeb87e7db7e03c975c5afbc, 0x19f5445003a64f57e84c65e2331aa671b15b196ff8a02658ec86207456b025ec) (0x28bdb9982d63e520650d05ee777343b21e186ce1012c8be7213ffbc5e1ac6148, 0x2d177471dee2495462b35e35a082ed8042645f12c80d6e10066bd1ff01b4662) (0x2800babb803148cd44b686d4eef05dee659b298a8feb603454ed73af7c9425e3, 0xf5ac93e64e109ef92a58f68e34dbf038a0db030b7d476c71d710183ab14da26) (0x431311875ef46ed4fb77e41a1dbb1532686c41e8f0915a9a24f3143213ee88f8, (-0x855f6c7e177ac4f1d779d43e69927fff3a1d470fee90d6830c61efd341feb65)) (0x13d936e56efed67bf64f2d064fa14bebab592c049f37b4e8f8773dd1411ec6e0, 0x6d9da21aaa69a7c16e4974eb8f1ba7c04596ad2df147cc38fc0635db7917e50) ((-0x1016c2c37e314a7f1d9411d738dea27bf33bd19be5c5e968932e6702bad266a3), 0x1503f736f2ee9770386ab4af3e68e2b9bef24bd4d2d324c374bc45d614c62678));
  OD (C (0x16e004cb50c8146146886395f42e60f84c00a2d1bf5886329cb4d82995fc9bba, 0x19fc19818c4b186de108f96aec082c16601dc00dbe7690bbc9491441e379de6a) (0xecddd7c630ef8fd3d3c6a8b3544e6f27ccd8a6570ed6f73295c89b54799ea6b, 0x2bb260df238a3b7e7560365029daaf46acc496bf51ffd46e85fd8efca13615c4) (0x27a0a55f6207cc4ba271a72b5137987202fb1a6a9a733f491529504789ef14c0, 0x137e8033375e61da3deb8d99f5d15547028f97ffeba1c7416cd09f6476fc4e2b) (0x2b3da368ea888a92b600c5f74debdf8ea31885895ce7a2fb81604972c097658c, 0x5114089c7dd70ef57c611b99a07ecb46e3580999672345a2da5f755a9d79b5b0) (0x1890f756a27a3b389efa1345f0ef5f948f94ea5cb201bf552d6bace69049890b, 0x323c7b4a5e491b955963b5405411ed0cb6f73502c12c26c730aaf312153ac08) ((-0x56570e5be1d999631f76a726bd85eb989f8ad0fb0ac590415507d06cd759383), (-0x2235ffeaa7f8fac5c1b64819336abd87d836949141c47c9cc00ff9d672531d51)));
  OD (C (0x159ce5737787bcd5785a7e3df27376b679fe598158f548d66e232507e016c481, 0x29f691913f9ccd9d3206f552d5d29d5c6b294a90e747a4eeb231dc48f9b66369) (0x2f1a5de2393052dc1291fff68f08f526dfe5ceb154dd5d8a74289fdc18475666, 0xb101bb6664b99574ff329742168401b99abc97ebc1cb4f036576b5018bf0a52) (0xe79b6a1d40ec220fb59d29417ac53936775094459443cd3fe291476ac2a9bc8, 0x1b766159ddc0c60dcc3814580f432addf7e8f25dc99ef2c6525cd3601c0f3c91) (0x5eeabc77c287d1ee31b5e2f1706595bed8f197a8ff32b3bbcb9d6733c1d9542, (-0x6a5f8f42e4e10d8b0e3944ec57a8b9cb4b3da126746af30353a5bdbe260ad949)) (0x257bbedb6e292bac0e2c04d8f13da9496fb0adc8dc0e756f65086aa5650f81ba, 0x1abc583ca1da27f15a7ba395bdaae9b5e84fa7c104573dac701562245a8b8f1a) ((-0xd6edbd1af0be2e3dfb5d1f363541d764ad5b820130f9a63cf483a411b2f092f), 0x2ab956438ed964675acb47fe2e5f4db2898b377a23d6e5840e941779aaaf75f7));
  OD (C (0x264201a7cfb2fbf309d583a2256269274993393087effa93805bf2b11077d45b, 0x2eeb613edf607e7ff3681be44c8796514e84c7c29171c993e0148d2522a33180) (0x294835b7a602d3effa0fa47bfcad4791e4c0a0312580fe01fd68cd1e051e675, 0x32c9cf6109f23ba0d27a76aa688f3329d47419720f5ceae5a5a9168dbea3c6c) (0x1385d281bdfb808382b54c3247c50022e526e712dfabe3d4c5062984b2bbb71d, 0x916282434d860e3007f4c415348195a74eef6e1bcc3993c8c1d27c663c036c7) (0x6e211812fca5651a080cdf88887a56d4143890c494f75934ee6bc5b219f9b82, 0xa052df7a6b619e8fc868ba3a311458c7a319c210ccf79c9f46c5e7f40691aa90) (0x4a3007324159aec893f7a819600b776558a76e18075c1976a7b5e1e1d590b7c9, 0xf3eede388cd9e0db5aacbf0dc4d52e688300155c075bc10cc9cf71c0cfc8431) (0x3167a50832efc4886e1bd703bc94b9ea517ddf31682bf9646ec8ad24a6aa703b, (-0x1b8ceb69484f17b3aba03afedb6893bb21822eba6c9520558a54816ccc57b465)));
  OD (C (0x8fa4185b4c4f0c4ecb8f40bd7c04f8b47ae451cbc020e9b04f111881a579434, 0x1158c2ceaa4b0450f2c9afa734b3a8e06aa7579b813a4bc5c13bdeda0cbd8144) (0x30517dc2f497f79fe2c1095a687f7a32dd0da86d5ecaca5760dc35d265f217ac, 0x133ad023d629a83e15e31196aa4e1df771eabd2dc977f30412207d6b3c726f20) (0x1743d8b49fab848d17382eb5d5981c2ac43fcbc9a5c1adb4460d0d2322aae4d5, 0x2b688d4478179b85d87059868867fbc28866ddc60a2d3c34edeb4e67744b75ad) (0x105a35370c5942786d64eb1c683ca702e1281540f11ba9d009d8565f61dee128, (-0xf0f26a9aefafad851d9485e6cdde79c5b87ef1dac3e980156dd8537b80db83)) (0x66faf06f7f475f09e18654ddab047a085728deff7223c906d2246cf860465a6, 0x48d7bffdaa2fe000a4c3fd1d2563ca82b211f6a8824adb28542686ad6cbe038) ((-0x135fc356f72c8e2295648bc81ca5e8f45cdfceca00ed9cbc2b0604a1d6c983f2), 0x2badeab6eb564c3ff38edf95cfd9622acbe6e754bd3f9d83fb5df4f99fa49d8));
  OD (C (0xf060e405767856e48e847400d4216e8918cfe946fcadca5b71d2a7f0c29d1ea, 0x247ea00710ee0a75bbc93acd452f38e6dab7b86f1979a737c2df5b116c86e14e) (0x2d316417986ed9a9464aff31af645ae446e0d693dc1178bc765cdc834db4524e, 0x29fe86d68aaf8780d1225ba650f0a7b7118791d07e1024cd9066ad7cd38503a0) (0x28f905f48afb890573d16e378ccc380be9ca8088b94a399f936b2dcb1b8f561d, 0x1dcebbf583d479bb2f91423ffe2a061eb343fe82563553ce2b305f7077c93b95) ((-0x3528db5d706f53d3fbd7a3049312395058c47849614b3a4df827de89fb85dd90), 0xacd67090117c26deedfa427176e33a95086dffb2ed49983a93ad9bed25534f88) (0x16a8fee6e558f7cc476511e1f41c8ead98329f8510e2de7a42623154b1454c7e, 0x16dbb00942b71740b0466d0b616caef959707fe2d1ffa32ad417d54c8f7c5800) ((-0x4b5de74a841904887a902d79cfb9c98979ae1713cd290333e89d7c86fd2bd42), (-0x12235c511ed46ce57974c5f3bc2cc549c95f015d3a87e8f3ca50fc46f85fd762)));
  OD (C (0x2d95a969cc94dfad0c95a042e13084c6ff8272e4f13483a47668359a580225cd, 0x23f20ad65ab97b4e09080eaeef1623e245bb6e8a3536388a6d75551dad2fabc8) (0xac215ffbd06a80e16c6285483de76d2f5b22c9e5717e3d2e54ecbb3aec9a6ae, 0x1d136811f795c8096d8d8f1a653dfc80c7ebdea0b767fcaa542831b21bef3d92) (0x13e196295340392192f0519b0beaa812b5512fbf6c64ad1841d605f48210e206, 0x2d835fd1589d379cbd32ed1111326bab253fec8915d555e689d16107c38beb10) ((-0x764897295dee77d43d66d454829a4c43be5785daf719fdca9ea8ee104f40c402), (-0xf9edbaba6c6310aebd77c36f3552ec739b60935dc4337f5818ffd6197971dfa)) (0x43b877161b28d242b468ae0c6e8364020a9f56b48bbf8e9b2760a21c301b6fca, (-0x103d6c22a2eb9410b24bf6c21931aea13d4a83c746c4371d4eeec506ea53fced)) (0x25bf49f63b19f1e0bbff5007ebffd3dfa5f2d02182bbfe39b69930f2803460d5, (-0x16d76618b618d3a481760f533a4190c33de1ceb5362caf7c68c3a44a051b8f03)));
  OD (C (0x21cb69be543e9297bcdbac8c7e6567601c460eb973f4f1b5c1a91686a21cc0dd, 0x2e47fd2b111c02d3049f3f0db6ee05b93d1a157a0fa41d52b425d1a027f1d0ed) (0x2572d95f04ea0f91ebbc95c2667bfa3da5b0bb98d3aa0e0f6fd6f0f478ecec55, 0x2cc9c0070ae152980a54379ec718331ef0f4dc4259e1a7cbc914828a41dfb5d9) (0x2689698157743dfd75003570a926955c2ef564bfab5fdaf5b64fc346675f4515, 0x1493e60c55d061c97d46348a0502f5129ba78e96a93957381db5622f188a8edf) (0x3ed024c4c4055eb74497f06231d96c8694b44a4891ea5a2fd0fd08973673160c, 0xe0da14252fedac6dac867fefabfbf9d9de4f9075de5d18cdba93d252997dd9c) (0x40a429471cbc108ad1a36008c9cc9de9740dee337408e0404cf6a3ceb17d60f7, 0x14a97ee7c1a2ebdb68c8ecb3de38ee976793fb7e3340a65859325bbda4c23cc5) ((-0x247fc48bcef34825e59fa921c237c50f516c642f34e7ee27f5183196165af477), 0x39cc5f2f8ec37d59bcf438c87f8146306230d44a947a3b5c26a237181c592f7));
  OD (C (0x1dea92b67bea32b3c1bd93b4e0810be7bf342852c5e77138091573fa79f5c427, 0x1d132aeacf106886b75028491cc314e703e04f89fab720ed4275781d4a794a6d) (0x200641f13e4e54a51cc12d8a4ba3d42b01f6771e1f5bd4f2d3d0e5aba58b69a8, 0x1de718b59053561623d42a2898fc865419f8a14551408ea82dafbaac22f7b555) (0x2f3b9789cf268c2fed2ceb78f7214132746d9fe4ce05066a986e4734a25e459, 0x18661ea494abe31aaaffa0858d15dcdac5d7f8ebd5ce30a5adf63b62dce86181) ((-0x8835746aa3df76571ad0457fdf69279f557b04403d6f0a3ea991e0837d244ab6), (-0x3c569f95a4543c128aa66a7c2b019df53590a1e4f89544f39d1c8c1881319f18)) (0x23f2e10f95c9a2215a0d71ee1303b83e3311059ce53b9934408d00c6fd0577fc, (-0x106960bc37634a76c622a959bd25723075d734084ad14d3cfc157559ebb5a79)) (0xc76147a58fe230227129e030781a52ece939792f0161c2ebbff8bdcb82b8c71, 0x597156f96a9eb3f51d8ccb576acdcd0910f484c62ed7bcda5747436b5f8c93f));
  OD (C (0x1039ed82f709a8e4ffa0ad5faccbe42ccdcddb60cee6bc0511aba58fee08f113, 0x2425fe2eed6371fcd1857d59f210c351857b977fc93a2ce80d5a891f5340fb84) (0x26ec22fa914c5e852b2491ab2f4eb358c613bb8e9e11af7c3b238761b0e0b755, 0x19df46ec05d1c58875ff353d9dfac95545327c31ebf65578a2b13f6e800483fc) (0x29975d4374ff6642633d431013b2717c214155daae1d121c8e61b304c0054837, 0x1b81c34da20b28013b29819c951ffee1159bdd25b04853e6a7c0b772b5c60d58) ((-0x61f5d61420d42c711257171f0f8ee25b5dea4b47ef21a293e5f32f6d6effcb2e), 0x2a9e1493699adac6cce78d69744e6870e7ddfebfd12a5a563018cef6728afc61) (0x183deb78de683c568f9fed13eb515c882ddaaeded35a0b7f44ceab2c6931a2f5, 0x158fd2e42ea82423088ddb33daccf9133abcac0b318f6ea3fde85047c2c60677) ((-0x3cd1f21217b32ee7448ef81a5a3c291f554296fc9401a2460feac40c65b790f), 0x552e177e415fcce215b6f7b8b02188c348e7b6d80463a61e362ff757a920b0e));
  OD (C (0x2562f9c5312d5d1f6c1ae38ec9d3bf8bc78fa3d9c299bc99c727eba89ef01a71, 0x4e2c694cb9291f64401d0cfdd49b1f3dee68439ecbacc401e715dd935dde705) (0x198e9393920d483a7260bfb731fb5d25f1aa493335a9e71297e485b7aef312c2, 0x1800deef121f1e76426a00665e5c4479674322d4f75edadd46debd5cd992f6ed) (0x275dc4a288d1afb3cbb1ac09187524c7db36395df7be3b99e673b13a075a65ec, 0x1d9befcd05a5323e6da4d435f3b617cdb3af83285c2df711ef39c01571827f9d) ((-0x49f4a5359df0574efa3eeb72cf2df89f34cc5ae81ce20727395db42351bc233e), (-0x64a2cb5cf278dd95fa69d1c11daa7128b6ba97f3a56b65b38118f1c15c4cfc5)) (0x78ca6f6bd02301832f722c836a85d2622c5261fa458b7dd12568253d3212a12, (-0x1c641318a429d25e5e305f23d0ab957f224a6e77172e3aa7ac1b1ddb4f11ae6b)) (0x2cb101af4f91a09b3a48c4385ca0905f1f0652f1d3cf113b7d27396e3936f4d, (-0xa2321c97120539b7fa3ce80f22c1e6d230ff82c77bf986a85f7ec10fb61308b)))].
Definition cert_g2 : list (op gfp2) := cert_g2_0 ++ cert_g2_1 ++ cert_g2_2 ++ cert_g2_3 ++ cert_g2_4 ++ cert_g2_5 ++ cert_g2_6.

Definition neg2 (a : gfp2) : gfp2 := (P - fst a, P - snd a).
Lemma cert_g2_ok : run gfp2 dbl2 add2 cert_g2 (1%N, (tx twistGen, ty twistGen)) [(1%N, (tx twistGen, ty twistGen))]
  = Some (Z.to_N (Order - 1), (tx twistGen, neg2 (ty twistGen))).
Proof. vm_cast_no_check (@eq_refl (option (entry gfp2)) (Some (Z.to_N (Order - 1), (tx twistGen, neg2 (ty twistGen))))). Qed.
