(** Certificate for the Miller loop of the generators, in affine coordinates.
    The numbers are hints: whatever they are, the checker of NdCheck accepts only what is so. *)
Require Import ZArith NArith List Bool Verif.FqModel Verif.CurveModel Verif.HexNum Verif.PolyCheck Verif.NdCheck.
Import ListNotations.
Open Scope num_scope.

Definition x1 : poly := [Nil; Nil; 0x23f336fd559fb538d6949f86240cb7f7ddcda4df1e9eaff81c78c659ed78407e; Nil; Nil; Nil; Nil; Nil; 0x198e9393920d483a7260bfb731fb5d25f1aa493335a9e71297e485b7aef312c2].
Definition y1 : poly := [Nil; Nil; Nil; 0x2256233882903a1969b895d4df602107743001bce6d76207c214326bbdbd2605; Nil; Nil; Nil; Nil; Nil; 0x90689d0585ff075ec9e99ad690c3395bc4b313370b38ef355acdadcd122975b].
Definition z1 : poly := [Nil; Nil; Nil; 0xe0e2b3a5ea166104e97afe1a2213756235168d4819a68857a0c59ab1abfd742; Nil; Nil; Nil; Nil; Nil; 0x275dc4a288d1afb3cbb1ac09187524c7db36395df7be3b99e673b13a075a65ec].
Definition xN : poly := [Nil; Nil; 0x1ca9b2fa00f2034b3d7016f8e4e54e78c0ccaf6f8c93b6d53c75735fa53ef1eb; Nil; Nil; Nil; Nil; Nil; 0x23e495b6ed1e4336654c1a4d84442d4fa9534745940a263770d4db3700e61c2d].
Definition yN : poly := [Nil; Nil; Nil; 0x7166776f9b92f35b3fe07bb531859c62943fcb9a5bde57ea358cab8203686fa; Nil; Nil; Nil; Nil; Nil; 0x1c4bea2e7fa4b0b2562d5f25e17e153c88a7ba2ae0135870827446f9cdf5554f].
Definition fN : poly := [0x2de704b4804a9627da3776c8b1e9dce8f47a2d1ad781dad0fc20adbaa1bd24dd; 0x635d87cd83445c20395cb198f6948ca527df380ee3bd2b0965468df7fc04e80; 0x105f77ad907642304ce1e57c2bd8c5e2e68545c0c33877b9c9559f737009cefa; 0xcff39c5dab70a0d5c51a586c442d1b2cca6b07718ea3acb53c47d855d581106; 0x132eb05a80980e4e4ef87038ea6c56f09059d455a3ee2dcbfd6efe315a01824; 0x24485b67b548504a9131f650ab37b754c152f41377c1a3f7a1e9ac00e5a122ab; 0x1206fb852e10a72d88364d5734c2c276db9ce33a613259cc3e997f996cfbc953; 0x18f7879136c61ddbce209d77d6189bdd8a8260aecbb9bcc5dcd1e35312a1299a; 0x21b485b142f60d2e8ed6900ad280938ee04ed9e1dad2e37ec278d3a871cf9537; 0x669fd1134b113649c198f6d97fb24f0217a65ca2f143bd95965f909de20a8cd; 0x1f209a0b46e749ade3893523d0d7e6b0689fec35916b368f6a624da18540e618; 0x2f5c4cb91612a962462f1b1916fe11d0f4179c8d200f05367ec95017639bfad5].
Definition steps : list step := [
St (0)%Z [Nil; 0x10666700616f7d7bcc92fabec9dfb8100cf55fd1c0e0f1c2e4e9be83244fc3bb; Nil; Nil; Nil; Nil; Nil; 0x124077e14a7d826a707c3ec1809ae9bafafa05dd6b4ba735fba44e801d415637] [0x2; 0x1ffde7727fc222adebbd4af7b7a1a04d8a8c0abfa790d8ca5736cd93b42d398c; Nil; 0x303b2e901a445d03b169526480af763645c6c842e2e8a4748f39382374d3f63; Nil; Nil; Nil; 0x1e23d69196b41dbf47d406f500e66ea29c8764b3fd262357407c3d96bb3ba710; Nil; 0x2b17c2b12c26fdd0e3520b9dfa601ead6f0bf9cd98c81278efe1e96b86397652] [Nil; Nil; 0x2807259ae7bd1fedaf43cbf47739b2524ee9cd781eb708944ea401a473348a22; Nil; Nil; Nil; Nil; Nil; 0x203e205db4f19b37b60121b83a7333706db86431c6d835849957ed8c3928ad79] [Nil; Nil; Nil; 0x125dfc2389e068e436c5a6f8c78f28565cfca6612b11258f3adf74ac770f63af; Nil; Nil; Nil; Nil; Nil; 0x195e8aa5b7827463722b8c153931579d3505566b4edf48d498e185f0509de152] [0x1] [0x2; 0x1ffde7727fc222adebbd4af7b7a1a04d8a8c0abfa790d8ca5736cd93b42d398c; Nil; 0x303b2e901a445d03b169526480af763645c6c842e2e8a4748f39382374d3f63; Nil; Nil; Nil; 0x1e23d69196b41dbf47d406f500e66ea29c8764b3fd262357407c3d96bb3ba710; Nil; 0x2b17c2b12c26fdd0e3520b9dfa601ead6f0bf9cd98c81278efe1e96b86397652]
  ([Nil; Nil; Nil; Nil; 0xa913308b63a37faac581985c0fcbf720be17a1b801f1e80e844bf10d50c7d020a], [Nil; Nil; Nil; Nil; Nil; Nil; Nil; Nil; Nil; Nil; 0x2b0337e6e2dd53d8c829793bb70f85deb28b0aaf41c141a28ba4cbeae8b29da8c]) ([Nil; Nil; 0x22eee12ca7954a72e4fb48eeb9569558c5bd91637ebbb6694cd10304110652251], [Nil; Nil; Nil; Nil; Nil; Nil; Nil; Nil; 0x884878cc7026972cc35ea2ad72eaee85a17f42f425948d93605f8457cc8002f9]) ([Nil; Nil; Nil; Nil; Nil; Nil; Nil; Nil; Nil; 0x31318667ad3b52f2c18fd17958cec125542d146db13718ccd8e88946b5c55a78], [Nil; Nil; Nil; 0xcd64980cd37a746c7db3236d448c557be4a8706cbb0abe60173815b295cafdfe]) ([Nil; 0x1; Nil; 0x30a3c2c08ad69ffea9c789cf26a62a00038456e2a7fc170532888e5c3fc139f16; Nil; Nil; Nil; 0x1], [Nil; Nil; Nil; Nil; Nil; Nil; Nil; Nil; Nil; 0xc3ba1a52d4e7bde26f0ecaed3b8fe50d5da24215a97a206076ef058315508771]) ([], []) ([], []);
St (0)%Z [Nil; 0x29e57233120e25b5c5d3a51b4ab2f1d1975d613304bca534879cbaab34b117a; Nil; Nil; Nil; Nil; Nil; 0x2ea6893199ba1c165271f9cccf0de11f968c39ce48b1964880b76c0c669810c] [0x2; 0x2dc5f74fb010bdce5bf30b64ccd629407e0b947e38260039f3a6c06c2531ebcd; Nil; 0x270ca0a8327f1b87bfb050aaa6bc68c68b7469424a3fcdf81dee1d93564fb888; Nil; Nil; Nil; 0x2d79e5dfc795fe6853292619b4907a4b9e18a6f483e6b128b415155612137c3b; Nil; 0x199c21f61f3da230115fd06364b319e101c7c5d43d9f9bb0d59e60a2c0773aba] [Nil; Nil; 0xb62569806bb3ee919271c7216289b2c13b4bc33cdbae19fee13d5a65ea79036; Nil; Nil; Nil; Nil; Nil; 0x290668479e567ad5a2485a93f976d784206f66f690a18c3f5a6d85c29571236f] [Nil; Nil; Nil; 0x97ac87c7ea6011730453d5f671951eae1dbe52a274d177502456d2349be39b4; Nil; Nil; Nil; Nil; Nil; 0x1e74a4bf519c267a5b16431b2413b00402d4d3b670c9414b8efff5bee661a8f6] [0xa39dd8f4999cd3d3dc1126a70d135eb28f5d1181ad3cbd249b130b119291b81; 0x1f2f00e43ca54a643e54a071db83d07afb2d55dbcd5fce0ee49a1e211fbaeba2; 0xf24f6afd0994a0bebcc7f93bc507186db8242138b10d36a0f54762a9d2b1090; 0xc0ecba406911740ec5a5499202bdd8d9171b210b8ba291d23ce4e08dd34fd8c; 0x21b52584f1362337ebb646d376367d8138303648d28451604283b288061ffd54; Nil; 0x13d1a2aadec92134a2c6094baf1a565067cc5d8038a71471723082e3b8c46742; 0x17c6bd60986d36a9aeaf9067009709cf431abdad23b4f84289afde2d3bf4a1b2; 0x22f6f911f7da8b82e2725b701ce8955eb98b8c06c9ba391c8d006ce4be91d5b6; 0x1b321f6c0d0716c664575d5464fc719cf5aba78229caea3c0b2601698f6ee173; 0x5f81f90a09b904a4b4b5576bc432390c3f2b6cd6c2e32918a02ad796ed89ecd] [0x1ba8e09cdf09fad3713806141490f250d8838ed89fd3fca20a5c1407a574c7c2; 0x1f83ad7850fec8ca3e1c7bc77589e5583e66070621bfe3fb1bd1d75c6e1d25b9; 0x173a7a337e943587fc2cb27aa163f97aa006adbc59f25cee0c4d05b8d8938aa6; 0x2bedeff478516da9318e8d086b6fbe2b9c9a5fecc3ef363e12280826c7ce3c49; 0x8d65570a6bbf0727bef2a6df1b2c196a67657cf4c30364ceb9a23bdc583f162; 0xca1ad1d9d46dda3f25a343e25283a72ab612fbf7c84196fd71336bcdf2d7cb4; 0x13121629f3d95091b5be71d5971eed7e4a67e3e670bf8ae44fae22520f16f613; 0x16de72d8a487ada329b2d4f6d18701b9b7310beab54bc2f170e8c2026c6c7743; 0xa012af29dad693e8d2b93693766e7f9bbc1f015768d8b9fd85158c85d26f234; 0x18ad2393bbb23a313a12a2e1896ce540bb8274f5f31da0d23ebafdc9e011c618; 0x1c00fe1df669e9efe387f686ae832c86b28e9281469996d113c15c003619c223; 0xe35163cd85731bef366da04b353454840c320a3faf1c68a9bbe86aafba39e61]
  ([Nil; Nil; Nil; Nil; 0x1348be12129ce2ec17071f137fec9c2a5bbde36bee399e7f538005d0d0c30ad55a], [Nil; Nil; Nil; Nil; Nil; Nil; Nil; Nil; Nil; Nil; 0x4ec1a88522bf90da44f6e2c2fcb7095fffedc3e6dad90dcd72f44db3c107e0c9e]) ([Nil; Nil; 0xe436c45c143df0173cdf1a288b53249f23472bb19a5b3ca46e0136beeda6ada], [Nil; Nil; Nil; Nil; Nil; Nil; Nil; Nil; 0x37a4585b5463a107c0a4899e82417fa3a98c6f3d15af44bf17fa22a971eced9]) ([Nil; Nil; Nil; Nil; Nil; Nil; Nil; Nil; Nil; 0x8462661439b9eb540fb19af35c33a47898d4dce2eb775bb720dfa8335cfe9dc], [Nil; Nil; Nil; 0x2cf09c053e30027a99a2ed40861f3238dd1205201030677816129aec90678ab3]) ([Nil; 0x1; Nil; 0x9d21be31baaefb14af902fd736f1b19ab88c171ca07c1abf7afb2272b859e78d; Nil; Nil; Nil; 0x1], [Nil; Nil; Nil; Nil; Nil; Nil; Nil; Nil; Nil; 0x271fcb6d6d5247ce09d9d41be8200cba1171e67912c08e68fe9c29b6f45df842]) ([0xdef858d74bd639885131fa20416b411dbebacb2f8794d99029c1a7b7a97efb4133; Nil; 0x5ee2ae6d0c47fc3292aa85f31bfd7ff809d8acc04bd07423567edb66f1ab59200; Nil; 0x112db567428edb5036047b009b6266123b24f513895d1da7c6fd59a27986e26614], [Nil; 0x2; Nil; Nil; Nil; Nil; 0x24a758dfe5bee89b2a1cfb989b281dbd2ee60b6d44d065906835d86337f9b3ed61; 0x2; 0x179c000543686c3aade0cceb8e647b3f41c93f7cedf7bab12eeb3521615f178e6; 0x3; 0x402f535f8d662cca2d3c86da37c697c176919d1de51032c40558872ece533b1a5]) ([0x5c0e2c7d8188aa3543ecf0699b2eeee404e98e8e42a2aab1db6b904d55aea63128; 0x1f660be49222e75420eccf6d35064f9044fea177ff235e4919f44ee8d5fcb2f484; 0x70ab18f52413d662daa7ef62ed23656387656e5a6a2045f695a7bf4171607d988; 0xdcbd88a814dc1502adb5a3869828b6787caae582df1875c853bd82fe6aa452f53; 0xc12eba5415d2260f856720b5d22bd6795a7b9d347f04eb95dfa84e6e731c945f8; 0x78d35f619b37dc177d93f3bd6d5fbdb4a6f42aeae6ea6326e9efaab052327cafa], [Nil; Nil; Nil; Nil; Nil; Nil; 0xfa29aa16051f11b1274752dd32a244c7dc8692f7644f4db4d96356d6170e6176b; 0x61b1692459295eddbabc885b8d23d5d3b1ba724db3e6cd6adce15bc0d5f81800a; 0x1c5fb883088196d063f09f81f3e42ce2fc881067fc117d221e257aeae15a24c5c; 0x350f2c28dc75e3a7deb1272f77685e66ad409b55bae3860f7b821ce90092e5bbe; 0x2f7443e013ccc1b01f4df9e34b71eeff57f9dbb813f0e798ce0bb0af56c222570; 0x1fb98cbe0ad5f37d991a1eaa44663f456f6c0b3448f7f44bf841f62051a5ea716]);
St (-1)%Z [Nil; 0x6b23531c8aa769f21b869aac3dc75bb1cc1fad34c5153628d59b43a49ff083e; Nil; Nil; Nil; Nil; Nil; 0x23d3391cb0b7f180a6da5c6fe264e9d5e1cdd3dee7dd391964e76b262a71a7a2] [0x2; 0x29b219411887298a9697dc0bbda4e2a27abf6fbe1c20772aaec6d7dc8e7df509; Nil; 0x20eaa9d69f570ae3a0891ee52dc1d3be2a9ef427b783327647b39df3eaace8aa; Nil; Nil; Nil; 0xc9115563079aea91175e9469f1c6e87b5b396b280949173d73920f0ae0b55a5; Nil; 0x4434f03dc4138a5019e931a8b4dade5849238de6cb574c984d10027f5baefc9] [Nil; Nil; 0x67b0926dbad9db76cf7d91219c76e2db7ddc67a3db217c1b1abd5802108dd1d; Nil; Nil; Nil; Nil; Nil; 0x1014772f57bb9742735191cd5dcfe4ebbc04156b6878a0a7c9824f32ffb66e85] [Nil; Nil; Nil; 0x22e32ee3d607b0959beb72787eb6f4bb37039a5a1633bbd932a1b85386b9b39c; Nil; Nil; Nil; Nil; Nil; 0x21e2335f3354bb7922ffcc2f38d3323dd9453ac49b55441452aeaca147711b2] [] [0x2d4d5abd5d72e3229398e43ec260b6074eab83f06555930b13deb98dfe11ee46; 0x8f1052413370d3f683e3858f57ffc8cad995f65a9e92b7c423709418a69c356; 0x1c6091780d6ccede70864288fae7b7855e670591e446fb119a0dbfabc02f0826; 0x16375242e2a5f6f4b7c9b3e579a30295c2ddbc617ff7b994549f66797e6d9f69; 0xd5d1881ff30b565b828165cceaa9f98bb3bf187e89c3d124cb16782037c0a25; 0xe7655fd6c8397dc24ad21b1d63f5c9e0a50e1cbe1461334b8280ac26cbfcaeb; 0x2a5d5e224f1009510f3140aa250bad8b55f7ab129808a4042c2f392504b4acdc; 0x29757bf7ab1ca2285ab4699adf6d970ef33035f8d36d803461b2f18fd1fef356; 0x2968c9ba9ef2af1ccd53018659927739f4179f2ab27f6360a0951b69d5fa2346; 0x2bab615d30402ba13cd6136eb9542b2c306b5146018d067e0daf936254848025; 0xf22499b1718923c33f20ff241de904efe12f09133d96b2c83c06b96d5fc0f54; 0x15c7a7f534018c6441b554f594716271a4dc31e87b313356a7696ada7b68a71a]
  ([Nil; Nil; Nil; 0x3ae6659820732c4da78c5817f48ba7637d1b2431bc56a2871e21a6841a6c6405a], [Nil; Nil; Nil; Nil; Nil; Nil; Nil; Nil; Nil; 0xbe13728744f65595351a9827fc6264794022ddf6dfa4c1833ec63e398da35f20]) ([Nil; Nil; 0x87ddbeea67e0975935c0710f60c7f9a2d1d8425758ddc304a2da16d56f244e0c3], [Nil; Nil; Nil; Nil; Nil; Nil; Nil; Nil; 0x1e74e7248e210d52aeddb8327416bbfc98e68ed3d7d82f5e11a75ecec85e869a6]) ([Nil; Nil; Nil; 0x5e9a118ea646f6753bc697da83c341764d7ed3688f959566f4104a6d8a7c24006], [Nil; Nil; Nil; Nil; Nil; Nil; Nil; Nil; Nil; 0x1537daba772deb789d7202c6806c770502b70767b9afb3932367a5ae2d023f4d2]) ([Nil; 0x1; Nil; 0x9b8e0483fd7716e6a5736fdf00704a272f244f04c65571df9b86fceb19bdd4eaa; Nil; Nil; Nil; 0x1], [Nil; Nil; Nil; Nil; Nil; Nil; Nil; Nil; Nil; 0x230c9fd81f9bc774e55ae6bf6711bdc3e791559f59cdd1615e64ed2e13f9b257d]) ([], []) ([0x2d64a580935bfa0fe6738648f910c672d44da5bf1552e7b9ee3df20a1dfc69a0be; 0x16113ec595ae5c271447f04cc672c15af7719977d2c86e9a65c37c56e9a4c436d4; 0xc76cfb95ac79242c652c0394a8ddf54be5a455dffb9f71e85b7de0f696b39e7a1; 0x137f825b14dd6e91f2764661ebd36c405103ffdf111709c955c673a8e46288bed; 0x2775f9464d0fc20f51c8a709dc8ce576dc9ae644ba9763872f2af91e3034e8494; 0x2852d81daccd35765410ab27f80f89fb9101dc5510257a67ec07cbfe20c0a609d], [Nil; Nil; Nil; Nil; Nil; Nil; 0x83eda101bb9b038d6fbe0e7c62ee71a67d1055a659b39d6f0549c6f79ae9042d2; 0x430a60f88246121045b4560aa1fbb01d9f0ad147d95992ee99239c4a2e2437c0b; 0x2803c55d77711f61f9a0497836793859f2eeba5c7651a44e84007e3db185adde2; 0x6b10bf395fe39e27d2e190ee048c03644b6ba33b79f89d8d062cf2469385ae0d; 0xca9c27862fd2c5e1d56c352aa4608e0b25539023bc105a2d046042a5b61435b4; 0xb60a1936c34d054298edd38232a859c5b65a3df0ab6091193de1a423f301b797]);
St (0)%Z [Nil; 0x18f25e2d5e90cdce6a44ef4a3453f0c8fe0fd7be51d5e6e50ede979bacc2c37e; Nil; Nil; Nil; Nil; Nil; 0x94ff1987d19b62ccd852893796296e4d1ed330f67a6a9e31f6975b220642ea] [0x2; 0x1771f04582a0d25b4e0b566c4d2d6794997192d3169be3a82d41f47b2bba39c9; Nil; 0x13b3ffc371888ba36c40c9e01f791e5b364d1c13d2a17d04f21444b46193732b; Nil; Nil; Nil; 0x2fcf4f59596004c6eb77f32d49eb2eef4a62976071f75fef0a29f4bbb676ba5d; Nil; 0x12f0a1f8cf564067ae9afc57944748b835cbda0f2ddc73389dd9a9e34168d8a9] [Nil; Nil; 0x12d7206297145f55247f06dbf5dab4e54ee39efa2faae4bf611bf975a3645d5b; Nil; Nil; Nil; Nil; Nil; 0x1b4b60273ae700a7e2ffc04e19e316074a5977c8da56b75675927e2eee23772e] [Nil; Nil; Nil; 0x48c6903cd45310207bbd9ad0ae837e5a35e3567d1a095e237f4953ce7291751; Nil; Nil; Nil; Nil; Nil; 0x1e7cf2fd8b4bc0d81e4719f009a5ecb7d925c970bc57889f3627d86629dc31d8] [0x24bf5834e1e3009d9287349119d31c4db82ef96c7cccfba0fb4bef9f6bcab431; 0x226aec7e8b7ce1997bde140e07ebf63c9b9468560f7b9dea09448eb8cc1b2dd9; 0x1d3672c2bfd0b84df019cb05685da0a4303a4ea5c4afcdf0691b69566866eec5; 0x2e898b5a44583ec16307c973c0af2c2f9eab4979efc2b8d08ed188cb3f4f21b4; 0x18f8f7d8d3bffb73c7945d5937540d2bf7a43942043e98500c856aa5b2233d30; 0xbc04963ee1d906f8661e4bf003fc9aa0e99b91ff08afa7a82429f5b4740a421; 0xdc44640a3a4a72b145905365e2307486f1538bb430c27951154b5bd53b97ac3; 0x21c57c0169ac57ce8833ef2bde9be3e10fa1e2d1cc4a71088192ae1c95563411; 0x1074ebb276b430a4b1de808b9601fd19e32d42b7965b6c84e26042bdacc5166; 0x2ddb25568ddfb7c24fa03bded9ef3c5b99ba18ca1ef4da6ab9cb53b3013305ee; 0x26263387ef71eaa4bd9ad9859f3c0a814c4d7faa8e99a6aea8e48c73517fa7d; 0x1c66ac8eca80bdef97ddd963466725a23ff19d29ed5bb9bf81bb337e9f2feb84] [0x7890b89eb26ca9f0f44117fdc220e695497cf5c7b92c7df457683ebfd6ec3dc; 0x436bac50be4c2131ad04d0bf85c1b12e4a609a61fd7a3be91ac287ada3e9382; 0x1a4d8b1e3777b3c28b2e98a71a51c06704f630345e1377ce32ff97dce3bb471c; 0x27208e12e53c2ec6be127134a6397cd6a5bc0e22ba3e6355788e8f229fcb5e22; 0x16a0af39264ca80d5258eff844e3db0b7f4d71e22aa736dee2d62f60d6832d6f; 0x2f4eac452bde72ab3a3a7990d4ff2bd14a33204a5ed37e26f40c34360eae6a23; 0x19fd1f4382601ef1ebbb25c94270bc6e9513528311b32e380c4fd1f6513ebf9d; 0x28e6919742e327b734baf9febdc554cdf45e0daa6c1bcab9d739d0b4e5eb10fc; 0x1489d64b436000e5358f917177ee2513615ca6bbacc4d073636b910984d6d816; 0x141169a63084fb2773b339422d124b18e1b8ab5d48dd3918e6388042c9031e8f; 0x10d76bba96433af364e5ff94dd90f78adca89db21a89cad02a5ce33d3c70839c; 0x28ef1f0d38ba8207509708a3793f0e094af0d49c17cc157f30e9fd3c50fcb0e4]
  ([Nil; Nil; Nil; Nil; 0x53f9a70c8c65807ee10cf2e81b74dee23468d99a25ab66dcd80ef213f14ccf5bd], [Nil; Nil; Nil; Nil; Nil; Nil; Nil; Nil; Nil; Nil; 0x12982c6a39a22d9efde157915b196b8ad8430040088ed45be7fd0f5a71bb7946c]) ([], [Nil; Nil; 0xc495434b12f7e624606008278196ee3606cd202b09cd6daf1883912742674e1; Nil; Nil; Nil; Nil; Nil; 0xb9e051671832130785cc09ba2535ee6886d1004bb34a8f21feca41fcd49298]) ([Nil; Nil; Nil; Nil; Nil; Nil; Nil; Nil; Nil; 0x85b937e85070dbbe8f96ba2169ddf4de08c317efb67cb8d38a0cedb72a2ad48], [Nil; Nil; Nil; 0x4b03ca9c5a1141a9369f963e0a985fb194a4ebb6326378a1d018e9681538cc5]) ([Nil; 0x1; Nil; 0xc8485233e604dcfaf349414523944b7b89a9a9eed08689ec6f232765770b413; Nil; Nil; Nil; 0x1], [Nil; Nil; Nil; Nil; Nil; Nil; Nil; Nil; Nil; 0xbd93a4969ef6f266fea81796d60dd401a74bf7864d5e8b748cf99e51a59cc97]) ([0x27fcbe57928faec51ff3ee25154f9f7109e862aca992c962d1dda6715c92615fa83; 0x1a7ddf38ffb7e2041d99d5678864d523daa7dd5c7e3acced0ca3c33bcdc74bd4a9b; 0x131c2932acec46e4040109d2a5f4eb7163e974ef88148b0f141867104cf3561f313; 0x844f4c9743449869fca9939b478b9c1a992a28d4797d4ea41021a6a6c0a7ce7fc8; 0x684c6c45d6771d4959ff1767dffc808b955e5fba299581e4fdb3499fd5f1625a54; 0x2c3bc10e3431fe2c819c2c0070f645c05013e7b387ad7a9f4561cef963eeb7c10b], [Nil; Nil; Nil; Nil; Nil; Nil; 0x6c09d2d6209f8a190a692ad1374985932f10948d281780427d744e5693f675976c; 0x48d92bf6e13ae5b87d46c72f9c82a760fdb3e954242879e8bc40b58fde2e2dfc67; 0x35ae5167533445772bfc7cc279476fb257f04b18038f749352778affc374d6ed3b; 0x197a1a215066c8e19cda7445f376b7e50197ad2e31c160e8fc6c15864056b98044; 0x146b07d4b8ad3c2c06c69cfa95bdfa2dfbec193587d58362486299a1034eab4e6c; 0xa7a4732a1bfa44c84a0246b1df4180bd462c1cc9ced44f4ccc9112761c1ffa4f8]) ([0x11d332b73eeec1baa15dc88053464484f0c5554a55092ebef2d4ee30d76706ea4b0; 0xd1bf493c4e32d508be94a2cf60d557d83a2cea247dad9d9ec8307324a1c9426b1; 0x4fe39c3ceb3fc5684dcdb607e8078a94aae8409b2ae4b77368a4a6fb3608ff23b3; 0x1f00971ac5d93efb322204c4eb0e8e6aa49df5e88f4117b1c40349d401abd9a2c; 0x129a43972a88d065fb71699d79ae531918ab121d37bd19ef1f81b7ed39155b79fa; 0xca2e233927542782bd3fdb685db162e15476c39a2413b055d2b87c9668d60d78], [Nil; Nil; Nil; Nil; Nil; Nil; 0x2ff6e92e7486bba991e0a68bcec9b5dba6726083a0c0eb4c0bebad3025e03d2a20; 0x2cd33bd5c6c334a5e8e099f8820ad19669acfdeb4c0bfa4b5d18def24a9d4529c; 0xe34b0973a96907c623c3ab913ec6ab42a22b5b90d6379945c624675ca79ef9ccd; 0xa49fe8d32cc25a0d79f0dec28149c53419332ac946237650449a38193222e850; 0x47cd0c1fcf49760994633c09a16ebe161569daa17a5a02d27ad149a54790820a6; 0x5753d07427586c8a58c8432f749315480162f88b3f48a37cc1f4cee34a7e68fa]);
St (0)%Z [Nil; 0x151673972547025cc5e351ceece9d87f0a913b8ca17447239d48c3a3184df0fb; Nil; Nil; Nil; Nil; Nil; 0x16e9c4f4fa600e3b6c061bf10ca87f272b19ccacf616c4c6123f22beb856fd4c] [0x2; 0x1b4ddadbbbea9dccf26cf3e794977fde8cf02f04c6fd83699ed7c873c02f0c4c; Nil; 0x2a1543380547bcc0a6d4128c872cb54bcdc7b864d1aee8dadc462b549740deea; Nil; Nil; Nil; 0x197a897de6d191ee4c4a29c574d8d9366c679de4725b05c729e169582025fffb; Nil; 0x104d48f47b73fea4d87c802d9975ff63fd963a9f2b093c0521137628c67d0ad2] [Nil; Nil; 0x114970a081a013de58cadd484ec9a3e2c4642168f1e76c30391102d9ace38e1f; Nil; Nil; Nil; Nil; Nil; 0x486687755ad3e809546dbb3d53487dfada5d1130460685d9fa008b0854738c5] [Nil; Nil; Nil; 0x634dda344ad255bfb78d4ba8e13013526cf0385e97aace93ac6f54b0bfd874b; Nil; Nil; Nil; Nil; Nil; 0x1fa69c987c6371ff51704116523cbd21059e40d295eb0f4e2702ab556c5eff3e] [0x2726e42bf7cddbc7c68d48e427a0acf5c674b57bc80c798c4fa41cb9d13e700; 0x2292181ddc6892a0ff4e08829e86664720709a55520d5d5033e21e43c4a04c4a; 0x14c68411d5350aafd3c8ae44b4f87d50a7b6f7564da3cbbf4b1daa708a7c4059; 0x2c30da2f89232471958d50ed9da792945e2e087647e552c016bf07d37e5df69c; 0x164808929313b198eeb8e3ac1949c0608e75cadfb0378df83a293d475fb5da6e; 0x112fd354a34d0d880ebaaabe01ae00704f8a20f1923787d1ec9a8f60b9beebb3; 0x26dad569a6706216bac7af1edd5cc89eb5dcf1548bc151939403bade0d33899e; 0x10c198fddf7e443f3c20752f482063f4301c5394aeaf3335f3cf448988562074; 0x8d6ef784f597e0511f4797dbce9b52101b9f0aa0d0b6679003a9efc585b8fde; 0xc0c8786424d3a651e62e4cf86aeba9da62a41d98d8db960eafededf1f695251; 0xdd9db23a90a6458431384117aeea445b43839269d75de93802922e5a3395f17; 0x265f7a68d48235d135008534f205b7c7583acf623e2a48f3e372ccf29f38037c] [0x6d6a3d7be8f546c78e8a2c5e8c4667ba580abe5f510eb86bf443c030f7700e2; 0xea2312629b2b14031efb7d72c792b366bf4fd08500ff179794548bbad252ed2; 0x157e4c1493e855079b8c43e1728f95c1457c11350b363750fa5582da527ae707; 0x1e79f65b3584603b7d45441ead07e3471944ac404b23eaeb9ed9c82c2b3efaeb; 0x1e2e84edc349095185045e061666fb006c9419018b5d1b7571f71438ee4bac48; 0x27eece7f0d5f2265e64e38e5cbf196b80e35e25cac220e0c888e3dd473561dee; 0xabe7d1a1ba1d2bc641e0ec645131832f2966282135908f2c0de7a7b16be9423; 0x30470f5c7b4d9c93510981d192cdf1d749d986a0462cfbc0ab92171b1f51a7db; 0x1f975d7351b3e364b7f5f67180a1d07518d5cd069fe6370b5fed827d48505a5f; 0xd8e3b5ec2c7e92906588b4d4db926796b163a75458bf409d0f13befb7d9e7a9; 0x1c4ed13ed3f2bbadec4435f79b54a55a9daf97470706d42ec12dded2b1a9fb75; 0x1eb0ebae7b73494942d3968f37b55bb4c035202fd6564397cb3711510d2e06e9]
  ([Nil; Nil; Nil; Nil; 0x5799d86fceeede960f4c12341ad92210fa35ee7fbdde9addd8e1515a397d90dc5], [Nil; Nil; Nil; Nil; Nil; Nil; Nil; Nil; Nil; Nil; 0x1588316cd8f7834d0a7a194c1b4c60d2954509a072247422c183aa926c67ffd54]) ([Nil; Nil; 0x370721acf6c53de8e2153a0a9b277f7437a3eae25376b5c8dc2d2416b4593ba44], [Nil; Nil; Nil; Nil; Nil; Nil; Nil; Nil; 0xd74167c042368cd649396752411ae2cf012842cf570312ee90bc4021c98f2541]) ([Nil; Nil; Nil; 0x3736067de7da098828a5255a6724a51a77b73e55844cfee6c1b769e6a0ddab420], [Nil; Nil; Nil; Nil; Nil; Nil; Nil; Nil; Nil; 0xccb7e3014cd74281713c89565049e7e7cb3b4c00954c92ad75de7fd5f34beb93]) ([Nil; 0x1; Nil; 0x41b88b935c13eee5a351be4b4ee011a448e0101ec80088b6ed252e7dac494209e; Nil; Nil; Nil; 0x1], [Nil; Nil; Nil; Nil; Nil; Nil; Nil; Nil; Nil; 0xfd710d7d9fa714fddb007de7c7f76f741de41a0bac0f172c316bf89458801a9c]) ([0x248220bafd448ccde506a0202e3190834b051004df62bb93422eb0d381a3e6da8aa; 0x150c9caf37b2c25a8f2f8df4691cf31fa3b710c738584d927439c5e50dfeaf9775a; 0x11e7625287b4a13d5dec2aae42bf6be95e882052c81e7cfcc080d105fd5eba81047; 0xcd0b00c8dd50a10aa160911d21813dc084f494912dbfda25d9231e93b6baac2578; 0xf49dd226b9ba370babaf2a278d38d78a1a0d1272c6b098978d21a57298f9ff798a; 0x1c6b5e70740e8f3c84385ca5126fa5e118ddd2f1ffc254cdf87f6f28e8a8a519f1], [Nil; Nil; Nil; Nil; Nil; Nil; 0x63199c9e4438cdf114abc5cf490042d7c55f481b3d4194282d668bf503d4227dba; 0x3abcd23828f281d374edb3aa43e983f528bb7cc003af72685b18f3cc250ec31410; 0x32a3e66f3d095796c2c3947a90fad1f0dc05a50c07653d410dbac2aa94abf1fc55; 0x24724e45c2a85605554b368a229c427fe408867a74ed1046a6f09b182b632507ef; 0x2b48e3ebb005e4192087251a985aad2dfdc109a35631bfa578a6db7d089104b794; 0x6ea3d61051b2387f33f00e6725964b7593376c20233dc0ea7d261ee2f1095940e]) ([0x9dd8f40c33506836e55aec633eec2596667b492d4fde21b93127cbe07594ddbf70; 0x27b661ae67d55a2b320609ea66bc55d84ad02b768a5cf85cbfde313cd45406d642; 0x59d30669ce70f08cb9b81db2823166dc9ca1c83ebea17885d197d72aa0497098c7; 0x5a118a29f7cf1361253711ce13cc19e5caedebf574c85abad3e65f41b6611f835; 0x3a010f83a8b8503f439d3ae74b44bd0cf601b984b7e78825477a1331a1c179c02; 0x32b8a482e0b6696eb61ab2523c530a46148209bd896b769fc63217635c5e72a18], [Nil; Nil; Nil; Nil; Nil; Nil; 0x1b10d9b9da09d7049496c3c6c25e7840a1168ce070d834b451076e4fdebc250871; 0x763ebef15d2ecf0b888d3431dec0cb9c368ef6ccaf3ffa4aa036092eae8c4fe63; 0xfc292ed596fc9365d557f460225fa1b05febd21fbdbe2c96117a7679719e3573b; 0x171eb0d08d4da313437a1133ec093388e538b151820e6348cffa02ed00f1a0fa4; 0x11013ce327d68e0a6773c9975a9f45f2e505d7586a34712f27bd2ffe3f0139a5d; 0xdb19d4728d9f54a183b8906a340b9a54f3f6713f62d99551c6eb9a9de2aeb78b]);
St (1)%Z [Nil; 0x1498ccb009aec28609b21476c707a1e19c5a7cf70ba3de9ea190c1898232090f; Nil; Nil; Nil; Nil; Nil; 0xfd865aa8f8e82cdb4b50a4944dd38b2dbb2dade2fad7eff994de7b13d62b309] [0x2; 0x1bcb81c2d782dda3ae9e313fba79b67bfb26ed9a5ccdebee9a8fca8d564af438; Nil; 0xe6da3a603d0a3eeecaa20f347c8bdd78e234a73d4613e5da8f73f85a30ee31e; Nil; Nil; Nil; 0x208be8c851a31d5c039b3b6d3ca41faabbce8fb338c44b8da2d2a4659b1a4a3e; Nil; 0x2aa58f54ba5f35bd1fd34c0da9eb15472fc4fdd28634d8bb3837f4944b4242fd] [Nil; Nil; 0x1e17b47ff1edbacdd769921919bf7d6fd1444e43b84f24835d31b4f48b93af9e; Nil; Nil; Nil; Nil; Nil; 0x9edaf0698a8c56f51139588acc094cee3c37d427bb6d2eab830aae529097d1] [Nil; Nil; Nil; 0xe8aefe9ec457f6ef282e62cdfe19bd88b9f58c17dcd33db37d2d13f277fa959; Nil; Nil; Nil; Nil; Nil; 0x2700e8a29b7bb45f3022a18a07bdc66d0254559e17cce64e3b4ad21578fcf410] [] [0x6aa81524a8c3b221c32afe6bd8faf7026857f6c686d2f8e6f1fcf8ec4102178; 0x4bfacef6b33f2545d627fa99eacccf0c0fa04df2a44814e5ace1874795a63b; 0x10a92d5c355bf5c5e826ac25c2351e84e3b22c43a1e4e070a2af484cb7e7b446; 0xe7b2e42e0802c16aadb4cb6ec643169ac8d897ba781aac2abb92ede762df578; 0x293c8ce12c63f0b8304de07fed71f2d97181ad4a09db5f9c17056faefa64dae4; 0x41e086da02e59e9e05af272bba1f62420cd7a1bcd7431cbe15d7081238c65ad; 0x19bb5541c41899a564da2c44141d789367c5c0bbb03a5064a4dcfba2b0fec170; 0xcc975d29952d58fc9b7466b08e4fb6d214ac0073451ff11f62ab07b7186fa0e; 0x1df41b1c6ff52fc3f93ea7b0d7b7b1024e2bc5068c16c9fe1d759ba05f3e6925; 0x12ec9d51b7e0e3282ad35c01ac18060fae22feeda0f12722019f2ed64424cabc; 0x26d2d1294216a937b50c2d2647064c043f47befe965bb6ccaafa5008495be435; 0x2589a1277468bd296825303d3ccdd8a2a19e7764d3823ed00390887e3fd52933]
  ([Nil; Nil; Nil; Nil; Nil; Nil; Nil; Nil; Nil; 0x8b05b1eb5b102831c12bc49dc471db337af720379ce3e6b045afa9642a08b921], [Nil; Nil; Nil; 0x22cc2bc29afd8cffb25f067f1e3e5d0798c98e0e96825d9de78f14e2eef5f6be5]) ([Nil; Nil; 0x1a0ad8990f02a5ba03dd95cc3ca149c9f3bac5231f74ffe1cf7f27a11e220b654], [Nil; Nil; Nil; Nil; Nil; Nil; Nil; Nil; 0x6ae0ede73b3a23e88c5a7ea42b3b120f95c8e19e317a60a66a345b8a62a96d58]) ([Nil; Nil; Nil; 0x6e4931c174e6dfb4bd3418ad3db8f8e4ac2e28bfe150dcbf2da803e87096a91b], [Nil; Nil; Nil; Nil; Nil; Nil; Nil; Nil; Nil; 0x147b4028d39eb46e2e601fbe69e30b919f23695e09e940ef02e216d8b726fd19]) ([Nil; 0x1; Nil; 0x72238852cc85759f01a3fb582cce410b1ed148fd6b9344f517b60566cb22776e; Nil; Nil; Nil; 0x1], [Nil; Nil; Nil; Nil; Nil; Nil; Nil; Nil; Nil; 0x22419e922258c6de3dddbe95b580becb115ad4934a18692c704fc26a1122b6e7]) ([], []) ([0xd40967bc4349c7f9de4966961f7f5d1853cfed818f27b0c93f3b4ad7170e34e70e; 0x9d5bc78d0a0f376a7ad77c9119c785f1ab2b3151ff769ec8a11c31fda6c2c8390d; 0xb484388abc88553f8f90efb543763dfe25a106b7c8aa2a32fa8f20629ac1a7bda8; 0x9c84ca27c14c515881b75914442e4c0fabf2f72222344a60145017728cffd9660; 0x10767fefe499df38f4be796173202fe8e5c0b44527347b97ba74fc9733976c8a16; 0xeec6123514b2ffeecdf2e67305335d1a01bac876f2b4eb7cc06d7c4af48f6c7f7], [Nil; Nil; Nil; Nil; Nil; Nil; 0x243b3df85e2a9127bd2366926de63b277df46469a996d15918dace52a9e5a31db8; 0x1aa1bee89606d71762823a47c4d8e0795f76bc5239e816666362627c83b61fad32; 0x1f299440f2c7c6611990a6cf201f0e68be20dde9a841b232ae0d9d830319d3c851; 0x252b666cf9cfd55f438a66240d2c37b9d8742f3788e41b3d202fcb455cb1d2c8a; 0x3d982126591914ab29983e58a8d993f013eff4efa3e46f33f161f8bdc667fac83; 0x38cc046572c2e68be1bf7397ec79ef8c316fb60f802228cc50ce442591081ad9a]);
St (0)%Z [Nil; 0x2cf76e2074e136a98e852c275dd529d5e41f63a7e707e4b8d90fe6da8ae76fac; Nil; Nil; Nil; Nil; Nil; 0x78a2afbf72317e7d49cce6abd50b574f31c2d72004ca7313df2e168e7e5ea70] [0x2; 0x36ce0526c50698029cb198f23ac2e87b36206e98169e5d46310a53c4d958d9b; Nil; 0x15d39ef107d124c4e18fbfd5d3bd1cdba0591f02a536077c59d7a093e03d2482; Nil; Nil; Nil; 0x28da2376ea0e8841e3b3774bc430a2e8a4653d1f6825235bfe2daaadf09712d7; Nil; 0x762adef02274807c5cf10db170b4feaaf5f8f1b77341bf4e1605e982fa50abd] [Nil; Nil; 0x73c1364ff687cb36617ca0a77ba2891f6292fea7540e8688113be972a4102b6; Nil; Nil; Nil; Nil; Nil; 0x178a447ef1394462705a0716228d2d85842bc551719d80d83506cf45e6377db] [Nil; Nil; Nil; 0x2e3ea00f69220b614a585bf0710f460d4ceff3e344e1839ea0cdd8b044073168; Nil; Nil; Nil; Nil; Nil; 0x24bdf2e5b36fa494c6ebcb104005fe39e0a59e1b15140049515a4efb9e40e22b] [0x2f33a2bcae41d8d8789a9e80610a2171fe30d1d743ce50a20d20ba19c5624b47; 0x2eeed4d7ec6eaecee9e298ff1b3421a75fcdd80760793c8b96a51111ec15cfc7; 0x1affc2b18ff096111edca2ff4158aefac04af45af8a0043fbb14c6f418e3328f; 0x1301b5b9dea87f9b33ffde1c644e31add72536b55ca2240c7229c9ddbbde4132; 0x276e4f72080ca820928a95a03fb7ab4ecd16fe0167b6f9ecdc0035dd3448095f; 0x1fe61c3fa923fd0bfd64609ad1fa7ee386c671f97398c0ba660da42625b3630; 0x198804e4ddb33ddfc46d67cbd31a1245b47422170d44a79561e805c3603f0492; 0xdf0639fbf79c3ec3d621215ed461c9be2ec85f9317dda08aa3ba9b80d11fafa; 0x2efc80d3d782811826ebf5bf03fbeb6d98b1feefe2d41e307274ac6e11f8a4ce; 0x281c30501d1aef0fd52dab285d446cbf9bc33963ea21e287d22131cd54d040ee; 0x1b6d53ae813490f4caeb37c2b263afa36861366a1325ef2e300029accdcc4381; 0x290be223accb73b1a9e75ecba61f27ae8661caeb212c20883d62ccd00a7bacb6] [0x1513e526e4d9ab49e9346b3aedcd9c1e8fdca7a923093ed706b56b36e595b31c; 0x10b652b8b5d86cf09c05266e137aa5923392d71e22ca101e245570ed5afbf1b3; 0x14494c0625d406358494ccd8897098458e0d2cd1e6a92355e40f4e2bdd3da7cf; 0x2e1abfbec1acd4592f5a997816c3299fad994b564d462bc0e211f0798dc2f534; 0x1544dc3408b244ff0e1f0c4c2452f2d305145ca76a3cae25fe0361eaf32ec798; 0x27dbec1e85bf6f3763db577fd63a2d83dba4ef5b85789dfedddce3d163049940; 0x1267e1a329c5bd530b51d81c1931e96e4af1305934f952893c67da14f457fc6a; 0x2c8d050b0b65a3b5e028a0fb02dffc1242ccd794854b831a80b7b7699a69bca5; 0x1403827ee7deb5f019b68733ae6ef8a3ad0248fbc83e82206bdbfa8c8a245e8e; 0x2213b4451ef80e14e5b87b6be7ee65e6ae8c00580b8947f830badfe3d455ad2a; 0xa2905683bb352e040ca5cafc075347c454ba85f1724b9cf170d3772f0908e2; 0x974e86793b2158eaeb985987c2a1afa7f9bba886543b748d638f7d11d64dc10]
  ([Nil; Nil; Nil; Nil; Nil; Nil; Nil; Nil; Nil; Nil; 0x1250b16122604818f1c759ee8241fecba6cd631c2fd3ca00f7b19353f476021da], [Nil; Nil; Nil; Nil; 0x3ffc7661a20b38df3abdf0cdc7d6659c8a89550929eb529850c7fe8c1920ac0d2]) ([Nil; Nil; 0x368b52abd9f802d6943255e8d024c3e622a80bc5bbecd8962b13ff20a5bb2d8e], [Nil; Nil; Nil; Nil; Nil; Nil; Nil; Nil; 0x23283ff4b7f97b159a0194021648b135ab215828f42fb93942341cae4e115c65]) ([], [Nil; Nil; Nil; 0x201be3bbe120556c9a29826a509a89305de6b8d4d01c9c4fe73dc5904e8b3ca9; Nil; Nil; Nil; Nil; Nil; 0x6290336c44c75e5d5b3b1c6a854ee8ea6d9d7e61f1f9ffd67601bcd7ee484b]) ([Nil; 0x1; Nil; Nil; Nil; Nil; Nil; 0x1], [Nil; Nil; Nil; 0x1408df6b7ed9d6586ed3352f3aef30066fe0ac8ede2b65c02979d64e8871eaab; Nil; Nil; Nil; Nil; Nil; 0x70166c1c338c650afb6f218ae647d9187456a873f4f79cf5514779cea8472e9]) ([0x1d3eb3ab11b4c7e806b44cf0b45b4c16561388b68abbab9917539a1051e53ba0845; 0x1db0ad7623f4b510575a467820739bd65f4b5be82a85c6e83d53385a1f42e6b670d; 0x1858bb97c7299705a09e28d2f6d3173216dc0ec9f3ec921d6f466883d59110f032e; 0x17d60981bbe75feccf64f99e7cbcf6084102fff9028f885a4b46161986fa9e2c91e; 0xc03aae972b20695f7ffc25ab2d18cdc6b97c9d301dec75bff11fc8800a4bf355eb; 0x1ad153bd4615fe5cb9158dcf32e1ef75a9657f0f3a01e5a90470c92ca48a6a6570], [Nil; Nil; Nil; Nil; Nil; Nil; 0x4ec035b422bdd2b59b0ee7e4e3320b08a9de54491c9a488e68fa28044d68d628b4; 0x4fc9f85467478ceb0b0095fe2a342cae9c4329f29e0fd9e37f49b2ebf880941c76; 0x4261cc57984035dd22f2189c3b8f8bcc3d307204adbaa6e362e04de8a4884f46d0; 0x4092559ad44d58413f53dbb790be441722dc69ce96d23df54b49ddcf8180502c48; 0x2135df5f15cc8f9c88ad14a307b775a0deca045cd9a9dd36abda1222615a3f14e4; 0x62984de47862746766bf22d30941a6e26da2b58fded0d9e748640728e599ac1e0]) ([0xf3461413ff1be440b846128af97c2b100043c73e6707c9d1342883d546b7f51432; 0x24ea3c8baf73bfbee2e4ddc17b2d4b31f58a5b52315dd0a0f8af0172d4e2b9581e; 0x2de6f26c3accf64633955b42fb767441bfc8ff467a0ccb1fcdc16c34e0fa243710; 0xddce52136f286e7359639a39f98a15a5027b848151a19858edafae455a0894bd3; 0xb708223f1c68f8fd49d3baacdd36034b826e9a4ca38bf6ec26718819c514865e2; 0x9a7a8ceb629bdbc75d50bc3e679ac0c68f9e2e99d19b1ce1dc2cbd9c85aa73ca1], [Nil; Nil; Nil; Nil; Nil; Nil; 0x286026c8f578ea1fef76e2cfe646e6d4b76f9cafbcec1df92e4ee275c4a1ed5db2; 0x6ff5fc86c0d81c0c77a336315f3c2eefd195adc1f1768400002da80406661e96c; 0x83c07660cf01bf2cd4319ad98abee4de90f899653566d134dbcfbf48dc3e2a38b; 0x33cf4d5105472000881e001c5cc21b5914b943f55c763414c76b71c3bd58df134; 0x2a81ea3cdd808747db8f054e2a634452fdf284b5278f79c2201a8689c2753e549; 0x25e631c519c1927d2b33fd4af85b7ab872acfd6ed63c1032c262cef105409619f]);
St (0)%Z [Nil; 0x26ede326a3a188cca0182c69ef1bc52b14b0ff69f50cdaaa89aae55fc788ed1c; Nil; Nil; Nil; Nil; Nil; 0x23db979f8481c5f017f7ac209532723f22a344b90832f45d3398c60aa1a74e2] [0x2; 0x9766b4c3d90175d1838194c9265933282d06b277364efe2b275a6b710f4102b; Nil; 0xfdb4a3dd3cec928431e6af78d56175d13842e7f5daeeba1cfa9783eede92283; Nil; Nil; Nil; 0x2e2694f8e8e983cab6d0caf4782e3139a5573645d7ee9b4768e6ffb62e628865; Nil; 0x5a29c1e27616b34f5ee6dfa3bd3272b2f09f0c7f1718c1e21a9bc3ec822f319] [Nil; Nil; 0x28d9d27775c0cbf5b40a2555b26a2ee7e160fd940313d11ff518ca5cce206023; Nil; Nil; Nil; Nil; Nil; 0x1303baa20971befe5aa7458c1164eac4a10108c8abbcd37a1e09d83ee94bdbd5] [Nil; Nil; Nil; 0x19d944be2bfc03feb209ff683f4a7fff82263ce6d0eb57098e76b69ff201a4a5; Nil; Nil; Nil; Nil; Nil; 0x1305fcc05ab211db0fd12d1f8f1f894726dc7bdbfedeab57b33af11d81279c2b] [0x2fdadad666d4b7b2956d1b92baf7bd4471094ad7fe2174899d6836b451d2ae79; 0x21ec7cfa282a503623b855e2ff66ca02efcbb426a00143c7f6fcb22438cedf4b; 0x239156a3c89a3886b7b330b209a02c94c4d966a043d0870bb895247c9e298075; 0x108b59e51c5220fe33311d0bd6a313143bae78aad06399b7925d56ac4a6d4c61; 0xf0ae9b85741ef9b8e5319138bb354ebe098d28264e06a345f48ee0ee38e818; 0x1f3d657191abed6ec7069729686a336e751136a72fb9684bf70fb625085feb56; 0xe3120a612c9175c7227f3cfd3b00496327fc736091bf8e5a65d1a75222129d4; 0x19b9af437aac77d67e32fcdc82a962017ecd1849fa35e554a9d556a2c798489e; 0x164632a43cef00cced7e1328d0f93fe83ce2364db433cccdc923b028acad346c; 0x1044834dabfdb58708f233ca68f0c06b113cd00219df753cb965386685ca9037; 0x1c8524b444b6405310e5536d984c5f0bee24a343a9fe789a36478f7b3b5654cb; 0x2bf33a27a5d0826e06c16dfa83eaa127add3a58c16b889d5d816fc5969562953] [0x127cfc0f27197f23ab2f081571720b1035ccc086ba41f60ab23b53cd3429f859; 0x10557335b2f3a7dd9fd1a9481a42d23a67a899e87be4046baf73a26389dcd252; 0x2fc9b962570d0b371e27639b6144ad9dda2b4624934c6394640b0ebeae65a48e; 0xe13a593ce2a69909441284008a003979b7977365be51687b26b7d3cc09ac340; 0xe74e444601353ab1f4293cd2d75987187424cf9b10bb0385f7ab19adf48253b; 0x2b0b82421dd725c77b012b4b87cbd36cd7aa59b17a6b80cc1db7fae2f02d7feb; 0x1655992d085342dadfb07004e80d6b297798155ccfe7831684a55ce728747672; 0x5976ba5ae112071f78a0e1a938b4b6c464e6f6a7238f90a5f4f4e3cdde09b8c; 0xf0c5ecc9ee624cc86b8d54e463f120f5c92c73bdf9acd2b05627e47cf181a53; 0x239ac51e714fcd45deb4144c6852c14668b2476101011107a8d99e5486d88856; 0x1411312580edd6a781d3c38cd96c39dd49e4da384a1de03b9aee6c41cb836d20; 0x25c198f7007a367ebc4ed79188c2442dd527d40dc829555dcb8f7203df583035]
  ([Nil; Nil; Nil; Nil; Nil; Nil; Nil; Nil; Nil; Nil; 0x78eb8e603645a3037b87f1b13a78a47cf20747edf6595329357f9889290de6e2], [Nil; Nil; Nil; Nil; 0xc4e5c00412a0f4244827973819a707b0a75d78e3ae28ae77c17945292237af92]) ([], [Nil; Nil; 0x16ce64aab8c4dd666fd61180fb6945672b71dd066240d32bbd211b008987017f; Nil; Nil; Nil; Nil; Nil; 0x57956f0f0e16e23b6e957d1c270bc73a9f88d1480bdb006af2e9cf8b91817eb]) ([Nil; Nil; Nil; Nil; Nil; Nil; Nil; Nil; Nil; 0x1e4b44b865089990662b608c732be3ab28c8dc25382da250af8e01f8db2d94f0], [Nil; Nil; Nil; 0x27943a6832dd3a19e535b3d0cf2398e009266ca96c511c262a06271ba567cf59]) ([Nil; 0x1; Nil; Nil; Nil; Nil; Nil; 0x1], [Nil; Nil; Nil; 0x3b98ff3e325a77948d0f80b19fce1fb79bc6ac85f76c6dcb4030dca8309c87; Nil; Nil; Nil; Nil; Nil; 0x2bebd28acb372645b5ee73908241709a0e2ac4c5d6c7af9cbb2000736d07258]) ([0x1282fd9532d8abe25dfbfcc4f59444a7b26341e9553428184bcff31d25e8546027f; 0x54230b36737ceac22d08d2b8f9187682e967691769e003b00775620f821c0d0bbd; 0x76b1392d75f12d80fe49b23881c18ae18e7add711fc54572243eff49681e3699ca; 0x1852ee022c72cf7a020a72b7d98cebdd6a13d05bd0ac619322b1506b55bdeb8999; 0x265199d62d8b4d97ed23b03ab5368afb16abbf72e2fa6e84c2d5ab683d0db5c0a9; 0xb5d03048ec42f9ab527510f4c9ee6addd61bc6507281ec53395a0b065c028ec0a], [Nil; Nil; Nil; Nil; Nil; Nil; 0x340101efd36092ca89d1358edc7801f8b5f48c81b9c268d203a6946412f990608c; 0x102dff79cbc993a92e6eae7b9dea4ce6e774635196f1d27a54e0c058c6c18a97a2; 0x1663342f5dad308b9ebdf1156ac038509b8f52ef213a5269b97a339c745068cab8; 0x5e565d942ece45611f6f9f0d95014a90f58404dbaa403e77c38524a79a42dbdcd; 0x88d7c16091898d8759a94973695d32ab2e158afc246d902de2288e4df41ba110b; 0x322c2bbd6b9776dd838dec543eb827ee11a12bbb3ffa2347a15206970c5ff69bb]) ([0x10b34fa775d57fd0f944974106ddbf3c04f250d0363ad66e789a400b63c4e8464cf; 0x1a79c762b4b7311c8bd08218da3f1de3b3831ca474767cbbdeb6a1b60b12dd68c9; 0x2b1e75b28f7d63286d117ed4b8a32d30190f72cfc02ef37180c8082662136c3a47; 0x73ec73381dcade2f9b7914056dbdf31d7582c272eac1dfe082a27ef939f179b14; 0x5df76e1b6a9bae2f737b709ef64fab7faec066884b899a77833edc369061f0507; 0x97f31f63ea86d889c00b64d662640362aad5a5b9478f9a19b3121398e6d973b02], [Nil; Nil; Nil; Nil; Nil; Nil; 0x2caaea16244db0521ac2827c3475fd96eb420586a505b3b6e3783e50ce8cf62f87; 0x4f23f43dfcc9a0ae15736a7e49ef3c9c4b66eee1ed0707450fe335699dce96ca7; 0x8047aba33d890ac80d8cc219bf344626bd7edb0ac11eb282164a638f446720ad8; 0x1cc9d3c1fa0937eabb6e6ff9164445240a781fc6031b79b8b5253e5c1cacf381e; 0x16c849841f4d88fd6a90f25e363914f358ccc8b0c2221fc97dec2f65fb6be9751; 0x22a308789fe5e90e6274013a8b178467398ffba765090169d54de7c28467b280f]);
St (0)%Z [Nil; 0x497340a0c7773b574e3f940009b442586f8b853249ed36858ea9f875dcd79af; Nil; Nil; Nil; Nil; Nil; 0x1d0f6156a89a42447756322ea3dc079289d51f2d83bf38d91876ad8999516bc2] [0x2; 0x2bcd1a68d4ba2c74436c4c7680e614381088b23e43d2f724e335ec8f7aaf8398; Nil; 0x210013969a936198557006caf3b21ed6de8ae682a94b39358abb332668c3d7e4; Nil; Nil; Nil; 0x1354ed1c38975de540fa1387dda550cb0dac4b63e4b291b423a9de8d3f2b9185; Nil; 0x83eb38dff4960ed2e791f5772ed43b056beba1c028cbff48c01433e8b23568] [Nil; Nil; 0x298e00d4a808f7571575ec11dfb925031b152b1e097fd3860bf8961879f6d085; Nil; Nil; Nil; Nil; Nil; 0x118f95f270bb0c1d6267ad3cec6227f5e957c60ab2727cd56d1c7592c77869f] [Nil; Nil; Nil; 0x1277c067e50abe441e00a0a28e1dd5c9fc3e430ad2f452f27509fbcedfe18eed; Nil; Nil; Nil; Nil; Nil; 0x24756fa7990428a1ce2ab431c1b16b84f204a9781227d5f547899dd9fe68059e] [0x6ab01ad2e7e65e220e2e380e7f4a2e7f682aa9f3150373574eb7eb44d30f4a6; 0x22a18478a306af0a5c95e127b55fcd19a32444dd5207df4801ab1d8151ea485; 0x23806ab821d38346c4797edfabe46d738ced10190de3f99afd00f4af91cf6b4b; 0x200285fd0bd840fc6dcf2a0335c289300e8ce37b79da1e445566a6d97bbe699f; 0x16cbdc61ae1e494070910d4263f36feeebf2347a9d0a8e5363be4bfa5e211da8; 0x47a5c6d15c991f19f6ec14f4749163d770413f9e1b13946dc1bfda9d9735579; 0x213b625461e2ad5f59a2421a07bc58d493c351fae84a08c3c3d136b382bb805b; 0x199a22fb6c102d34e8be3baa0c5c97a5cd1dc638d3370ca2a90f0e051c313fc5; 0x13584999b6c57306e26dbebf0c608ff98d7cf17548542e0bbf19c59c787eaf46; 0x167a73423676d7d094ffb715e0259ac709b6ab8b2a37835536bfc85a7b6e005e; 0x2c16f0ac87b0baec4b6e4714ec78ee65a5b27127fd254feec288ccf82f3f60e8; 0x18251640d432c1996bdd621e8c1ee6443c6852a8964e85879277ac1954bc6a37] [0x167a287694fab6e2b1fcf03598e9a676bf53eefe25e91384adf5b1096ef77cd7; 0x1cc9b55174a630cd51cb25c17b5c33d9788709af4231237c91f31e126ebdf190; 0x5dd5a7b846fd776787257e9de4295bac0dca661e3c8d2342c746bb7e70d285e; 0x6c5cd5ec11d879cfbeff4e9074ab95b8ab2ccfdd126a315f4bbadb8f6fef878; 0x1978462ee7e25dca37f16b9611647fca7b54e2e3492b0cbff9c35986ee0e8f6b; 0x11948f7e3f7c99b3867f5e55f2fa7ee9febccc9390c2accd9eee3726d735e9c4; 0x11199320cabc5e01abec5b62c12d08a83d13d7de75c6c67296022676d2bf797c; 0x29c236ed4325f51305edbe9532365e38cf8ad95f5899ce4b4a7d3650cab7b2af; 0x2abbf59ee5540223507f944d0107f678fc8249894f193ca487c330a3a89e6cb; 0xf37ceedf5d8e5a26be339136e80312115cddc2a8971dff3a42536a0a1fa9472; 0xa9a70ed7e7ee573b4fff5f0304b690d223de2fc80aff781d81caf8d7e246407; 0x14de577a9760dc0f8441fee192c1e2c953e5fedea4ee96fda104241d9191dd9c]
  ([], [Nil; Nil; Nil; Nil; 0x861a753a326f966d44ebc2a79d99ee30c4b2a03f2f57e5ac8d0bc9d2d7d820b1; Nil; Nil; Nil; Nil; Nil; 0x35d9b4f9698e1afc63cd5f8ba648db92974d3237e7bdd650e0f23b67e28be5e6]) ([Nil; Nil; 0x5968cfeaad343a6f19a3e59693016a36e32f2f7c0d0f29105a6eb814de57802fe], [Nil; Nil; Nil; Nil; Nil; Nil; Nil; Nil; 0x13fa1e7767db791d126337b25e9da7eb9358eef13af5e812eb0a29a4f32b8706d]) ([Nil; Nil; Nil; 0x37257a1995caadec3d37aa55f84677b1eaebb75ea0f33f68d977b8bd7951ee698], [Nil; Nil; Nil; Nil; Nil; Nil; Nil; Nil; Nil; 0xc2f27f5abb0e308753106d7c81ec18718f42657c141020bcc905166dc90c0663]) ([Nil; 0x1; Nil; 0x3a4724a6c99d09ab371c7b1d2921cc9d2dd8e3e29320b4e286eec10bed6ead3f0; Nil; Nil; Nil; 0x1], [Nil; Nil; Nil; Nil; Nil; Nil; Nil; Nil; Nil; 0xe7de93fbc743d259715fe625750dceac25efe6e509fd2fcb5426a0baaf3befee]) ([0x13622ed6b4d66d26ccc2c54e4d209fd6f5897e55d312a6f232a57d8cc82f193c76f; 0x15e42c3ea001de80e6a92d39c028167470cd6cd9b8dcdf4d59906a4fd189958ca7b; 0x193f7849693cc12a916fe6ffaa326cd76601e106feb1027ad562492365195b956ad; 0xd2ad1f5c2fb2332f139197c686eda5f81a3b54a7ce3de16bf4b58d67fe88b709c5; 0xc929aca14d73c9f6511c5236791abe1d738cbb2e8e6352dd4a3e1d7da78e95b3c0; 0x13776b05964fbca48ed3ad72dc9e30c4b7e06baf6e043616a4c0623106c2fdbd11], [Nil; Nil; Nil; Nil; Nil; Nil; 0x3535845a97108e893ed0edd2deb69888723fd3bc3e9f07038095f2f864d92824d3; 0x3c5b8ef238dae59289d0f3432fa71444e4bf88bea87e1d9ee481bde45492b69939; 0x4498c2da08eafda63da772fd46635301bea725adee433e3230bf65c690176230cf; 0x2497d3eb23570fc584a62e63241aa86e5099321be800403291fa9ff0c17e154488; 0x2343a5244fd2888edd27dbf98e8de3209d141b22c43b976360b2ca12ad22e1ab0f; 0x4f9ee969e33a6e36057a4a7a4635f13ff7d828ae5922056ddd43f45f66b18bbb9]) ([0x4595b28cbb1f39eb9fc34157664338c43bb28f634636e7eb434c911b49d47305e7; 0x10a4e53d3eb2f784bf917bad643159a9ded133a1cab705e2526efbdb239f434aec; 0xa0a44dd7ee6fbe83d93f831fa9f40a0160a1a6ece981aabbaccb8c85baa28b3f6; 0x2720797364b7bfb0f1d943dc73674fed727ad65285b902d42920dab1fce63d06a; 0x2d83e52358bd08f7d3c2639e33c2d2dccc8fa9bb587878c45794ef3380cef824d; 0x588520d866c5b28cf7ac2fc129bf9c75111775fc69e7c6328607a61d90967ba9a], [Nil; Nil; Nil; Nil; Nil; Nil; 0xc35a600919a37362c6817629096a1f7117e8ae1a43e3e232c1b916d0b94a55312; 0x3b26f06b5a6d51ed5ff5797ca56ef0cdf9b247598045b4e1a354a3a431f267089; 0x23aa4e55544a53d013b1071ca17f5fe29c5163fed98e403b5c1a1e5d360b6b8f0; 0xc7e5f8d45245928a3a46ef93322a5de1a4a581bafdbbe3f26bb9b725608be55f; 0xd928651e368a201bf92ca15db6822104e849a43f4c03a110b6fcb22e0deab254; 0x17f53cadb0c3943857e9d3b5a2ea8e8f2fc73270d960745d4f198fdd6e2bf0416]);
St (0)%Z [Nil; 0xb0f60633b8fd99f31e95ae8cd30c158b7d17fa76de3248a6844593abe3d194e; Nil; Nil; Nil; Nil; Nil; 0x113ae2601d765cbeb1b986d96fb8a1926775f9cd9b8add3fdabe5601b7b12a68] [0x2; 0x2554ee0fa5a1c68a8666eacdb4509704dfafeae9fa8ea602d3dc32dc1a3fe3f9; Nil; 0x21b839d24c80520a569fc5a12b58e72c91c8c8453e72ef90f65930ae07ea395f; Nil; Nil; Nil; 0x1f296c12c3bb436b0696bedd11c8b6cb300b70c3cce6ed4d6162361520cbd2df; Nil; 0xc83cece792d52c866b5edd92f6682345aa7c0b186724f22db1b40abe2897bf0] [Nil; Nil; 0xb2656e2ef48851db6969b9b5001790f1daf57a54569882cf4cf6d38a10faa56; Nil; Nil; Nil; Nil; Nil; 0x16c3d7372d619bc5fb5b17c4da0020cd619c7c920dc334d5d822f8c39cc980d5] [Nil; Nil; Nil; 0x6b358a94eb6e60ed64f98d775ae26f37c188dbc3697b95284fd2e038d74583b; Nil; Nil; Nil; Nil; Nil; 0x28c4fcbd790c38d05aecdc9ba5d0e2c78474c15c9d8114d62bd9f094c58cc21e] [0x5e6b863386c1dfdc5f5a82453c556e7da6924cada296b25a0479cea2eb46138; 0x21a5c1d0614bedc2497bb5d92c6a4a4a3fc25cb3c688f30543bc1c86557cea36; 0xd80cc771e86b1b57e9df095ddd6f1876dc90dc52ca8cb6f290c0fa28d23eb3d; 0x594e0149ab76771388ebaf946e2bfe87c0cd432e1d3da47a90245312c95a0aa; 0x1d099a0f97d05b0286dd78d76a65300504fb4ff8cd16ab6b538192e6991d1eb3; 0xa44c9c6bf3feaa79e8f78f6535a0555e7d9f74f31ffc00cf12f316b039be422; 0x20df18c052d7425d0b4dcd2f5881188e73db65086466b53129cc57053c531a9; 0x6337ec7984738613620c4ebeb24ca20fe28994ef04a9874693bf9778dd20bb8; 0x1d8f0cb13ebe60b16e14909e27aac9923acb9ca4c21763e0a2bb5b11c15f8537; 0x3277b3ce569a7614db5cc5b6df24acf371c48aa9986211eb0cc3f21f41883f1; 0x121a3d603711eaf0e8e8bb17ac9596bf56005f521e8c856b31cdef11be09373d; 0xf6eb3a93f10b19408495f781fbfb7c90cc09b35d46dc510d53d534ba5bcdd1d] [0x1586518d47df15227c1ad0da8d3eb4d20ee968570d53dc336bce6dcaca683d99; 0x26644a88581893b0c7035fb6a0b42fa9a24f64241b78a501278da760bf67ff45; 0x1755175d8a9b4097471bae9568556eef9e29ee37d3dc1c35e4600f6282122068; 0xe0e9e3023f8f2ba4217a5e633ba745730e9daadb7441d2729845d191c70dcb2; 0x10386d11c687c2bfa842fb52935026916eea588951e706e9e9122cbee3688ce8; 0x262cb54c6142f485be88ec5b14d99b57742fdaa12711acbb3197a7b8409e5fbc; 0xf4290f98e373b756257d43cfb278ca9abe2b9a2ff57172fa3640975ca8ed351; 0x243d18af6f0a2565cc7055ce6b4261d82b677a3db57713083e50f51cf893d7b4; 0x142e917204a5469cdd501ace173e52d7c47518fef3f02bddec9ab6d9ba550e8a; 0x1ffc726a639b8e4f14421ab9042f74c8304db93af160e160c24d3a5363871a98; 0xa8c9752ab379e81217c3f2d1d52d8ce1477ad1a81fce86e54a282f96ce9c880; 0x19b9c5f8ff3fe4bad46116394812f9a9cd5b9a5f7f403571dba44d55c05463e1]
  ([Nil; Nil; Nil; Nil; Nil; Nil; Nil; Nil; Nil; Nil; 0x1ea2419d736afc40ad2e4b2fc32fc65e325d1c108419e93fdc98a0913905392c0], [Nil; Nil; Nil; Nil; 0x8ad6788c298bd18f50de0383ecbb782782d93c99a1ec02d3347596bb43e41410f]) ([Nil; Nil; 0x1f4864fc29200c8359671d1a37b78540d61d08d68308dfeaadc4d4dc06d125d04], [Nil; Nil; Nil; Nil; Nil; Nil; Nil; Nil; 0x764d5484a38f935ecdfe6b2bd7ce864c99ff5bcf966c848d220ec5db0dc9724b]) ([Nil; Nil; Nil; Nil; Nil; Nil; Nil; Nil; Nil; 0x84fde53bd2fe4a8b5dd7cb18cdc3fd83ef337e2a3185cbd6e57fbe05fba84848], [Nil; Nil; Nil; 0x27f8edd94c579cdde071b00ea53770d92f2e1430a7caa9286ad0fecc8380e23a6]) ([Nil; 0x1; Nil; 0x168c0f279005ba4997701c96b021d939d330fb90e4c895cdc514763fde02c7da; Nil; Nil; Nil; 0x1], [Nil; Nil; Nil; Nil; Nil; Nil; Nil; Nil; Nil; 0x1614a603b2046d344ab723075b018c36d4bbae51afd0e885a96ed18491bd9084]) ([0x108a685c91c3b41d57118ba599a104cacbe0049e1937e451c10c679a292c7b5e30d; 0x456787154f054d22f99ac0a1e1259af6939bb80afe0dbf87350d0c7426d3647bd2; 0x6e1e0c972e402a053e043f625d37c8dfba575fd50c6dd5e65e01c5fba7ac2f8175; 0x4319e62a9ae409820499611280fb4d13bad102a1bfacc8b3ce1021d640a5dd1cc2; 0x437a2e1dab8f7a9c384eb2dc89be648af6a584d5deab177d81c1a12e71c29565c9; 0xaef6a17b06679cc3f22546540232448413bbba0230962de24c74bf82d6d64a40a], [Nil; Nil; Nil; Nil; Nil; Nil; 0x2cd48fc967031a8e4f645634afa8c17a763e703e25702276575601113ca94e476d; 0xca8d737b2b186568a14e9e5a29c923afb925aec50cf544536df908544ba9130d6; 0x1388de6276def61c4064406132b3147aea0b27cc514397bfbc225bd6a69b1bdfec; 0xc027fa5476ef451adeacd13a953f7307d778f04b9d4bea485c380a435f49bd53d; 0xc35be7028286f637342b651136f20eb40760dd097328f01be3c2a1540b35d319d; 0x2cdec2f987414f41ce4bf7b29373ecde236e745d4248f6ae05e794a23b68919df]) ([0x45191581934be8bbd82d2ef66fd4a1bd21030aa5b45f17a6068779320b3c6bba9f; 0x21d81352eaa2527bce518bc00d4ad104939640b90ab96eb57953d8663f2f7a2143; 0x1c7bd6cd521484535363d58496ac98299f9104c7ffda9bdc0fc356479537ac3822; 0x635da540ce6ac12dda677f2a415ac1754e0c3b14fcc9f6caad605f6a7334424a5; 0x10e4ec827ac5f8faa6fd921ccf9ae52fedff9e86e96f9f39961a127ef286bbef4; 0x60ee823b821fde9493ac95b7bec2dfc4a2270da60f42c447bde8e0b1e8cc12470], [Nil; Nil; Nil; Nil; Nil; Nil; 0xbc500492b0a1de195eec4afabb382fa8676aefb6d4dfcd84a6c1b83cfa953bda5; 0x6089912742d8772ae1e370e6aa4d8523e900ce24779f35b6fa4f7242d2aada32a; 0x520af403d97c46b63ed3241bc38e7ce4367febd39f7c16ba842d22ee4db921046; 0x182a32ffab0e9993d3b2e5ec2d14430492391e9b61cf8f808e853454c54977cf3; 0x547a5aff9e312429a054409ef0418c9c9040a9b5016fcdde0542e074fb94fbd9; 0x1942d9eabf8f74f7ebe4aaa21a396d736ce9f4eb2cf239f18322696e1642ec7e6]);
St (-1)%Z [Nil; 0x329a1e80177814712275afb6b4d467471d5ef53bb2880b0b961a5b5c27502a7; Nil; Nil; Nil; Nil; Nil; 0xb5971f503ecbaf8414b99c57fe7e033eb1be209fe1e0b65f445c66d8e0d1342] [0x2; 0x2d3aac8adfba1ee2a628eabb163411e925ab7b3dad4949dc82bee6611607faa0; Nil; 0x1a3785336c22124a187c5d4cb45bc2271916162bdc8bb4fbd51d06a1fe0e165b; Nil; Nil; Nil; 0x250adc7ddd44e5317704abf101997829ac6588876a53bf2747dac5a94a6fea05; Nil; 0x1c67308fc3ddba528431c1b8ba2bd0f1c999edf1448ac69a728ab7256b81937d] [Nil; Nil; 0x1b65276e5a0af51abda8d7b9b0aa568be3ba5d2a325880591f5615c89b23f2a; Nil; Nil; Nil; Nil; Nil; 0x15d0f1d275edd198d00dc409a53c719ea772e656e2a7adac4b5891a8b8a804a1] [Nil; Nil; Nil; 0x7c00ee758000e91cd65b66c35babf48c5ed563a726fd3190e81f9fd31bc62c4; Nil; Nil; Nil; Nil; Nil; 0xdd21ae3b61e071b101f6ac768dda221b27414dd093f5780a11822988ef2352e] [] [0xaab6b808961be4fdfb7a1f2b69d4a19b4ba02c05f457e6eb225eed2ec0224f5; 0x18484aa04bf75193ae7eb489fcb343e1f72727adb940f2a5f28edd0e226e988b; 0x5f944d87232df3ffbae0c05bb219316109e5f301f68b00f988253fa1ae2d4e2; 0x2c4f7f08c88e7903e98ae99c7ce9ead7a2351ed922fec38428902a4a3a511da5; 0x2be674c8b5bf3cec2ab8b7801e01cf7202eb9055f2ddd29887d62b52fec5a8b4; 0x2e2bcc041b907e94af4c5dbaa277aef445eec9acdaef60617d8ab4158808b102; 0x1ad87a1cb4a46f95eee5ea30a7ad74c7ab78feefd5da2ca3c1fff3f1fdbb875; 0xcd6664b19b607da5cd953feb2d4c23a92a41e092b766f64470096d06a18353d; 0x13ebb2733adb63c88f0b73632ae73c892a8dd0f4814be8da632165c4907ab85e; 0x22b03f20a9cdbad615cca57f18e8456a3f6197ae7dea350b612b2d847e25502a; 0x12056c09970c9b96817dfdfcf3178fa980315da88356536a9fa0ebd1dabba20; 0xcd9f12d4683e836f9d07783624c823b20e8f8343f939c25c04d03073bb4ab6d]
  ([Nil; Nil; Nil; Nil; Nil; Nil; Nil; Nil; Nil; 0x11c905e04cce0db9468f573fbaac364c8f1e15e6f93f110e16ed24022ea3d107], [Nil; Nil; Nil; 0x34128f007f94983de28fbd5720041089df9eff4ccc5471ae40454c690e926c25]) ([Nil; Nil; 0xda0f56eff219dc0738a159c5a030375dff3e6ec91e933c2513cc3ba68727a783], [Nil; Nil; Nil; Nil; Nil; Nil; Nil; Nil; 0x31654982205286bffe2e3d800e7a5890bdf98edf500c24528a04ae8fc40bfa74]) ([Nil; Nil; Nil; 0x11a15f96180cb39dbe60fc94b88651e2696f67f91cf60838e59bf06e0caab00d], [Nil; Nil; Nil; Nil; Nil; Nil; Nil; Nil; Nil; 0x647e82cd25942e7c20483b36c52e8f391e0808792d5e5bbd0ecf76f2b3ba478]) ([Nil; 0x1; Nil; 0x1b513f1ad2fb6f95c6cc5ba2ac777e6e78f21cbbeb7c4966335ce08c7c7572310; Nil; Nil; Nil; 0x1], [Nil; Nil; Nil; Nil; Nil; Nil; Nil; Nil; Nil; 0x6434e71eaf73fac90e9ce6057b3625ba459c2a945915c9a717cbef25b5515648]) ([], []) ([0xf70954942892e122f2c4cf2f9ba2d50f8080efe5100a8e4fb270c9f1f21d18a815; 0x2c3e0c29d6b35e0f16984591ff4f4e3b4d41bf923584681ef828687e36a655f5fd; 0x6b71ab8ce1b31c4182b3f8fd0c0c3982836a51cbb2fd6dfc619ddf5d21e8875774; 0x7afc4c403f89e3a74bfc106c55b98e03e74716fa35e8f5a648b776e9e53ff5d94; 0xe85e9eb2846e8050ee4e93fe74138bfda102a34b385235dfac43b321f88c69543; 0x645b0e93adf9e097fe805e16768948195dffa96b99698fab4365af2cb37b53d5a], [Nil; Nil; Nil; Nil; Nil; Nil; 0x2a1350ee38e332c0f3f4f88519feb89378ee9d91c180257eac0e5a13b384f610ff; 0x7e66d190562cbbc70b085c3f65034be5201f1d48200086ef12534655e27b195e6; 0x131b7e5d92557da9180af6ab0e54c833bd6aed91ae1ca03aabd388b3948fc3c155; 0x1f0eb8f4137ef5e89e63fd008f0d757981c4173dc7109091a68e022a5a69f77e4; 0x38a66447532b24df5b3318bd553724e7ca09a68cdd7cea22bbfc69309a27e9009; 0x19579d3f4216feb1716a17c6cbe3eb2ab553e3a385393c2f8095a7d25521e5a31]);
St (0)%Z [Nil; 0x20cd18c3dfa7ff69b2524cc0ed56487df982ae347dd4604133c61bf1caddc20f; Nil; Nil; Nil; Nil; Nil; 0x17ca6ea4855756bb835f427106f4a6b897c6cf23a4f47bbc60cb0649dca1c772] [0x2; 0xf9735af0189a0c005fdf8f5942b0fdf9dfebc5cea9d6a4c085a70250d9f3b38; Nil; 0xaf9cfc1adf423a0894f3c05746bd0a4144ca6b12bace6d27456c373f4f0d419; Nil; Nil; Nil; 0x1899dfce5bda496e34f103457a8cb1a4ffba9b6dc37d4ed0db5585ccfbdb35d5; Nil; 0x2cf4c6ae1b55d87dce6fcef6676d0dacd395dc1a10d269c1779f96946e518246] [Nil; Nil; 0xaa97717b13f15b70cd2c577ca844ceda97b3dd6a585fc9aae886bd7f6aa44da; Nil; Nil; Nil; Nil; Nil; 0x215c2df7c67018789dd552936e3fccecbd86d7e5444311abc09fc0d76b8f4101] [Nil; Nil; Nil; 0x1ce16350d5afda754720c933434efaa080b5fa0b3e9816574f77ac5dc89599fa; Nil; Nil; Nil; Nil; Nil; 0x149b1a640bb3b4f9156f2792ee85303bde8a296ba0743a712752c398081d4466] [0x2064d05df821cc9c4d4086164620502951ea17243b567e2e331bd6d8c42e8f6b; 0x17d35db5f52f9a7620bde41d9ecc7d77c75592e64e1623250a071147a179a43d; 0x1ac96407a9025cd59ca0697c92436cbc76f018c115ff0f5c8a5ed299c9f60d4c; 0x28ac1ad6ff634623516626a603775547b793e485dc61fb568c24033bafe54348; 0x282dc7503e1da55fdee78bbc0ec3b360e8d60a13e14eec0e301404c1fca5a978; 0x398d80d49aa2c72f9a9d2e937ec0c1d86e1e2851f565ed0c7bef32426fae3f2; 0x1f0355fb73d60ab4e7ce301aaeb92f32c6c4aaf803545602a94a17548950600f; 0x2b70034951e8fb40a3b80abf29279846d01adbf26b9edf49e1ac0e5925425b2d; 0x170beef8dd4678de20320c5054c6a83773046bf4f2bd11a2c75829a99b075d85; 0x1c34864166a87212cd25d842f59126f02ab151f5ea44db8a7dcd0f93c550029d; 0x2ab76cf00ba6ed3ffd873dfc847ad7e88b9fd09cc190d2ae29f6ac4c77cc366b; 0x2acc3ccb7d1aafe794eca049d899220fea95f8a0bff548894d9cc2a7ed52f5d7] [0xda2ce774c12f7252df73321e83c7f3043ee93886098806bdeff06cd232163f0; 0x1793dfe51e5b543b31dbc7aa658edd9e6d9d44ced11aa74d2c312bea9d7ffad5; 0x241d13165409fef509b7c64f154969f62e38e2746162ad02b67ad1c7b518badc; 0x22e31d66ba7df765399efbd7eb0ca14630529d9db12d143276998dbb55ec420f; 0x249df89a40e8405c4c141c29216fe96951d1f37c3082995b7a30459ddff6d9b7; 0x216307e328eab1fe358a8dbb199a2ee58ea2a2c972f96710bfa392799ccce9cb; 0x265a7af4280ac63c8ca11eb744bbc59b5a3a6d237d2a64095ad0b8d86e1437c0; 0x6beae23b929cb99334f75a33b14d397adf084824f96c76befb52511c007af99; 0x1b4e22ca996884494e16ba1c001fe47bfc3ba767b537a7bbbf40ca9b9fb6f1a0; 0x9df4209192d2e43abe2e862e603ccb07812f49c93ce9978b690a964a3801168; 0xe9eca94bff48bb698223a3ce8641a254a80f3b9523b0c715aa602b0d736bc64; 0x1420d18433e107ef309791f37b2623d34c3d4542f8b6de1b006a7f81e74a6e59]
  ([Nil; Nil; Nil; Nil; 0x5237a0088ae4b8a2b384edd1277452251e003e7aa0020e938669eca4e89bd6f1e], [Nil; Nil; Nil; Nil; Nil; Nil; Nil; Nil; Nil; Nil; 0x108c588a17cad13b4d84b988420c61b3f8623e2c263536ceed0555704ed9e07c2]) ([Nil; Nil; 0x3a8da9c28a549675f9c86893de76b2835b268db40563fde78c4a0f18fd1ccccc3], [Nil; Nil; Nil; Nil; Nil; Nil; Nil; Nil; 0xf2c884f0c850d49e498c0fcc9699ed703143a2359c4b5a0c1fc5d4cf6201ae97]) ([Nil; Nil; Nil; Nil; Nil; Nil; Nil; Nil; Nil; 0x726143f9a5a1d01270cf11561cc5d656229902d71fa6b4f22a23610b552e044c], [Nil; Nil; Nil; 0x1cb4ebd586a3c5335238ccc5b971931e9dacd8dddd97b7eb9a2e5ff5c35a385fe]) ([Nil; 0x1; Nil; 0x36e534f8fb2b23496dc130cfdba84fffa6d4252362100e20b3bbb273110af91bd; Nil; Nil; Nil; 0x1], [Nil; Nil; Nil; Nil; Nil; Nil; Nil; Nil; Nil; 0xd0afed1a7ce2de7a664621c9b54fb65b4494e611c834e1d0365b86aa6cc904b5]) ([0xe806bafe7ac722f048d0e6bddf2d6e0b02f5c163615e9e1ee3e2b0f138d63f0088; 0x6891e800461d561f9275a8327bcfdaf38af7f840185d41ea6c79ffe0cd9c8b92ed; 0x893ff8f5bd4cf609cf76dc8dfd48092253d6acdecc1384e3490eff6af33138be5b; 0xfa99d3b702615d2190e22169f2d2178120dcbe63a1d9a89812ac1c7bdce1c34b6; 0x23d3cb2ce90922569f87e1bf6a68f8baf16f696da7427588344befa578bc9c96d6; 0x9549558f1d3f380a42a56788e18b5623c240ec478819ae032920260cae6382eea], [Nil; Nil; Nil; Nil; Nil; Nil; 0x28df9eea03d8891dcdb7375595bca5e5e6cec31d43ee4df3a37c56d6612dbcbabe; 0x1371ca77b9965b701d49c477f1f523cd56fb425b9148a8d9676c343383b5f641e1; 0x18cd8ba53bc6670f85f0741d5ee209e214bcc8edf626d46d9a386d39c16e857815; 0x3c202d41a43c528fd1c77b2c519d734b989dd5f0c9a2da716d558145773521857; 0x74277e12aa54f7cf91df6a3d74613cce555d28fba02882a637bdfd1cfa799f467; 0x26b338b5c3391eca63b3c70245e9e6f64aa105e6fc2e6bad9241161ba94681379]) ([0x127ac5c8513ecc65e8860fe93404d38bf4cb02828a5f1504fedca562b3432360c04; 0xf8deda1d44ca768d7052b0c67e274b2f8020774cfcc5da3ba14b785ee90bbb0171; 0xf075cc60adda67ed32c00c3cb61355a9beb8017917bfc8cee37cb3d966be7dc114; 0xceb4672d67722c369759140921a2f267790249df4eb1728acffe97f0e4227060e; 0x11724404f1673ac469708bfce06a057ae37f4d2f3daa8a02f8f0a0f76a45206360; 0xdbd559cfe6986d2b7ab2d0a63c6ef2aec3574c681f82217ea9afef0d630c21a43], [Nil; Nil; Nil; Nil; Nil; Nil; 0x3195111064f1cdff9bbe2b6feacfaba5a4c78768613fd508cb030606e0e639ffaa; 0x2a111a82e70f389b259fba6a59a9645785e94d9d631c83622abfc675b71bd5bb38; 0x2829086dd89a8a1aa4163a2c89139602361a08db5da507ab7ca87b714d87df8767; 0x313aa4955ef24ad8958b4fd41ed335d09e9799904fd719a5c22d6b12e55e7f943; 0x416365cc259cca2d6806aded2d839e049616ab9c5b65ec5421b46a42024a44355; 0x34892b8fae6af28580b06efce346e49e99c334f86cadbcb8ffcd98c739e1fb3ec]);
St (0)%Z [Nil; 0x27dc3b28e87a46f2402db14b3d49aa145117348df8ca1339d08fa403192800a1; Nil; Nil; Nil; Nil; Nil; 0x256146a7dab1514028a93fa1c277783db4712af444bc1cfb7287aac422e9d492] [0x2; 0x8881349f8b759377822946b4437ae49466a36036fa7b7536b90e813bf54fca6; Nil; 0x2be1868abeceee7730929156c5872b58104fda1e4a81b17a4331f101f67adb75; Nil; Nil; Nil; 0xb0307cb06804ee98fa70614bf09e01fe3103f9d23b5ad91c998e152b59328b5; Nil; 0xf2da64a27fa125d0e86ef2a0941411df5ea7cfd91544813fc32bb43bcf0e3d9] [Nil; Nil; 0x1199371fc8e114d7f020b935f000e2886604aa5735ea2043d9049765025e9685; Nil; Nil; Nil; Nil; Nil; 0x218e3f4a3f962abf13e8adaae78083ae623b5918ebd950678fbf82f73aeea814] [Nil; Nil; Nil; 0x180c01494728609b66e14c1a01ca4087cfa1b40f0292d40a75c24266e59f6c87; Nil; Nil; Nil; Nil; Nil; 0x1fc62d5f2245a692ac1c76017a02ef3e827fe3a74ab1c87727e0d7a6679e1d71] [0x268f4cf165f7f3e8239e1d212d47fd01032676120640c42636e7bb0ec5e1fe73; 0x2af7c44a05b3cfe03fa5a8be6190a842e5e3792fc61318ed8fc0b3dccaeaa4ae; 0xa652b17be960ffb3960533d98773ea75c81fa7dea7a583b61ef4d959d65d2a6; 0x20b07b518364b16fa51bd7458162dc000fe1c818d1d209c0b775caf38c0b4ce3; 0x25d9effd51f971507d08467a7598e29d921f9164b53af2b2af7becf6d36903e3; 0x508a024cccc16adbf7a0a9ad921317b154bef123ac9a0f9cb9182118235f327; 0x15695f24a30974c9a96feaf688653565e24476523ab5ccbdb2f5f3dc790fcf21; 0x2e235c6bf210aae2378e213ceeaa0c594c2dc62c46a99adf3ba17d1744dd0a75; 0x25adcd58f190f43e72a2bd21d14e7528a0d9dcceb355bb7aac7f6aa8a4119cdc; 0x11117abf641120ceeb78765e3bcc040576af21e16d6978c8885a2d660ccd1ce3; 0x252c639a6bed7b116a3d362b611aa0fd301cb905ecca0f5ad543846e9f1122d6; 0x19ae6afe5affe49717cbc94af15189f570e599963bf6af39ac615e0fb668a4b9] [0x191573ad2dc8353fab91125d47bd340eb9ec0fe3a94d9d5738b0b759316fcee0; 0x2165f5b6837ef3cee4eb44655af87bf4f44f26de0807dd61a5cd9d572ee2018e; 0x109b59a0e5446374a1cd294cac9b80cc2d676b563d767c43c635faac1d2e9257; 0x12bbab9c7648bf8a8f43663a6643739e83f40a993d740a42a04fc1ab2bb9ae9; 0x22a9d4430ee9144f8ae297748ebec74b22535bf287b74a2f790b3b47a418306b; 0x76a5447c57f89b41deec929e6104b5ea96f30ca5ab4f7ec174982c492f72d4d; 0x23a0a104b8ddbaa533492dacc9711885f844089015c5d735276626816e05510a; 0x2456bfe0487b73d24c13c8393a408ef4528807466e3248b5f76ba7f0fb79203b; 0x304b67d4fb378fb1e2690a75693fc45f056096789d9cce36f26db8317213a3fd; 0x15d635bbfdc894751e8bba1674ad1aff432738d49ca9f4be467fe129f1ef0ca5; 0x9dbd328273b17b48adfd13e6e7700b36762f928dde4b7adcb9d53d36487cb68; 0x411785297232611f107338e3fd1b7f6454fc55c0f0449ec81ca609b6c9b8eb8]
  ([Nil; Nil; Nil; Nil; 0xc0f909fcfcb7ab576a25b37d61556161b124690b6a14392571e3208b4ee613442], [Nil; Nil; Nil; Nil; Nil; Nil; Nil; Nil; Nil; Nil; 0x27a6613a1707eb230568795f6f5bad0ef3dea829fbe7ffde6ea789b65c850b3e2]) ([Nil; Nil; 0x91ed4d375e776c07baedfd938c8ecbfa9c05dc8965b7a1bfcd1e3ec0d35362340], [Nil; Nil; Nil; Nil; Nil; Nil; Nil; Nil; 0x2454f93fa8ec7fcbb6be77f103e95da25bb43f20d1c024cba7f81c86215de5ffa]) ([Nil; Nil; Nil; Nil; Nil; Nil; Nil; Nil; Nil; 0x83d0c9c1bdb4d1de58f46b48224925904a5b33789d21f8c1abd467a377227c4], [Nil; Nil; Nil; 0x6ac9fd5f55921598ed0c8b9917b21ce4aaa2c74cb37b521d617eb2d17194a80]) ([Nil; 0x1; Nil; 0x838425f29c9a68450ac78e20de7bf2f1def218213b24a76b907f78eafa178ac9f; Nil; Nil; Nil; 0x1], [Nil; Nil; Nil; Nil; Nil; Nil; Nil; Nil; Nil; 0x1f38d850a8f8a4a60aed5ee28403a440337950138ff04b29276d61087e68ab936]) ([0xb6dc32a47ab2d5317e31ef32da60aa4595312b7672c77e5aa099af26f1d2b5e10d; 0xc9f5b3d5e892190ced85d6cd0e3537716d62518f3d1fb17deaf96a73b650b30202; 0x6b9abf2dbae6dfd06ef49dacbc0559040e5e8a313c09d6dcd6542ff65d4ac547fd; 0x5d9437ae6f79cff1be5c99913164b5c573fa1ea54baaa9c64ba97425da3fc9aef1; 0x4616943cbb39fe721f362934772892e9e45c221ba6932830d46c7cb6d9aa49140b; 0xead6d43390815fa25ef6b28f8eb56477a201017adcfd63766df1356ecbfc2256f], [Nil; Nil; Nil; Nil; Nil; Nil; 0x20f07b2fead5d286c3cb6451d2e8e51a6a3baa079172070ad8e2fac395395e4ed6; 0x23b81e082601309a37cef7d02742627d272ad6451877ab7be644a46b2ed836ddd3; 0x1435436a4c68d76d36a432850a80dec60aa6d8201e39bef511693a5b00a380d5b1; 0x114578ddaf6fb222707159f86c94c7ec68b59530a3cf9745ac0039043bc5579dfd; 0xd5b6be8a2d81cc1884e6285c5a73b2c568a775b04522fedfc33db367684e26549; 0x3df04c6fbc876faa776b72a2322d9e4b0423778b53395323c4fbfc130aa7905bb]) ([0x4a9e90a5a54eb1e59b020f4181d7d0a63287c573b3f64d08afbef8dce78babf850; 0x535bea23e6e3a3f192ba44bca3bbb9aae0a629296d4b78b90774d404f97d27752c; 0x39bda6e262abef5115ced044c288aeb249f3b563446d0786127600e8c3f4eb7863; 0x4c0f9591263ea6fd5be309e499264fd425104f0570132aff2afc2e723703e3e26; 0x5b46b3ca63b9fe3f149b8ccec05f444246e58bd43689c3daab4d488d9548e0353; 0x66ea139dec3ff9cafd1194dd19ec48d99a9d520c94862dbb49c31fafcc31e53c5], [Nil; Nil; Nil; Nil; Nil; Nil; 0xce9952229de21b28221c70b35957ee65b9764419bddc1b10b694d64f65c644681; 0xec0a5fc24fb1d35cf2c855e3baeca9dfcd2c222d3f390dde0ea0692cd702a819d; 0xa30606e61c0afbd1c93638c2aeeec1d5318888fb12d422bf65818e5a734677d12; 0x13bbc9c6fc8ba8258cd976d14d47cb33b77b09a1fa1e2315a134d17b3eb2ecfe7; 0x18c28eaa989ddb6678c3f9be9ab8517ea52f63581ea22f374702e3c0c33efd7dc; 0x1a19560ae8a5a4bc5327ce61f6020350a78463f6234284bc35a3d97c49a532f75]);
St (-1)%Z [Nil; 0x1dc78577dabf1556da7a7d9c77f1569515dd4af973bdd3586fbe3af13390de4a; Nil; Nil; Nil; Nil; Nil; 0x16e57cd4740706221fa314c01bb5d3856393d9ac534ca32b86d01a0ff74664d4] [0x2; 0x129cc8fb06728ad2ddd5c81a099001c881a41f97f4b3f734cc625125a4ec1efd; Nil; 0x1973f1b584364dffa1c374bc515ef796a112775b7091a4bd1b30db2a6dab24b8; Nil; Nil; Nil; 0x197ed19e6d2a9a0798ad30f665cb84d833ed90e515252761b5507206e1369873; Nil; 0x2276a9ff244c7ac6cd0c1cebbb55af23313f4eb4c7b14cf7f16b1a6b88d14aec] [Nil; Nil; 0x2f7d557c7adfd866caca0516f0e30844e8d5e7bf6900e1623f850c0ef1226c3e; Nil; Nil; Nil; Nil; Nil; 0x2ab9606597397c812dca6a1c3b2da97ea77eb4ff012da92a87fcc478d62029fe] [Nil; Nil; Nil; 0x1773fc0fc4e3556aa067b95c34929b317d1e5f4f572fd909e15a85ea331779e9; Nil; Nil; Nil; Nil; Nil; 0x2951a1452b4de9e7eac58bcd20f12917dac5bd911635d91dd411c0eed7500c] [] [0x49eb8b9295056076a5982926e6ca216911710c00c3ece13a70e4067098ec22c; 0x132730ba50a97017d1490be8b639e22f2082079c97c6b64f9bc8116e56dbd92b; 0x20601e586d921338d1dca8307ea02772579594d61e5f3cd66b7315be2845e99e; 0x193752e39edebc7856ff58a4cc52dcfb616f33ebc1e0b8767906e7c7d61417dd; 0x12558567fd4e665edc75986f7ddcfbfddd77ed9671613eed4e3b9cb279202565; 0x2207d140869f8940b1a3ae47cfff47ccb06f9b1dced4f8b64e0a8911008b9d2d; 0x9c4d6953e9436ed2d50cb70031d90e12681063e0daf946ead546bf9054fb5f5; 0x1be480ed79f186cd227c164578011410a2bc228e4c3b8ad3894ec28e5d5a31d2; 0x24675b7c3e6517fc30ab542b4c82a897a897933ffe8b13e1a80a41ff7dfabf18; 0x20ae74729436b079abf294ad80e4b365f784da44e36d2a1d337086b75ad08328; 0x2a02fb05a78bf1e96a507cb00f5d0ae1c73bb9303676e3dc8f05397a129c2b2e; 0x2ae7b87a35a78bdeaa2a7ad155d7bd59dc12323acaa70f460e7e8a935c048ef2]
  ([Nil; Nil; Nil; 0x141a0aa33259c6f1dea99f216718ea959e4e7cbf5241449378ab075052e8a0179], [Nil; Nil; Nil; Nil; Nil; Nil; Nil; Nil; Nil; 0x405c88690cb594aac81d36098de231e9bbf21b36b2f0d13cb7bdb8e00633c0dd]) ([Nil; Nil; 0x36602da8b4578afd98829c2ec2937664d5e4c829698b9de8eaa4249489ae7489b], [Nil; Nil; Nil; Nil; Nil; Nil; Nil; Nil; 0xdf2e48ba268a51213483f68ea954709289d7f3be6c10117731d32f7975f5e144]) ([Nil; Nil; Nil; Nil; Nil; Nil; Nil; Nil; Nil; 0x61de9d40c749c329d68b52b6081cee2644a6c2f67c64306824eec6eca16fbaf3], [Nil; Nil; Nil; 0x151530c7a3ee41cbaa7fdf2f85ea56fbadd32ed3cab8f2985e4f7a49c6c9e9baa]) ([Nil; 0x1; Nil; 0x50b10513e4191bb59fc56cab4213105d96d3483fa915b282663adab48440fc42b; Nil; Nil; Nil; 0x1], [Nil; Nil; Nil; Nil; Nil; Nil; Nil; Nil; Nil; 0x13ac1f67f2dfc5184e2a47a9374ac27183fb58617f486fbbb64be56b621d60459]) ([], []) ([0x6bb8acbaa6edbd73d5fbee64dd9b89d9858e4516e9ba81da782cebc65df275465e; 0x380636540cc71993a5c1fa471e69a52e2b35b27a940e6551f42b38e3b128bc9255; 0x1929ffc3136f94a8753a5d1b0d2faae483cb7f605c76afb719d8b9d3a30781e43c; 0x10336db4c3865f4d2dceeff3f40752bc48c19cb890c62544cd2cb0cdb2fa8d1692; 0xbe78241b1a6592dc995f540a5ccd97c829ef82e8d41782e6130132c3b7429c050; 0xc982d4f833d00bd353963092c1164fdaafa1e71564549a7413c7b48b74ba9f7ec], [Nil; Nil; Nil; Nil; Nil; Nil; 0x11fde4fdbacc18b1a32f26b161906a8659982282559fa24f07e7bcb37d2339d1c2; 0xa3bd37f82bd5ba187f1f3d879905a001e0d80c1dcfe15a018621661f49e5894be; 0x4becf9254e88280e94cfc4e2eb19d3ef411e728d5e3e44ad20220729712ffabbb; 0x3d2a313a6064c7f2eab4429d352ede0a110d70e382f23a29c951aee4130776472; 0x2d4d5b6cd9846fe9303f8cb87e0330c8d3e77fe406743b0a5cc50792cf30954fc; 0x303df8e10622cf6badb88ae9c868325ae64c5d6a177ecba77a1ad86c34968539d]);
St (0)%Z [Nil; 0x2703fe86c48d1586553fdef9b9fb6a4605ddad06f8e11425b0124563f710d7b1; Nil; Nil; Nil; Nil; Nil; 0x7244563488bab25ff9bb7d74505b05425782996ce62184a15685babd77f27f] [0x2; 0x9604fec1ca48aa3631066bcc785ee1791a3bd8a6f90b6678c0e46b2e16c2596; Nil; 0x6f4f393f2fc8a5759b74c1225591f928b99c13200d83b9748856a6955e0dc1d; Nil; Nil; Nil; 0x2ff20a1caca8e57758568a390d30fd585529e7f7fb8ba9089aca065c1b050ac8; Nil; 0x23e7ef2a308e49d1c84a6fd41c20759ff6ff169a0a7a0071e22af2f3a79a12da] [Nil; Nil; 0x2b67ca4b8003b46115bf1c77b852b19878aa0c70115814d5f38c162a907f1a07; Nil; Nil; Nil; Nil; Nil; 0x3d1d398e4566ca1a3a9ad8ffbe3ac5ff7ee5800674f450ea735954c1ba547c4] [Nil; Nil; Nil; 0x14eb7b673b8c1b739bfe6e79b2c0722ad3e8320e43e05929d4ea5a50c9122d1c; Nil; Nil; Nil; Nil; Nil; 0x2731ef86f8c43106a403750382682bb0dd133da7b101710617da3990778e6350] [0x1446f9e7cef94895d1f26f8499e0b3e9389400bf15c5e0ee306807f1cd5ccfee; 0x143d3f6b9c84c1f32f55b368df3500be35c13c78d04ec8f5798357adffc69eb8; 0x21f71b0a27ec410c7b0d86e0a74be3bf7a9bf8929a48773a1f309b62f141af1b; 0x1ff79e1800e2edfbf6fbbcf2a84decc9e06f0a9f9cab939c73703fa78d28ee1e; 0x1d4c2fe596c9a1bfe5e4047bf9201e783f6afcc12b53aafd62c6a282c4838d4a; 0x7895266edae2fa82210da2f93e98d953b0290dbeee5130378ef9398b981560b; 0x167c402e220e5a1b2f20d094d68285292581dc1a94949ead2c9d92fb7a855426; 0x28467419d0dec5043df600583235ee566630923e92a4d13095271223455223f6; 0x188670bf0241aecfacfe0477ce19dde91883c94468c55ebd3c6803a6014ae65b; 0x15ecccc14f8549ac7b1e3ea3087197273f8d39277a2532728524f1dd0db689f0; 0x1cbd1f061bcfed3eccb089744feed5971f05f795e9e1b89269b06c8143aae6bc; 0x1f910b0d1a092c1239e9f15f882d048eb7bfe148828c40caa5b168c20f466aca] [0xc19d715c6ef06b339240172870be58a5df580513b395383c8d3fffc3dc74500; 0x27ab26a585fc2fd516ada5fdf96000209561d3c12121a97f748ad1b506f61a3a; 0x1c67532169114a9c7ba73202b5c69d4ee59f7b22a6c82d05193aa1526ce6c2c0; 0x45918a7390b01bc12008fb9b3fec1eb6ce2589da6847b157c882a2c7e8ab8fb; 0x295eafcb47130de8eec4bc0b53cfb57a9cc3413d9a5e11c276a677754e5e4103; 0x261c297a25b3d76eb0314bb5febe204325cc201d29870005c31942b515b8fcb0; 0x19ca3813eefc168dbb03747a36c41052918b218b898e0dce4908b9e622fc9a8e; 0x2115e803f5546370857526aa9d506c55c2db7eb16e29b66eee80267853782edc; 0x1211e5c05f5afdbf59fe96fd46bef59dfacf161b1d756722c3c9d27e39190f60; 0xb8041498b4e616eab5231b7125bc15bd72354b6225fb599a480d5c4ccc5747b; 0x1651f57ec95f40bece26abcaf813ff4006b50ad0bbf5fdd76911cae4fb13b830; 0x2804ddffff2437282612cb2c7874c776a3370e11cf666f135e7ab700930cd3d5]
  ([Nil; Nil; Nil; Nil; 0x23d8f08c04aea57ca83092fd3448165dfe08d699693769742a9dfdc7c8568c20e2], [Nil; Nil; Nil; Nil; Nil; Nil; Nil; Nil; Nil; Nil; 0x8efb632ce4bb0934a7d623495d1d4f54bddcf583d04401eea59ddd5716f6b9856]) ([], [Nil; Nil; 0x1f1e54f5a9fc29bfeeff90ea168411c1084f171a8dbd8ac227f1f01d3101ea14; Nil; Nil; Nil; Nil; Nil; 0xcb39bb0250dc29e85774f1bf0a9973e37a575cfd3179c93f31ca1a7a674890]) ([Nil; Nil; Nil; 0x1a21eff8df6cfd6cd75f6be814d56d65162789a73521164fb03f513c7b1c2846], [Nil; Nil; Nil; Nil; Nil; Nil; Nil; Nil; Nil; 0x25dd083094e8cf1a13124bc1704ca72e452d777ca70c627770e79627e3d2dff5]) ([Nil; 0x1; Nil; Nil; Nil; Nil; Nil; 0x1], [Nil; Nil; Nil; 0x5f94b89378259a4316876c87d4c0a223710a80a09075261775b15e08c89682c; Nil; Nil; Nil; Nil; Nil; 0x29fa3cd807656d24fcd63915d4429a7cf78ff593baafedee41b2c77805579972]) ([0x346af9637811a13856c739fc868bf77cb901c58ea2726159480c146d48a006d3e70; 0x2f7b2256f045491c8ce506ddffd36ab9d0023d25f701cf0cdfa98f7c7239b9ce060; 0x25176bd243dde7879265b1e7b73b4de572459c2a9d7f9cda0ffdf1167bbdd746186; 0x1dc68f1bf3a400308ab45ce1b12808945dbde034cb7cc255846d425928e1ac8d05e; 0x108c0cafc5ac9ec3627dedfc7b5d9b531fc94624975962275dd9de3510d27506e20; 0x2498f88077d3f8e89e54a4fd14c09b82ee9ec004ef36244abd0c37bd0f9d776107], [Nil; Nil; Nil; Nil; Nil; Nil; 0x8d33f36565d1399226b4f01c4af7586f191f706e905813d99c9d54849ef69d0a81; 0x803749d7872e7a6e81dac8a26788c275bb731056a7f6fa19975ad653335db8962a; 0x645e7a59d2ed6fdfefcaca069b198716682ed4d7abc198664f3204e369ef7cb148; 0x512a3606997a7a77ee3e46bc0992be18c7d8f596c1b9cc1d351bc3babba549d774; 0x2e876a20977b93ac5fe4919cca7f49e22907d7adf5f11919e41a478da79c167e6d; 0x8b29cee1a2317d71eaa338a74b914f153c07925651d6b1d6e9e5a9afe2de007a8]) ([0x11f13597ea54cdec379af4410e57f981b85494c40bf2b303530d5dffe4c1e89959c; 0x8a5a00049a39355027fca21ac7dcead2bf1f162bf47341ccfa0d49bdc2ce4c459a; 0x970d9654963bef5adfaa65b13c0e9668b2b6e9699c58a20f567d6a64d3579e3806; 0xd17168a5cdee5fca5bbb5eeb08217d2b4e75de866e86016de9e9f927636f61d69; 0x107e9e2fa087a7892b9d55c41f8f5fc4912a4ae445b3c3f7c3c4a4746d67116eed; 0xee875ba6383066d2f6019e56e7f4b078e4391772b1d45dea7ebdc58c28c2911dd], [Nil; Nil; Nil; Nil; Nil; Nil; 0x2fcfbe0a660e4a2b7d124aa01c6933bab23dab8361152a19071cb651ef347f0dfa; 0x17a7a8c83157d556023dd58aecb1b18e182a9cf6003bf7ec5da9b22ae9165698fa; 0x19c5a63297c2370b6d8920eb707af70e6ad20683ebc2e196f892008402447fd757; 0x31a5ef8e8b2fdf66315fba4b37ef02f9363b4c1ec3e137de7af4237d23266e307; 0x3d9a4647d27f956d192c0b7487f27364a49b37a4771176203538273161440c572; 0x387668ae32cbeb7be5b16fa025a6caf297940ca7de0722cdc904f8ef94dc9e360]);
St (0)%Z [Nil; 0x2e79fec5e0d086c9c08ecd5bdb154da4e44be3bc5c98c16dc27f46ae9392b51e; Nil; Nil; Nil; Nil; Nil; 0x2a6ad1a1f7b04ef6acfb499e362291d0b053bbf626384979d1f5417e451aeabf] [0x2; 0x1ea4fad0061195ff7c1785aa66c0ab8b33586d50bd9091f79a1456844ea4829; Nil; 0x2f78da7fad9d78b16c7304125643222b4366d9d03e36a7dc7240adfaf82e484b; Nil; Nil; Nil; 0x5f97cd0e98151330b54fc184b5ec68ce72dae9b423981136a2b4a9893621288; Nil; 0x2c1839afde65bafaef37f66b058b4c971d9c96b059c9af9399ed004284eb6105] [Nil; Nil; 0x3ef90f81e4fe2eda4876d91bb33287e682ae8caf4e8099f24f64f5547240615; Nil; Nil; Nil; Nil; Nil; 0x83404390ea86a3b2fff06596f880d650ac8b391fe53dc8284792550010d881c] [Nil; Nil; Nil; 0x1a1dd65fdd36e4b6ab1d5e9ffb908219a35b4b9cc9c15a1a49335b4ad5d692a1; Nil; Nil; Nil; Nil; Nil; 0x106b58f58608f0b7524ad70a029b8a7c6ba3529c90698c930869d94288886772] [0x215a5b40b9b8d3b8a4226dd75c836fa18e906d8f455721c59f861e97ea3a2b33; 0xe1cf19fb9aa33129fc8b20ee461261d52c914975c882fb1a789754c156e44f3; 0x2ae92b1fb9139e08249bb11553ab8b145fd88ffa300fcb2b9dfa5e76bfe5c136; 0x16f8ce4fe307c3847669ae2d45f16b2115d49e6ca49f030d13082fd82a4955a7; 0x11ba7469b381ced2018172d1193fb9ec3cee354fbc69ffb4e73d0b866c545aea; 0x25b5d2eabdce5811807a5530044864d79b1b5a31695a543c7340fcdd0f7767f3; 0x24717e2f980be1fb8f2762a5c3fc8b91e6e39042db37aca8d02d3d2fb3241e48; 0x41dba5496bed8e2633b7a7a03784fd562b8e0efe62b78b17bd53d657256053c; 0xda0051d52849c8da9f0f2c59904b81dfdb7421f342cbf986c93120b963822b; 0x264136b6ab63bc170634ec0be390a0ec9efed749572738ea7aecc85a7b8f7d; 0xf8207052dd84c510afcef4d0170ccefab8568e2ae2aca46b543a4395f6f6931; 0x288eccd7baa8458682f56963610ee802ebc814ee31965450e6a765e010d689b9] [0xc1e67b201dd10b53619fb5df90315bc3836d7450b09e790d31280a085c23e3e; 0xaef09c7319cf8889fec9f2c45fc909a84fa6881b2835b4e31f4262ad39ce1c0; 0xf33878086cd86ff50a84ffb92dff3c3a94eec4b14841dcd3b3564e987f4bc7b; 0x2d8edd9bf50eef740a0a06b713d41411ae4350070f15f885288f91ebb6372017; 0x140dc0598841856fab05c518af11cba9fd1d3882193f16dadda886ce7ad99c6c; 0x85bb37e8d4ce01ad1345311a3eb7d7147a308725499a3226dc161aac8000720; 0xa11a41d68c7326c8163c1f0e30518ce288ee402f6cbdf172c3282724bce83bd; 0x263c5900fa8786c75006b29279c20adc962ceeca1e1b51ec7804339426395396; 0x2779c847e58879f1b2fb909ed8577d8ff0e298cb93230dd9c8dcb5b9bee58a20; 0x2fe745bdfb9fb14148be99b514c2e7b6172c7b15f0311f844a728fd8e39dba8e; 0x1eccf7dc18021d1a41c8e3590f386b17619831fc2139e15f2536b8ac172fd21; 0xc6682f7adff2a733b89dd0ed1c7cbb7c8f41608c5e8862668af776212d4023c]
  ([Nil; Nil; Nil; Nil; Nil; Nil; Nil; Nil; Nil; Nil; 0x51ff06fb386f3db85fec798fe1b699e05139db53f3b1087c83e774f72a2dd2040], [Nil; Nil; Nil; Nil; 0x1604d31ef2f8526662fcb1fba6397dea0cbf5aed9270269b93802ce93bac586305]) ([Nil; Nil; 0xbbc26752eac335204cb8e9a28c56717b7f7baf5adfd6c2a90477efc3e79730d07], [Nil; Nil; Nil; Nil; Nil; Nil; Nil; Nil; 0x2eeb90f16d4bdd0f7c55ef9be7cc7597f2286ae1833f1c973d048fa5faab36f3e]) ([Nil; Nil; Nil; Nil; Nil; Nil; Nil; Nil; Nil; 0x26c69869d37463fd929eb1433a514e4c69f34d58a8a94721cc8945505690ba0c], [Nil; Nil; Nil; 0x160faf3183cdbf7efe115d77089021c51818600210c69803decb0d7b2361fff99]) ([Nil; 0x1; Nil; 0xe8da5b64c379d4c46bf1d07b663411327feebf9071c7a2b3a56f99c46c687d4b; Nil; Nil; Nil; 0x1], [Nil; Nil; Nil; Nil; Nil; Nil; Nil; Nil; Nil; 0x65fadd548abb143f3cd8539e5382cdd96a069bd6a2b3beea92e5aec040d7754c]) ([0x1e86c89f212c0a616ddc5189e2aec65369b9e4f07ef7c54460f5998c9a9b1ba34dd; 0x11473ced9d5d87cdaf1ce9aec57581d1696cdcb4a30044be5ee1b10a1860f15da91; 0xca97f605dc63c436e6f687f6d7c08efda8803f75475c27a58631d94526a58a202a; 0x101ad01275940b42b17d582f422dc99174151ad46a49ab7df4b87ac698c55a7a77d; 0xe1a5e442957d63dc6c649f6b397460531bb3df309fb021026027a4f1a07f42448e; 0x19d4c27117d3a2b2ec09f0e3c27f1a7c30c04b6d92fa7d1e0ccb44b73154ae3c19], [Nil; Nil; Nil; Nil; Nil; Nil; 0x53f5d3e98dac0befbfe676131e8181225c28f62f77afa721f2cf68bd74407f1d51; 0x3029efbf88d85bab5c80ed89a01e13cb914363a19b3bed6b897719c59c5200c1ee; 0x23a6cc8d73ba97b5761565cd83e73732d985bf5ec94f1bd33a77c7efac3e95a7ca; 0x2d57ac45a10182afa7f35fb4f884f366d33c9de4f96e02068c700356e64c3abe4d; 0x277b9694dd618249742aec076fc813c7a5b1390748b7079ce5d3d1a44ca86170ff; 0x66a51e67c72552cb456f4b2e6f280835cebb7839e436efd69317800edf5884f41]) ([0x2669aea22f395801e6a553d72eb58d293d81f3a699d88d7458f9f268287835f7ce; 0x5cf4d3f8ffff0796d12d58794c3cb80fa5f2e33d97b5708343cc4318c972e1456b; 0xecfcc3b7d09949004c30802041a07a6cc3b6744f05be07f5831900eeabf03a8384; 0xa8930fc1e65d6f5d296e4be1f703bc6293e7e09c280899c65463735e8f95213be; 0x1264f1ec4eb4a218c4966f5079aa2b5329566fa2d440038a9f8a8d76c099d2070; 0xb1d4dbb37bb24e2a65c9b9d43513f851da5bd0fb1962ec42dea3c371838814c4], [Nil; Nil; Nil; Nil; Nil; Nil; 0x6e0df51ed92e005116e973987e9b77b31c266db23699343bcd977fbb9b2c2c975; 0xff83554f1b8ecb471cfbdc55aa94735cbb11a1f5e280f1c97f390cb77d74a908c; 0x285623de6a0f41dde0ed16587aa552eaf190a1926e8d11ea15fb74f4deecdb26ef; 0x29f184b58f757f21aa5aca100b88dc1fc5c8b8b4b7dc5ee4d83dd2927c1a861ba; 0x5795396cc1f33aa005c6bc78dda76674f95652fd64b4bca255deac4c37d2e0ff; 0x5b2b3d1272842f079160283bfd41375ff18e06508f55577a7efba65bc21259ac]);
St (0)%Z [Nil; 0x2df847c47362eb81edd22edaf7473bedbf2123ea80fea3a92fc266f643cef398; Nil; Nil; Nil; Nil; Nil; 0x29bf29a3d071ec4bfa3fb44f4a80641a9bb3bc094f41a40b04ec964619823053] [0x2; 0x26c06ae6dceb4a7ca7e16db8a3a1c6fd86046a6e77326e40c5e252094ae09af; Nil; 0x1e9a0e9687e278bbb59de1a34953d504d292805122f6758f8c696613e76c17d5; Nil; Nil; Nil; 0x6a524cf10bfb3ddbe1091673700f442fbcdae88193026823733f5d0befaccf4; Nil; 0x27d09562d815b4a60ef3a70034497456c7d001a5a074add9d066db9a2a6046b6] [Nil; Nil; 0x297640d90eb69591db889e87dcc5f2da930d4c08b992229f743200446f701b06; Nil; Nil; Nil; Nil; Nil; 0x25328884c6a2f3912e45ecffc2946b46d21a45a22d4a07413740e7832009380f] [Nil; Nil; Nil; 0x1f1932ccc9110cd1aae842f6732b1daba5f23e8dff6960d78bbbf44e98c174cd; Nil; Nil; Nil; Nil; Nil; 0x22cdbef7fe58b6228cd1a41d52b1482ffbfc2fcfb847e7b050f6310523d43d8b] [0x56cc046f9970482442efcbac5e86ee6b9845fe7827bad91bf3cb7f66a902378; 0x2a5d9006a6bf0637853a9ee996a9a42a01fb78228d722185318cab6c49507999; 0x26c45dc72eef6b8294e19af5c6da9ec18c3c9c8b4c266bf263e01009a40102; 0x5965b99d56242c7092a1151b100907d2078cd6ca478d92976a2274ed4ec70af; 0x1be92a9169625005c8aff9f365ae129a3a16fc3df0459bbfbc3c05b37597e925; 0x245f8790884a3ebb1bc8c0be6b59bfcff61e5081080f86efbba495d76cfa73bc; 0x17c6c6393730dbe7dad8395b97120b0dd6ee6c2f79080c079814ada9ee98cd5a; 0x2047e0ae7dab42b55ee1bd3b03def69d254d9e675435987e2abf91c3046cd1f4; 0x2ce5f4e3ffad05dd2154715fc28a626d32b944916716a4e604df17b621dfb4d9; 0xe4667fe96940ef4c92d8aa84b4bdaa692490b8efde18daef65afb4663b18f6d; 0x277efcac259f7ba8e0a49386e001bdc3d0338a33337560ae6f2da49d4ef35ceb; 0xd12c26fb7ee35a2e88a33615ec32e9b60bde36b00c6b8dee55f66fd8d23f22f] [0x22efc98723fe8502a92eb853bf4068b5ae1dec1cb1f8ec3fedd9b119ce1a8fd4; 0x207fbab72179391cbcefe8cb70ba57cd5babc1adbddb323be8ab7b889b6fb44f; 0x346a89d29aebf31177160cfc6c78a2aa0ef9d425ca021289eccca2a7fd59c31; 0x81932fbf4779e017071a52c80100f6e09a267551fcccbf6b354d7607d2282d1; 0x272673c0508492cb1f8937e46d4a7da007c7a4971463a91a1992be16ca3c4472; 0x1c3f99ba11a32a1d9ee1cb0ca4b272e371d2a534f0a6f213abef2129c45235fc; 0x643888dbaacaaaca60e4839537e3a58310ac8469e45ce13390978e0b1cdce45; 0x1a6e12e61fb8cde7be4a718554b862275e317d8cbe8cc637f30098881d727e78; 0x1d335d59ae1de1ad6993a2132bfdebc8f4cb86452836bbf8148b901ad3678074; 0x2fb3d2cc5af259aa6d7b2ddd2b4dcbb453ddb1fe71bbc2b5d8b4f86dbcecd08; 0x17ac8adb8b247f8c12a58d8604739c1c4a28a37a7e6965073d9948527e3be087; 0xf6f2263ebf5b46de4c413855a8a049bdcf8b8096ad1fe01754632bae5cfcae2]
  ([Nil; Nil; Nil; Nil; Nil; Nil; Nil; Nil; Nil; Nil; 0x1fb16c8e028f43cc9f18280696e825c4a151c41bbfbdc9c08158e7e063c169e1a], [Nil; Nil; Nil; Nil; 0x78c435b1e3efeb7561a2e876c25ee27439001e5a784abf499ca3a96af124b67b5]) ([Nil; Nil; 0xb5d7d573ee4b6f1727433f8d5695105d4cec58e0ec02f7fb0e1d3b494337cc8de], [Nil; Nil; Nil; Nil; Nil; Nil; Nil; Nil; 0x2d791ab203658b962de75eaa1e26747be1c3fc356476fd065887b2e73018c337d]) ([Nil; Nil; Nil; Nil; Nil; Nil; Nil; Nil; Nil; 0x1fe255b69815ae16b75d9138711393afee0726f6ca5da5bc048516e6f36a10426], [Nil; Nil; Nil; 0x7df6615565a27dc7ac3659cf67a75f23a72c0bb618e59e09bd1883f320fba6a44]) ([Nil; 0x1; Nil; 0x2408dc7f8f3880c227c0f41cfe2f9e482b79308e817640629fe838bd2a4efe86a; Nil; Nil; Nil; 0x1], [Nil; Nil; Nil; Nil; Nil; Nil; Nil; Nil; Nil; 0x8a91bcc5018c44e5155ecb3014739f04fd66ad191c73db21c74b2f71bfc9f359]) ([0x1c2f071b122f531ec2bba22daf88ca2acd4fb9b536436f4ba36c63ffe56eb6842f6; 0xa46ff78c5b5a2f576be3096655ea9bc14cb0da0a106c024040c21db2a46bdd46ab; 0xaa2e42417361054af3eb27e8a73e8f5bf3ad423b457d99e6a0fb981345934464f6; 0x2371bd153c5472b6422006f0f5db0f9d04fe264afef50752bf268b8417459d08a5; 0x365fabad441a6a5149ddf77ac0bcf844ba6516b05475e52eebb58780fc60f300a0; 0x1b7f6683dbd2705b44414f430188c007062229a6ddd4c1c92b3383288f20c03ec6], [Nil; Nil; Nil; Nil; Nil; Nil; 0x4cc4ba596fc075ac3f154b8784dd006961c92e8eb1e709f966a40a47f76491a30f; 0x1ca8ffe0916b2e7c90b9788073791ed0aa4ca8624c12e2e99d0d78928b0d9e5888; 0x1dbd897c78fd7b87267fc289e12a3dd636b2c97b838f5f815922a24661f11f9319; 0x7d926f46280e2fdf59f081bfb08f22901bea5b3b6e10836bb9375274edac665db; 0xb73f05844c519d5f8cd440739dc89b2eba353f2fcbdd43b78182cb8c87badcdb7; 0x6a5192204cab6c236d810ee56359d18a5b1e21d3aae80a71c98dab1c7deb8aaeb]) ([0x543d974853bfad1d48ea09289795f4de2ac9c524525cfb148ca0d378b02e3e4cbc; 0xcbc23454dfb20449b99ce410c5a55b9d98329b376d5754feaadec28848af1eb621; 0x4ba9506200da41eb1afa99fda4180c88f252b0e453295ae38e2e4d332109b1200c; 0x83a3aa208753c7433e99de91f4fee05ceeceb27e6694d9b9dd1510967ba9244bb; 0x9078757984b8bb83bb35eaa241bf077a460f1c25b12d53f5f762cbb6aca9077be; 0xd905a409e1b34fa7ad0b4dda0527f85b1cd73fe46d94e6a648c8c4f5e88f6b635], [Nil; Nil; Nil; Nil; Nil; Nil; 0xe2cf9cbbd69e189a466788d3a9ca7fc0e8e8453cef0a30c457e9e3cf5ca8a5416; 0x22653cae0dede21cd11088e55bd97e84764b9f87ba674cdd470d5bbf03438915eb; 0xd48b246c35eb2e1b21442fb11f65309e269a383d0f0f80b35946e7f46b8713f0c; 0x1e4dd522692869d5e7acf248976518bfca7ca1f152176752906ab6bf9eccf0d85; 0x23a1a54bea555dfcce4c3816ad876d3cfed8164fc608ed9721f724c5f3d3dfb20; 0x31ce0c186b62dfc18d58d8ec9a534b6ee35ae5e6883a5fee3780c7d33e180ccee]);
St (0)%Z [Nil; 0x1a7c6b4b5adf6d00af89bb70dab83ca847e1f32a6701220215400d54c4e11b42; Nil; Nil; Nil; Nil; Nil; 0xa22f28145f84a09896c381c63710e77f87fd13df9da491591a87b9c9725d2e2] [0x2; 0x15e7e3278652332908c68a45a6c91bb54f9f77670170a88b26e07ec2139be205; Nil; 0x1c3e1d096614e58bd187b1cfa71a465892b63b8ae15ae82ffbe01a44638c6a3a; Nil; Nil; Nil; 0x26415bf19b3956202ee40d9a1e1049e59f0199536e978177aa78107a41572a65; Nil; 0x23e392a72aba79bf6e85a020ced27c486504b8e6e0eba0620d5cd2c2df424533] [Nil; Nil; 0x2c5a5d5718b49044e819dd2f8bb7c96414a2cd8e5589a74369949567f4488162; Nil; Nil; Nil; Nil; Nil; 0x15a9d13a4e625a66a29eb888080814b14f46905bd0b88e33200b5810b0b8ca3b] [Nil; Nil; Nil; 0xd9a063100a654c53d195a998907deb0a1dae04430dbfdeeef56191ecb095868; Nil; Nil; Nil; Nil; Nil; 0xddf04acd3227683eb4de4d19539105244d0e154504bda6030a5d20a02bf627c] [0x2199217e5bd81640bc0e7bd1f8c681f6c8dd388fbfeb270de9f64725812113e8; 0x149208d8beb56b91cd6b1bb71fe30855164869254ea945e263a5752a32f0355b; 0x1aabb70bd3bc4725ea5df33fcb8798ef6dc1e28d80ccace6496c6d6130993fd2; 0x6b7339507855a10c1a05ff7b4016f242f8840a756314f60d571956d4ce25928; 0xa60d79c609cfe158b841667dfdb0ee3d96ece0cf10e3a1a05661892c12de31c; 0x2e4dfd863daafdb4861a154ec2dd090ff406568d7d9a368a5d9a07b9473c0354; 0xad7b394328004b80373468fba6d5566bff7d605cf9b2c5a26b4220604ea56a7; 0x289338f84912d52f2b6e82d1e787f749a2ead7bedfa2cf25e7de9a7a4a3c138e; 0x14b0641980fae7e25ee4bf9546c904b949a5a7a71e6da6530962302424d45c7b; 0x129325667cdb31db1dbfa15f89c9b69cd1fed8c7f8dcacac94e2610c06f68fef; 0x44cdf8671eb32040007c63494fcb80f2fadc1ad61303f30272963f486afb7a; 0x2cb3d2c16dff5892e7ffe8b3366cb63e859a4fc2c1bbca2402a8cab4fd8b7b11] [0x1f297ec416dc211f7fb5e5c70b2b31f3634cffab44a557d1bfa9ada00baadfb; 0x11e8b93bc5ba5b14327a8e547b02fa81cd2079b57f0f520daa06d7a9a64f83ce; 0x2b1da6f58852b7fbd92d617c4aa1c8340c18e78e3ebe426d5edc19dfe1055729; 0x29682e8c57fb02517574eb12ac23e3b9c16f06b877825d0bfd30ed0cce9f2898; 0x26caf7cfdb56b1c5bcab0531eb2f906b053a5acb144063cf3c9cca8f9ab31660; 0x16e80c498aacf0141e6cd2a14e86ba66f41fd172f62a5220171d823ced275406; 0x72a00c16615ff0cca318ad6a03c7789195d073068773415e584032ce06cc3f; 0x1fc519c9772a316a025e3ad206852e3afe648edca0fcd971032bd337a808390; 0x10aadf8a2a91d0c9b29c99c120b210df03463b21bebe17510841b67d9ce735c4; 0x1a5b0dc6c777cb898fa9f4c7df43e495f6f3364138f811c0fac2a64f2ab6e9b9; 0x2578a8e942dd44795106daa942993c2ca1b791f549265deb0cc469f3bf415d; 0x13f1fd8fa6fdf555cbe26c3e7c0d0d68258e61a29fe20d60ea751abbd9e64a0e]
  ([Nil; Nil; Nil; Nil; 0x1685a3b3f0c14051eebba2313f36f2cdca6ed8eb31e6ca94bec9a2b1a82c1b9cea], [Nil; Nil; Nil; Nil; Nil; Nil; Nil; Nil; Nil; Nil; 0x58da5ae77ed7ee30dee50259e59f771007f095abaac642cc8d550b6fbbcffdfd6]) ([Nil; Nil; 0x9f9c977f43b1134d8a763e4f84f37321bc6623e52d4d607ed503d522366088be], [Nil; Nil; Nil; Nil; Nil; Nil; Nil; Nil; 0x315094e50676c430d231e4ce324845cf6f4cff868d34b2e43d7ed847c7c6ce51]) ([Nil; Nil; Nil; 0x10c667a998101c1e42b9f1355aded638aa7d4c9208da37fb6c18a55bff40070db], [Nil; Nil; Nil; Nil; Nil; Nil; Nil; Nil; Nil; 0x4277642a841c11b900578149e97f37e8e3145131539d33ed9f9a2d47bcfbf27f]) ([Nil; 0x1; Nil; 0x26838c41a59ce4548e71b026102cd1947d6b728633e1fe48a1a45a70b4f485571; Nil; Nil; Nil; 0x1], [Nil; Nil; Nil; Nil; Nil; Nil; Nil; Nil; Nil; 0xa94b26c0f00c9e65ada261c0cf801399ddb157540423684926a612f815ff6df8]) ([0x1282826f8bb7f05af6bf5e83da4e8ab16cfaa71600824dbf4913a1a76577b9c8fa2; 0x8de4b546c81867907a26407abf5b099161b93d94a81888fed69b554b58e5bacde1; 0x63b8a869c0630f50a618cae77fbddc0554efdbcca813ca57305d9884e914e1723b; 0x72524f0b8c16a5ee6b653a35e1184af6c69ea0093601749d78c6fb4622f7aca5fe; 0x2a8a1d781536c88e1e7afee89042f02f2bc0d3cbaf614f3fdac16c2bbada8162cf; 0xa58b7ede289187fc40b78881353f0dea87db46a8b51e576ebb91b5b78b85b5bf2], [Nil; Nil; Nil; Nil; Nil; Nil; 0x32a16e3d461a3e88d8754e2ecad47349518eb077cb2d0582867fce5a92689ba98c; 0x1888f171a7e134602fe72a4c51ad540e95dab7533aac9b2858109887e656985878; 0x120fad6c96b319748c74a073da2f914fc8241b41989a069e55ea48cac8f0741f9b; 0x14a4746129cd67de61d1427cb4c0d88ec08a1720561dda5f54303e99c2ddd80efd; 0x81f51f8e0b9947dc9bbe2ab37f62b9ae306c727480d3228d8ab7d97401c811472; 0x2cc807278f6525697489aee9435321dc77c4dc00bf6d7244ee532cfd9474532ef]) ([0x1327328d0913bb48b23f4bcda2c36ac4578c1e0b537fa08953433c8e1f263d1a2a7; 0x659dc363e31e35ef6f1b35cebd07b462e091d9e26974404e9395b1490747447a2; 0xdcbdb9644d9a70cb70d4fc09084b9e2bed27df8c23494a41fb9fdc5c2ce682bd6e; 0x7b0d61809728b601df161c5c280d48ed0fd7cbae0e4a8c9a3b4f34610708c715a; 0xe4891ae5209b622a10ebb289147efb5c5a65a74ea26f23bd7688e11b8100320a4; 0x4e756be123fe3ee746c03cda424508d5fc5134d8b8a71ae1b7c02488fbf6999ec], [Nil; Nil; Nil; Nil; Nil; Nil; 0x33a27c627f9d1237415522c342107ef137377abc51bfa2e75da5bc2100d77cc873; 0x17d6a61159c4d37aff8e0a5788219a3ef1245aa93b4dd5110724f6c0949ffe2a7; 0x2615be1e45b785d8e5ee4df4df0b069fb786ce8b8dd6340b0d8c14df42bfd9c363; 0x1f4d54a350cb113c15a396505073124ac882ced725e9295d227c29579467f35d4; 0x35a9e24da95e2c73627cc6f02833dc1b985d814644dc4ed68ea1c65cd0e7a1d27; 0x14030dd396b3ce67f2c8cd20dd499c562cd8cb48f47eaa03dab4fd80e39ebc2f4]);
St (-1)%Z [Nil; 0x7425611cc81b96ee15dba776362a5a426db8c5d0602ce7131955f85368756d1; Nil; Nil; Nil; Nil; Nil; 0x63184708362f8c6debbd247ba645bf659069e095706dbd1ec92c65b05c1584d] [0x2; 0x2921f86114afe6bad6f28b3f1e1eb2b970a5de34626efc1c0a8b2c91a1f5a676; Nil; 0x28e9ba7620e01fa00adb02e997c1a94a7461b568564d1bb61bddf6bed7a37488; Nil; Nil; Nil; 0x2a32ca025dcea762d994736ec71cfc673e7acc88116aeebb4f8dc5bbd2bba4fa; Nil; 0xb288a0c9a4eea31d64d0fd796305b0c1b2b0d64db0c83e71edba3df3c40be44] [Nil; Nil; 0x23505aa48189d72c1250fd9731a08ec554f7d44da40400a1503b01d6b27e5e79; Nil; Nil; Nil; Nil; Nil; 0x105d34cde487b4c0304561a18d634e79a1d4b423c059fc41eaa55869c2a4cb83] [Nil; Nil; Nil; 0xe96ca6de077e192bd757950c2b1414950eb0b5df769394f141a426e3a18319d; Nil; Nil; Nil; Nil; Nil; 0xacbce34166e9ed25f59db6f1a431feff739177922b0a8e3df853d8975be56c1] [] [0x1c375ba32448315e6e176e2f232ec13580a1722ab1b03b7e135d63494e9185fc; 0x15a63ca400fd300110c92de0bb684dc835139d4ec9975b36993e024cb0231efe; 0x1bc594f817ecc31609e2594723e59c6a2a211f627085c0f9c2018b4501c2a9d1; 0x13ea5b72669206e6f2956d2809592ece14771a860fe2f598953c9c77965f6d19; 0x25941c7c92e34a159b154b8a6ba811922affc9f9f9e08306b3421aefea7d4fbe; 0x2b5a8d57d31c77ccb3f71d7d6339c18c4d71cf895013280804090474c501583d; 0xf21a82256075c556a7eb6f842c3ffce720677c21d69899c5b59be0af17a23e4; 0x1d733abfa8f2c2bbcdf1c687123b97bce77e81a10832f05997e5d99a071fdaa6; 0x1f3a6790e5584fa3013f6b4620aff3f074bf19a3d62785d425c5566e8e1bc40b; 0x5ac774d589ca7f274e0d3cdc5f262d3164088bd069d1e6e34a01e6f110569ce; 0x16df4ff228c11de84b3b3b618eb43f77ce875b062e5c75634b666cee8294a269; 0x14700129db8d20cd61df855ce2fbc6a4c2d66c9faa4e69c04f07613d2f8943aa]
  ([Nil; Nil; Nil; Nil; Nil; Nil; Nil; Nil; Nil; 0x87a785cf480463d85abdb2e0bd16bdc7755a733f1fb7a61ac08c34c43800c9f], [Nil; Nil; Nil; 0x2a1f722fc22227ff886e1e0bc0b3e19d0bb0de554179a795fd50191f04177a3c]) ([Nil; Nil; 0x3fe8e010d0ea130d527979ebcbf6fe7dafa9832a47d2fbd5e9b650cf73364956], [Nil; Nil; Nil; Nil; Nil; Nil; Nil; Nil; 0x1020483367c2e1986d019c2637049ff41e1abc3747e1c90b9b94e79a789e4b04]) ([Nil; Nil; Nil; 0x364233a774ddd323da884fa87a7640c28b12f08929bd15f2bf180929f5a49424], [Nil; Nil; Nil; Nil; Nil; Nil; Nil; Nil; Nil; 0xe28ecf297c92c7d65c5b4bec51382bf52b32938d60b2b493d2d49e4992ad2c0]) ([Nil; 0x1; Nil; 0xdcb2d66346d7bc0417ba8277805c58fd1016239df4366d28e538f6ecce326204; Nil; Nil; Nil; 0x1], [Nil; Nil; Nil; Nil; Nil; Nil; Nil; Nil; Nil; 0x3ad52aa02ec6ba338a30ff45916c77f0c06f9ece4302d004864e5aa986651995]) ([], []) ([0x9d578e67ce466d089cd13fd0913a8fd486c707b29e212ba5934b50a9d27e30809a; 0x337d08e0a58fa268731080ec02570efb7d2d2f8042fe53d362e463a13a998eb64; 0x221ad1f188c607c115020d2f8019f927c45861210643399d2bf9e7eced3f20ac6d; 0x489fb9b1231dac364854303cb62bbdad2901bc13e515cc500efa4d7f9ac63f0b5; 0x74fc69b7ca817e1b07cec3e2732c9b7e18959fec072d4b3f8c03f9dc46fdeeafe; 0x1002fb9039b266532b89c69761e4405b5eca020671cf9d2b7c685ece10196278b], [Nil; Nil; Nil; Nil; Nil; Nil; 0x1b3bcfa21776ee79453457d7464aa443e3ad9e34fca6b58674b0a1f8b81d1ef762; 0xd54f44ebb3d529fefeb6c89e3d3484f3f225d73fbd18a3ac9fe4de0d89b3574a; 0x62b696eab3c1f925fef56180ed82ab6ac2e7e5ba2776e0b2188c1c6320dce6cbf; 0x13c116ef80a4b2cf601313bfa4231b0f0e83b055c2aa90e6c746b807aa91706be; 0x1e63ebe429a6c6095f3249e81024d743875786ed179bb88fe6e17caf948f30635; 0x81762ce2f9e408e43e43fac7894270843ba2ac3c7eaed1271a1772cb6f02be48]);
St (0)%Z [Nil; 0x1970c657a0280a5f659ab601ab2e446b8ed4846498d3244f697bd552362b5bf7; Nil; Nil; Nil; Nil; Nil; 0x104d8c02eb7f60c8bfa387a694c641cceee4443aee43c995686f13baa9b07266] [0x2; 0x16f3881b410995ca52b58fb4d65313f208ace62ccf9ea63dd2a4b6c4a251a150; Nil; 0x24991ac0d1e0a463172ff2115e828ccc993e867a8614082b467de63df343ff05; Nil; Nil; Nil; 0x2016c26ff5b23f60f8acbe0fecbb1690a89d26567a2e00f7d3b1785c2ecc8ae1; Nil; 0x26c09a8ec93038365faadb36847ca0103793fa4a6e7a663073bfe88a2b02326f] [Nil; Nil; 0x2820df758fc43e5dfc0525873c71cce841864146f4d8bf661033a06096e3ea78; Nil; Nil; Nil; Nil; Nil; 0x243a3afed4b6d1d8859dc7f914d823735c97ab268a43fae3dbdbe89140000635] [Nil; Nil; Nil; 0x1dea74a64f0bde46fa9d0b21a2fed22868bd46d8d8e51bed7c394583cd6d489; Nil; Nil; Nil; Nil; Nil; 0x2c8bf988d78f5712a8703f738cf78eb20fdcf773980714141c3084cf7948b348] [0x196b153822a54fda5b883dda056a0805c789935a3edc9bae207f5e86ba7f6ba7; 0x23e11b621d5b8497d53d867a109e4cba59e78b882169ad50c609e42e909786b7; 0x3e95354ff3fec4bed25d69c2b5aa55eba76bb0631e773dc16770f7ab92841bc; 0x28148aaa656696c70805f4b209ee0afe79305968b485f764590999abb2121ca8; 0x5be352288a24831a9ea5ef60f09cff21ac728a4f6b6557a54f77d9025c73592; 0x1d4c1658c744232fff26e99c3498cabaa1987bdbf241efdc0fae9128f5e01571; 0x1448d7584bc10b9145087438ed5ef0d15c4d3ad2de58813d5cb103ca3548c5a9; 0x10670380a46e160935a799d46413dd8d9855d7766c9cc2e82b93bd5d18d44818; 0x121a582fa3b7b441eb50c6b47ce873e65d8dda8296b51cd59dadb7f27e8cde9a; 0x13aba24709de0f3a206644467c87c1cd59b47ea9b9092728e98248b34c2f720f; 0x12ed1af235a19ee5dfbb9a3dc501c2be7dc28dae442e7c839a9b670c4bc053b3; 0x242b33c0ab21662418dce366a91e2d14cfd2b5b33df7caee00a6fa59eb3722b1] [0x262440ae8a76002836b1f387eb6f187983106d32da45e9558169695fc05f16b3; 0x19ebc4f054658c6c63a4b44d8cb2f1b1c3e859b4cc337fee0ab937551923f2a7; 0x1d986c3aab082c730d8eead861212821f29aa7c0c829c94b82a0c4d6f0764a55; 0xe6cb17a1e238328e56a0fa99e679dfef504250009f80de6f08f5648661336a1; 0xbe6322f7185e30eb441fa7d683005f5915af436878d53e07b57d38380153991; 0x5114b800ddd2146f70a9cee2a534cbbe983c889b4f0517288c82417f56f20d; 0x21e2ff245be02fa847b5e35767c3c1e8fd6bc1f3288002a534ad4219fe84ec58; 0x32c89967cae011434d8356b92f652a4130194539e40fe8715665462451c62c0; 0xc68ab6c3f5f81e264276f318c9a42cf557e8c602053ec3ba9abe866a1764463; 0x1f1c399d6082236908f234d09d0d7bffb5b03b6d2f5ede65d88bfbf3bd44d9a8; 0x28a32ecf993b37b7c89834baaac94295f040b148ee5c3fd6681703b7c95191a6; 0x2ffbd6be2c5dfdb4ee44f975f3e090751047a80e52e8502e84c73188ac45fc20]
  ([Nil; Nil; Nil; Nil; 0x2bed06988166ef738252acc6d046fa0ae99988c45d384c06e4976690b78006847], [Nil; Nil; Nil; Nil; Nil; Nil; Nil; Nil; Nil; Nil; 0xda5931ea1812529cd94afb38f9f193a1d9f4f70483d30eafaebec04f9016914a]) ([Nil; Nil; 0x1b4ffa604844b8783baadb4427caa5913523e8c79db6f7ac8ff93dad9b612fbd7], [Nil; Nil; Nil; Nil; Nil; Nil; Nil; Nil; 0x740101fb0f7fa6dfc04b2cc4ca7daa7406e443bba6774493087d78725e536057]) ([Nil; Nil; Nil; Nil; Nil; Nil; Nil; Nil; Nil; 0x848495d6f2c3a3f30152a1c12e8effabcae5e3c01ed68a9774c07ea054a594bf], [Nil; Nil; Nil; 0x222336d63a7c07226ec9e72fae6d52138af2f4fb530c144eb6dc271446ff02bcf]) ([Nil; 0x1; Nil; 0x1b17f71eec12827d81b86786d37956cc0cb4b8a6b43e5ae929a4f79d6df121161; Nil; Nil; Nil; 0x1], [Nil; Nil; Nil; Nil; Nil; Nil; Nil; Nil; Nil; 0x77bbb9f332b3a571103867e18b7ca6596c54a4574577dc3350d74a1fa7516f19]) ([0x16f1c313879fd1aca6bd0fd278f2b377e6f3e8d3677748ec0cc3c328797f8fa381d; 0xdf18636cdb92d0bfcbd884f732b22a61b583937dbbcaf2b427e6a695c21de5c829; 0x79d0d3f5a6ac308bf6e2e1dc064814e422bb7d5e55854da84cc7ea9361c825f84c; 0x93ce9629c77613a4f9e66c411509ca36da6a9da73c6d496149836a9b8d9b8dc9f0; 0x4a70e805cd148b0e294850a61332a548bec091e579f43670fe498e8b0aa213fc49; 0xef046369aa1abf6f7970dd07828f691e933bbae9dd5b305a9a836bdf1f82ffea9], [Nil; Nil; Nil; Nil; Nil; Nil; 0x3f62339b3d5d4bfadca0f49ccc19ceea9aeddcda743cfba998ea7b583bcaae6d40; 0x27543d8db4a92641d3e7ce74451763543a92cd13eacf68b55214e7004e947a3fea; 0x16583e838ab4a3378edff4e1f662c7d42e909716bc9de04d2a5f26467eccf64c32; 0x1ae087eeada8a81d41d3ebcf84ea02dee2d98c93ad8a581d5c0c74563a335d9f8f; 0xe3ea59452d4a34dbf060ef3db4f407013fa9c23d697c7e4786f2faf5a8cd11556; 0x3f45630eeb5c81abb2dae4df1a19b08929c46896916c2507468dbf454973107cb]) ([0xffdd9cca6b6391c150c79857328a8734222d851354db259694e3c1fdacb018e4e3; 0x61b43ff94253f6adbc6f889d1e49b7033d5ad9e57bab9826634b1c443e8bda296f; 0xbab0b1a15e5c2081dd73d1133d9586350b6c7f7b40c928dc3280d4e995da0507b7; 0x8f743955aafded9bb83bee9e2449b260f9781aa1e4e9162aab4a5c2db3ead6420; 0x83482282fe2cc7f2685fdd2e41466454f8b6c07ef9a635b3b5c37571009ab1888; 0x8a42afb7250fb8a5549187a4306aa4a9dcbe5cc666cc80686aa2e5ee3cea3d497], [Nil; Nil; Nil; Nil; Nil; Nil; 0x2b9c446a62feb916de518875d6414fafc80c063c4d865432f1be59b4097b66cab2; 0x10b92740a056655643141ffa8345eb188b0ddea7ad36c80ed40ca93a639989ff71; 0x1fed7cf14798f7581516bd8983849fb6340e57bd6c0acdc54c3e6d5a95236703a5; 0x22b574a63e75e54e788b794eaf58c88f13d1b59d3e42abb77b43ba78547d52356; 0x22442aa8c58df84a425f6aa38ce65136834e8ce637dddcf38f14890ee53aa51c1; 0x20473f0d474ee276170f245f62dbd1f314a021c41a8fbf89677c66369ecca0ad4]);
St (0)%Z [Nil; 0x25e581b87dffc77be61fb091328e4c4050f9c7fc5aca19ba3f0f489cdba138df; Nil; Nil; Nil; Nil; Nil; 0x2415b5f61301dff639b92e6ebb65e5f2d8504f90dc25ff0bd02abcbe502c4e37] [0x2; 0xa7eccba6331d8add23095254ef30c1d4687a2950da7b0d2fd114379fcdbc468; Nil; 0x2cbc99f844c4a26871af94d35dbbec912e4edee60d59d110445e46eac4d78937; Nil; Nil; Nil; 0xc4e987cce2fc0337e971747c61b726abf311b008c4bcb816bf5cf588850af10; Nil; 0x106d2aab8d90d517ec396c7c4275d4e493b00713c0fb95686de65e504ed4c57a] [Nil; Nil; 0x209e3c044f445ae1a3127c8ad0f5dd543ec6502b53378a5b59f728f310589ae3; Nil; Nil; Nil; Nil; Nil; 0x21463304ab1c61c421f7be8c8351bcd0273dde99dff5012772378c516e1b342d] [Nil; Nil; Nil; 0xa9ebe153f50d94efdb5b1f99d23a254ef4ea8af0e88d6017ed931366409fa7c; Nil; Nil; Nil; Nil; Nil; 0x1dc242c3510cde24042075911e37131068e45dc96f3242355074857f3ae3bb45] [0x251763112c8d98a4233d04696af73b227bf36eae492b10943a1ba234deabfdc0; 0x1393f9612ab5d6974c339fdbc4192095488ac33eb4ba552777f53b2e37d27446; 0x268b6f376e974a6d0ba780ab22065d01456f97d3ce09d19982902de477e401a2; 0x3016c6b0370e8fdd1fb963e342614e7bab41024336d57f49bbcc9cea9532c722; 0x186e4e0ed8a7e3609297775281b3ab88637286177ae9a3aaaa571f8bd6ebdef2; 0x1503c2e1230ed7c9c4092fc04a8ec56b929963766a262ead44029a750789687c; 0x1502bcdc01089a7cf1ef6afec33bf0d6c0120a44124c85e2aa935eb76fa1e93b; 0xcddd379c0c6fe2e890cce224730c0cbf5d5b662eb45bde2c89b273b66993d04; 0x23b066dbb5f895563007331f9b67888bbc0a805d445ab19c81df9fceff78909; 0x9ab3e55e8b1391667bc18b7b7f09484f2411322f810a799af66e6037b7f12ed; 0x1f32ef4203a694d3b9e314b4e097e2f001ff5dbcb651a0c84c7a9ec749e2df52; 0x53f2a4cd76f3810cf343702460dfb24b1b952bb567994d81d15d95684c688ce] [0x253b090a8ec56c233f48a5274b1bdd28754a36a68352ac43f332011d87ff916b; 0x8755ac8ac02281d8d19b1192e98592fdeddaf455d6e30946fcdc11474a42c4c; 0x11cf6c832e98b524ea173926533792f438c7150f3d06cb88a5266a900aa5ac94; 0x14504e1370cc1081561a6b6dd97bfc2be4de35f9b709e5f73288c06cfab07d3f; 0x1c11785b87754d318419be79796973c668952cf100c1aea09cf2188603870759; 0x2e220d3d7558058d6e5ae1b14a2b529da7ba59325a95c67ba29b62b07e6c7c06; 0xf4740ee5a23c50814cef1184742a86e7046e49fa64dfbe7e48d5fdf85c9786; 0xe8d853bc8c03047d4954450afa71e6a1bb8b6b482df794e8a1a5112a70b947d; 0x2d3f0e669c8c55b7ba1d1504e30978c6153265830cb28dece47a8b6031b3267d; 0x1ca4a92fe304acdf0f6c492e93dedddc0863da6a8e7becd9d9b047aa6ac62287; 0xff5d6374903cb4085df19322221d6392defa80d7379202cc7e393acea49aea0; 0x2c6ddb4f792570db3977b9fbe43a4ab4a44f6f3a65f0b7a8cb13afc65c5fa480]
  ([Nil; Nil; Nil; Nil; 0x467255eb5b477d635beae89ed5e10b947d11905ab6ea90d4b2b882a9c8eecb30c], [Nil; Nil; Nil; Nil; Nil; Nil; Nil; Nil; Nil; Nil; 0x178619599e75c0ba9aca2956d262aa0e535d0f1a76dd20b7e415a00dfe9f06e58]) ([Nil; Nil; 0x880c15372902e781d377d3591ada390c64eb86e1c15fa386f4f232449353a0f5c], [Nil; Nil; Nil; Nil; Nil; Nil; Nil; Nil; 0x21cdb2fd86c4aa54979e444b362030b44ef0219dafd55928ce700a211e868b32b]) ([Nil; Nil; Nil; 0xaeb2706e791adaebe2d9a6a2d8e668f077835765b9a142310ce243980559d686], [Nil; Nil; Nil; Nil; Nil; Nil; Nil; Nil; Nil; 0x2f8d5d4be5178291aabe7f5312d9f4d5d0d904cbb498ad9663f99dd45e1693b2]) ([Nil; 0x1; Nil; 0x887bae6ad217a1afa669d7c18c645c5cf8be7ec1bb90842efde90a9ffc471f2a2; Nil; Nil; Nil; 0x1], [Nil; Nil; Nil; Nil; Nil; Nil; Nil; Nil; Nil; 0x2208c049a5dd936a8ba375c91f672bff7fa9205861792c516c5bf528d0e749221]) ([0x13f8b896cc561ca348f1201efc4248a68a7d446bd6f35305c3017fc281bc17d33fd; 0x1dbea26da87863f02375b5906f92ae8cfedf15a021899848f65a22b32af84fe0b50; 0x23d8fdff081556d08e0d9722f909e9d24cf70d59a3f4eeae82ff942b32dc879ddad; 0x1e6a4870d4d4508a1b3630ed5fada3cff1e71604eef521e2b31a8fad58a39942282; 0x126e068e5e767c80f14083bcd8238f53f28c49c61cfd413a33d7fa0fa4ba1a19b41; 0x1c39161e5d6a15ff4fec752f8ab420207c36d0e4c4dbda34d91976ae6f35cf4d3a], [Nil; Nil; Nil; Nil; Nil; Nil; 0x375af824998283b60c29733c391130a3c7b9e91afd40a882f9d0b5121a8bfb6b0e; 0x50136e3e00c55eaa902b26ea3fb3a38a0a8d590fd0eb592087ee773ef5cf9497dc; 0x5f86d7b7c39e522369c13ff08ae8cc99ba75a267a8fee17a34b3200359ae231cec; 0x516521d543cafd0e57a0d2f6ce0b218cbe7e3d51aa457c159e913a3e61fcab25f9; 0x320bbf4d80a604c5f91924b209c079c40b4d41471d8a873fa58e73b3408118e82d; 0x6df67a78f0fb571f2e3ecb972c27a9ae6b91910dac1780a9d93bfd7b55b01feb4]) ([0x24c8e9b1eea988cb6a0c301713ea6957f83df36f3c789418741b7369a6599c5ff7; 0x4aa29ef88842cee6f9144091f73c5688e4523ff49da0d2ca877e0142641fecb56c; 0xf237c02fcb410ad58985f3ff1c75d99f00bb1b33fda1b22238c2b58c9116eb4fc; 0x24cb11b62dbecd751386ae5c9235cd083deefac94e7e40b46799da63c506459a1; 0x2133e4f9e8cd5f9703faecb15c5d2bc8dd7edfbfa8a1f50f9b015a7a08c9d959d; 0x29fc936e6777dedcbcaea8ae8ed75edb034eab61d2530be564366984c7db487fc], [Nil; Nil; Nil; Nil; Nil; Nil; 0x6c99820bde7a682523509ff00a16df46625812ebddbe622fd73774c05576eec50; 0xd2411146995b568cf14a2698dcdcafe6a120ee94f9731cc45f0edfeb38cdaf64b; 0x2dccde3baa5d1d78bbb52c34396c3e9da1dfbb301e65fb93f6292a309bae068b3; 0xb4e3480ecf3eae862e97666c203201535a4f0ec0b0aa6a8e3f00b708644cba5c; 0x9bbe85b7b75a46c9ba17aaefe71fe8a4bf7ffd8855b5efed14184dff34d5eacc; 0xb89373219b8495f9f83054c6bc5850c096604f5261331fe6abb0967f7171f245]);
St (1)%Z [Nil; 0xb4377bc5028cd5edb2f165f07ee9df7f8e0d6c3b61dd3bc67d9521237d21dd1; Nil; Nil; Nil; Nil; Nil; 0x6044124f85d2ce114bb0c0e8bd247da41b38839e9fc3adc530fa3c5c6fd7fe] [0x2; 0x2520d6b69108d2cadd212f577992ba659ea093cdb253f6d0d4473a04a0aadf76; Nil; 0xeba98e466ce70ec2404fb04aba2acc5ee8e2578227f9516eb904901d556194b; Nil; Nil; Nil; 0x30040a6091abcd5ba70494f598c433dff366320dc9d206df76ef91da7c0d2549; Nil; 0x12f1cd688682030cc5cce932cc6818b53136c142caceaf6df5ca9f8a18bf2e1e] [Nil; Nil; 0x24c75b38431a9edfe739ef8e177a9a1ad9114179b89ba4b38ddee482346e9268; Nil; Nil; Nil; Nil; Nil; 0x2e8ab52edb88d21b698d6532d398f74f7c1e22b32a6f0e5a2e868129a8a479e9] [Nil; Nil; Nil; 0x11dc634ee932472f31a96acd01dcca0195cbddd719d449c5aaf789c9f0c86a0a; Nil; Nil; Nil; Nil; Nil; 0xc767859ddec82152f5a14f8eca19c3c89f2164cfd03d6e5aaa2c069487acffc] [] [0x7ca532a64707f97acbbf7b27f51c486f17521556fa205609fa15c60ef517177; 0x1a67c38fb9536be1ba1a62e8c25daf68da79c531f9b4c7d0b62941ea802c1b44; 0x1a7a111f860d9ecfca334ae99d62526532df2d1b88df4de48494fc485ea8088c; 0x161b7e3258083b94a24179d0cdc85a7163bd1abcf6a3c99cee889a91f85f17e2; 0x1099a8323eac19fdeaa526ac087980a434391b54c1774206af3c4ff661a9e1f4; 0x2647b35a8682588486c867137ff61838933da3fad29ac4ec4c0b47d24cccabdd; 0x29832152217ddc6900600f74c713a4712e763bf63f0704d003eaacc2708f0285; 0x2483eb513e9cfea852beb67de9cd11f979b790c9b58d19f6b4fc6ede67b194f; 0x4a6e3b1b375f45cf3025375c8273e0b40bb82ebf87fa63d8014c4cd862aa6c7; 0x11fff53ed1e57bdd289704a9a3522900595c1f707392d66531391a6031cf18b3; 0x17143c53d950e127d57e32fdf8094f57de8324f12f6e3f3add3c3a8136666faa; 0x2c0def94085cbe654e848f66a1b6edac651d83d23a90acd64b7fac6e22a02798]
  ([Nil; Nil; Nil; 0x5b166772397d4238df3bb48764faea6295bb917e3640a457b277157fb4ff0da], [Nil; Nil; Nil; Nil; Nil; Nil; Nil; Nil; Nil; 0x2d98c47bb6c5e15b0a5d37fa64783365a68c2cc61292cdee0e4fa3ee7af010d]) ([], [Nil; Nil; 0x261ceb6bb35b570214c30da16428f70c57ca50dd357bcd5bbae08c0222185f0; Nil; Nil; Nil; Nil; Nil; 0x3a4734602397ba81c96212c049e609004e8633a06ba93e7840076439ce6c74]) ([Nil; Nil; Nil; Nil; Nil; Nil; Nil; Nil; Nil; 0x4f9eae2cbf063ccdef2d004ed3fd1711dd679347a717f4189af5451dbe07325], [Nil; Nil; Nil; 0x77c55677fa5432ec9df46812f5328c062410384aa6ea3432e499a3af4782863]) ([Nil; 0x1; Nil; 0xd9c33c8ad9f06e743882108036742d8f18c99e662ffca8e02487a09e63e7e60; Nil; Nil; Nil; 0x1], [Nil; Nil; Nil; Nil; Nil; Nil; Nil; Nil; Nil; 0xca705fd3642afced85a31e7e7701c94029cf67a0de81a68a08205f1111849c0]) ([], []) ([0x15dbe5ae06d1b471f7d61fffd42d1a8cc94220d1e5cc90b569a6babbb92c8a22b25; 0x294ace9255ce5f6ab22c963b524ee834641742d2b91f789d0ad11ae7f13bb3a44e; 0x72ffc38e06aa17a9f830a7c5037266f3192b014ddb09b43ac8a3a940bcd4f44a32; 0xe67061eff7fa07ed85a1191f0ea0c173f99d06cda6aca298010a52ad48b38df83; 0xadb7fd7f15ce92b463b855623eb6db66902c12df717e4af5891dd00fa1d79bbc2; 0xaa418683ec2e9fa058b4245f2888af245570890d95620accb07dcf08c773ad5cd], [Nil; Nil; Nil; Nil; Nil; Nil; 0x3b39175fe405a4268b377418673a1df2ef24dc0109b8a75d62a255237176837d32; 0x7448edd429ef1c3602011094e67836bb981cf551c36598146df6a11f7b9115d4b; 0x13cf2aec2792ec31daf928ed4084731a0f3b3fe7d813350e08742a5df63b6ef2f7; 0x3721616c0ba9c13c8b4796ab25b893b36d7a24737af8054e8bc7ce1267e86c36d; 0x297fe42ffaf354abbfa8d2bdb01c37a00a4172c6af1220641dace71b3b71270d8; 0x298ba917578bf708821b49cd2ad34530b9d20bd166953ee3256a6acf796e64434]);
St (0)%Z [Nil; 0x40db7e15148758bd16600fbcf4acc090ec50777659a62f48ee1245018727f7d; Nil; Nil; Nil; Nil; Nil; 0x86c5a0c654d426b839733ac9f390385df7b60b1643c191e38deba5be1420be3] [0x2; 0x2c5696918fe92a9de6ea44bab2368c5488bc631a02d76798ad3f67c6c00a7dca; Nil; 0x1541ab970ac38a9b2c1da8f325311ce0642e75b3a719c8d165f45bd3eedbaf7e; Nil; Nil; Nil; 0x27f7f4667be45dbe34b91209e24854d7b80609e00435b16f0341d1baf73af164; Nil; 0x9db0eccb2db1e737f1fd7be17969e2a8b5996d342d4def0968502e908153d27] [Nil; Nil; 0x16d598ddb786f82ee9453c170148bce80c21073bc81435517dd9e6a2e57b968c; Nil; Nil; Nil; Nil; Nil; 0x93d72cecf02a9c4112fdd49ec404f1f78a97ebb28fd9393aefee00b09e3553f] [Nil; Nil; Nil; 0x5558a3b81819e0ca40f171429862a62eb4e253093d7d8c124d015317e7cec2d; Nil; Nil; Nil; Nil; Nil; 0x20045e770cf9bd3e14d08df1b4b9af0ad33513a5c752de3d047cd6bd4c7d2200] [0x29bae57732dcd19d4345724df35650f1b2823c4f7fb0bfce12562cde20157a17; 0x1559ddd1fafe8d9ae4b5b988f51df8b98f979e81148454a314cb6c59501662e; 0x1f5e8959f7bfbaf0d44f61dd07945674bc23940e3bc5b488349670e4cc6c81c7; 0x94b38201d2f8f82db6346596117cba795e5f9801b5bc94a9da4479fae2f777d; 0x1b289789dc78af36e09c1ee81e4cb7958fdb00c4e2eebc2cf5b463eb3118a6b6; 0x1c510039dbe1cccc7ebc76065bf1e988e939fc7e2669d53bb69c750baea69e04; 0xde355763675acce86aad353626f8270247d61a0eb7e55e3ba26bcfd7fcb6d85; 0x2b38f1ef664078f5ab24dd40b76da83714144fd01e13b20916817853589c8a14; 0x2875a4fed0cefaa58f8f2aabdb259c49baa4293d2cf7f96979eac02d5adc8404; 0x2354a2a4e0a7d7df05a62c5627ab9b53ae18b8147c3f0088a233f3af2a7a4f63; 0x90cc7c541ea14e03911e481bfec8c65394c6b49e7465b950dd60248ea0223e7; 0x26d9770bae3af94ca8f2816217b6ffe481a06862dea038db41c54fd06cb5e9c9] [0x1cb9510f2ef8192d099a4d7fade6cd98aac53c41cf285b5f68ad5582451628d; 0x5ff9836bba4535a99160f521c9da18972d102f8bc740597ab3545dc6a2c6445; 0xc46863cb6c25b69baff072d32a3286aceccaff917f41a0c822f1f5ca78eb495; 0xe1c90c7b510ba2f8bf9386c47d3062319617378ebe0fba7353748462b871195; 0x1d40dadb5dfb2856abbfcca9f0777e6330c79a54f7b241d0c40f5a93e2ffa80a; 0x10f657dcac9d0094a8729607c984e1236efdeca93848f844ded1d20c6b6ad9b5; 0x1ac5ad2cf5e2404b1d1e8a606ed6bed66b2bfcff19eff58653c3115b9007ecf; 0x28e7eb40bbb2c14a8141a21e9dda238137ec10778d794a38436ce2b4eea7f596; 0x30fa4455e17ca3b49a69a54ee91066c0c5583d9fd5a40416fd80c74cc80e97b; 0x2c889d031920ac49d8582a42ee2662e1b8078a848074ff3dd8bedcac4ee8a65c; 0x9e35dd04dcc5058563c3c2544d9622ed140962e15cd77e202121f237f384157; 0x24abe5b731e4e37977f930a28db62bdb4bcc1ca4c6ecbb0047434a77139581f5]
  ([Nil; Nil; Nil; Nil; 0x294ef4bf2acc2a3ba66087156face6ec8e3917a73b2304828dc2d343941dc96fa6], [Nil; Nil; Nil; Nil; Nil; Nil; Nil; Nil; Nil; Nil; 0x9ef0361a17e8d58bb6cc2d58b329eb0be40326c51cf10ce7250a47e310ba6808e]) ([Nil; Nil; 0x77e3205039ca6f2df309122fb5893d6f10ca28f4e7c6d3e5fcdc27d7c9e3e323], [Nil; Nil; Nil; Nil; Nil; Nil; Nil; Nil; 0x1bcd6a57b9500bf3c2e45d5c722b864690b4e5e3f760256e5984f90b400aadc9]) ([Nil; Nil; Nil; 0x2133f840a509ad2d7aec49a77440b0dba8113aa2f8e29c36f361ee15017395da1], [Nil; Nil; Nil; Nil; Nil; Nil; Nil; Nil; Nil; 0x7a6c758ffc28dd690af6d311a1f23cfe19d7264eb4c41f42ec42a90834c25eda]) ([Nil; 0x1; Nil; 0x2953862c7db5843154ea9d2d3ccd69bc153c32f746a4a09cf9022e9f9e775b96a; Nil; Nil; Nil; 0x1], [Nil; Nil; Nil; Nil; Nil; Nil; Nil; Nil; Nil; 0x9c1f6552a400b0d14f46488bc85ba432ca7c4f156d36280c74a9fc4b151a9440]) ([0x827b0f6c4e27410ff270d1dfcaccedd8118b21c34bb3b89b43c5d84c48d5287ed0; 0xb18dd93001acefcc0d7c439fafc11fa3618c83c95db049acc41f9ce4791a57b292; 0x11a019b8d23fa980e6a0fc5ea67850c7a35606aa6b0b7b6130a0e1f352ff606bb7f; 0x1118ba517929c84f492d7c9834f7edbbd54eb7ba233519e13027079310e67859e4f; 0x10ac23a0a9c47cf611096521681d9c21102c93ab3661de51f2159d36bb4550bc434; 0x19cd719db77757e008b416c1ae8253415ffc82dc83f67b4222e6b31230efd98bc6], [Nil; Nil; Nil; Nil; Nil; Nil; 0x181277d2ca5e3a34bcd1fe0ed542501453b73d848f9ec57e52db7df5ed98c0d11b; 0x1f2c3ea2f6df6bee8411b9fb02b5e0b08669b448a12095b4ee0b8dff2e1e3705d2; 0x30408bdf9b62e82016d6bc0f23262fe60e4b8996df7c33b8a7c6eb54a46688b1ec; 0x2eebac6d1bd8d2e2430684f4feaab57fd66f823d7866cb016c25343d3fb24bafbd; 0x2e1c858795370ded231e321cdeac59bb34b6eab1ce44c7e3537026e30280338160; 0x6388705629df1e0c1567b8d0689e7f2ca7f4834227949f20e262ed4ba2a5dfb97]) ([0xfaf5c5d9ddd885eb09ba079e0b3d7b15e79caeab3690c98598b94d8a0c415bd8e7; 0x11326008ca548baef224382a7ac290a9abc5a3be9ca558b573e715513234aa5141; 0x405ccfac519756dd2e8806eaf052e056e7b042672270833b20a979295fedfc1edd; 0xb6d0f75b65ccf886be4bcc3456453dd87229e14ce0685bd7be6e7b958a5193bdf; 0xc219023f840dfde1daa47d865e1959c27488c539b399722d96a8d640845ccfe78; 0x4e1f41f46f0eca8062991d21c52657073fbe446b26e6c9eb30e50a2ce31ebbeb9], [Nil; Nil; Nil; Nil; Nil; Nil; 0x2a9f91a43248faa4c44399fd1dd39f2ead3a884615a9e13fe8ed4da0422859685f; 0x372c023d436785bb02cfb934acae308148352d250388898093fc84cf8929cf2aa; 0xbcd777107c7b1a70106521d7ad5e0674fcc5979956f61641e7940265a5c5bdb61; 0x2d9ff837760b3562227a4a97c4573d18a9a5af1697e1eb31ee54e0b2e28b0308d; 0x2e702fcd8e18fef0658f7779b865e1b00a19974ea6d3bfc2794ad08abdf964eb5; 0x151c04a1cbc54e2b0049add8403886039984503d7ce4f6107c93650a1c09178ec]);
St (0)%Z [Nil; 0x2f0ee20adbde7f427d3f7ead015da172e96d6a92144224a7bdbe764dfabea983; Nil; Nil; Nil; Nil; Nil; 0x2844a11002a758b548528cac6016df9c57a0d91bec376654bd6173dabe2ab8dd] [0x2; 0x1556c68055320e73b10c7098023b6eaae13ffff542fa5e57e6215c8ddbe53c4; Nil; 0x13ff0bae449494899e6a271ec4eac20a927942f00561f0df5eb5b103c1a4a713; Nil; Nil; Nil; 0x81fad62de8a47746ffdb90a216a78c13fe091757c3a64387ebf183c1a52446a; Nil; 0x1e0cf51e36ec029c36ba01b73e2a04727b07112834d958417bb931c3e526e72b] [Nil; Nil; 0xa55ff70e20a480532339800a0e21a2aa94c6873472e0e3e6cf5bcae12e331e3; Nil; Nil; Nil; Nil; Nil; 0x19476b1d6cc0abc88c2800c849f604985491d43d57e6acd75261ada1c158bbb6] [Nil; Nil; Nil; 0x2564ac5c51387a01c7c7119225bbada9139cf76f14bd5c5bc48c215c3cf55795; Nil; Nil; Nil; Nil; Nil; 0x1fc88e4c88d036005438dfa7eae1a6f9a294ea72b66e796c7fcd565a64803613] [0x13e8ce4253944b26bb2e670e75cb1f9b11752681338c9d6cb20d5e60ec2f21fb; 0x1400b7394e51a1107e99877862e65da56194d0850c036edd0a927cefdd12024d; 0x1bc83845e0cb6beadd54fbe4b2986055c193ed2819280580560d79cd3fe4094c; 0xfad13f1226e4631a0521aad494d7ceb72849669ad05fda3e33f0053803600a7; 0x18d83e846a1e579e530f55a1aeea8a8e2f9d1ff19375d1d4d7882099e1f24834; 0x2036eb5799433d2ef4e7bec4fbefe4ccdbab726414263a3733f989509403e1a5; 0x270af54f5338d5262d35f1ba21b4c43b89d39b59f90d7c4f43e4cdf1bab11ea9; 0x7c9413bfec4bcc8e97098addfcba73e84d7897018b4f0de6edb597a532455bf; 0x14f9e1a2b1c6ccb181ce5c51c4e67b7b7b8e43848825453aa9edd830bc34d83; 0x251abb56c62a482031923b4c2e02c5d059225d4ce4f2cca1102d192497bdc310; 0x2dfe8dbf0e11f11287a9545197f6a267f6be12f2c2f76c107286156be0f2fa84; 0x2a96b71006677e5acba2299c4c52c5b147bc3014c25ec303ff8aca15772ee37d] [0x1a0d5c0aeab28a328c993e407dd9e5c48d79ecf874d73c8e1180ebbf35bc04e4; 0x2a656c43a861671197485bc953303e9030b263404f04d8220b3abab759207245; 0x20430c7ea3dbefe6a2813ad2da9fb96a0f38d13d39cb415e543e861f3a2aa6ee; 0x2c45bd3273e7c5ada037e5ebda6d885180d3e5519c3a075503b951233a7d5757; 0x21d932a39dd3e3c0084bb46f3ded8539e153801e354d4d02647e20174ac7e7a4; 0xd187227ec29fda732b35173fc64f3a60c1d8bac505b11679a5203feca368bbf; 0x11d536e1d1a874e50ae6c6165a4c63da98ae21da3e298989c8c79f4c9d647eb3; 0x12e3fc540b13149c193dd67966ba49cd4cac384438ff9c6eb5b05fcb4f103d75; 0x1db09c706fa79812c75f52cf241296e95e9010b22018291b932cd29a485c32ae; 0xe6c8494e8f34237a46624f290146d3e64a822fc97719d7ec246dfe0c7bce973; 0x35d4f1ff6929ee01f7fd1501eae50782ec8f0bdda0665092cd53b70de975aa; 0x2be3bf30d8262c8d87525dfa69f16ad547fdc86e587d8992f4c6864c49ed05ac]
  ([Nil; Nil; Nil; Nil; Nil; Nil; Nil; Nil; Nil; Nil; 0x38cd5757902275f36fb1be9840077deb5a04a0acc3bb05c201af4314d4645961c], [Nil; Nil; Nil; Nil; 0xf75412b515e2e2724afffeeff38d2d598b4531477e481dcbed0d7d4a20de4f4f4]) ([Nil; Nil; 0xa8de75e3e96adab40de221952d0416851463dda74c73d017828c0d4fdcd03a50c], [Nil; Nil; Nil; Nil; Nil; Nil; Nil; Nil; 0x2a97669b6aa1a2d218099237eafe8bb358c0f7fba8335b43961f0f066b06cbd04]) ([Nil; Nil; Nil; Nil; Nil; Nil; Nil; Nil; Nil; 0xf56ea44a4658b39a4e62837434ffdaf13ac0f6e916c979f6f21136079ae9b17f], [Nil; Nil; Nil; 0x4528f75d737ecf2d2b044cf495820b61136f5f128346e5518b72073f1ad1bd2e9]) ([Nil; 0x1; Nil; 0x2604842fa65f47795d2ab250fa62411fddbf1f1211c6e58fc4376ca765d419b1e; Nil; Nil; Nil; 0x1], [Nil; Nil; Nil; Nil; Nil; Nil; Nil; Nil; Nil; 0xa662d713b13e459352c0aa886945144773875c083b86000a319eb182f13b21fc]) ([0x2702fbb792f6a12e44f76a1e752b2594f8cb96a53ed40c1a5e688e48023a9d903d4; 0x9e5363b5c1e1bcb304f067aea03d3e6b71b7e4fdaa03716503aa7c2e92707d24b1; 0x1b09ecaa8bbb6cb93b2fe6ead6b9b6901d8b4ff2dbf5bbfaeddf52d8408b546dc9b; 0x6974f66f8cc850e007c3c60cbc8c13aad954a43c7f406901d7a7aa7528413434f1; 0xc0d2a14267ff8ae2ceaa101ce5cfe292e178285973141d22a2cc970adae220b7f5; 0x7e91335715be3ab0a0f397253a5946904a09656de3e745f592951d43abd4d38c7], [Nil; Nil; Nil; Nil; Nil; Nil; 0x67b8906932fbfb706888e89b020d0aa42788b0a0bc239889cadbe993a53b211a16; 0x1b8d8cf0126d2f0c8793f7424cce2abc446ce968a84bd975826ab1575c2ad0be4f; 0x48d9ff3176341cd2cce49d50595cf7919ebe114d000bf5f55eff404e53cb32346b; 0x128876b7d2d0217e4dc501bd187a66d3c00fd6b5ebe77bdf116db0cc84adf2b75c; 0x219c051ab151bd0a8405e2cd1b9bf1396b057dbab486d479a92a5305d7215b8533; 0x2102610047e44c81ffbc5a80dd4aee20e8c7ccf4d5b8521005c49fb204eb86725]) ([0xb834e096ffc3a388e8fa0f6cbbf2042b7b368e424029258b814ba2401274ffe4f4; 0xb1cdb86d2b45cb44f48615020bb00553b63bfbaea14b8a9a121c7de38dd39e2315; 0xa4f1d3b7ce967dcfb6e715c0b21cb6a4a6bdc08f99dabde1fbf147303b68b02bca; 0x7cd253684e32c57caa12790c7f7e77e41d9b9dd5544c9efd32320838251f2dfe6; 0x3828c2268be0c35b037349751cc365c3bb788397dff1e230aef9483887be36ac5; 0x2afbc8e32cfa67d7ceb857a8d6df8de0c71ca569808998ce0f9261c3352fd9645], [Nil; Nil; Nil; Nil; Nil; Nil; 0x1ecb399e77851546a1909eced83aad8eb7abcb01eba348524028af509a74577a9e; 0x1df06e310d7c0cfdec7f25ef13a2afbf0d418f24acce8930ea82ef6ac800b37ef5; 0x1bcd6fcc40097b5988cef3958023ff17fe039c44d3cf0549c0b3b440fccfca67fd; 0x1d9917dbdf3701cfe484d588011cded91252187a8cedef21409bfbdecf9f1ff51; 0xda71c05b274f5d63cb09a0cc4f44c0576607406d7b0b6a8f5ce9cf8af74fc696; 0xb0de88c8faffaf7b1fb691ff165ea22dd597f205fc85e1fc0b7d1481769e0713]);
St (-1)%Z [Nil; 0x2177bc7fab458102edc5cbd4c9c0f66a3b624c3a17351403e624b2c151c1cb6c; Nil; Nil; Nil; Nil; Nil; 0x10c09da37109da02a87e3b24d950476375aeef2e90949d42ca55a4e1031f6de4] [0x2; 0xeec91f335ec1f26ca8a79e1b7c061f35c1f1e57513cb68955fbd95586bb31db; Nil; 0x17db46193a8f20b48a61e2d47829f76bf85529e177bb43bf51f38e3ef6840947; Nil; Nil; Nil; 0x1fa3b0cf7027c6270fd20a91a83110fa21d27b62d7dd2d4a71cae735d55d8f63; Nil; 0x10073e4606c5db513b1fac72d1106c2a92e405c18ebeaa5d4b910ba8d8b4bfcc] [Nil; Nil; 0xdc82755c67647ef6b4c94ad7aacc47d21f44abd709ae731501d791f970d2740; Nil; Nil; Nil; Nil; Nil; 0xa020348baf761a59015fe929116ce6aa99ab0617083a176d11c7fc50ec514d9] [Nil; Nil; Nil; 0x2d52aafb069d05dd5e8a91338854aa7891ed9a4ea5f5b5543ad0fc51d0193ac0; Nil; Nil; Nil; Nil; Nil; 0x2ca79181e77f8ae5de78d9527dbaf09d4c3b976bb8777eba1392acf97fbe4de9] [] [0x2274e13b5ed698bed8f763cb104d69f39d5b5f62dd24fb227f80fa3d0b0eddcd; 0x2229e3daa5a542ccaf9033ae57d446db868452b64ba9b533c75f210ff1431fdd; 0x24c4897ef1808eead407df3ea132fdc44cc49c897b258e740f41dda16743ba37; 0x144088b564ed8d2f8b31ec396af9abc96e38d046abc95a30b987097c86909356; 0x6fd03c0a44e439a933d464c78c375d11d6ccd76ed36bf9b1ac263784180f56a; 0x28b6efe1ee9d807be4810aa12ce9d1cb44ab9691b4086d7fad8084ffacd9f732; 0x1904b0cdc2ce0a52c9aaf34dc57986dc4122027a8a55a582e3f021dc9c6ad02d; 0x2628cce70b9b135fb3a97e8e99085d1be145b71b3cdf2bda2093ec03c9de6fbb; 0x1181b60b7225230ab3f343cdd79cf12ae97290692c4fefa6ab1314bab020fdb7; 0xfce00bf84bc3cb1949eaeeb6c081070eb4ffe0fc6a2451ccb540a65c4648a57; 0x22086a293e7f24d7ecc929f58227c4246718d69cd777cefd967b1dadc405a156; 0x1d39de8614a63fe73084ae5f6e31cee26144082dab107f0d9ad61952248ba3aa]
  ([Nil; Nil; Nil; 0x9d300426c43b03fbc179f8d72729770cb21100dc3bab9ed2af7b502b6da0671; Nil; Nil; Nil; Nil; Nil; 0xaca9cfdddc94c0753d18bc0372cba2f44b0eaac563201ed0d2eaac10bd131c5], []) ([Nil; Nil; 0x1c4676035de51265b25b14c6de5856cc6443bb078d01d71ffcfff11908c3a7bc7], [Nil; Nil; Nil; Nil; Nil; Nil; Nil; Nil; 0x7f8f9838d4f6fdb71844503d8a82c5ebbd1e04bb90ca9eebfc11b3e8742715d9]) ([Nil; Nil; Nil; 0x1b3e247bd60b2ade566c60c26566b1e4c2c6e829eb2625e24c542f96895c3523f], [Nil; Nil; Nil; Nil; Nil; Nil; Nil; Nil; Nil; 0x6886fa68cbab1ebba82e067a8ef74c0b9164a6e9e6941cf0e673217b7076c60c]) ([Nil; 0x1; Nil; 0x2c671ff4d37447802cb2993c851e54e858c08b01a964d2a78e4eb6441e724b1f8; Nil; Nil; Nil; 0x1], [Nil; Nil; Nil; Nil; Nil; Nil; Nil; Nil; Nil; 0xb294e22f0171e510841b023f88ebf81ee75c84e3cae9769531f47672e41e5493]) ([], []) ([0xcf0c1798c9249bd42ba3edb34c1ac4dc2114e226adcdd95bdee0d42462b6051d7f; 0x7baa9ff41167d421b74efeb894a3e727ea0a3675e1c8e054833fc314c17bda3e3; 0x600a59b7f890e340a41986171879018c1900cafa8fd5e9d88ae3e6e1df03928f5e; 0x8054fd467b0ae15f2e9e61d4537cc26703a05c1b94ffc63936bcab72c248e8c82; 0x4e3d2536ada60a7b1860529470189458a91aed36d5e46f8195e899b3bede68614; 0x3174e71380521a101d06e67ce583eba51d2bc12430bc90e8e02d831da5e80795e], [Nil; Nil; Nil; Nil; Nil; Nil; 0x22d419a293c391a8e236ca1c200834a2164b4993a9e79f089dfc9957129bf085c5; 0x1d59cfd7c9cf967625f080c9e7bb77d2aee377842eb3895ac564c095b682ee0da; 0x1097d589ff2c200da7dda17a5567d3797bf7cf4949d1aa5f80620d55e8290138ae; 0x1f7668602838c6363e3b94e6448a498c2448485f03d6acd2d6a5ab40c4d01cf5c; 0x1531ff83ab66a170e09517c5b044b42b8f579026b91ba93c484a0854d0fa247eb; 0xe3008eed50559011a53e3c75de2223af82e38c3f5004ae661fc3a742090b9e72]);
St (0)%Z [Nil; 0x1f4fb8e0058a4e6c1e7001ca3d64309e913b42ef96a572f30a83393b46247d92; Nil; Nil; Nil; Nil; Nil; 0x2c18bb4bdc2e9567b1d69e17b4b5ebf64f0d51e1686cfa11c9d4b93675495599] [0x2; 0x11149592dba751bd99e043ec441d27bf064627a1d1cc579a319d52db92587fb5; Nil; 0x1aa78893597ccb27abefa5364cb00527759171f2b87b95812f9a3168e866a56; Nil; Nil; Nil; 0x44b932705030ac20679a79ecccb6c67487418b00004d07b724bd2e06333a7ae; Nil; 0x40a7220ddb393e17276bdda2df6d51a291dba6917c4ee42c3f612c43a08f689] [Nil; Nil; 0x8b4e1516865c825ab3a902c5354f0cf93f27cb85c04bc75de9ffb0cda4e414f; Nil; Nil; Nil; Nil; Nil; 0x1f8a5311876dd2b2d79e85c2cefdba0f3597392879fab07ec1ff1fd28a27a8d6] [Nil; Nil; Nil; 0x24026cbe4dd371ea13a2d284fff77a0fde80bb225b8fc27633374a508565ef36; Nil; Nil; Nil; Nil; Nil; 0xce53926fb64eb53faaf4566e1ec5e14f7a5f8159ec0e3bfd2c91a131a544ba3] [0x256c2105f7a6b6120f2213d18a837f9326de03139e1b01d8d94e97fc405968a1; 0x813c7ca145d0971bd1e4c85823d1f7c9a0b0e011ffbf253da9650e36b71398a; 0xa9b8f6a2f39478a21474eee763fc0535b5ef07a95094bcf136ace44ea540933; 0xc671a5b00d2dffa8e403ad06533cc65ebb6219f9a92a77d4d39029b5980f898; 0x2df3c9920ead21cf4df29d9e4fc06936e3d31171a5334a5520b2c90092394cec; 0x26cdce4293e4f75e72264609458a5e6464d788835fe837f4af1fe6996824584d; 0x2682bde98bd0b6553e189fc84ec369fa190f24f9a071b6fdba0aa8e6281ea815; 0x21b17a6a142f7cfc8c7e2bcec757d9b9ba4ee5501f5108cec159c8a2c41fda96; 0x1e38e79bbb499b202e8604260be4fb93b03c00ee5500fa35136e411514702538; 0x68c2cdaac7d25643492803fd33e7c51b8239871c85b3ffbbc3b7acbb75405d8; 0xeabe1a8f90586d0704c8d82a364c4070bcbc1e1329cf139a8f585a3177f0d6; 0x237b2e2b0b7bf972932fe0d25bca7d9f0627ca3b8be281a3af654c6e52c21a4] [0x1394c72a81200c7ce1a2c7dc1c4bd0b0a6ce2f2f1cbce8cdf49ec43d5d78c17f; 0x1833d24090d2b35ab2b320f418c27863765eb9ea4f3eae091c0d1703f00aa9d1; 0x2d1822a448028f9173edd7d9abd07ad87d88dddcd1ae22e9e6dda680257964e; 0x3016a6941660fd5b0d42b739c9db24ea72ecde2b571c6eb643b1f3fc114138c7; 0x17066a0d51c2d65fd9fc1371a971b6b85720f2d20d42dce7edd7ec0a567daa61; 0xda5e9dcbf64c4da644348ee60d382ab0c317a76ff51608ee25e95e00971470; 0x3055a31a94f3e4261512da4a937277390828afcadaf0815b076fd0870d40db2f; 0x2d1e699bffc6319caed146e3fb78d5f0f0a3de45fb1dc3995371a492c1400a2c; 0x2edb3c03f6ed0e36eed5c1ac932af91bf9c856d1a240f0fac2d79b685b5fdc66; 0x1e3f20f0238fc4368a5ff4216e2bca67ebeae789bdb9665d3e55ef7cbbc12815; 0x267aa914d7b98f733b34fc921355daf6f7cf110d6c46d31cadc67075806cf881; 0x1dbbb1dec9d7e289c79c8523536d06b20fbdcda2f6430cbddae1e1c70559994a]
  ([Nil; Nil; Nil; Nil; Nil; Nil; Nil; Nil; Nil; Nil; 0x5c46630378ef8678a725c010588b9c222f39eb756e593df535e90b7a4b5f2ce5e], [Nil; Nil; Nil; Nil; 0x17e54eefaaa1ec25bd8736911a53a5bf7db518178d3f8be5034ae0b0d72da9cd82]) ([Nil; Nil; 0xccab7589562b65b22ea7bd2b7f5f76f0f6ddf198bf7bf0fc7fbe9f0b1aeca0ddb], [Nil; Nil; Nil; Nil; Nil; Nil; Nil; Nil; 0x30c5a14cb26d37a68eef967764af54ae8dc6956d7ae0bfde71ef254283db8a3a2]) ([Nil; Nil; Nil; Nil; Nil; Nil; Nil; Nil; Nil; 0x16a7d85842e012b0f99b05b1243e9c065312f49543bf6fcc4d088ff0f69d3d2c1], [Nil; Nil; Nil; 0x64c3a47a89e6fad28dfc2fcb06309ed698cbff0db386d23b2aed2f6fa3970a9da]) ([Nil; 0x1; Nil; 0x2e2e33d49cbb03ffd5264c3a67fdee204aabb9cf59eba01a4f037ce3e1905aa78; Nil; Nil; Nil; 0x1], [Nil; Nil; Nil; Nil; Nil; Nil; Nil; Nil; Nil; 0xb72fb7a38d2050191a96d7dc12290011a5fc7ece110b1d5c15d75c2dd929eeee]) ([0x1f1bda4c44b4f3ad0c7ff8804f6eca2deb4d8a2879bdc0be6b59d97f9f2100b712a; 0x128c9c1f3f9773350d592bd31327b71474a0a72cd0fc13fee2bbd50e83ec7e388b4; 0x11ab4c26952a92f649aa96fe1771e611edf2e7b9dfce2b66f6bc03996fafffaa9f6; 0x10fd2d752d088005cfdee3efd59b3b9c536c0dc1cad32a0a72647b86070f398fb6a; 0x8a8bc9094a345454be362be63c6467eff1a3e8c2f336f1bdc9ea37fc71e6895f7f; 0x1e26460b3900731ea2d93aca713f9907a6e47a60d7c7cae46237645ad1ab07bde3], [Nil; Nil; Nil; Nil; Nil; Nil; 0x556a2dc07008c9ba967e5774011c19b7899954bf8ea65a9e8d4132a86229dba87b; 0x33e93f5003421624cd1ecb08a1498b72b4e7eb1fbe317b7b90d8955e749e6933ce; 0x30ef5cf6110116ec86e5f050296b34eae438e9d270d699949b12c0344a08be378c; 0x2f1bf08c2496aa42017aaad32f5a765ea787ccbf348132f15c39d1bfbb6dbc1eee; 0x197ba17b05af2c6a5110fdcd153df0362f2bab3a6b7660a1050e38b6925c18ba00; 0x7695dc762dcf495cf044511993b035bae15d492568c8aaefaed77da7fa453083a]) ([0x60b831fb38974a48651ce35edfa092636f4c7912443fa0211c1455133800c6bf7; 0x2b953ac4f3d96599da23a76d08b26203ac3b1aec758e9771830e6e097f7c46554; 0x313a560eaf60a9fb2b67f7ccdcc62c04727f10d12489848286a983a4fb14a4c08; 0x1de9f1018edcfcd74a1c737e05f32892fc51cc13917c9c8326c51b7f29cd00104; 0x111b3a9966081f4104755a26c27ad6f53cf02610b84942e0c41634780a9bb4cb7; 0xc50699fd16180cf3004c2351bd5b7b7a8c42a3e8e34dfea915de5133b0837e10], [Nil; Nil; Nil; Nil; Nil; Nil; 0x124d9504b24fd80592c8fbb618628579dacedbdce6ddcbfe7db3b624e6ea8b6e0; 0xa8305a7032b3847b21223726be3eb9c17ddaddb3fb1baed5d43d40d4a7f569c1; 0xac48eb3a602fcb8430a2008711690a1fb2328969270bee8adf56cdddccf8a184; 0x7a3a2e08fb6bcdab4949bdbc5cd7d95289629ea0a4ef69bd89926da28bed7492; 0x42596099cf6683c8de38458c9eeb2137c2e5bd5f823b24590df820d5c965df9b; 0x3537f45c28889fa03b4b8c3687ed706a42b9518253f18fc1d0d8a056433939e1]);
St (0)%Z [Nil; 0x10060ecb14661627997c38c5f17cef50d5ef43085f3eee27d4666f77e7d4c180; Nil; Nil; Nil; Nil; Nil; 0x12a1fa7e3b369242540ff96bae21cd8b9ae5438bede78baa381c5bce077f443d] [0x2; 0x205e3fa7cccb8a021ed40cf09004690cc19227890932dc6567ba1c9ef0a83bc7; Nil; 0x19d6a37d4d34006ddeb0a8c1ffd72e6870340b3db1ccd9f2914c1b7f1e20be03; Nil; Nil; Nil; 0x1dc253f4a5fb0de764404c4ad35f8ad1fc9c27057a8a3ee304043048d0fdb90a; Nil; 0x14272ee2d25f20b75bc55890ff076827a09e8444610d26085cfbebdb30ce476e] [Nil; Nil; 0x19b12e6ef5586cded558b2ba89a5efffd367279a1c77e42cad5fe104be810591; Nil; Nil; Nil; Nil; Nil; 0x2ea0693a463787773ab5b9a073c7ab1093fc889adc13d131f03289dcf7cc9d9d] [Nil; Nil; Nil; 0x1f92645ac1881337b9438e0100624e417d68bc2432b232ba38e6f0a544169adf; Nil; Nil; Nil; Nil; Nil; 0x945621d3cce65949b0a3c025b915a77bf684550e012ed2bd9f944c95d734c6] [0x1004ed07b9e7617debe61fef0f782db91cb5a7dd2e20ac86b9fc13774292ab6d; 0x19fefa0ea673ed8c510c3665d76c3288b23d4eb554d7a3f4008f0845996c1651; 0x1ad5c4d82e74478215e4b8df4e5cea59a1f3370ceb822f5e8406385f3d6ccc0c; 0xcd1cce492849bd491b7bd5288883fae83da6d24603c62b2ea02d64d66f89b5e; 0x10fbf384fdab08091065de8d14cbf4cd5d39fd6488efb6fb58634530ecd9f300; 0x101257c9b3eaa5bbb61cb99aa8cb75d58b9cedab75286277bd4d6fe70347067e; 0x21b201e7373ef9f808880b6f479956d0f50769fdbc66d8028349a1cd985a4b79; 0xf514787d2659dcd96cf69a68c9a75d13e555d7ae1432413e130c15941fc073a; 0x2f7f29b8c3da33a03da4e10b3b1d248d70990196af244decc32967774cd352f7; 0x3841e7ee4f1c56ef38124be4be05dbcfd1eb235a4460ee80db340956d7d2d68; 0x88da6fb163103434ad3313809d3c5e7215f0d65618f64bdb802c3c90a936454; 0x4b3fbb7ba9720620713dff57c09925bb7572d386f0257371201c68a1989713] [0x295bb4b71e12017026f0d70114700e0e056823b19d434d448f3450a173eb8110; 0xf940da55c3c80374137db5857b2309f6ed43ef3dbf9b55611877d51ab80ca91; 0x2c165cfb8f3861dbeadd383dd788d985a2f3d5816e5320541630be989ee355db; 0x2320b0eb31e9a4f60b156cf4985a24937ef633cc51a4e60eccfe4cb84faed46; 0x2275c0edcfa0670e202528b063ebc1e0562d642315d31cb31643ed98b20f922d; 0xab255af2493adbb050ffbbd77c822cd8a8e20adb2458a267005766e19156c75; 0x185bd057a38290ccdd67666f1b98758a97f7a3bc5694f0819b900917e04e5c2c; 0xfd6f7ad758cfef75e73a6a934c96f25d6fd5cf6cb8522a8f90863951c3c5df; 0x179157be174af9a263a98b996faa342ef14669fb440ec4006468f032e4504c27; 0x3eb4a509f4ca8dcaae5474e0b15024a046f71418f1ba23033335f46cb831032; 0x2236b63e2b4cc2ae933dfd2a8f76da9aa71050330c7af4bf55bf7b8a45467db1; 0x115eff0244ece62e9b102381793752fe813be4105dde5af30581d237d1b672d8]
  ([Nil; Nil; Nil; Nil; 0x10a5e179b73faf3cef575bb4e6aeeff24d12338dde24417a52257b1bd9734c5e7f], [Nil; Nil; Nil; Nil; Nil; Nil; Nil; Nil; Nil; Nil; 0x3a11c12d82d21a3c4dba53cda237f26bb5633e580b9c7e05e456eb73dcbc6b1c4]) ([Nil; Nil; 0x246fd1ad9bc07c2643a9c7e2006ab31c1b6f15eb4001d324ad093488a7afc23e7], [Nil; Nil; Nil; Nil; Nil; Nil; Nil; Nil; 0x8d7a2f141bea9249739e89ab7702ed91a34753547fdc9bcac9b058273f14605f]) ([Nil; Nil; Nil; Nil; Nil; Nil; Nil; Nil; Nil; 0x74180c4a34a3ec2bfef97d148624eaf721beeccae01d636a0ccdb8e39e44230f], [Nil; Nil; Nil; 0x1d6b288385050ae2d551c852902f62318cd9e341fcbf7b5dac41bf02835bb97c7]) ([Nil; 0x1; Nil; 0x3e0f212123a3f80cdd662da0c367e3c02bf847d3af59e600dade88759a503e9c3; Nil; Nil; Nil; 0x1], [Nil; Nil; Nil; Nil; Nil; Nil; Nil; Nil; Nil; 0xe8648240e9adacedb80969e38a168b315caf822c2ebdffcd8b0d2a1c10098a72]) ([0x396bf581ae9c9b37baf0d1929698a3832c0abaa1fadb4825797fbd156fe7d783a5a; 0x2a1773cfa64b79309c7d9376a60f6344809faa21939624e6cb081359b4118d2a7bd; 0x1d11c2beda783f1bedb79ad173ac6b7b793e04390ce824b44557830ab0389199129; 0x1494dcc46a0affeba5ef1d9a31bc7c50d00779e21f2e38f9005bc0d74f7a15b96ec; 0xa2a03603f66044c601d31f57870c17dad24d48d1cc93bd565ddbde34c51d7dbbac; 0x3ca7f409d9a4a4a02144cebdfb51e70bc49ad23f68248cd1cbd6ba0b2b23972c08], [Nil; Nil; Nil; Nil; Nil; Nil; 0x9a5a4b3c2bb5ef219cd69e325d498d8c3db177458fcfd14e7c3d2477111d763f2a; 0x7282a7d0f946298f84736a5b2152182b135679c103a0775b6eb04ed694251f42c2; 0x50cca0c4b56936a7583aca2646e8cf5558f6eaaed15aee38d8b3e86a2ae3244528; 0x39da87616331b4a8ea6c08e7d2bedfd50a654400273d70996663bd648f53b71888; 0x1eb1f44d5e844896b256994271959d48cee4bde64d90e8dc3b9b090c754eb181d2; 0xe22da096d926092dea116757b9f4ba5203b56a65df508725456063194b9c2c395]) ([0xf06657a15777afff56c0644679ecc205e5537b0064736ca926c4500351a623e28; 0x1edc8ffadd3a203ba696c504e203d80f1bbe47cd78669ba542e0f5bcc6d1e65b20; 0x5d969e6f5ee4b19891691fdd5f8a81439141d934de7af1a2a44ee4ac500b8b94a; 0xdbf480f752feae151c97719e4b78bf591833d4770126779d268e2b1bbb59b4051; 0x2a5eeec9619d8ebd0f1ece12b8a4350c604821c5da71fe71a5d90d727dee86920; 0x7eb9cced399bb4882745f06493970a1777e3381d0cba745857e70957982b301ef], [Nil; Nil; Nil; Nil; Nil; Nil; 0x2d707ea71e0841466ca667f4fd454a1c2223d881e31eed7e26e78a7a177f37608; 0x5cdfd1ea6f5b826f4aefe7518d32647a1c9311506e19c14f668fe1371706e978e; 0x1654afe037f17ff0284b0be435d06e8c080b62268942cbb07b5e2c92330b622c1; 0x3534709c6d19fafafd2e47fa2a9060dd3f31087a97652729d7952340ba6059520; 0xb6fbe5c392bfc6961c843b39c3b95173f377ab03e34a9b72e6c62e1f75583259; 0x1f76d2f7e5faa762bfa68f714cd814171fceedd5b223498fb339d32363d701e8d]);
St (0)%Z [Nil; 0xee6fc3ae78564e465ea29ae99789a682b76224e5ef85db3ee68476b7ebd9a19; Nil; Nil; Nil; Nil; Nil; 0x8a75c4d7de5433ea8eeecd3d449e8e142ac20ab09157d7b29cea0f32a8c10c6] [0x2; 0x217d5237f9ac3b4552661c07e808bdf56c0b484309796cd94db844ab59bf632e; Nil; 0x19bc1688806776a00b402eb4708a9e3f39f9b1784db0d7ec9573b3e7e2e29447; Nil; Nil; Nil; 0x27bcf225634c5ceb0f6158e2ad376f7c54d549e65f5c4d121251eb23adf0ec81; Nil; 0xe7594c7b5f5df2b642b120fc9583cb0da2d67a40fa307d35bd4618a4bd54056] [Nil; Nil; 0xe628f7af9125badd9a61fefef20ed6fb1e91ef5c9b01c97faa87fb4ccfc14a6; Nil; Nil; Nil; Nil; Nil; 0x19ea08dbce8da85f735fbba98e9fd7029e5fcd198c9bc835ab71ff4e09fd1fba] [Nil; Nil; Nil; 0x5f667d1d317897b19b8ba79a45962abfce22f1ccc59809eba0b88ce692eb41b; Nil; Nil; Nil; Nil; Nil; 0x2df7eb19e4b3ba18879f4934dbb6fa9668f7bf234ceb1cc6f5c513d4ce4af38] [0x288946858aae9f57243f6cde19f2bb708a14949633252b5ce31d636f0a4788ee; 0xdbb19d436f642889d0c78e25cffa2874ded21983e15e5f746a553cb3880d47c; 0x2abd9256a5eadee975ae25f775b17cd9965b0c696e2035d0b52f45a3a233f49e; 0x1e36601c2af818f317bc03b803433ff6defed1da6135d6c7a44aa3b8d7262936; 0x6b3f77dc3507d87724d6c4ec27b56689b5f855fa1a1628cc52112174ac088e4; 0x18b6c253a2947f913d60e2727c450935cb696f45033b8ee050814c867c440ed4; 0x4d441962d604c2210074a8441323922b0525462b6235831af853fbb76b79d31; 0x15732dfb48a005ad5c2913217a662b4d04716c6982a2f8aac4db5c324a1825fa; 0x912911b354a8af1084a43cff6eb1ccf32068491f6c4edf1363244444a514053; 0x225e2dad6689922ee51ab0a2c805d2ebe97c017948801cea2515e60d1fa5a809; 0xbf7c18d2e56d6dafd0bf301304af20becada45fdcf9f454417b56d092ae500b; 0xf7c5da3f8f3f109cb703a2736d6dded4ae2307e1cb4481ee4c156c2a461312b] [0x10269951ca8d7e8ce82b1f4007a834aa20622fb6e6c0e69c7ed5e1648cf04c51; 0x672472e1a6b3910ce4a66ddd728791713f6d2cbfac4c0cb1e80bf3f67862ce; 0x101cacc6558ca33d7b75c3b0a56c24277c11e2dc4982ab404de851405086e178; 0xc6d379a4249f26fc20901a57931d5cc1482e86bb943950063b5665e212dcc96; 0x1cbb78922d6f9e64258bfa19ad3a87a729eb572cbab612d25fd8296541e61541; 0x8b0ce491fe323b59fef0c0958ef7c786dfbf65695a1d19d5757c1793a55a06f; 0x6feb8d3ebdb9975db51d3660ec49623f8557221d98d316cfcef6875083b1345; 0x260cd41887177fcf7d97230626f1b21bef634154190f105f8fcdeb2371af3ab0; 0x1a9bea1bcc25c09245c1cb95bd6df638ed3c3200573d56cae53926e4825f691f; 0x248e5fcb3f5f94be8c69096c3b5ed93b86afcd8516a3addc851be6fe12a86e23; 0x88dd460add6631233d497440b77d5bd386b290d5c63f10ba6bfeecd94c02978; 0x14d748397322491d77400b8d379fff458398230bccfeb9f8d7412085753cca46]
  ([Nil; Nil; Nil; Nil; 0x2b0545afdd520eb03ae9ea04755bfda14da3f4c6c7ffb208ed9f4bab18f3335c37], [Nil; Nil; Nil; Nil; Nil; Nil; Nil; Nil; Nil; Nil; 0x9ff248affd0834527de9adf5cf16c8a1843ddbcab96834a9a855f59377d1f2b9c]) ([Nil; Nil; 0x7a4ec345143aec7c0b595845b35ee29221b835e0f83138527fba3989c38d05a9], [Nil; Nil; Nil; Nil; Nil; Nil; Nil; Nil; 0x212f6d05affc3542697be3d5fb850281f2733dfde5499ab611392b0e7f8875c0]) ([Nil; Nil; Nil; 0x12c3d8d6e6a3c73b88756309582891f9175b7c1faebce2a835200335f7c4d405d], [Nil; Nil; Nil; Nil; Nil; Nil; Nil; Nil; Nil; 0x4b1239f7d9766a6893371dbab57148356f8c75db1269b5358a00c828783444b5]) ([Nil; 0x1; Nil; 0x2a3cf9e60bd94daeefbc505981d54af7f39b5f398b00bde0ed5a0bde49b79d37f; Nil; Nil; Nil; 0x1], [Nil; Nil; Nil; Nil; Nil; Nil; Nil; Nil; Nil; 0xa909e46316916979f0e07da938a3cc3c6c0a86dfc67e66fa6fa3cf93ddba338d]) ([0xec6a767b7e1952d7f4a2fd308b8c1314ef364e7f5898f8c6db70593530f35e3b26; 0x91face2284a1ff557834ff24c30839acb16d8e1c922c357932c822c85bd92ca4b8; 0xb3a69bb9a018310feb9c88ce12bc57c668dc32b5f086dee9df8add213ebfa61509; 0x9bd6b68816a82cf6ec1bc1d4f8e915048b5fa0a84bdff4b309babb73560328a7a8; 0x34c7c92a1a78d8bbb65ad85430854ccfb3bb22adf5fbabf17de8e1c90571b690df; 0x71959962036915d5d31bb91e89410a6aaabdefb6ffc76dfc75334a9130ad29966], [Nil; Nil; Nil; Nil; Nil; Nil; 0x295b9811315730bf3bd56b11d6174f2f20e0ffa5d3c6de8eb0661221da32477d75; 0x190750d5aca69c99ab5a5195b2ff2e7ff5cc824d70af889fbab675f05f48200414; 0x1f49b0ebe321b9c71fcb4ca5c172ca96f11e4111fdfde5187ac66c072b82f60b18; 0x1a875e6a047c6bf11ab4d36d3f429b68ba03e97ea0e0881874fc52cc86b9bc49bf; 0xa39d4535a8871d4afa2e30e5b2bc41df78d11ffedcec7ebb1f13b9f64652fd39e; 0x1e1deff483ade253db8444a746d7b07d80dce5ac2476af8801f44da28b15bbc0f]) ([0x9734827376767f17c6316edd1e60873d1304ab1d77f735a8aad7233f5dcb3fed7d; 0x187551b93fe352c41c2654cab242159868dca8ee789bdaf42beb7d117e85396aea; 0x254946e179b767c32d7cca5dc6362cbba20c7e289e8f21f750cea3c90a51231886; 0x2a617fea7d2ad66899375ec4e9cd57fdb9fc055ebdf94aa6265a0d57d86f9c8aa; 0xafb8b1f213ad5ff36bf6ad43f8524b0aa2d9d18401356fed1a4d49824c35047ad; 0x3e8c960399be434c647bfddc25e0ae6d3605d6875bfe5dd045108bb88fee6f561], [Nil; Nil; Nil; Nil; Nil; Nil; 0x19f558c91036ad90d99413194fa91a299f70a5fae81bdd1ddd657ea2254ca679f5; 0x4678faaefe9fef854f4fb6ef1593ca508af9c197f0c6c997cd1b414ae0501b114; 0x6dd3b191a87c028f019a49acd2b4c37c7ce56b86a293d3aa426a642ee628fad6b; 0xd821864cd00e6e002399e08ef23579799638111fd5c00663f8b17f3ea2b2e9bc; 0x2af76dc78fbe3fce926f34d98b18539b5e6ed46e7a2358fce6a43aba8aa5747e6; 0x1011319e30c73216aa517c3eed2d9df372f246fe98e63bc47c0899725e9d78f47]);
St (-1)%Z [Nil; 0x1a6ea128621fb583a1bb6e5ba5f1e6459e2891b6e771a06167f8efce4ed19420; Nil; Nil; Nil; Nil; Nil; 0x29f662322f36cfdd9fe7581aa514bb6f158632e69aaefcaf4b88b4bb9fb60279] [0x2; 0x15f5ad4a7f11eaa61694d75adb8f7217f958d8da81002a2bd4279c4889ab6927; Nil; 0x2883a00e3f74ed9c2a0c39bf8cea3ffb04a98019c4fad1a0c1c077d802b38563; Nil; Nil; Nil; 0x66dec40b1fad04c1868ed9bdc6c9cee81fb37aacdc2cdddf097d75b38c6face; Nil; 0x13bf61e46d570699847ce357e0bd96b182dab6fa2d2b340f0fead6f676d178a3] [Nil; Nil; 0x2e033c91d60a0ef259b9d94e6521fb857df6b210aa949d7ce3189869c36b70f7; Nil; Nil; Nil; Nil; Nil; 0x28fc92fcd6d7ac11b73cec271361640a0b37ed08227413a3020d2869b3b5dfc7] [Nil; Nil; Nil; 0x2caf617a2cb3ceabee4eb00dc9d17bfe6c14554de9a06fdbe046bc0607326b4a; Nil; Nil; Nil; Nil; Nil; 0x13ef71558cdd74af0ca7a0112830025208d20a2c0cfca31fa21212fd94d2a2d9] [] [0x2521ff9966dd2d6cc9be1afd5486adc66db1151a120f6f7d249480dee5c2e392; 0x2ff70e64ebb6bc08ff1ce50f418ceb682237c3968b37bf9c91572991ffabfbe9; 0x2cc843eeb17777d09a131a3265052f6cda74ca04587b0ac09bf09ea17b000a7d; 0x25fd4a60df175f361022bbadbf37321a06af628767fb20d196f734b66882838d; 0x21a169bfb2fd2633d7770021a32806c83e50cddfb8b0f0ceb353c9fed8db2297; 0x73556179bbb34df773584864b25cec73ec1ada96f66625f1971eea70e136a74; 0x2c508be840735e0d0f5b8f8cbfa308a72bc94bc5e82ad9c5614cf61e47abc525; 0x8658e5d9c3002cf3ffc6b450d0931b358f8f1a39ac1b32c02ec3175f021efdc; 0x14e6a66d981d1f78840c3301e372803bee2059a8337a4190ea6409c86feef699; 0x2f226ffbcdd259afbe6974492aaba2ae26332bf8525a73de327c21127f66ec99; 0x2c5da338a348d5b5d00d5a5ff1b5eff47586883191f49110ba50e14a57ad571a; 0xe336df4ab50c5bb177e145aff8aadc57de059e379f8f7da9eee001d74c045ec]
  ([Nil; Nil; Nil; 0x252e9bf32a5757f095cc3c98fa8b5f6db07a57539d4bbd1a2f046c9235b8c66f; Nil; Nil; Nil; Nil; Nil; 0xcedb1db4c0b5357893b3790281007d6a7865c4571c2faae7f14126894ed00ec], []) ([Nil; Nil; 0xb9951724bedf7359e224b438474c3265f39e174e4012be18eccbd50a80c6ad84b], [Nil; Nil; Nil; Nil; Nil; Nil; Nil; Nil; 0x2bccfbb1efdaa1f88211f2d32fc01cb607a4ad4c3cbcfcdc8062369998d94ce99]) ([Nil; Nil; Nil; Nil; Nil; Nil; Nil; Nil; Nil; 0x10eea8ae2c024dcd8b496345b3cac4076f1cad476129e7b14db4e911175c9a6cc], [Nil; Nil; Nil; 0x41e747eebbfdfeef65acb942f8060abd59772ff844a6ac4e58d3a63ad7c1a3583]) ([Nil; 0x1; Nil; 0x72ac836543acd8dec3760517c558b03ad25ecc9c4388054c27cb29f85e5dff7be; Nil; Nil; Nil; 0x1], [Nil; Nil; Nil; Nil; Nil; Nil; Nil; Nil; Nil; 0x1af1c3759b51b82832aeaa83317b1544db9d0b93997c437e9529e79c1d52ffeb9]) ([], []) ([0x74cd2a20ca9e4e002c2adb5ae2f48dab125fac615455115ce378d9badab775ff8e; 0x1a71d84cfdabc3acd1b0d258aa16f8561d5a2e47323ebfaa7aa5d7612484d63b38; 0x3960e06b196e37fe485ed3f9b8f58a1923b02d949c100a77306aa2f1986d6dff17; 0x1f721885032d234a5b110dc502e8b2366f654fba100321c0c0e0fec452b83ea68; 0x6818870f9095a55c15424b3b179688fc6572b1eca0bdb4d86b7045638387fb733; 0x3bd10aa7eb9f15b63e3e81bd670931d808a79d93cdfc3eb9c1dbc02020b058007], [Nil; Nil; Nil; Nil; Nil; Nil; 0x1407b5ee2a703e304307a5642d8806441369adadc19265cf2c9f4b4456184e6008; 0x4cecf608bff085eeb86990082505d211e80c5551a872e206520c0449e3a5c8fd6; 0x9f7a33cad85883826885d4e819c52fd82a6a3be3ead459309afb548b5b0f54268; 0x8dadd9a2a7bfebf5bad252b3a70570fef00248b784a9828873dc9c1e725b2da6; 0x1a12d46cf0ae80bf41c298f55241fbfbf58ca1766d0614b12ac1ef12ad77afeeb; 0xfc76476f169083047db09671f8df0246b7b8f1280c489e42d4dd5110ab5b4953]);
St (0)%Z [Nil; 0xc0ac3c565e8b1d2c762cecb818c39fa5119e5e4b5e87188aafe5cac7fdf479c; Nil; Nil; Nil; Nil; Nil; 0x19aa27f34ab03585409c246f762c0126a1b3b7b7e2b43963ef5055df3c249613] [0x2; 0x24598aad7b48ee56f0ed76eafff51e63466784acb289590491222f6a589db5ab; Nil; 0x29fb878b8f854accadb7a182454d4428efe74c8f64bf327ac1894859c85df4d6; Nil; Nil; Nil; 0x16ba267f96816aa477b421470b555736f5cdb2d985bd91294cd036379c586734; Nil; 0x189acb4571d50692262a51847049d9b4d8cea297a33b28d9a50300e4bbc99137] [Nil; Nil; 0x9c5e623bc68bb4242d2131bf7e09dfffae86ea9c874c6e1597c3cfed8a9a62f; Nil; Nil; Nil; Nil; Nil; 0x12a08c05cb3dd73d3b4918354b5ce8cb441955ecf659d6b405938ffca649f0e8] [Nil; Nil; Nil; 0x3b4f0bc690d005976633d9e39363fa0c70e5652b82faf3ea6e776afce8fc85; Nil; Nil; Nil; Nil; Nil; 0x8ec8f071def2a9c99756e3b3cb56e007ac1387232d3a5f3c0504d58ea2861b7] [0x13631e1dad29fe5b42347fe41693a1c1c856fd3c3e49909f4ca8cefba83fad08; 0x28725dd535332ab73566f97c658d1254b8753198243cde82ac12cf76dc351d18; 0x2c519f7e01588e0dd2622eb9863aa2d7bbdae15a4c8c93f1c88fa4a8bb33dc42; 0x1d7f63ff122e2747915192b46f38dd834baa768ed0b78802ab2435f898c443c6; 0x26aa8eb0575962cde28ffacbcc6f6c6ede7f50879a3a7ed405497bbc830179b1; 0x1426eabbea30cc9eb75574c1d57a1d7cf5f6f204274dad8e26038d49ec265cad; 0x1c09cff712a3043efce87182f63128ae7390c06619b599811d81b50a325a6a75; 0x10344afa37fa63bd2dd202afcc1d508f0bf7cd0c29f7956a55677887e0699965; 0xdcc726b61c27b56d5d4d1b8bb5c2b84aae1c3e0c6710924bb1c8d1695c43b5d; 0x1d8d0d9de9b67345cf8fa606d7802057ab85161af57e8a94381f8b9251294e79; 0x13a393ee1d4d655d241485bdef406548a86138dc8777b2419c23838df52fc204; 0x2e381d7355c62cae05be5dc513308bb748bd8819893f80d1a928fc74f23cba35] [0xceec5217e0efa0301c29b5cae3e1e0801068c1a27d6029a9a6bc35245b43583; 0x2493efd44b1cf70dee951030f9dc41315b2ce89420b9939476bba74b583ee3af; 0x23d1d9808a3079f4d53144a2d5e5fd0134e28c33f0b02624d822d675ba40deb8; 0x3e158aa80ea9f309b31df708ebdeb0a9b8e089ff3222eec5d1148673e22979a; 0x2fede9c93650334f11cb672c5a4468591264c44561d9d15b87a02fe175c51117; 0x2288dab3084745867bd55ad22e7d50872c3ecc100925716e07fb079210f29bd8; 0x26633e405735ad13fa589a50e81bdef79dab3b26d225373bb6a61a0da552b49d; 0x1bbb3a99143ee82530563a712ab2567286871131b48a99e768d8db02eb267612; 0x2e49e87572bac790377773a3e986d65d3499f928445c3335c1122c666d5a607a; 0xe68df98eab78d8d0856ad676fc004fd2f67fb8c77162229916df470bbc8960c; 0x13221af3549f63a5868a49111792f991e51db9547cb3b91788b98044ee247d6e; 0x1e9e89cee69ccb19a560f22ab5d2005b2635a0de94065374729bf1571a995321]
  ([Nil; Nil; Nil; Nil; 0x1a28da533545a90f4171c14d4bc842adaf1084870887ce9a8f70d818dddebad341], [Nil; Nil; Nil; Nil; Nil; Nil; Nil; Nil; Nil; Nil; 0x6867af03a0dd506bb7f1fc1b4bb865ad71e12572391e809f344509f515fec6904]) ([Nil; Nil; 0x459212fedbc31d0f60bf2faf1603900ccacfd33b99a10b934677f1243613e3959], [Nil; Nil; Nil; Nil; Nil; Nil; Nil; Nil; 0x101c6bf586b11d17dec8251df21911b4aa1b5f79c812db210d34d0987f271874c]) ([Nil; Nil; Nil; 0x3c35e8eb31196b3e2f3c12ae509f2dbe25a8cb6914af509f8064130bc82909c9f], [Nil; Nil; Nil; Nil; Nil; Nil; Nil; Nil; Nil; 0xee3c125b380376a9da0da02b7c3296cf6b84d6ead1f8bb530aa585f7fcc3a73a]) ([Nil; 0x1; Nil; 0x6eb0270f0c6d08ba60d6a3a702f5cc38e84d6ce8fbbb8e1bcce6418b9ffb8739a; Nil; Nil; Nil; 0x1], [Nil; Nil; Nil; Nil; Nil; Nil; Nil; Nil; Nil; 0x1a9dfb01c98c282994149d7f2370cf914d6cdf8a28bb88e971d3a1d3da5155405]) ([0x25417e3d1da008901dae1f3fd3430b98788c97362e0989f1fc9424fc00a4679744e; 0x2736073ede1519949f00fa6de48e543c5d64d55ec744abf9a3204eaebc020970668; 0x1b5ae28348591ce9d737aa26a7e3a31a850c93be6fd8ea7f0f1c05ef0a1ba16d21f; 0xbe1628dc7a5a6983e4ef28bfdd9636e744e86d1323fb7be51d429ce67aad8a7684; 0x3ae209e2f371d30037bd370e7354eee1c78c1adb7b35d189b66aacc320a72978f4; 0x19b9e05c19a5567c2414ccf90e6f21e6f68460488ac49065bd3e4a82457e7f99f7], [Nil; Nil; Nil; Nil; Nil; Nil; 0x66fedb8ff0e2207bc05cce4e76ef06322c38c28f9a2c51a10d2304179cd0da6e66; 0x6ad1b5108531e040151f7c64ea1b3e8916560a925f5c232556ad3b23520bd24499; 0x4aeeb06b967e60be98d2e1b0cff606ab819baa4c32c8a2a61225be78c4b6e54532; 0x2253f175d9db842b88790e9abb5d11b639576dff5c68ab05cd993664002c34d415; 0xcd03afe392c02eba6ee9b3ddcdfdfc3422695dfe2632902e64831f73a494c7818; 0x6c4d8b038a40c454070ef32e291450c5e411cbe533f29de3827f6ac8f125e93c1]) ([0xeef3462f63f5d62614309ee3cfd575b84acb1a4c518eb2f8258ec08f7e8c0f98b3; 0x497cd7474348df913bfd19b0d2fdee99083dd0241ad38a1ef1ee0d04f51207c74b; 0x99efdd7f2c41d64a017b8102bd7b0ea12eb71538deca03c36ebd7a2589d227a3ee; 0x672488150db665d4c2621ebac23b719d0d0aefe996a32e2d298c971622a30cf4a; 0x6dc652746a87d340e03e6172bed15d67294dc8ead1eb7b2b81ee3b172bdaf8257; 0x4f020aefd4d16d3ed8f70b542d514c4e079168567df36f2dc65d0323952e1f77b], [Nil; Nil; Nil; Nil; Nil; Nil; 0x28d88ddfb83b0a008aa5af5ffe85257d955aa90d8e079b9382715e4c9891d99844; 0xd31c1667a8b3a3b9aafbbe5560e0c3b323aab6a54721c4ef55f164d134a6c8285; 0x1a7ad3a3d40b5eb36fec7f098cc48baf59cdae4d9fb60042b9048f70c55e514943; 0x1b69e49537db2bc26d534125fbf3194563aa8572276327b2116cb3c66d3c91b87; 0x1d4ca62d33ce164ba3a7bed8706928cccf580f220f5a23a102ae973678b249c7f; 0x167b92cf2ef2565e9bb2b0b2877eb7e69432f7ea3dbfbd8869512bb2b4505418d]);
St (0)%Z [Nil; 0x2ef96593b6ac85b1be64f2c011875e86c937c7f5a7d0bcab4446877d874bc4d7; Nil; Nil; Nil; Nil; Nil; 0x19ac61eea40a367cab3bbde5f7bbb4df6a6b5c1981597f82bb67e90a3e72bdd2] [0x2; 0x16ae8df2a851a77f9eb52f66ff9f9d6ce49a29bc0a10de1f7da049951313870; Nil; 0x17b8e070c58783f428788002bcd1ebfaafbd1f337f4b15c22e593fbc6d372f90; Nil; Nil; Nil; 0x16b7ec843d2769ad0d1487d089c5a37e2d160e77e7184b0a80b8a30c9a0a3f75; Nil; 0x13c3ac4488abd138f6dd80c71ab6e893f2cf48db55f2818453c31d942444d9d6] [Nil; Nil; 0x16184b587848c0f63218b754e07f508359e7f7b1234b7fdea2dc7d1dfe0dec46; Nil; Nil; Nil; Nil; Nil; 0x2c01c86556a30a964981511ec7664ae1844638088ab576e7083b75a6d82b62e8] [Nil; Nil; Nil; 0x14796d56163593d5a9338bdc99a1bbbf6ac15a25903fe68d996388ba82498211; Nil; Nil; Nil; Nil; Nil; 0x117092e42ea26bce63d60d10a343aaf6e9fed55ffe5e1abf2d9321956fc92bb8] [0x17051f9628fd7b91f9265418beafea3229ac632688a6a7525dbcc442b89ef37b; 0x23eb1cee7add49f32c0b0c2327254a65006fba0b493d8fa36e11137de3b03f5d; 0x1d13a97a9dfb368b15769dc4a1c3f1dcd4eff651193485b57b77efe5572bb21; 0x25545aa60b7afb0518cf1236a3b27edd36eea29d6f097e57eaeb793155a5b1; 0x2ab5caf779ef002742ee23c3b9a19ff789ca23b5893d2abe5c32f0084ee8b5f1; 0x259a412deac7f52f6e8d15b805e79eb63d25abe5c1394aa7e2fa4044e6f3316d; 0x20a5574521a364e4331c318915e9e49f02c7e6970b57192d311fe3f6055e8fa7; 0x6a27540f308ec7cbd066b8d93c6277073aa74ee1a717f1bcda996f13afd46d6; 0x2166b1a4e6722571a5ee944dedbdd500e01b82ab1480f3b35e6a43a78dbeec6c; 0xf80a1e700fc3449b0fc07b812d6a77250e710c5305b097328ffb30e21c02be0; 0x1bc42c79bfd2df0ad08027527a301c82f856deaeda5c5687db83b9ad6c941fe3; 0x1de47689144788f187fa6e8e01d9ee1b696a07bc38203701a2ec17e792588255] [0x26937d9548eccaf6cfa6e37badbc609e2d4d31dd600f4361fe3a9f43f0b4c4d7; 0xd8b8bb2f592eb0aeceb968a400257afa2aab9a312ca42c9ebb012ee3ad0f8d2; 0x2e2c1e7a0ea2d0a04ffeab60ae7fed93fb0d1e7145b7b27f92e8a1a840538bac; 0x1011742de41b81e50f3e77aab903479b79af64efdc3d39d5ae4f07891cba0103; 0xda699e3f253c1670d0c7e6adc0a6efba942692bed046269cc6bb66884a0ba87; 0x2ae79107e97adbb248d54e697852cae67e4eeaec153bed5396cb9f38b9f0fba9; 0xabccb4f214da5dc8fbbc915e4af3fa5f4e49edfdd2d96943bf189ee9ed6a0ea; 0x22c1f73383c1bd4a5047d81c9172fd66dadcf025cd42d17fbd5401cea6ecfc5a; 0x25b34cb10fd8bf22247a88e38a803fffc320727a126df1c06e306343073c6be3; 0xf240ee0c5e8e46cfa054a2d1efe3b78acbc9aacd89de659e1d04c48b5e45b25; 0x2175b1847d16dd757f9ae347fa24dfa2c8e61227f854bf385cc10bcf12f6a27b; 0xe16602d056ffb9f7f29aa4e1f73abe50871531b8d5c569b4d705aa8b019a3da]
  ([Nil; Nil; Nil; Nil; 0x3d5e57fb54a30f8b0af4436caea2161f0ebcfe4335c2f2563821006171967975d], [Nil; Nil; Nil; Nil; Nil; Nil; Nil; Nil; Nil; Nil; 0xddbd4bbc0b8dfd9a7c0ac81deede5d65d8087e3599e3018121fbb475a966dbae]) ([Nil; Nil; 0x42f48e2e7ce1b2f22d0bafb33702923cc2aec00388e4287a4da9a7f1ec14570cd], [Nil; Nil; Nil; Nil; Nil; Nil; Nil; Nil; 0x127030fee7c8d03bd4902b16eb21c6769d30e476b04b6d7caf8a1c277c4c1d8d4]) ([Nil; Nil; Nil; Nil; Nil; Nil; Nil; Nil; Nil; 0x1118a27f792da2340a65392d922f3377e78125e9045aed1fae27be49d2b1c1acb], [Nil; Nil; Nil; 0x44426dde1ac9ddf3917046e6d4e3c45f65efdfaa1d38c6e340dda14576889779f]) ([Nil; 0x1; Nil; 0x320dc232e4a040b5241f99819bac2ba78070f93ebf61defebc7345e46a1dd27e4; Nil; Nil; Nil; 0x1], [Nil; Nil; Nil; Nil; Nil; Nil; Nil; Nil; Nil; 0xc925b81fd6dfa71d75e3399ffdf1e50db1bcbc1c3ba5abd23e4b32f22caf963f]) ([0x2028b45f40574e9e46532815a7737fd4c8498eac1a4fc1990e62666f5512ed3b228; 0x1cf413635128b07d5205700d991b6e94bae5e5f4be8d321efe7a6f21f2f2b7dd94d; 0xc57c09349ea60404156438c756285fc5f2b994c290307a12c376f34f5dbd8dfe20; 0xbfdf5f74477d1bb95e70fa9b6f258f32b20050aef6821c1a619bc0588c85f084c7; 0x9aabaeeb4091fbcfe0cca68e61d75455e88c27990b452e6d1bf1ceaf85496d7d49; 0x1f096fc059c90a976ebe05a5593ca354040823fae6f60cf13abc3baa79065b0519], [Nil; Nil; Nil; Nil; Nil; Nil; 0x592ca48d32e58633a482c2c8611aa29ed2a7324b18b96522ba84533cba72deed9f; 0x4fceedec6c896fccd54ecd1785f53b31cc772d223ea9313913328711511283c088; 0x23d0d7eb8ff042175b78575a44f2737abe7644854ab602c80db15305f129bab273; 0x232a8203cf1d4864d7379da6cd3313e46359f4afbb53b03c85d3664bdb77d794a4; 0x1c997914a970029cfd941c6856ceabe2f8e5308862d56e38da1575ccb29c8ad74f; 0x79d1b638450271b8f0a0458284d88582c611e715f0776658441f2a79c02dd6c2b]) ([0x7dce5a37f9a3570c90c4246930b32a8139e87bdde3818a5c143b84e22b69e95d45; 0x503d08f7e3b8384714273d727608928763256582b1b7c72ff4dfca1e39d3a4c0de; 0x50ff6ce670322137435528450bdfe70d442591d852f83a4622aac06d3b8e103a06; 0x93fd219ff345d56588cde4113faccac6c8bd8dd230a9dc2b6c15f64ffa7cd664b; 0x321602c183dd9569df2233d0b0d232ebc538844a526b477319ca270a3370fb96b; 0x88963def671a0e3c325d2524cd020e548cfc3d13d36f26c5ecfa0eefee609be0b], [Nil; Nil; Nil; Nil; Nil; Nil; 0x1518eb41994d2eb0f2947297b2c1cc9a3dc466e759b0b1fa319e5207f61d70b33c; 0xe1bf16660bffd75d146d017612d4df923e7b40d4a2216df70d3b69a78596a6ff9; 0xe0247ee8aae670a6af21a9d3a934c8d4b78c048141c7d530ec210cecffa884456; 0x2257dc036b75efd237e1358a301d5a1d50fa623476fe31b2315d7c1b5e04c7012; 0xc638fcf6f3cc4d848f44606a257563f51f38cbf737ee626c289ef827d42e323a; 0x2062b975f546e5c70411549266d466c2a0c534494326b6f75c495f450a61c519f]);
St (0)%Z [Nil; 0x487a7a7b131515867addde2838556d916ccc5895fc761d126f7ef2858eccb84; Nil; Nil; Nil; Nil; Nil; 0x1b1e60534b0a6aba350aff9be6f9652ad441a3adf14d50984e65f9bc41df4e7e] [0x2; 0x2bdca6cb30004ed150a267d3fdfc018480b4a50808aa68bc15289cee7f9031c3; Nil; 0x8a94af9f893fab30eca2a4fd997227ea4575da8cb3e40a264b6e3b9bfde78bd; Nil; Nil; Nil; 0x1545ee1f9627356f8345461a9a87f332c33fc6e3772479f4edba925a969daec9; Nil; 0x13f4e99b6a2f025e6f4c6c13fd90f4edc322796f3a4c61b937d4573e3f2da299] [Nil; Nil; 0x2383e5d6815b175b6448d05b0d013f8e03dd59fd1c2b5681a38a57fdbf21a2d2; Nil; Nil; Nil; Nil; Nil; 0x1fd925e87690aa9d1a86f8da0e477c00fab784e57f3e73542b95fb90d22ed58b] [Nil; Nil; Nil; 0x1f473ef41f2bc1928fc5a615c45230d182839f5990ffc4cee2e48c2f0d8e8a52; Nil; Nil; Nil; Nil; Nil; 0x7a8dd6b4c9a2bf508df3e911f38370fb300401935e36cc9b367092586e09689] [0x15e0275c4e92bb22d03831c6060f8cc2b2c3c1300d73e09766cdff2a273cc49a; 0x9612bc4dbe84fcdce65d13f9ea15a41f2562d06f84d89fdbfed730d64056f1b; 0x26c7af35f7a672af1ad98e05c0b9aff2f0263f8216f4ad3b698cf12e3d56fc33; 0x68a36d537052ab60f0f130b44e6270bdddde8a33b18989c8e3fd64304411283; 0x27c2c88e3d651c690b8fac6bb4276287981a00ad104323e31b910a2f27dc42f7; 0x82ead9849731d15e4c6689bddf18247d6e600644d3d4db857c2666bad6368c1; 0x1881c86a5031f51a3ab39974a4e4fa077f3015bdbb12fa360280a16388909eac; 0xd0693c3b32f624065e46bda89804f65c77eeaf89e3c19b3260767ff76b67bb2; 0x14794137117c60f0318d9f395cc88a83d9ea4b3d4e9bf2e5f401ae26b0fc48e9; 0x1f4edb46be72198749a54db6acbe1d5fff4a4ca40f60e5a09afaac95b8f37651; 0x2e97608052b8d6af67ddddeb2702b9b1c479ae3faa4d5e62e36c6c21e5556144; 0x44eef110ffc36306eadd6c42c779218acda0368593aca3a3c10c1bc7cd3f7a3] [0x7babeef01904ae4be56585e59d87eed1d9394c6658d176b77742e6f11c115fd; 0x1049b835d88ea76fd80349723428e6e84d0ab3d9270a1e7154e97ae239d0f103; 0x1aa796025b1e76b7be5f8ad4a01bc3b2e414b9d671f9dd67f837727671c6cbd8; 0xafad58b5cd865096728eb9bdb093fb1c7926f5214fdbe809e257324fe54795a; 0xf2627930eb75014cd69078b41666e105f90a54269e77f559c959f1c875a79b7; 0x173d1f3c524ba3abafb2caa831b2d30a5d4b59c0cfd414c227ebabda76e6ceee; 0x2a45d34483536aa93396dcfb88d9d63db5be325e76f37ac46da13233901f848e; 0x16906d8f239fd98c35ee3c835c2c447ab0bc0f28f778e98c2422243e527e2a4a; 0x3f2f052d62df9db335cb63835fc5e213973b1ce8d6a1c6fca7803dec8533fbf; 0x23ed1d85ef1e67c9fb5de684c0ac3650f3b178c5674f823508935c4cc799da28; 0x1a298a2581d68d70646a6304714d953b64a06201ba0e50592f3fba61b3b8cc00; 0x136764a06d119df22ebf581dbfcb0100c820c928e065d52ebd007b5347c5e5fd]
  ([Nil; Nil; Nil; Nil; 0x20178b5b1eb9067497ff130fccc16a3c46dca11f999f70ffe1f4c23c8e0b8717c4], [Nil; Nil; Nil; Nil; Nil; Nil; Nil; Nil; Nil; Nil; 0x76f8f0767291e42570d47d6dff3e60456f5d75d5be826f281c8211a0e3653b77c]) ([Nil; Nil; 0x4ddbfaa60898fdaaca6d2ce5edb8516eb789bffc70f972be9bb5dde686eb281ba], [Nil; Nil; Nil; Nil; Nil; Nil; Nil; Nil; 0x116a0906b8620dcf13cd7a90e576bf60f298e0caa6b4e35fe9a2062b5d6d8ccbb]) ([Nil; Nil; Nil; 0x22ffb4079020fc0a678fb8dea11b8bf2f59605778343782cb63f98f79d1f4c189], [Nil; Nil; Nil; Nil; Nil; Nil; Nil; Nil; Nil; 0x7443b259c9d0f3080b6e9bc49222cc695f19be1a8770a5376948a365de5a1211]) ([Nil; 0x1; Nil; 0x7e42a7f96a4adfb973a4f8f7acf28632053585d4ed891aec9336326ffa936223a; Nil; Nil; Nil; 0x1], [Nil; Nil; Nil; Nil; Nil; Nil; Nil; Nil; Nil; 0x1cc680d700b4210b33c1d40d6b8cfa9c54732102d72d5fe59d274c58f5a4c4545]) ([0x1f1f9d71ebd9068b72955aae2a72d4d34b48b13a96eabda441064c5f34493a45da3; 0x1240245f7a479896db27733c27437648a4dfb3bf76b415ff9c87e09e5873207fb55; 0xd6e933ec3a0227bd2f3886783bf6dc591c975bcc205f2cf25a6cee6a4bf6a954cd; 0x992b3d61a5645c32672268934ca39507a800ebde050391e4073e1963f1cdd8e59b; 0x347c2162edfce8e18d622e788e35d1671f5f4eab1d122bb44e86a6f628b9e36695; 0x1889c595129e552169c1516a4890bf8d64013766ac91bf4828e2f908b739466c25], [Nil; Nil; Nil; Nil; Nil; Nil; 0x54ec2f13071432445ff53c810be3da1ff15a22b95f3d8a7a909121affbe28016dd; 0x32f9c789a675ccb562954e1d1a1613fab75bfbb115ffaf5a37e3b1ce40daa865fc; 0x25866437b5e598220b57458be36d40b2b39179f1a3e8831d1750339b5187bbd306; 0x1bfc1b78c865cdfc1e2273cf8bb4c70971735eaf104a482596730520ee5910afe1; 0xb0e7a7ac1f4500533415f933662a5ed1f1527a68d36569a06bc5f88424556933b; 0x6001e64ee22245080c4c041350ed749bdc66f8be81e99511b765d5158ebb399c5]) ([0x5a6c79f668bfe1e4abddf9a8c635ce28679a27713f00fc55c1bae29e34bb3cde0b; 0x7a14125ff56f8eed723fdb451e0cff32c02374a741723f3834b27317736c45741b; 0xd5f73e796ac087dd8aba12e76e9513c8dcb681a475ae276d1a1d51db96abaafa7; 0x5f7b32559b7e08e2f59e33e548ff21ac79422c7a7281a6ab25bb21aa5a2528395; 0x61973ae0df8a9622df8d8a39082b9a2ecfb57f0ac0b096dc94e92aa4b41eb8b51; 0x918ddb6d7099be1ce82232d2e2d946a2531ac80d9bfe164f4cdae79004a8df3b6], [Nil; Nil; Nil; Nil; Nil; Nil; 0xf23ec55d1d42f6cd1a3426321563fa8fcecda017736524a00a0fcbdab1509f5c0; 0x14cff2a38fcabf89666d9264b70efef83524d6220b7d95542d27763c310ef2859f; 0x2710e7bdc90df305949e2961dcb30baf91d2f298d7b1b04f8dab7427d7a48e0e5; 0x188efcd9fe73b185d2878b395c51791587d98ae08b6fcb34ea109d8e97cf14230; 0x17de1146966f51999239b05918c0073fcd2047f2e4bf363194d1827ecc66f42ef; 0x25803e8e54c8369aa84de2ae115f889fae493148614566422569359833de8fdf2]);
St (0)%Z [Nil; 0x20e8696349d33ab0d808acfbb4377669ce4b8855a02330141657a11c86fe2f46; Nil; Nil; Nil; Nil; Nil; 0x154877b2d190899557ffe0951f863dd0c1c2e97aa74d09666f9429c1f2041cd9] [0x2; 0xf7be50f975e6578e04798bacd49e1f3c935e23bc84e9a7925c8eafa517ece01; Nil; 0x2f809b13e19350a2387e61d1bb0bc6e109b02844afb18add96728cef415f157; Nil; Nil; Nil; 0x1b1bd6c00fa116946050652161fb1a8cd5be8116c124c126cc8c6254e678e06e; Nil; 0x127b5788263a927e1a3b509131945337c3568fcffe20afa6f6ddeb2cb768a5ae] [Nil; Nil; 0x62894bdf984774bc89c512612c693d1ccbce4c837306be2fd1c7761661c6560; Nil; Nil; Nil; Nil; Nil; 0x2f3fb047b307b4815bff01ffbddcc8a60205eb665c3025419d37cd6c73ee6e53] [Nil; Nil; Nil; 0x23aacc2712bd758079805f18fdbd173b6eb0f2a282e9eafdf9ee81adc3c1b424; Nil; Nil; Nil; Nil; Nil; 0x2ede1890fbc8e72c350e3ff1b7992dcb27d6629f561e4e4760fa77f0ce6ef275] [0x2a7c439327cc1de0261c84c1c17dd09e002aa42466429d8a5bc81e5ec3f22c41; 0x6c66d860b8ea2bdab7dddf4736b610af54d987f93d0655f395792e828106331; 0x1fb384e1972a50942b9135d0751440ff8a3f3b5133f57879d2f15f5f35ef731f; 0x185be794a522431f2075f5b11976ae2798949c87801ffe01db71deb46721199e; 0x2e0fda67197de819a2c78e16baaec967aeb69a144b6a3fb505baf975c30afa23; 0x1bd9f145166c862a66939cc93a89d8f9443e3f6a3df517b411dcc9eb55c38a06; 0x11c9099f00a21658c200581be3d0ec9f72f9b4460aebf169d68daf28fb610224; 0xf815831e7f5a4103dabc7fc05858a4187467a0748db77f8033009e5d30a0ab1; 0x26aeef12936ffd567bfae427340f3ef6906e29a64a66243b3cdaeb7eaf8924c7; 0x4f46f4a660be7cbc852a5ef44efa53ef115172acd04e5efe58ed73a35c0813b; 0x2bf9bb2cfe3e82258b64705750637ae95db9d97b83a82d8c4f87b4e1328c4774; 0x240bbf6f5a070fd04c996bae4428ab6ae55a6fde26fa613bc94b779d325d9bf4] [0x2d68ccea4c758345ef0ce0198e0efae1c7915f716f8edc34fa64e60d5ffe7ca0; 0x1e26a13b9c88aadccd9e14bfeab1f675d196141dcb713aa8f96ef4e999eb196c; 0x23ff04072b1e56cd11bd047d4a379e19278b0ee0a8ed4166bd0c36b1990a4565; 0x205c3c22d514aef73e114fd03d6abc6f2907d0ec916eeeaea7c0c8414730a6e2; 0x1eab265c186776e07aec35932960bdce38759c35ee63aa9b0d15118ba9b427bf; 0x68c2e58a9c4d59cfc054fd6c8300496bfb14b2863bb29f39f5273c6b4125c00; 0x62fd01be0625350e993dbfa0d5171e3662fec6e05804290e7dc692150237021; 0x3019a853eb00c63e8f008baaeca788c8b9437f53e8541fd089c8fa7ebedc49d5; 0x126f5b7927d26a7a7e433fa38223bfadd88e4fbe237e32bf24ad8b28a78b1cda; 0x779bfdc4a14b174c13e26097a5512106a9ab0412f1c8043b3ae7e244a6f3f00; 0x130768e85fb3fed4dac0051041ed9739ce1cd6e32cb1304620d5786b74d683ac; 0x51cd2e310ab9b7d64b189df399f3060049ddc64194a8b1c7cdcbdef64764dbb]
  ([Nil; Nil; Nil; Nil; 0x11d81e125480308142eb4bd8ee035fb8b50cfbd54f287a30ce523655fecedf6462], [Nil; Nil; Nil; Nil; Nil; Nil; Nil; Nil; Nil; Nil; 0x458e56502569d149de94b138ac876bc8b50520e7b3989eee13c0cbcf72adffb3a]) ([Nil; Nil; 0x2e92dc4b2b1433edfe1a0c44909ee3bc446e9ac39c506a1cabe995b3dfbd2495e], [Nil; Nil; Nil; Nil; Nil; Nil; Nil; Nil; 0xc56f3325ec0037941107ef8e2f04265d99c14f0f9263c76465d945757751daa3]) ([Nil; Nil; Nil; Nil; Nil; Nil; Nil; Nil; Nil; 0x777aff6264568a98b4e6e936922ea5b0263cd7a7c8f4c5e5f43f9a6bb2e5db84], [Nil; Nil; Nil; 0x23f5f32f4229606f4639e6b62fed7d49c59dcb2ee14cba28ef7ccb272540a3e8a]) ([Nil; 0x1; Nil; 0x4646dfe14ae3e56efbc8bb4555e892a0089d0acc1617e79b68701223659acc715; Nil; Nil; Nil; 0x1], [Nil; Nil; Nil; Nil; Nil; Nil; Nil; Nil; Nil; 0x12167b713c89959064e2dbf6a480d8eb5f76bbf6ab5d27d8a9cc29dc5790284c5]) ([0x140ec67da016489fcf1c8ef99021b2f672f04dcebd17f7b7b13070890b814ffb100; 0x111e804446766f3a710b23c36459ad32f74da8d4e1d048acbb4c4e2b0221fcf4195; 0x1104efc10fa91003ff7b981742e9513fb93301473632817941e74e6695958ec85d2; 0x9a1bb2c3922e39910efcd57f2d50ae0d410853d1048a92778caecf608901ab9842; 0x4c32fea13598ec4cb545ab33f3fb380430e8756210eaa8fb9f4bde20d37ff1b069; 0x146f9063314a96bdb98107dcea54d526e7bb914078aecc5c3e93758e10a049d7d8], [Nil; Nil; Nil; Nil; Nil; Nil; 0x36ede6ba5b2c1a88f4c9f43d7e93dd0ab36d8f0829758658efea7f980fc917c970; 0x2ef06f1a18be5f89b705602886f8bb4b5c9cec9503422142f83b912cab56d29871; 0x2e5576e36ccd4d084a65ce3666c4e3473df4e2aedd422fba44702c2bf9b92544e4; 0x1b692328aebe1471624e8a95ff9b688bc57885429e612c6b2dbfde0a9799ed3b99; 0xe96b1107513d4baf52f04631806a80bf74aecfc56b77440bb0e3ff7848e1fdc38; 0x4fad29304c0217c494e54b5fe107b6d81693ca5526d8c7c9f609eab07fc8d311a]) ([0x8b1a5d80c4bc3b971c1d960eca73de87cfbb3d3d08234c4a992896e42bc1e1a998; 0x6a78c50ee31aaf8ad4f2cac77f54d2eaaf91e85f9789ae81aec57b10737dc29d73; 0x5643385c1e2a8da83093373034cef35869dcd5cbb2f5f41018cdacfaa68756d29e; 0x91130af55a518d0eba3135dc97a6df9617c622e119edcfdf69510198679b1685c; 0x2c0fa8e8bfced7ae082828ae2c55cbd2525b81016fad084bd6137f5eb9ec0f4dc; 0xc8ed47e5649616a10ee7f3450fb2cd958aae29fc72b25b8977c951b97b2cfe784], [Nil; Nil; Nil; Nil; Nil; Nil; 0x178058a69194ea794c3769567e0d3a4d42b6986783b295310a98d4d24f3acfde33; 0x12214b31bbb322d08453629d1d36a4be719bbce648b3aef27cb0b8e1e87082ad90; 0xe919cc1b40900ed825b20d40fd68591b8a5a1e11f3e8b45f0e7455e2bc3fd598f; 0x22fc8272971f2a1b706931fc95f4ae760f99f42d7db25b2aafb5d399e5ae9498b; 0xaf52d34e74b9f9cd8636cc42c1c9e59c9e667f844f7a27aa10f8e37d73b0fb60; 0x2fbb62e6b1737efc5e2a441fc736632b5b9b489ee3b4c3d202b340468ff8ff43e]);
St (0)%Z [Nil; 0x19409a6eef09053094e6acfaee3d69a608f35b444fa30815c859a3e21e4fc458; Nil; Nil; Nil; Nil; Nil; 0x27836373108925d49acdd892c48c08de047296bc45b1c2f0a1226361f42683c0] [0x2; 0x1723b403f2289af9236998bb9343eeb78e8e0f4d18cec27773c6e834ba2d38ef; Nil; 0x190d56f85ed9d06128ad20b838a54e309800f89826d9adbb8c260f8c1353665; Nil; Nil; Nil; 0x8e0eaffd0a87a551d826d23bcf54f7f930ed3d522c0079c9afe28b4e4567987; Nil; 0x21c4a8c524b1ee7d3a1c3c55ff9d20eac109fab34c92a28f2779a527a68a938c] [Nil; Nil; 0x2f831266d19c2e50e25a0f38e047159c65eff0c8e4385693afb9747064443b2f; Nil; Nil; Nil; Nil; Nil; 0x25e0b5c2a4b648f311d8a727e2a12947d607327ee0d657516949a1d2ed48670] [Nil; Nil; Nil; 0x11069ea5971c69b34e02bc3bfaf6a2624c8fb2c7dcfa97a463506afb7dbd5088; Nil; Nil; Nil; Nil; Nil; 0x1dffaf04823fb09fffa0ca328e0ed6e7b6c42e4dc08f7d7dfce7df30534458e3] [0x2073ae8456d87c5eb5006c05c1d012da644f733ef34d39e00ba468361f8cdffa; 0xe5668160a2e31b225f1bc89b25c2f7f9cc37dafbcdec498c7ef7e4979665ba1; 0x1f06eded8c9236bbd3a29ef4a3b96004cf294401226e80126ed45f77db3068de; 0x2ff2f813ba4f08cab6db4451171d6dc0c8d6f27a0e7f1806b2dbdbf9e2d7ea78; 0x11d5cab5bfb24e5924270e098b8f57d01f428d27ada8a1623d82810c9022c1b; 0xd3cfe3226312b4e180bf12d28ac78e4224dd93b450a6f21134dc4e3841fb2e6; 0x2dfb9398b8aa25a6fcb9e3211ff96a422adaad939bd1ce16a7b9704881843aa1; 0x1693f140d8bb576d7668f459dd792ec114d802d5c2e67d858b20f2268766c77e; 0x68ac92a9e973f47a4936829cc86a2d19186cbc33231d9d92d8311a453e572e2; 0x15be0e5ea5e37876ed25554e2dbf095d5a7ef45d152d5388cfb1f51ad720999d; 0x22a7dfc420857d5e8a552879ad216ae378a2818276476a1e2a65935bb2367bdd; 0x1e3191314b0ffb7fe49cb4b00ae51cd8af806524aeb343dbe864b3bc7017999e] [0x96f023ae72a5d7bb89925a3fce1fd7f513f72903ad983a2217aa86775f2e6b2; 0x21410942e7a13649d4523cba51085d3297ea5d02afe1c4e97b1defc8ded7a1bb; 0x4414ac26d782117871db70e18395d9bf8c3283899cda7b5c4aa630f6a1c4c67; 0x10e6045177b3672a22c5584ca8eb895698e6cbb8ffcbe6a26fc741dd24e3dde5; 0xb5f687cc7642c18f777edd2834c2a3b0204c27725971239f24d2abaa9df392; 0xf33221d6867ec6da82a3378df3b3e7cde0ade6266d94e3187b0cc697f466e83; 0x10ce061e9eeca9194bb92dac0fa23d15b7927c67851335dbe51067af01a7ed87; 0x151e0c0d02e7fc9e43fcb1a9099613acecbe7fa97e3b3e92911e1908046cb1b4; 0x5204f4ea4ba2fc225c503c28d8402989c96c5b52bf3fb66ab51f47af92a77d4; 0x199ded48d0f4fbff7c41a5ed494b8b748e3e9a60d086f3a674789549cc4e2291; 0xc8f94d0718ac635e1ac7151ae5f5254132fc3007324d4357709d128c692509a; 0x12084ac4ab70ae09dcf04604ca50aa80871edf7d6d139312479c6013637dfe4c]
  ([Nil; Nil; Nil; Nil; 0x13f378cbb9fb67fb8fcac83bf23c3e51c71a19777ad7eb31d2efc248397997c02a], [Nil; Nil; Nil; Nil; Nil; Nil; Nil; Nil; Nil; Nil; 0x4126a4d1c5fd34ecfee9db499195cfd12f5c7cf377582450b627857543db09eda]) ([Nil; Nil; 0xa4870b03d0f06733343dd215f80fcb5fc176a28e091276ce9df619dc717b7f659], [Nil; Nil; Nil; Nil; Nil; Nil; Nil; Nil; 0x26dfbdad01395499f5c4e494892df385fee9859d2f43aa8ddbf3cf0e90f6a34c6]) ([Nil; Nil; Nil; 0xbd2a01535e9d6c6a123d8606defaa79842c37904b6275ccf670679bc42806dd0c], [Nil; Nil; Nil; Nil; Nil; Nil; Nil; Nil; Nil; 0x2894c6939a7d6505060d8e15b250fa0cd165d097c83b3a6c2426392d4ad412790]) ([Nil; 0x1; Nil; 0xc5856da1a574489a774026143fa62807b99de1326ccad4b27c8a0da1c997c1c2f; Nil; Nil; Nil; 0x1], [Nil; Nil; Nil; Nil; Nil; Nil; Nil; Nil; Nil; 0x2d41f78f2b54eb2de1369f40d93fdf45cc14d2edc303065fb7531f98781a2e241]) ([0xaee6a1504eb690d0730a54fbac8eeacd314cf77ee925adb4ea39319a501e9d1204; 0x4b4bba61ccf4b7dfc0f7c1c20d4b7eb8d193bb42d47b5a9fa0e3e7233c2e1f4117; 0x4f4ceab53e4f7ef20ffac1c9b8e3e9a01c3a416b6e7cfe25d41f676b2729103ae0; 0x26d89faef14a01392b3c60bd631046790c1c6f10e7994bc600f998d615950d8b44; 0xba38194209b3731fada5951557e46d0c0b4678579fb1aed8c0acd47a4f3bf6be2; 0xdf98977067a564144775e00e50a383a620cf841daa9ffce785a67ddbdfe72052a], [Nil; Nil; Nil; Nil; Nil; Nil; 0x1e800029a7aec91b231caa3c1b786b5bb85a570763fdbf5d55da628e7cc741f669; 0xe06e86716432cd9e7d96ffd7e72507f970024fdc401c9ee8dea4fc32e3b62d632; 0xf1814204630409828914bb8a09b375da1834dd13738faf7fd3bf2379b54a7fa55; 0x7d1922b028b00db2c943d10f7e1de878f004a4abbe5ef2df1d8c6d7665646c5a3; 0x30e9f1ce3328ff274754d5031262dfe8004e58c03b0b9f091637503971f5f3415; 0x3aab16921aac712a2a3348f2164853496286b7eecada7fd6315dfec6a14487264]) ([0x87c2ebd8da3e84712495d2039168a98c57d3a2d802461679dcbbe31bdc408b5c40; 0x8eae3799a4546b444a1df798de8b0b07ab378f9adcd7e699bbed50a0fbb53fb4ad; 0x7e0cca561b8609ab4cdd54113011fe1d1f783d2bb5a888385c56f0a871e2b5d804; 0xa99ae8718e46e0c329ce27ee834c8a52826bea4ed825ba3d31dc8ff583da36ab3; 0x63ba192035f5ab5777c5b2c40f055f83c76604987b423d899de74299d30e94933; 0x37e31901c2bc236f4f8ab5e7d08a9225f9c41c2d478156a5e5f846f379d8264ce], [Nil; Nil; Nil; Nil; Nil; Nil; 0x1732a5f8926bcb5c0e75e17775c47f9eec80a5da2ee47b04e47909720a08ac6915; 0x17b2529a92f9ac535044f209d167af7b801abaef416ca5924641cc02aea0cbb95c; 0x14fb10ecfd81eefe38d3ed1e695149d56eaaf226ac88e01c437c40a20b1cdddda1; 0x27820975492a959d49b9496dbc55bab1213024e202e5f0f00795defd0d2384da6; 0x18153139483e92efd00ad30018d9c1464612ef55e56e15f8a2e8770403865ce95; 0xeb432019cd41732f4c079c4c5337cd93670617b11a2219a501d318b48ca40538]);
St (0)%Z [Nil; 0x113e0a80c70d2051ee3db900ceb9fcfc24c0d8db1bd9a78fbadeb433a2d88f15; Nil; Nil; Nil; Nil; Nil; 0x2a1daf2ff030744c3a94836b4fe4ca42640266c4dfaa159c9cb9478084e9b3f2] [0x2; 0x1f2643f21a247fd7ca128cb5b2c75b6172c091b64c9822fd8141d7e335a46e32; Nil; 0x265e469db5850832ed203a47528c8a63893edaa8424438c4b1f1699fa5ee276e; Nil; Nil; Nil; 0x6469f42f1012bdd7dbbc24b319c8e1b337f03cc88c7b4f09f67449653934955; Nil; 0x2738c70fbc22b1df9073abc212d651ee351e234465dfd48a9e3cdeb2fbddfa22] [Nil; Nil; 0x22a1de85a21c280a79d834614550fa2721ab65d3d4a4bdb9a716bad426ec76a0; Nil; Nil; Nil; Nil; Nil; 0x2a0ab915bddca24ea65bce5fe2a1794f49cbbb39f892ba29774c5cfb821de130] [Nil; Nil; Nil; 0x16cacd775ee9e90f9461bc83e236252a78f58e69a196846643159723b23085e1; Nil; Nil; Nil; Nil; Nil; 0x763f82a45919b49e0a71f1fd48d8d5edfef4e1e6d018a5297c15fff0eeb17cc] [0x20328fae1df1396556f5990eb1076b38b7eef5ce494be839a94e45797626ad4b; 0x142f1e6af03b23ae5de05c46c07ab6ee28547f74546cdbda65e5bf18c2e304a5; 0x17e9c50f768901d38be642373427364b9af88184f03fce9b0d923ade89f84b43; 0x269b7721904f6f02c6678e1074c4cfe783cae9502da6b452332bbcd4720e3421; 0x1b5927cb6d856e4cc186dd85edd1ae3c51b23b302a3728559ee71b56f6fa1ad; 0x6e9a1cd383b4a0b0e4d3d1b22f4ef3b42ec99d6427686dae78a127bc5e0a279; 0x13eec527ef07554a2eafd5e192534cd08e0244da7764c5cb025d931319593a87; 0xef18854ffd1fde673dc58ba7b284cf8e6ae0c7c4fd7da95eed222689422be42; 0x17eadb3b495226e43e82ced263e31a81ccc0a9ad97a1aeb6dd6d0ee8447e435d; 0x13672d9ab15c09778324931b3ece10c9bc49a2577226b3f8818d644168af7edd; 0x2951f1ee3947cf4c9d179a730044600d2c07ef4959e9a898d9166b31a17ff9eb; 0x2fe9d586ad28b4be9c70c7fabf948e3fceeb38bf9257f821761eac24bea4346f] [0x1d10a7a1f4de7c82d956c104c17e83d901b8dec553e13cae53e3ff5752db4e83; 0x22ea515e8e97f4ac1b342eb1cb568bd3e67a28025ce5a62101ba2156a48e1d6e; 0xeab42534fc4f7c79d9fdc6821cf39b3adf087e7f59ded50252e8b43772c0229; 0xd9feaf6896d6d58ac2486eed376c25232683882f297f31e3c9f1d2773821f75; 0x12a0ab31e3350caf16b1ebc131be30cc2fbd88723c915ddfa39778f5688a27b1; 0xfb05ca81e81bd301b9e36f7728752398d301ea3c7bf10323196cd0f57b88c2f; 0xed055edf799d0d132733948e43d5ce26ccfa3e9b1cedca7f263cbca03b1daa3; 0x20eedd4663b99f4cdd205a6ff12787d5d32fb1490ffe00354ca8e742ff4e4585; 0x2c21444bef0b24a1fef1901bae53bb49e893a7ddc0f9ae0f3cb5668f28dc6cb6; 0x2f7ce6ab2824aefe4ce64906fa1fea0c06c8792c6fab525bb6bc8204e1335183; 0xa2181f6e7167e0c564f221fcb652b105658beef09a00eb685e6f99021e9f552; 0x318322304d77c6cb08746edc5fa3789112efe7c0a9da5a0b4de941cd79b4936]
  ([Nil; Nil; Nil; Nil; Nil; Nil; Nil; Nil; Nil; Nil; 0x3cab5ff1bb366b6c6117ca3ded3c1893c09b87c2f002051bc46a8cef745628e3a], [Nil; Nil; Nil; Nil; 0x111d13d042c84b614e443ffa5cd95a431c80df30956b3ab9ef97c3d976b279347d]) ([Nil; Nil; 0xbb77bea080c942365706dff0464aafd12fb2380aab9cb6118502903b8942dfe0b], [Nil; Nil; Nil; Nil; Nil; Nil; Nil; Nil; 0x2b1c8ca60c208d5d090bc924533ecee232ad02f688212351e236da085d9c6d934]) ([Nil; Nil; Nil; Nil; Nil; Nil; Nil; Nil; Nil; 0x27073d2108e39eb7d4300cab8a31d7bef341023a00a7290af0ccbdce9ea563137], [Nil; Nil; Nil; 0xb13fb9e28fd9826fff5e885e1ff4724f9144a5a676730158919ec27c88124c11e]) ([Nil; 0x1; Nil; 0x9804e480c00cde6725ec4e044054521068b8ea2a04d562d1206e3266de0974cd; Nil; Nil; Nil; 0x1], [Nil; Nil; Nil; Nil; Nil; Nil; Nil; Nil; Nil; 0x4f47a6618e03209c844745f91f9bd1648400515f6ea7438e1839f97fe6c4c05f]) ([0xccce110cadd31b6c5bb13a674daf95d03760a375481e175f4fbc7c82d8f836634f; 0x6c7266b2bbdbafc819f4057e05a1da20071c6ff30c1f1038abc3ab618d8d13528f; 0x8e2cd7fff2f8184ecf202d1267babbd006f3fd1c20f55a7aefff1360af96568016; 0x3fc0eeac39b5d91df4130f7437f0968215eb6b3b939dd62d0be2dcc3c740ed5781; 0x3468250cc90e6eb782c49c2d094573e3170276913f1df281d07f4f8f06b775d512; 0x93912a128dc64c1ce2ade84c20052b06555096e531d56b96a40099b8eb3acdb2d], [Nil; Nil; Nil; Nil; Nil; Nil; 0x22da32ac45dc2c8f024e2bf0f53198d66c115d6cdd5b18f3eb4fbe428ebf060b84; 0x1277c70f48766d6d0c1ff894b45b87a7aab462756853436d07692553bb67ff9d82; 0x183eb04042d586d4a306aa69564003452a778b3375b58ae19b8e28e257801becc5; 0xb22afa00ce6c0ea566d8254e28d30c10cfcdb687a3281b59dcd1d4145fc5df81b; 0x99c4644106913a7afe116958876086d46e05bde64a4a16e0ee08a73d21cb7e890; 0x2340200c507c6f1a05fd561998c9036baabf6280382d604b17c50cd68ddc7b1ab]) ([0x979d72f33846179ab2082da11564022111c522886d5a0723886e54d73f0f57f0f1; 0xccc6b320c0579f74da7d63b9c24b28ee9d9547b83b3dabafc7b7cbec909e2850cc; 0xee6f7a2999dbe011695fc30059d9983da496e1c109ae03fcdfb9363590f6af30fb; 0x6022e94e6c1dd7ca0a7374327e858e6085d0e9b42d16c4af4eecbef472a85d5c7; 0x486a6a5727b0b9ae67702a15fea5ffc4db3d4fc825d297c69372e7d0393630ddf; 0x7d8f0c610da14a66f352f679ddbcf4ec682f40ae783dad0eb352e80c0ec2296ed], [Nil; Nil; Nil; Nil; Nil; Nil; 0x1a63ffd825b01b0357da95e3c819cedc92ac0f62f3764f47a7a9271d7c0613373d; 0x22502483694e33c63e4ed4cbaf0b7de8857ca7a2bdb54a1bb3454594f7aa16663c; 0x27fb168e4e55acc3f9602448c87cbc60e75b4c5632c20ba148ac4ba338ef8295c1; 0x197077fd963cb2721ab3eb3bfe3da905e06184a91614e0c1bb6ebf958040343aa; 0x13502939ade57376ccc1708adcc6cdf18da82af6c2566ea7da82c63467e9412e5; 0x1fe8df856d89de4262cc2cdc04475ef4fc2d722eca53a8d8643c60ac3350b136b]);
St (1)%Z [Nil; 0x5535d7d43714057a6b8d78e8ddc94722804ae96ae7a402101a6d98ffd2c3358; Nil; Nil; Nil; Nil; Nil; 0x11c4f4110d6de8d80af29f2e4244faf68ed0920183cdac938518421c4ba1bbdd] [0x2; 0x2b10f0f59dc05fd211976e27f3a4c3eb6f7cbbfab9f78a6c3a79b286db50c9ef; Nil; 0x1e6c35388ef9656b0f6e60d6e1d5f1dfc908bf36dd91979071ba55b999031675; Nil; Nil; Nil; 0x1e9f5a61d3c3b751ad5da6883f3c5d6708b0d88fe4a41df9b70849fa8cdb416a; Nil; 0x147a7aad05a208f5d0b6f77eb897c2f563660d5c097e504da2606b5aa41e4af5] [Nil; Nil; 0x1b169bbb2c2af5150440fd93704d171cf9f0b23c3a08a2526989d801b01194f2; Nil; Nil; Nil; Nil; Nil; 0x24fef694dc351d246c6e1e8d5a0bccfc6d3589c7a22a6b59be6c7ffac4ae946d] [Nil; Nil; Nil; 0x211ab9263d7dce9f4d303edfffa723616c4a0152d08a195e69b035280e7ac3bb; Nil; Nil; Nil; Nil; Nil; 0x1cf2f8d7fa7a1eab7aaebdfbcc0f6bb0bdf7c1b8ba63eb60d689e467f86f55bc] [] [0x1337fec4db7af26b0614f4af816aafa889e916f310d3e50577bf1b5049d34d6e; 0x2777fc5d8bbfc64fc928e0bf8bcc99dc1ea3036782caafae2d4c28981fcaca0d; 0x36815ce9b8e8a01d42cd760812ae0d020e92c76ff433b999a7108f69aa10cb; 0x2164502a2db338752d62897b8a9b54aff49f9df9116c26122fe0c5cb4ed61ec8; 0x2544e9ed86090a531b600eed331cc18f4bc9ef580e42d1b54a5a9608f9520eae; 0x222c7fd7737e11958da0e4c1e3c681641f5d76a4730f1f9f82adc2f0e73a8d21; 0x2b5e38438d7a6c46781b34d53341ceb831deb7ed5aad715c3ff8d87cb54994b7; 0x29f02e0615460eda45e1e0c5311c85a3cda4afcba491d289e82a1fbf72c8d45a; 0x6fe230a3ae8904f27a4c5e51d3a0c903c318ed1750f879b9cb52c6504b0b3de; 0x25cd41dd8e4d492f98b23cd7a4a43b72c6bcacf709d172f174206349a0124d36; 0x463e94d242c7cb0333dca036f4fbd95bfa1bec01bfe0fc29f6ea6e7a9d5cfc4; 0x23d3790c7ecdd5a484234c75e7cd94b59f58e2aeed443b7195b4d32473a1ff10]
  ([Nil; Nil; Nil; 0x1f08282cb0edbf1bfb985d00e69ab131192f4319de1781040f94169db65bf8b48], [Nil; Nil; Nil; Nil; Nil; Nil; Nil; Nil; Nil; 0x6e49d8667101ee7141379241ade35f7c11898b4cc7b3a81fb0c1098b298f2053]) ([Nil; Nil; 0x21673c7416a901f3016da4aab6775fc480280d169f142e28e81cdebe8f868893e], [Nil; Nil; Nil; Nil; Nil; Nil; Nil; Nil; 0x795bcb498f188d400502e6306c471d203ed17e33954399ad765642cfd3459c35]) ([Nil; Nil; Nil; 0x971a955d433a6e718785a3433845bcc011943672d209816eaa52df4e717f3e06], [Nil; Nil; Nil; Nil; Nil; Nil; Nil; Nil; Nil; 0x24ad44f6f4563dcc04b526f113a734f86cfe2d19fa71d5978eb746d8bd0ebf8c]) ([Nil; 0x1; Nil; 0x4ee13d99aec03660e7de7bcb6c5597396f0759fc157ca3c3858aab4d6c16d741a; Nil; Nil; Nil; 0x1], [Nil; Nil; Nil; Nil; Nil; Nil; Nil; Nil; Nil; 0x12738c56a24d11916a739b70d406618169bbb52595b004c00d8af17c49f0283c9]) ([], []) ([0x8ea0a90661dffcc6dce80d1125c5324f0bc9fb490f4932ec1017b4124b3e4afa5c; 0x202f5bc7e91dc8e4a7bc7780eb63681ddab8fae4c4c29c15f6cc30a43eb9a5e33a; 0x10daa2bc486cceff67fe26751776d0bc0e8e4cfc7555cdb43ef79411cc92c30773; 0xad49e3192e4b32ab1d40ff2e4c3d291ddd446e348eaaba3a49b77c0f1e48eea32; 0xdf4dd2c9515de89252c3bc7279ae46020ae8f4eb411b5eb0e39f16c9c9eab1e2f; 0x7ef3b5c12f1a1070d8478af6fc440b608efedf06a308ef9575fabfb918deece7d], [Nil; Nil; Nil; Nil; Nil; Nil; 0x185510413a43061cd59755b73c82d257dff65542e502b8e5291bbb4d7ddc5d44e9; 0x5e20e1771dc9147bfe793543fcd96f18bca273faaa27ffef6e9d9cf43ad4e3b32; 0x38bd20ac50d0cb79c2ad282a749fdef91b0fc7f0ac79bf25c4abc122d736b7d8e; 0x2adab386a7732e61ef5a50cc40d82fb5e0d3046c48a50dc3afd2338ccd815e448; 0x36e215aee8d4ccb885b9f992f58316553d302061e331967e8fc0971400fa6dc74; 0x1fa4c4b8a3a2f65766a017f7e4241ce0fcc659833e904ddd08b0becf8cc26af65]);
St (0)%Z [Nil; 0x30347ae9ecfa4e68c9a782725c3ed1b6fd2f26908c7787a4556b480b1885209a; Nil; Nil; Nil; Nil; Nil; 0x7b6d981259cabd99fc93f8da38ecc2957313982203c8bac71951a5f2c653710] [0x2; 0x2fd388f43751c0eea8c344254286a69a524400dbfa42e8e6b5440bbff7dcad; Nil; 0x1bc0db31545b993af5a41958f47ce6dfd8ac8b7d39ef316fed1b57148a0f4583; Nil; Nil; Nil; 0x28ad74f1bb94f45018870628ddf28c344050310f48353ee0ca8b71b7ac17c637; Nil; 0x197625a558f32c36407d6522e1f9ce2bcbf80edab7f05c76d860e9122b36ecd7] [Nil; Nil; 0x28e1c201e66bc3e4c7c3a00ba64ea9400d5db251d05e90b973a189d8948f7903; Nil; Nil; Nil; Nil; Nil; 0x117c970237cab3f02b50c71ec924266e5bbc99a61f46b7d79ffcd316366707b2] [Nil; Nil; Nil; 0x143359807dad7a85a791d5c0b8b4dfb452199f0f16fa673b084cb341638f0cae; Nil; Nil; Nil; Nil; Nil; 0xa514a450dfbe2060d32a57a3048e37b697aa45975bc9c095ff483b193c2f64d] [0xaf7310087ed6568e6bc983f91976aa8a351e481861d9ef16bd8da4cbbdcf155; 0x25d50201309b2c4c934379fee261a5ab3bc3b95c4daeea4321375dee1320c28d; 0x1203277a623cd668092b59a130e98b6aefabde769c19d1eb6d10b502298d9605; 0x2b5f58cecaa10a95914d2ec7c70f09c9dc7f18aab8afb360a3045d4ed9f64dd4; 0x10d9c987382de7da155e9a75cff8b229a071544d9ba8d4659451f8a2658b5747; 0x17943063ff00b5b57c578bdadc805ae78979cb6fb7ceebf6bcea8d6df8ce5f6b; 0x1b7eaaa56747684121044bb41a5babae9f0fedeb0adbb99157bf66d75f729f29; 0x1246e248905a4602352fec8a64fc52f7f87dae99cb9c4aedccd18fd3288d5655; 0xac5365fb277505daa8c38b4b87601b91569f58e58ed0d529fe609e8022b86a4; 0x34687361823e70097967995de00574b479c5fbf6e4c2736995417e1d1a6d0d2; 0x2511e1d36f2d381e4777cf9a14bdd2fcaeacb5f20bcc8a76421938fc4b860e38; 0x1a15e83d97e32f63ec6c6524175decefce1e61265ea3ba2fa38f49330dfb87f7] [0x2d30d16d3df47b875b663306dbdc692b3d052bd686efd35c2299dd0be9223098; 0x912ab55b1c814c73285bdac22327cde14d916b82ede24625d93f2c412ab6717; 0x90df472d6b303919bb02f2fca562784f3efb8f510c7c7bb29c7efd68dcbee9e; 0xc73e213f94c6dbd6c82de1787d853b99baea50af1b756629545602cba6d748e; 0x26d8e62ac47d8ae51fcafb516b8f3ce24352bb43ae54ac82d9f0c392fd55240b; 0xe8712ce571935b63df741ef222fc50e1bf05c83861c77f2afff0185483e000d; 0xde94193bb5c1a2d05e04659a0ef27951aab11b1e9a7aadc4bf2aca338935e52; 0x2787f1197fcdc2fd847173a90f4b0617358c675958ec710fbe316c572b38f7dc; 0x187d1addf53222f4c1ff40aa534549bec033467624a9f0c2d70b5a02f0f8a8e4; 0x2f5a263411dd622f85ed9d2e6bb180ffea7ca2d7d5b810818b7bbd18f4fd99b9; 0x96180064f6262788db1c336f0737b911da89e8c84c298258d895d66b9bc3a06; 0xaaeb7517fa314a0cf4358084575239d7915ee8760607c79f44a0033e0832900]
  ([Nil; Nil; Nil; Nil; 0x184d6be814e87c17d23f7210853f3db41e5d95a82fbbeb590655d4660f53fd9dba], [Nil; Nil; Nil; Nil; Nil; Nil; Nil; Nil; Nil; Nil; 0x58936505c89085d7122a6d4a246839227bc612d33eca5f3e62fbbbc52a795749e]) ([Nil; Nil; 0x34d2089af3f089d4fbcd73a4ba9b712fd80fb8d475002da79160f6ea65035b25], [Nil; Nil; Nil; Nil; Nil; Nil; Nil; Nil; 0x25812159d54cc4c34c864672585f1d956a1143e78b34973ef475dd050e7f23ac]) ([Nil; Nil; Nil; 0x10cc30c9a27cbc56f154cf3201cd0ca17d3be4a20c93e470396800b1676a63265], [Nil; Nil; Nil; Nil; Nil; Nil; Nil; Nil; Nil; 0x4937274b5b5bdba2522b3c4193a5581692e818f9cd85be1c062204850f679793]) ([Nil; 0x1; Nil; 0x1c89edb74213afa894afc1c5558f1c17a2ab14b445a8e1deaf6fc4f90121ef666; Nil; Nil; Nil; 0x1], [Nil; Nil; Nil; Nil; Nil; Nil; Nil; Nil; Nil; 0x9354102ee41dd2e663a0962b0622da0609402335b6423e094cf9f4a4a0d2a8c9]) ([0x25de11b6babf91517f88f6fdd82f55f5a974dd918f606f1e864505ee9069a3c7f6d; 0x930ddc66ca362d892fae27100d91552aa9fef7cb2f67b195ecedca9149e2f8b877; 0x177a4cd847dc3223fe138eb044cafc8d7561dd48a4d07c85b090cf957ceb49c5e50; 0x529f2b71f1687a39882c43e63b1c3287a58ff90ca266ac627a8487f868ee484c52; 0xc0a23ccdfa495a770ea18512da4fd7c531e39ae19b76896efa315a01e3d8554bb2; 0x1a291b7fffe5658110b38bc38913a634d91d166ef041cd21ed2fade65893046805], [Nil; Nil; Nil; Nil; Nil; Nil; 0x67b1589272ffa3fb3bf46394f4b3f34acde701f9ea3c917a23abeee7b99d6222fd; 0x1b66efd41c4fab01c7453a16e115c5770700cc47b9ebaed683ab775b605cb0f879; 0x41044fa70c30f12b7ba21859513717207bb7c3c9edd23f111bb689e2a99f963612; 0x10ae1599708b4d684b9633cec20157aa155e061e1e925048e82a6e1815f04fab5e; 0x22b2a651890f93c34929246caa948095861d8febc279b4d596c0d228a64fabd783; 0x67cea6f9b3040a999c3e9987973bc0aa819c05c9be1120523fadd40bbc36e223d]) ([0x96a727f0068ff1178434479283ed33d739c4efe6f120e7a4c203844b0eee84d432; 0x8181fd9b4b62bd76b01e9c602ce8945910200507def69b44d19ec0e452aca2cbc4; 0x5cd1d051fdfe30330266da19d45acac273f20105a6c3832ca36f18f59530c9a3cf; 0x7824611556e99d0752364d6c262f37c607aa994d9d8705aa23b963007f2afecd4; 0x3e07547041a547a444287e819013a1fbb0742d4441f94f66ceb6c8ce2b3c1937c; 0xbc171d8d98e6da2e83fc6d89eeb8abaf98f0e2b07621265f7b119dfd904766563], [Nil; Nil; Nil; Nil; Nil; Nil; 0x1997934f9bbd8ec3626c8db9a57bea5ac84cea75e30c95eb79d5a20481a90c8deb; 0x164156fe5e2a9cd75aa0d77f0c2df6e45b88a74f31c8306a9894ea4d409092424d; 0x1027fbd74ad6f6f279db19a50d6a5425aaf09e5428b8ba117718ff94e36308130b; 0x1cc14390af44fbece33e186794dbea14d32068fb17bd30a8f20fc32798dc8ce1a; 0x12183c3273afd792a45a3c299ef03279285f5c2959d680282e937a26764ec8244; 0x2b4da813ad9c75a8b1b3a687d654108dc1c7b31cdd4fbb9e98b0a367e359216a2]);
St (0)%Z [Nil; 0xbb7e7618239a5c2a3326012370cd5ff4feb275bebf76363b0d2e701cae44772; Nil; Nil; Nil; Nil; Nil; 0x2a2354b2882706a6ff849fcbbbe7c00c83ab5282c80f070001aa1586189e0215] [0x2; 0x24ac67115ef7fa67151de5a44a74825e479643357c7a67298b4da5150d98b5d5; Nil; 0xf908686857b532faeb046e93467818655717806cfdedcd4a4da267fafbbd51b; Nil; Nil; Nil; 0x640f9c0590a9982b8cba5eac599985113d6180ea062c38d3a767690bfdefb32; Nil; 0x1a82061a3344043bdaceb24adda5a049bed29a5063e82ba26617416a0b76ddaa] [Nil; Nil; 0xaa88215871bbf02df93eb30a4730a73868370da42d07563f532c555c4b23f45; Nil; Nil; Nil; Nil; Nil; 0x12c9fdd4c9e5a94bb8041ee5ea165b573f004a1081c1f435ee8fca0c92df4541] [Nil; Nil; Nil; 0x13e24ce37bff6717f3dbdb378b8a560a53878605ff8a15146aac3919db6ebb3e; Nil; Nil; Nil; Nil; Nil; 0x1b7a8622a7bfb651fd5cb6d4b7815123cf5ecdc18bdf989744328cfaf40bc2d9] [0x118c267673b3391964ca0bdea66cb717df000cb2bd9ede483859893e201a384; 0x2e7d39faad2a52d8f568605b8ef79601918e1f99b1cc89aa2025ddf2d15cd986; 0x2f9941c2272a638137bbff90f9c167dac8bea6028d11f736b723020ef8fac5e9; 0x12c53d76d3e37f5d4499189d8a8b1e9fdc0920572703677c97436f3fb494e513; 0x962942fee1b2cbff73f04946bae58eae1d3103ad9f308cea117236ba30b206d; 0xb150b79be6c4088f8cefb71a428dc10e69eb56dd53ba254656153a58f33e7bc; 0x1dc7bb229700a38e1e1a8499ae3bb15b9b1613025597dba82b487f6326353bc0; 0x1db86cf0d18f6c531963abb0f60ff79c6f87da67ed94a34361bb79b62ea777b6; 0x6cea13467ccff154793fba272da7f55c24e359e89404e877feee6be73ce62e3; 0x214b1792fc825ce4e18e58ebb7a4fc5eaa66c7d944f782b8af60244331f671ec; 0x152a151b70189f2a5bed82ee9e21121100d6e8be2a65a9d5a509164adff97e34; 0x1b47dd0d1937f45a86357517fbc2bcc1a913ba7aaa2c7bb8f1bee4a469ae5c81] [0x2013206eb5fb4832b88f35073418d4f39d93b0ef1d05a7a7f7240c8610f69243; 0x212919a55f4a355d3f628dc42677404da001fb5a2ea8d3155fb89adb4948b7b4; 0x2b5bbbc9d143824aee349c1cefb4b4229f73537f5e96d93c84cf320ef401c0b4; 0x70d4824c1c68ed68c931e3ae9c891fc4ee9e9528eb4614b0a10a2e23fd1ea53; 0xe9604374d07d0a10436bcb4e6958b328568dc6110e144df7cbb47bbdb9b826f; 0x10f45791f439bff52f344d4e1002c96325efd8f88d42fe90844d2919a282929e; 0x82592ebacdca7a74908516e9bcc14a7a4468902608b3a8d3b583e1c676f1f24; 0x3cddc285c756f9b66511c0e17b67724d720da9c3a309879153b4a68c5b2eb10; 0x2dfc3b036edcfdb206ba9c1a079151f353930682e2341e1d20e457bdd95da113; 0x1fce6fbb5b48e96c002461191665d47f489b76ff7ce40ec41a835ccaa7357d6; 0x1a325a8528f503debc72a114e7a22a221ecedb78d7ade58afd988d3268c3fa3c; 0x10193a6c2fffcac7868a916a4cd237d9fa7f94a3fed5587f5791728cfcb7be80]
  ([], [Nil; Nil; Nil; Nil; 0xcc797b0c41c1d9fc8c4e439a8adedaa544365d2bf191d91f1eb145c76356d59; Nil; Nil; Nil; Nil; Nil; 0x424076c225bf895fdc9e056cbe3f9041fe6951d9737f882b378d23dd555259e8]) ([Nil; Nil; 0xbbdf05e5e3374e85245e5219fcd55302bcece290cd591cf4c3fedf9a92ced6a6f], [Nil; Nil; Nil; Nil; Nil; Nil; Nil; Nil; 0x2a8df0128cb907100bb1cae56e97bc705986113260f6eed0e737e639b83ad18e7]) ([], [Nil; Nil; Nil; 0x644f785cdfd698319ff33b52a0c64a8acb08c57701ada19a574de056b76bddba; Nil; Nil; Nil; Nil; Nil; 0x596ef1bcbe67e23b23df239ac9ebe21f648b9f829fcf8df68303587fadc1584]) ([Nil; 0x1; Nil; 0x4d6b3327449a711d88201b921b5df6605501ee681bde6aa5958a5ac0192400c81; Nil; Nil; Nil; 0x1], [Nil; Nil; Nil; Nil; Nil; Nil; Nil; Nil; Nil; 0x139ea7d34a1e165e007565d8553d435869a079997a70a5f1ce7a2a593fb4a65a0]) ([0x1c60b1866d6ad5908cd2ea13751d7c0a034254e0eed53a88df596debaf633423888; 0xcf49ab4fd6969cbd1c21237b764484a4c3b315fd76e34e60f438164334d311f55e; 0xa17e634fc0e16b7e02122009f7c72a5e96d459f2a83226d281df09a2904f8410dc; 0x349bd7d1ae39c59382b484fa5d974b0f5235f1d0980a1cdfeecd5bbf3c626120f9; 0x2dd1e917516d4984cc9b904fe927203d4cef626258c18f92def38430c372ab61c3; 0x160be2cd03e47814358cd697c65f7bd861a06fbe9983a6620bf1f4132e50fe5af6], [Nil; Nil; Nil; Nil; Nil; Nil; 0x4c6c52aac207e14615e5485e2091d10396d33500f89e3160df0e103e3381451150; 0x2494c9c93ada710fae9529721be9c9851804dab2315667d2283504f47665588be6; 0x1c98447319d96b074fad1570a8bc8302d0379a2d9f9a5c7df6238687a4822f698a; 0xacd7db5569fe2a8469af11e92be884e99d5fe35955b3c8ba4a998387670c7318e; 0x9ba4b8762d76f4064173c2b0a58b7476e7336a703e4eac81b81ad4a6c5130bf69; 0x55eb1155538f0941f64a6a2a28111f808dc8d919fc3c24ab38b8362d7103382dd]) ([0x8b47f3fe740fb443118cbca589048fbc1bd82cf6170560757dea5eab5d98b6fcc7; 0x47e64a7139e2d6678422d4d5e793758baefcecae24b9f618a67f8827794b7e9d70; 0x5c01f78e3dae7a87139530f47e8aecddf86f1c5a1437bdd16280a5fe313661baf6; 0x55d5e4510837fa9916a051e302761b464683ffd4c2f540cd320689bb38b3a2290; 0x67a9b4b7fc5b71aebb5202b88c7847000464395cb0d052c27c49fb1929fec56d4; 0x1fb9eca1f0a363d98e7be7bfe8819bd9f1bf10657eb1e617e6d65a042ded14002], [Nil; Nil; Nil; Nil; Nil; Nil; 0x17a8cc1367ba3285e8d3071f31913bbc8869628dcdb8736be3a6ca6b0a76da821d; 0xc2ba96b1439b2b36638a81e85caee7b5ce54ea9d760e199eab85ef62edfea7879; 0xf90d37c030e47cc1f8428448b4c20e338656e5039db683c7b5d3014945c34c0a5; 0x14af4bea5a16da7c3bef1f133f53572d693c8adf02e2c36e5100d9ec290152e71; 0x1b12bc4dc05af596b2bb754ed9574488190d143835dd874207f9c5bcf39bf7ecc; 0xa1dda03242f751b791b6a4e2ee537adfbb995f1b6265c650d6d6c4883e75d761]);
St (0)%Z [Nil; 0x2e07de3731413345f217a885f468149ae48a6f12f06be3c2079d7a57ab68b68; Nil; Nil; Nil; Nil; Nil; 0x2b73fe4acb5ae0f80ba0d4352d014164e91faa625c92cad98c345b6922044040] [0x2; 0x2d83d08f6e1d8cf5592ecb2e223ad713e938c3a0396b0c511ba6b4715dc671df; Nil; 0x2d500dbcc3369444eb1922d655b38d3a07388acce37cf57fcde27f036b3b4497; Nil; Nil; Nil; 0x4f0502815d6bf31acaf7181548016f8ae61c02f0bdeffb3afec30adb678bd07; Nil; 0x2443203cb4c7bca31ca54586350ba177e3677c9ebd10ae8e4e34f83ba939b208] [Nil; Nil; 0x27e4314852c3726caf44da1620d01a3a4f9c9146a2e1348967914733adc43d8c; Nil; Nil; Nil; Nil; Nil; 0x1df95796ab2e27b026d6ab72b77dcee0c4b7ef48dd4e6c1b2d6562fa586f6cc1] [Nil; Nil; Nil; 0x25f08965a7aac4816f9f44f3d69b432151e367029a5d4b76a1e9a4c475da4e47; Nil; Nil; Nil; Nil; Nil; 0x1e39f2c715ce62b6672b7596c99d7cc94f14f95a13f95927e1f6938437aa174c] [0x20ca3543cedfd008368c27509063d40ddf405a4a56af9a43991696cb355f979a; 0x22c058e276811ee7fa04565712cd1e4fe79c31986475a00bcc8e9286e8af8df; 0x1b91f7b104cec239d83da577997053b733eca2e91cc1795c7c50cedadfbeee44; 0x28e9027c7bdc19fcc43f4f691be1f30363d2d307f3f12195a8cf07b766497c4; 0x892a73bd4b526adc5d981625e403961b6de8eec32d740d770398bcde71b5590; 0x17fdab0aae6e303d98ab7056ae3fb63b2b1252b9fb9efe928f111b538a69740c; 0x22967ce33b55ab2dde6c4c615350a2641b410ce6f92acb1f123a92b9c7b49328; 0x179755bea11c2dd89607999928c102d0ecc8406231a8b2209b49100d9966cf51; 0x1885c3808b96f80ac57e11a9d47f0ea191788cb14ec821d9ae553e0ba80be769; 0x15a5488520aa18729ddc1ce4ed09107367f989f4cea7bb12621596b0881ec355; 0x13f013455d1370be73843dc29045659938eebb0f3f02a8a7227e6427a15691b5; 0x1cfe78162227e0a54d3a421fdffd4d8335abc4e3cdfb87b9fa8ca88cc374b419] [0x1a3665ce69ca4f7f29040afc250b5bdbf1247b4d2967996f9eae3e58c35f9376; 0x219ff651c14c91960fcdf0f1faef5e19ca87494c22e0cfcc59ca7a10b877cf5f; 0xf70884abf98fed1c0e34554e7f5967536e4f73ac5e8bafa717ab62234eb7979; 0x1d8042a06cda342866f5b9b76aa515e33ec2b2c6b668480f978c1feb2032d20f; 0x1ece6dfe66d15b9521c828a4979f09630800604816c5b856dcd1ec418c6f6156; 0x90a774119068bfb4105b71eb50361009915c21db5a3e778a0b0db0e8387cd06; 0x2b401d6a0fd944d513957e2ba1a9dc3ec7707dd279914b068a745081fb4ff22d; 0x202768c8459c2cc8ba768f384c9eeadba38b0aa1bdf3456396ef987465a314b2; 0x7bd28fef98e17e8ed80eab26a537e974cbc05b48bac732ffbe05eb169190041; 0xcb6b0dde30293f386ea433bc10484d94b79f9e447c2eaac60b9cd4a2355e053; 0x11b3cddd935487260403ba7533ab9a0dedb8a492b94f9308591300b2bd9cd433; 0xeb1b7d9d1523ac91b34bfbfda152c8d8d399d75ff1fd0cbc81ffc345ef87848]
  ([Nil; Nil; Nil; Nil; Nil; Nil; Nil; Nil; Nil; Nil; 0x1fc7a93693a5411e44ff0192eec59a58fb1d5a0274b18ef937ec2253cc8efb824], [Nil; Nil; Nil; Nil; 0x8d0a249745743804032876f6ffc6369120d3ef6dc58009ca7216b73da645b3663]) ([Nil; Nil; 0xc7f569d6965dd409f3b36b3864a5833456d113105b980954299f9747a5d63827a], [Nil; Nil; Nil; Nil; Nil; Nil; Nil; Nil; 0x2c37f7986d6ec01931470e81e19240770b98d6245bc30b3885dd6a46aba92c7db]) ([Nil; Nil; Nil; Nil; Nil; Nil; Nil; Nil; Nil; 0xcfb269a3c22c9eddb452ee80527210782db0e9b3c218050d860c38602df54773], [Nil; Nil; Nil; 0x335d3660bb4537ed041c72079a9884ed71e3d56f39b422d9b9519631f26eee3c5]) ([Nil; 0x1; Nil; 0x566d3da0fdc517a306c7d445d16910d6d6af267c6259cbcc6f0aeadf30e343ecb; Nil; Nil; Nil; 0x1], [Nil; Nil; Nil; Nil; Nil; Nil; Nil; Nil; Nil; 0x13a5fc580966797d726e2448115a191188c9dda3f33cba7c8d19397bc3dbfc701]) ([0x14e8036a4c770ed210bdbf8bf2153182f810ce75697679ee5f3fd74dfca4d8dd51b; 0xd3718d323a1565e3165c5adbd951ac32f9a82d5815700f6463445311712c8eef81; 0x6523e7c905330f9c7edb529193ab65b90bf520eb09a2de9df4e528804efa1d6454; 0x6fbe4adc2a04c518d4efde9a7d195729280000d72b23dfdc1c101ca3878836c8fe; 0x332612074c9994fd89b1deaf8c5b82deec996b09aad5e4760a09177ffb48be2c70; 0x40ce805f93f22da799989c8f62548359fe708df0cf2ffa2d957fbf9e3cf7ba330], [Nil; Nil; Nil; Nil; Nil; Nil; 0x38e6565846d9974949f4de209b1d25544dcf702c9ca0d4192be02914495d231563; 0x24293c11f29128000e6bd74685d2bf8a26ea64b9c126c86ae14c878e38fcb36c5f; 0x11a7f7b5b4dabfb6287d1f1b666b4652da9360b8f7865faec4860a929444147ca2; 0x13565b426a7613b74d1c02b16e323c6679a3ae5fc33775da77f8d2eb28c8156be5; 0xa15dd6add695d86c5cbcac5cb06ea6cc0bb3f85c278258f769543bff0f273e89f; 0x141eb3d7c1a9a6b34f13bcce36fc4ad434b6739792a5a044311e7be8c9d5fddd7]) ([0x7f346bc710987de093422500ff0c0f1ab9cd5e1714a053d3103eaf4820249f7d36; 0x5f30251b3ed0603f82faf42e4de411e047ffd72518e8772843e39fece5de02b437; 0x8c7c274c77a4a99e6b67431da61b7c8f374043144bb07f8cd9a7a401bcc358b4c4; 0x8e1e21f8d2c47b0d19a473e8169e565b5fb55852a7064a8df25283e1c7d89bf05; 0x65a4c08e5da0bffa1ebe91f2fbd910b572f8db8bf49c024ac11d2b28304da21b1; 0x667caff1273426e38159fbcefdc272dbd4850ccb63dd182bb37d144132d7ba078], [Nil; Nil; Nil; Nil; Nil; Nil; 0x15e08f2c73a562257c37cb06eb359247e322f3a18efbeeed9e4170794287ba1a0b; 0x104eace6cee3d947a27a24de0817ed1ed002bd744956ddbf5cd6f3f582464cacbc; 0x180e51025df2e3e35334ac29bf13d4d68b8c8062d82635a02a45557837516f3ccf; 0x25269da4f5cd8e2e437b8400904416c18bf5fa93beb56190b801a8365f3f4f6c0; 0x1924dc11d10e1bbb8115f8f5889ec6d550d9f187f6653b6dccd561d6e815730a5; 0x1aea3ff688519fabc9d9f983c868cc3f9a7a3d5433863ccc7db6da2b3fe4f6976]);
St (-1)%Z [Nil; 0x1921b3eab5cea75f9623fc3c67a92afa315b01f711c4fdf32347e1e465d9d959; Nil; Nil; Nil; Nil; Nil; 0x14afbd1dd6381914df639a935b537a640ba48b7bdd2f49bb484579f8581f5e94] [0x2; 0x17429a882b62f8ca222c497a19d82d636626689a56accc9a18d8aa3272a323ee; Nil; 0x15d379ff818156b2251b713018a17c4d0f58ea1db8707eaf35871bfece5fe61a; Nil; Nil; Nil; 0x1bb491550af98714d8ecab23262dddf98bdcdf158b4280d1f3db121e805d9eb3; Nil; 0x25a375d91389a6a2d65db556d2e3198bdcb6751127ac91666001b11f9e06d340] [Nil; Nil; 0x1858910094431193e1b7f36702e72803ffcf65f5097a68401058424b15b4f78f; Nil; Nil; Nil; Nil; Nil; 0x70472bf720fbd9f37748326d86245e42981c3c03c02231d489f0b968fddede2] [Nil; Nil; Nil; 0x1c8de15fca4358c80087179c7354a011b6c299b89b229b74a9aa3a2160aa45ea; Nil; Nil; Nil; Nil; Nil; 0x2387411b527bb29846d0ddcefbfbbe1cbd37b04a0d462c3f0923586d5c6c0ae7] [] [0x1338309a7997ba136d3ea8f296d2503f1d1ea75a4e3c80c777d31f792acce5ea; 0x8e1ca878af5cff68d8c7c764cee7c869217194973ab6909c55f2532a0ed7e8a; 0x2393db4541798295a9d5fcc2b54a90393bc2498ae08e05c10b1b263e43710522; 0x1a6a8b8b75b9c96c57e67d9a5c16928fa98862c92d4cbcbdff164a2681b59aec; 0x1dfca7a15c167e86f26f2ce40f1963fe8b317fc1679342e2e16f5aef51518ea5; 0x9ca1c4ab706ffaf0c91721b83f313edf074104fcefb794922365221b1449aec; 0x2d8a4dcbc422e5b9580d394873ece85d95f38dddc4cc9e86cb8628e5b72ced5d; 0xe05c5d61532784a5cd5625ed9608426771de84eb60db79989c723838beee727; 0x13771a0a48fa31188941c975dde27b9336aedac1ca95cff5a236d4a090150b8d; 0x1443bbd89d9df4907b5b02125ab723444274b8fc12ded73b8b947bf4546ab039; 0xa8c82f70e1914a6e5f139b4a9972d56dcdd5e4926a075853be2c6b1fee6ce01; 0x796fb97d7be318a0daf2170e654124e96342aefe7885997045820ec2948fdac]
  ([Nil; Nil; Nil; 0x98c9074885044ef74485a4f6c9b346640011977768f8a0c9412899b1002341c9], [Nil; Nil; Nil; Nil; Nil; Nil; Nil; Nil; Nil; 0x25f7602f95f1134bc2d81e3f04a6cfae7144392f249c18d4684970478f561ed1]) ([Nil; Nil; 0x2c813ab782f41ef096fb973699b2f18e04375a741e7a85400487c406617eb20f8], [Nil; Nil; Nil; Nil; Nil; Nil; Nil; Nil; 0xb4a93c2a3ad523c5bc90f773d4844a6e60f1f7f9fa8c7d839b8f9de2046576c5]) ([Nil; Nil; Nil; 0x31ca18c37620a21d395e21dc925f06138f99f618fa1ebdeddce28e24ab921218c], [Nil; Nil; Nil; Nil; Nil; Nil; Nil; Nil; Nil; 0xc335c083e2cc9541ad3693025401362719018d50da2ece6ffaf30ecd19064d50]) ([Nil; 0x1; Nil; 0x405f81f04e05e8a4798aa1389a469a73f5fcd65fc576ea136c123db0812bffd7b; Nil; Nil; Nil; 0x1], [Nil; Nil; Nil; Nil; Nil; Nil; Nil; Nil; Nil; 0x10741fd069fe930cb1a583159940afac585ab74d9b4eeec5ae9adbc1e924eb873]) ([], []) ([0x769ffa070e254108d53403717f9fa8ad1045c62e074b98ebe6736f84997d4c6212; 0x617fe7b41a30844dc49e2413df2c9da92ff71bf42e5962c003e027d49b8b86ec7e; 0x4c1a94320c2ca34e23a1b81ac2e6bc5b20f47faddde619994fed747eb351b4eb66; 0xc1e8598aab24ab505e60c35d1fa377e87c6108e2eec759606dcdc246e55943506; 0xa3a3f9ee631c1b0a56abb26ec2c33d550bfd4895066ff4b173c76005b4d6d5825; 0x516df7025adb5194b9aa6ec5f02cf3e06a9c304e52074e2012ae7c2d2be7fa09c], [Nil; Nil; Nil; Nil; Nil; Nil; 0x143f172ef3ac6e5878426db8c5a8a46561c1f5987b44afdbf7e98aab24555e09e1; 0x11326e03f49e0573db4137320ad8e6d432aff837360ea42260956c41d94edb52bd; 0xd35d203c73b91aad1626497f801dde670d26ebb3f0fa3f2b81e083cedc44a386a; 0x2e1b846fda1b928c412dbe54d3295690249efd77a511a1d29e19303acfcd55bf2; 0x284d5e1f890e94321a5bad52a82d92f2754d50a0ff0461a775b2f0f48a532796e; 0x14c6bbc744d7ff312f759f27dfb5df1c986cdec0e9589f1a653e6585d9a7b5bf4]);
St (0)%Z [Nil; 0x2c8bd109e87d26709ea3926c871d74493db07707e378176143e700d4e3b2a7e7; Nil; Nil; Nil; Nil; Nil; 0x36ecc5dbe069dca54bea71957426f002508f7152128e2314694b663286e231e] [0x2; 0x3d87d68f8b479b919acb349fa63e41459d0f38984f9b32bf8398b41f4ca5560; Nil; 0x265f49aaa70d3608e22273a40df1643690c861e3f1d8f51b280ec7e578e5412a; Nil; Nil; Nil; 0x2cf58215232b025f63919e9d2a3ee95d7278737c4748e85bf58bd5b3b00eda29; Nil; 0x74ff1349b1866c840b77237a29cada253c126c61b6caddf18de2f30fa650122] [Nil; Nil; 0x2bd38148b94aa66310ed98cc2d9d416eb95a1964649bf2bb05c1d023f49c470; Nil; Nil; Nil; Nil; Nil; 0xc2bb54f9388a2e974cd874d029e18bcbf2c62cd97f964b247a78d870e0c85ac] [Nil; Nil; Nil; 0x1c842388f73a2e69c31344da7bae24341883e28262a946ee3dca1509abe93a04; Nil; Nil; Nil; Nil; Nil; 0x1eb5298e98b89a292e3a5c8412dcea52994d740632ae8a497add4b1c4e6b4cc0] [0x29746f391b81c2478299c6be170bf74f6467bed799d8cd41e1dcae66d7e78718; 0x44a4d98c1d1e7912826bf0cb851f9b6feb7dc0f5553049ff5b6a710d62f6f7f; 0x23641812690e2cda935e075f9a9ed11acd20dccdd1427f0d97479b9258c40613; 0x1a767edc7834c5bab64a6d74b05227b75b163abe9018cd0bef826407772cd3d3; 0x2dc7f5beda2c7822038f69b343474b9094a0cbb7d54ad084f0c8d8a9ecd31c8d; 0x25924072a2d275a25b12a668953f41f5bb4d6d5d512c8f89bc9b797661ab3021; 0x1583f6a76e26d53ea563a3d1b0c90ecc8cab7a65db1eb0f1d9760e39a9ee11ae; 0x15122df05924ad83168ea19cf5c9a029af1759be02c5b0a81541906524975764; 0x26e35e4eca45f69012511e9b63b5d32338ce65782b9e6129d18a72cfdcd40327; 0x1000df7e41a2ccfbad53165646627a20ef513326c5360290083a3702e5799f09; 0xbbd46f8320a753de2ff2d78a7c5302cddb383ed6bf59caafcaf8193f869cf85; 0x23a787ac6659b3d46f93f447019c9cfe3bdea24ed27cf47b42fb605ba6254e56] [0x18bf6c5869d7d2774220dd97e14891a6acf80521cf61cddfb9b3138baae078df; 0x10a6c36a5ad51231df5510894981adda272f5ab0c069457147eb234864dcfde8; 0x545cd5444b39e35af17685e713df9f31c76233f38c64b48834c140df55e2645; 0x13e5a5ccf1d944b7b4a7ba557b2c923d599b7fef46b5664500533c05c577b91f; 0x1556c37039db86752d3100700d4369a5dd37499cc473a217d83215c136788e65; 0x27bd8589a881e0ac2f80bdfcc8697c7c65e1fdefd01254f264d5bddc786160f7; 0x7f130a0fe082686e5f1c52829a88952f9f5b691b0a52a9b74ce1457f2d0e234; 0x2ee89fa94067c4cda10a9e3b21a4585636232451a15777fd9c94790ccf2fc43f; 0xa9cd8ae0b2836bca7bcbba79ae3b11f819ec479aeb1ab26458e1c9651b26c29; 0x2bd1cce9d8a33234c5b8de15041da6457132219f330acb78b6cf1ab8488de6d6; 0x5444054a3c7ef84a68dbbd0352eafa0e12dfa39291be5f5070be940de05323d; 0xaf26a0c52f537ac9cd6be410e32fb7c786111eeaa19aaf535fc6264d2dc2519]
  ([Nil; Nil; Nil; Nil; Nil; Nil; Nil; Nil; Nil; Nil; 0x540f0319c687496ab9a20e11ecfa93d8f20454ee1ad75fd34a374557d359745a], [Nil; Nil; Nil; Nil; 0x932cb4345e5b9237dba88f4e199635823e08c27d5d4e60beea375de890ec6f41]) ([], [Nil; Nil; 0x1509afe5ffe63a12ae7ff209469cb6fd1434aa719adb6fdfd0a3d46d9333560d; Nil; Nil; Nil; Nil; Nil; 0xab40a74c71465ffa04b43e4aac9c44cd9bf2cee58860ecb5dbed955a19c3424]) ([Nil; Nil; Nil; Nil; Nil; Nil; Nil; Nil; Nil; 0x9ca92dc703ddcf9e96771d8ad266c1f930dfdf3154e4ed2e9e0561a6da93e05], [Nil; Nil; Nil; 0x31ddc5328b0d1105c4407cb4626c766e6db8fb4f716c869434ed0457a5575d45]) ([Nil; 0x1; Nil; 0x12687ac18377c7ee63df6eba7cd62a57c04d737cb070dcb2f83eb62becc4c7a5; Nil; Nil; Nil; 0x1], [Nil; Nil; Nil; Nil; Nil; Nil; Nil; Nil; Nil; 0x1125a83540eb3d5c5f98b598262afc95509054dcc8edd400a8ac53901c589b29]) ([0x9f6829a700fb0c786fbb875b62df1d3a4939bd715a32fe23acc889f03ebe1ddc22; 0x70666441fdb6c28c7d0829077a6a0aab198dfb51afef670e211f24d0bc64c59789; 0x484bc333780c39a67533878651125fa472ae1f97847a323b6185ba2af96a1ba353; 0x2727e23d44ac313bd48f1a3e1694bb25ca0b492d79cd84ad7ae9aea5183fafb3ad; 0x143e43f5700f0bb26261546ab48ecb627fa86efb7775a2cd5d785a449bbcf5b101; 0xb87ddfc9385b5931156ee904108d49648d430ed00f6c2502f7c046c1e68d7135b], [Nil; Nil; Nil; Nil; Nil; Nil; 0x1c896c1c2a76b1b491a6ecac8f1a8d6b548b26b53ff88f1cb932df547fc10763c2; 0x142fb98b52a66bed5579edc0bf1e6139a8d147ffc126f7375367a431951262b8d8; 0xd94477a5badfa8280933cdfd1e3164e8ae5eab1365a3af5eb505521b64d7bdede; 0x7fa36e4050d9591cd2020a119461fbef7d689413d8a08dcbde5c3e495be2f83dd; 0x4933a367ed5aff234ff16e8b4cf59f2e5f0fa97cf855be1f6a0f227bf68b5aae5; 0x2f55fba0a8fe8a02e4d55233eb192ef7bb32eea06770db0d383bdf84d2e02a398]) ([0xde5d1fb949035e97d08aaa23c0b2fda95d5fd7a66c5493700badacca1357a4d387; 0x15d0a5585766797ebaf11744e888247530e82b721e4445a06e0f92cf1c9f5094ca; 0x3034d46ac23e529e6d1df94cd4d66a6b5b592ad0ac09d609390d9f7c3639b37b15; 0xc798710bdd08309084b654becb7ffc51530d3c4a664e8ac2c3f979952ed6aa479; 0x5c2c4ae3c158f919ab70fa252e245ea64238d4c0568bbbf0d1c8761d1efa16031; 0x5407d5987756d25b0a87e43963b409bca5cedde8b112acbdb0aace205e59d497b], [Nil; Nil; Nil; Nil; Nil; Nil; 0x25852beccb80d4cff797362a8ef152d70412e6b6d8f23f181d9c0c01c5439bcd08; 0x485b046220f31e1d676dd7c4f6d1495b6095c58acfe48477181dc5c736cd3bf3d; 0x8feb55612b807a9c27488261e8ed90e8a8c76053ba897bf2f64be4d1ab747374e; 0x300259b9d6a79e9a2d8009730ab822a7bf1830b5efc123bce576634ad20dd602f; 0x17026e73b1a771298d4d60e33cf05bd7f7013e6e1989c7b9324388c0cfc6e16c0; 0x17dbdbfbd33e5e8c4b623056e7962c9eae61a73533a59d67601fda5b15a9b3396]);
St (0)%Z [Nil; 0x7e87220c1ec500fc916d3beac4f8df2b10d98df8a87bb8b11d49a3816059c2e; Nil; Nil; Nil; Nil; Nil; 0xac75daf6572f9cfef14cc703dfbf52a686949e93c73867a67adb04d3927aa05] [0x2; 0x287bdc521f455019ef3971f7d531ca6ae673d1b1ddea0f022a4bf1dec2776119; Nil; 0xb097d278d1201d15d39be9692aeec1e66283c3bd7ab3b3ea89285a1317aeccb; Nil; Nil; Nil; 0x259cf0c37bbea659c93b7946438563332f1820a82bfe4412d472dbc99f555342; Nil; 0x20760e6c7676c382e5c62a9eafef73a7ea9321dde27136f9c971cfcd57112cb] [Nil; Nil; 0x167a733c586a3bd7f407ab2a2ba98c265926d234fbcd4ca60d09915f7c85c37d; Nil; Nil; Nil; Nil; Nil; 0x8cf8a7f95e62c4bfb0ef538fddcc06a561ed086aa47a7d72b5dbeea3eccd4d5] [Nil; Nil; Nil; 0xa8dc84baa05e19f7ccc2b09031eb9ecfdc5e2cc8cfd61d5e5214dd6372d81bb; Nil; Nil; Nil; Nil; Nil; 0x519d95270c043c2aad0304f6532ba48b373d3f152c5f90d6a6a84cb6baeec7a] [0x11c37f346c533944c55d16acbd107459d4e5b3f44484c351684000da868b1344; 0xca0b36a356f3b6fe31c1da9a65703aa1486f55cfed17d825877fb9fbb5039b2; 0x21a207228192be7a00a2c066e905ddb1559bca4f169f6ff9b0d18ddfd75ee15e; 0x2df98a23840478391c09d9f1eb2394dc3218b1a96d44a45ece06c03776dd1550; 0x26d46b40e1b81f6da657370b118b43b6616f6020d38742664edc90c46a26b2e3; 0x13b4d4ca131a6b3d2588144672ee475fbaf9bf6a1a008f6a29311a900a27146c; 0x2b0abaa42ba3cacd570b8d952b11dcbbd288463266fec1671407047a4108ee3d; 0x22303dbd46ea9d52fdd707d5866eb851644ec0217253eab1735935a0d52b0239; 0x1bc300f730b32f678d9befcb0bde83e413ed9dfca64184afc997e8c9157ac68; 0xbdbe5ecc45fe62659d7827d7613cc6094ee0d0216e7123fe3d4060c5495ce32; 0x5b1ec29fe76073c56065d15d12c13f28d0a9c2dfcfa3ae21e441438b1596efd; 0x17ab5a8b05f991775d8a28a7dbb5e4dbc1d0f791568944c85ea77fea8469df4c] [0x281c9efccef49d281c87510b177696e1f2181b92131b6917c0b83f9ef9427e8f; 0x2a85bb36b635ca130c2c6826b338ca6c0bbcb6580eae394eb5b0aa65238c0cc4; 0x1a81433c1b4ddaf53f1ee29099f5644c678e7348dd8516ef382b5460dd47aa47; 0x1857a8c98869c75a717151e04f2be6d81ffe43df263d236db0f782b0f5fe414; 0x214826039263869271bf14233f7feed4b5c02b0599d3b84aff6c409e2f6efd4f; 0x25b5d63ecd951cf1a8aa58aa7ccc5138ca5c32f9f806e7d3a481167f0ef11c98; 0xae201b0e985e4ea67237ef06c2de05d8f607d054d2b693d1a14b8bd2e3cf479; 0x20df0211d09aa877614366f638d87c0837b1b3c5e9063978761321618b505e9e; 0x162296aaeaa7af81116ec19084e4d423e5abbf574d32b6969820f0528409da3f; 0x239e77518036e78b4df8b2a390e06d9bcd1efcf882f5bd7f4df9b2bab6ff9814; 0x2e634102df828d0d117d143e1d6ff4fa54ff9f7a7d1cd72320742fa5ee732453; 0x2b41440320432138e5e9e82a0ffb8c4b5717fe761457e7728291303f707e6fd]
  ([Nil; Nil; Nil; Nil; Nil; Nil; Nil; Nil; Nil; Nil; 0x638bc92d644a8c004add1c6d31386bce96a61723ae38ede219b4399be59db578], [Nil; Nil; Nil; Nil; 0x167df06a25ffbf0ae1b540572869c86d2a7c992a084bad498334ae53a24996250]) ([Nil; Nil; 0xc39402bbe2b76b2709f632c90fe368e235da8dba03e8cd03d3787c93ab3d9c8d], [Nil; Nil; Nil; Nil; Nil; Nil; Nil; Nil; 0x2ebd01fb85b7358a3a9b8bf77b0b0522f99ce963407aa09be46433db5cd01617]) ([Nil; Nil; Nil; 0x40986d34f5dfda8d0f058f8a6361a688adea1bdd04cd3af904f5abf6d7b945bd], [Nil; Nil; Nil; Nil; Nil; Nil; Nil; Nil; Nil; 0x99fb07e1a4af35524e012f60cf8f0f4bc6a10d9c45e072131a8e12ffcb9a0db]) ([Nil; 0x1; Nil; 0xddd8b645aac767200642081d3e4d9e5a8c6a04a6667421e897d96d7dcc133621; Nil; Nil; Nil; 0x1], [Nil; Nil; Nil; Nil; Nil; Nil; Nil; Nil; Nil; 0x3365313663c49d9cea764fbc4b85fafceef1e22767e7b38d7c4a38f7d86da453]) ([0x196d31fad49ef6b3c8614b6572c1bf2f1f35f975c921059c1c0607c1817e61acc31; 0x6ba79ae31c3c5672551be837964348e66c8332d1f55f75f34f67d2ed200c13f3d2; 0xa0abd7ff1c24c8c1674add05eac04afa20926f0aa08acf998195bacca1e681c22a; 0x1eb486d1b45e87435c2c4607760542f6601d88585a464670ab1c756e02cecfbd0e; 0x3068187403a1981449f89fb506a7773598cb712a0a956267138ff05341fd9a62a2; 0xa58430e63e01e677b3981aa949dd38a0d3566db4f39edcbe0f32514e1c1bcbad8], [Nil; Nil; Nil; Nil; Nil; Nil; 0x45414079d4ee287550c9c36d60016888f735c027b9f383e7e232297af513ec7316; 0x135d3930cb8468332dc273291d24455337dacc477d7fe7357777f57ad3b1a76c13; 0x1d15abb31c562c1a525f3b5e3efe4778bef92eb034d6fe70adca735d702145806b; 0x6674835057715e56e5ebe164982d53b7cda121b052de83c61c138978c47291cba; 0xa5125de46830004ab655ef5107c45de0698c47f51ef3ac87148ffc8b950fc981a; 0x2a9ef601d5f6856f8894870a63fa92017f18601278ca447ba5e547360f60fe3d2]) ([0x79abbd57f5d897be9871194e46cec1b72229fea3f830c61c95ad1ec19b878cc095; 0xcf8d84e6868e783370a15f26d48911ceb8bc54ffad608b66c382eeb29c7281454; 0x102f8de3ab621709cfc9d39a5fd175d093f71a7ec9119e470c99c2da8a80bfcd8b; 0xe25eeb4c35ce54428f105ad55092cf2b00cf5f22fcbc64d247135980a19b7958; 0x340075ad1219d817af9bb132cc24f90ce5573b2041dd1a1ed7cc6f862dc969b07; 0x148c882bb9f369a346c5c80afd655aedc4266f5c257013ca729989c252dec22f9], [Nil; Nil; Nil; Nil; Nil; Nil; 0x14c2efd04635779a71e69f286d17c395f30cac8e6f2ff21558a2fbf581612d9f2b; 0x303522629e4f8a544f4b10e16de16a7920f74332e17f6cfb0b5a1a522d03a836c; 0x3696b569d3285f14e0066b9ba6e0655f1ee78886d18e8eaf9f305abf4b41ac90a; 0x5ee95d1acd5f30614f5146c2b378ab68758e9765b3fda68ccf91b4f5c962eacb; 0xf5b2aa25e24b6f9213d6ea1e85e1a41170e4b0d6e7fcef5e801fca02963d64e0; 0x75bccc14d8d8e014ba9d902f822a3d6b9bc4ff77622651907d62cca5e22e37c4]);
St (1)%Z [Nil; 0x14b6f7237b61faabdb4b8282eff66e03676493869c8a45b705be9311b45ca0a9; Nil; Nil; Nil; Nil; Nil; 0x2807c25d4793da4d10b968f73f3bce0d6a09a20c2e72351367054f242ea555a5] [0x2; 0x1bad574f65cfa57ddd04c333918aea5a301cd70acbe784d63661f90524205c9e; Nil; 0x1ba17efa8ce0f6d745bfae47eb207041f53550ce6bf116cf4e83ea4bd8691aca; Nil; Nil; Nil; 0x85c8c15999dc5dca796dcbf42458a502d77c88539ff9579d51b3cf2a9d7a7a2; Nil; 0xa31ad06420209a3a8525537ff9c321946622c37890556d66b6360ee689aa455] [Nil; Nil; 0x1cffc1ffbf44d992aa825d0dec5b16e78895a2517b95efea8bae222876603293; Nil; Nil; Nil; Nil; Nil; 0x10dff2a6b253b86e01d5e32b67378bbdf8652e91204cdf81d01aee1778805f6] [Nil; Nil; Nil; 0xfbc0c6c5ad54122b9711c4a70f2b02542848d0db68c557bb1d6d9771838201; Nil; Nil; Nil; Nil; Nil; 0x172fc3536dee37913c506f05b37e296e2bf2373e9a707396b5225c169100e5e6] [] [0x2ca5ae08b9561e6c97cd4890b15ed120a47550e2cca6965926f6105e6f7c6c1c; 0x24d6b6a1bd9f11e47cb2c1db0a47832a9d45de415b024b3825650a42dabf31bc; 0x1195b468db60f965510ac51869612aeb1e2af94598f9ab42e3638be688ef4a3b; 0x1d58f8a48dfb727da479ba2a04ffff0789578bfeb88f845e65a1388706d0a0f8; 0x26a52198d87adf71ec4eb10ae1e2e6990fdbf6b35643f6287fae12789ac6c0e9; 0x1e12b23f0175edf4c8fd5b3e40766acd351fa461e5c4de81ba60204473863ea3; 0x16563d0a5bc32a18c7f79bc897bf26afff7766681f38233737449b95de21d39b; 0xf1e3b70963b5ed6d6fad81a5d52ccd74e3be3e5fd2dfd58c353b3a9d7d53178; 0x1143894b8dc57abae2c4706ad337b85a38bae370368357dcf0a3280ed586c0d3; 0x21e8d651c83218b03e87efbf63efd739e71fa933eae8f767ece18fd7155015c4; 0x1003c9363808ece672ad2a39653d77fd4f1ce45419a50f2e399cd456da290a3; 0x2671dddf29b99811c93e6ec5230465c56104e3081b4c8f889ddbdd750237a360]
  ([Nil; Nil; Nil; Nil; Nil; Nil; Nil; Nil; Nil; 0x10ba92b4ca5c481a19a2c6305ac2cca1639c7122d206206b94e34a0eb0f3a045d], [Nil; Nil; Nil; 0x46a275ca496d5bcad52c9177cc2090aac0afa183501361c45e9173f667c8cb975]) ([Nil; Nil; 0xa9271edfb2e1fcebae997cb0a8552bcac59d186486bb393affc9e5408d047ec09], [Nil; Nil; Nil; Nil; Nil; Nil; Nil; Nil; 0x27650a856843ca41ed27c23be67955eec16a1ced0477f4081eb35c399de2c2279]) ([Nil; Nil; Nil; 0x210e4d43b6329c96d403e298059a7d09c6a2ebf29a0e96009d6e261a9202d3598], [Nil; Nil; Nil; Nil; Nil; Nil; Nil; Nil; Nil; 0x716976a5ef35e1a6f6ba35f4dd3fd85aad71e0ea842f7cd40a021e1b3e1e6039]) ([Nil; 0x1; Nil; 0x24c05420ada6b874c986f46083d7552067c248c6adcfaf7bae31a2e43cff5238e; Nil; Nil; Nil; 0x1], [Nil; Nil; Nil; Nil; Nil; Nil; Nil; Nil; Nil; 0x998e44023c0f002f049d769fd8fe282afe9d28883665361ce15479a67a0d8ef7]) ([], []) ([0x37278413aee801b39fa0f6c858a9226983172626a4b389a16aedf9805650ac3b96; 0x43955468a4441c7b3c463b4d39fbd43429495898c4ec11f5d22bf81de103328dec; 0x80bf85f2f9153a96434aecf147f3f0586e9680434063cc463828992923d8a6cd3; 0x1cf8ca1671291f1e42af884af7cd5b0e0aa7d469839f8aef18407c2bd9141e9e2; 0x41754e3be12f842de17413bd9cba441db067965aa4f6c8d983b6267af736bd961; 0x3ed7008e7a70386c1f271649d9171dd316dfd2eafb441eb82055bcc9ba524eebb], [Nil; Nil; Nil; Nil; Nil; Nil; 0x9a44322cd3f15e5fbed6ccfc13f2be097a9b51b3734574eebf98c093efe83d7d9; 0xbd9c10d01df18b29601a19453efe5a4b6300de33c94a98ed8f7e1b68ca0a4f876; 0x1ca820b7b9748b48d42c8535c679972cd8bf53e9adb3d2488cfe9fa1b7510d5b3; 0x8e0361aee2e8ba1b44636aed8bf36de58bd50972933b61eda01dfb6af4d82319; 0x11bc8abfaaf09dd3294fe916a877ff7a1af6237dfe4327369189c8d5579cdada9; 0x116b5c7ef88970acf1dc20cc4f8bf6ed96114f46691362d5db6e8f46d95ac620b]);
St (0)%Z [Nil; 0x15f7cffc5506c1486202ac6d1b3ba949825b7fdb5657d54cb7bd798f675f175f; Nil; Nil; Nil; Nil; Nil; 0x236e70838cee0ed5acb622ce92a7e393dbe10ba17307477d650618e66de38d0f] [0x2; 0x1a6c7e768c2adee1564d99496645af141525eab61219f54084631287711de5e8; Nil; 0x9c8d550043f1ef08be6282a0fc04c5a702b21865329945bb1f673743c1e13ba; Nil; Nil; Nil; 0xcf5ddef544391540b9a22e7eed974c9bba05eeff56a830fd71a73306a997038; Nil; 0x2e8448d167f20f960f9f29b6c50f1cce9b85ec9bbd166057df55c135b87f35f3] [Nil; Nil; 0x18abf030a94048fb2b27dc9ed479bd2e6a842860314149ffc18a4555ecf6ad5e; Nil; Nil; Nil; Nil; Nil; 0x15a18a1cc8991dfffddfdc5b66b63632692b325f463294f8b152a2d8132e953c] [Nil; Nil; Nil; 0x5ba56ddd40159d23c50a1e782363b4dc5921f993e6931d8b874b5967ed47a22; Nil; Nil; Nil; Nil; Nil; 0x19beda35841e8b944884c628cbe9b258c635fa797817c840868e50397d89d5b0] [0x1e849849ba0677711a66455e755f67aadd01c2c39ca8367865dcff8affb2ce5c; 0x676d4624bbea1564ef5759808cf666193bc18a3dad17cdf04b89c69ac036158; 0x8c0ee6251bc4f061c5bf36bc4be12ec5ff7117eda6c5f625da5d59ec5d576a; 0x29079bb68d88186750b3c302c8464a70a3dd330e6859064197858f4124e9e9c; 0x55623b711f4c5c6efacf20ac4bfd983d2a7b8805f2f0c1a0126ad72eaa0ca84; 0xfd3373dd46761625a51439c6dd615c0c595f7c5460044023f26dfe40fe50e94; 0x2a8747e39afdfaa75597146ee57fb2f1a4bdbb3d14638609071a25a6eb7a222c; 0x1767fe4d44d755d6ff8bc1ae63b0e5c4407e4ce79d8854f54d0f8152be270bd2; 0x1f634ff8751a971a0fee42d15f625e6269a5d7b1de1ba1b9525950d97705d235; 0x4d91350629c9ee6f21303b623564ca124369177aa317145b725d34502dfda29; 0xb3c1644f314ef7d73bd7a28832aaab32abf7a64591fc7cdb0a84fd5066df1ef; 0x8e8997915c04f13f151daf87819ba02e7d36dcd46155127fde221ed7a0c1341] [0x52b6801b9187128cd492bc65713541bf175ca01b4305684c904e43e29f8ea5d; 0x7b1752344998be7ed97af4fed28ae7503f19c7da5ec474d807b414d1975dc15; 0x26093affc1b87cfaa7ed940410ef72c82e8b19368b35ec824d87543fe27f98db; 0x9e5add33465fcdb405356c2374a42486b2a9338a0c71c6dc328439f358a36cf; 0x1daa1d627e68763e180255852444097fa721633b2b8d827e5c7e87bd05fbeb86; 0xf3f802dc5b8091170ab037556b84f372af21d3690eabc66fdac3af716155447; 0x1702d465f805fe40858a3b818e93462cb44edb7e779d3422177e925d962c007b; 0xfaa5a7049b619c40032ff6b953a99c22f01bc5e6bd10a2f07062541dcee4109; 0x11a9f7f56ee4a6858756e053b8e8097e22c7250c9812f93f907eece09a472dfc; 0x10d7f7301e0c447bd5333e360990770924b02ed8dc0d61c0b636df5a779f89b1; 0x130358ee294268359727bc8daeb25c6bedb5908cd973dc6bdb128d870d7af7dd; 0x292b6d7cd6896d26cc3e65cd552b609f33fdd7f8925f673728d2fb96b183e8c]
  ([Nil; Nil; Nil; Nil; Nil; Nil; Nil; Nil; Nil; Nil; 0x2749e7d27984d3d102177be58e556cd5e2aa60085cdfa2d8360daf3ca76600afa], [Nil; Nil; Nil; Nil; 0xb0dc351f4e34146e97ad7e1ec704cec450e84cf106a11d703126ad33e0baba18b]) ([Nil; Nil; 0x845471a931d554f04cbe3b9103cbc261187046f1db86f7993c2588e87ee50da83], [Nil; Nil; Nil; Nil; Nil; Nil; Nil; Nil; 0x1f3205a47b318c5867098aeb4e1137ec7d244d22215b21781706c59fb2d4309d4]) ([Nil; Nil; Nil; Nil; Nil; Nil; Nil; Nil; Nil; 0x1155a1d957aa3a0260fc7a4f9db4bba229e779007fb64d67a7f4be43504398cef], [Nil; Nil; Nil; 0x4d556928851036e497e361fe2ac6822afa890d6fc8227b4a1fa1bb35952fc4b44]) ([Nil; 0x1; Nil; 0x32281d8f802f5b55abd5c12fb73c20fc506dd12080f5ba93e032e20081884bce; Nil; Nil; Nil; 0x1], [Nil; Nil; Nil; Nil; Nil; Nil; Nil; Nil; Nil; 0x239c6a9ed53967efebabeb8dd0e2fd03713603cf26fde43c28ba462e7657756e]) ([0x149c3016c74c4cbd7c191f81e6d985049b3c662cf6d4857d7392922847d1ca9966a; 0xcc016ba20a1497ef94eae5d7daaffa31a6d460e320991d0823e99abe0bf7856b34; 0x15a17efdd1ef281705d6cb7ebef13b7104a071b3f9cfc717123078b53264479f2da; 0x2a66f6aebf0a2fd05b9e7d6de553e55fcda88e667e77d6b03ea9f82db513cda3f8; 0xc7fa8cdaa229d2ce7180a1b17f0edab43bf63a045168d5ee304e9b61dfc88e86ff; 0x12c9d4cf702165b1e836be45a996184adef6e1a79563df61675a48dbc16e412f2c], [Nil; Nil; Nil; Nil; Nil; Nil; 0x396835959672d095b409b4f70b85aab6b3b8f962a009d59590f9f0d58bbeee6880; 0x241d5a61b8839f0972b989d06fdc90bb70aa65729939964a33603aa620eda96474; 0x3b4cbcf35ee9a816a34726f29df8af6d71e84b6f441f5a9bf4a09dc3ed35401218; 0x98d1e62df352c78191a84cd02f2150bf0271360d2f2c7fad6bdcb898b7813422f; 0x22c2f07944a6b3dab1b3e2bd0aae83eb6e286199da6d2ebb8db93bf121727b98f0; 0x4e78d2be1c85d651a0bfbbd72046b0262a0a497dc58e1316a769770d0e6ca8607]) ([0x2ca4dd1dcf5b50870cb34415d006205704f7fb923069cfaf3c2c4240604b735bfb; 0x44382168f3b8bd7fed536a478c2916f6be47e65a1384e5ec16434b10a17935a59b; 0x38d12997f4081bd67e05e9d25a8afb7a5bd1fa6e04ec134cee7b14bed5f8602409; 0xfc30f68ec2728648f9123fb8a0fefe42b5be58ee4f74736d884a683498f13ae21; 0x79cb3a2a13bd4af427db8e9ae9bcef964429ae10fe261efd833d8f329d0ce5186; 0xa9dc97896797a16a12a20a5c85bda0ed97f37c5970475154a2b9be28a50998cdf], [Nil; Nil; Nil; Nil; Nil; Nil; 0x794291dd7a380191f9825b45c77f3cbde0a8356c7ec19e591ca0714fb1ca675b1; 0xba82c06c7ab4ca308a988969c2a8b4d0006f7e71b350ea3fd4a2a95adb6c49347; 0x9cd20ca38a0019d801816d1f1103a03481186d441e66b2190631590f050bc3058; 0x3ae628d0fce8f1f21ccc3cfc9998789bcca3e3c30a34a652469521250784a98fb; 0x1baa3685c028123f7d4baff6cb459fac57212e674d8df31aba4779fd828905e97; 0x263affdeefd7495235649703693926fc3a2435d43906f59ef123be68b349c2a74]);
St (0)%Z [Nil; 0x26dd58e094cd4ee7ab42cc6e8ef9aee6727b89d483db35e4af0933d9a2dc1ce2; Nil; Nil; Nil; Nil; Nil; 0x2a1df766e5e3aa2ec652aa1ff533e1aad7532305f52c3c30cd4d3202b34089e0] [0x2; 0x986f5924c6451420d0d7947f287a9772505e0bce49694a88d17583d35a0e065; Nil; 0x42d9c6277b090791227768795f9b9018a1e187614d23a17d3b19cbf6382e563; Nil; Nil; Nil; 0x646570bfb4df5faf1fd9b968c4d76b2c02e478b73458e5c6ed35a14253c7367; Nil; 0x2389ba056de56a8d66bc208b511503d127ff5edea64a913a29a1aed4e0798664] [Nil; Nil; 0x6bc1b160062896565eaada7c94d9ba2573ce9a9fdc7cc3c22c9104ae6c483a6; Nil; Nil; Nil; Nil; Nil; 0xb5ecbfa28c6e2715716e6dbabd8baf0081261c41fb6de3c92e37cf7afb37e5a] [Nil; Nil; Nil; 0x1ad2803ec8208fdd9f08469fceeeb5269de96df160d761cfa21ef5d1742a5292; Nil; Nil; Nil; Nil; Nil; 0x12960d9baf0cd4b3dad542752533d0fd11212e4fdf3f6bfb4fc4e3edfbbbbe96] [0x143fe19ba911698ea5607eca38590df2c4dcd1f8939a70576fa25eeeba2c846a; 0x20e710bd03d95d92c25297860a389f3248fcd6b18e6b48f6eae538421581c093; 0x2320ed4cfd059edf29d59a6ead9d3adb0b5547d52f239c17da4ccd88ee9ce797; 0xa517061200400fba99ecedd2e9e482e67032d72ff7f81083848d88199a0a3ad; 0x226f3b224e72625b44f3e802334fdbb6c74f7e89056058901b254e2145b01beb; 0x13761bdb851326527e8cc7977b5429a299c06611f6173ef8f5c0d2d03d0e8015; 0x199583d7c4b6f8a65b5ba88b0d4bbaae143f0bcac199e793303911f03984082e; 0x276d579391fd7f0310a0fc51c28c144324ecae1c4a1603268327206b0e312041; 0x7b74d5ab82d8c8159ff8b2114f32a1d61c363b984bea907b71a2418682f5029; 0x2bc43cbc5781494b35b7b406c7b00d4b7f4390c2bc637090a3706dce78a3946f; 0xe957c485b9410a3fa6f74cf98af642e027f558cf2bb4de473d15f9858419d04; 0x23c8aac12055f62ca24ce24e1f2cab5d70aa9e6504cc538e883e4ee2e41e2c4b] [0x63b5f2ff091aafc55817add0335dcd428129f62fa5774fcfc7d68a8b7a81e7d; 0x58195b614cd7ec51287dd98d5d6d53036175e29f7e7264f18cacf7c30efda74; 0x260c006c53bb84f3d27c5873c43df8fdec1864600738ca6d579e8b3a83686b31; 0x112fd2fe447c12ad03e70ea6a8019e336d02b94884d4be403df0c85977cad14a; 0x1670eda02c8d5eedaca4525bc33c799c0bc0bc824b34f721969799885fdcb555; 0x2f0fd4bdf4b2f74cdd9f353ef6fe8844d221028f0aea9598450ca2b0f0e3fee4; 0xd3208f912b73dd5bd078041b723a22034576e868a09928fee04fd103277ce0e; 0x126c3351919688e809dfae9da79f263b81dc9dd5aca79df667df318ed456b923; 0x2d75b1ad0879bd70460c93a4c3152c5b41ab1befcfe45a4d67b09ee3b7c20d83; 0xbf6563de06ac5ecec40d00e910057f0d2a9839ae7cf510d9ab62f566f001fcc; 0x9d74a1852e0fd6a8d3578c615f22f0b8b0e327c00133edd0449da2611625907; 0xbc3161850b3579f0b9bf59ce5008e8cdf024987ad8cb98035d98d2531d1e53d]
  ([Nil; Nil; Nil; Nil; Nil; Nil; Nil; Nil; Nil; Nil; 0x10db02d0cb91c2a52f71f9dbd79864f3b2ba6ccc626803b7e084fcae752cd87d0], [Nil; Nil; Nil; Nil; 0x52cbda8296c74154929593b134931b113a0f7bab0fe77e38a4b074f2d24b254bc]) ([Nil; Nil; 0xb9e925f08c93f393c0e0d3e72cd553122ba99c5babe0d16bdc3a97ef9ca995132], [Nil; Nil; Nil; Nil; Nil; Nil; Nil; Nil; 0x2d774f6477d6c52c7f4125d86610f290ae5ebe651602b73e1e5e2905f55d7dae2]) ([Nil; Nil; Nil; 0x2cddffdffbe823f1be1142056e25ff2d57ae68d2cd5991ec71919cf001a26801c], [Nil; Nil; Nil; Nil; Nil; Nil; Nil; Nil; Nil; 0xb8989eb71715c665fd799e3c84be56b38f8280ed693fd49659a4f64130d30d52]) ([Nil; 0x1; Nil; 0x5f3ef535ff1577d440d04d20cae6561d49cfa545badea132860f7d8251c2310af; Nil; Nil; Nil; 0x1], [Nil; Nil; Nil; Nil; Nil; Nil; Nil; Nil; Nil; 0x179b77c48e1916e6ba2794356d1e053885656023c2f5410164c7b1f5eb03cc4bc]) ([0x9514837029e226c206f4e45d633680f1bd87e1a5b0902d2114cfc5cebc997ab29d; 0x69e004c66da22bce8a92012ff6d09fa1b269ce4ba7124c351d79941910d3f522af; 0x479209e48a0e82383cd5fdb91140d20412cefeb1c3951e5a4b535ffd4e88d2ca66; 0x193eb05d81bc4c2bde9de091acad2276a46f837c7a2e292c1fd73bdbe635244517; 0xc8131d4eec22561bad47d30c6fd8caf222279ee5b68f0a046400972ecafc2d270; 0x88e224d84a2697c12189e524d1bf10e4b7940254cb21fa016670152d47b0a238b], [Nil; Nil; Nil; Nil; Nil; Nil; 0x1a189663930f3fb612b1b079cc74990b6fb4f5a4502d4506891a1fcb68293f8fb5; 0x12956ebcabb445cf9b912c7017328c07135f62f3c302ad5aa9dd964c58833138ef; 0xd05e023217fe84017cc8c34a8e36b05eeefd87f015ee37b63ff99c7aff5e6a52f; 0x525e83ae9ac09ae204d7ce073e9918ba63c93ac82c81855dd7fc3655770cef249; 0x308bc966bd76e35d174dcac044098f9d4465431884bce17752e109456369c7f75; 0x230f7ca670c081fceceed0180923cd067bc1ed86f2e046b17c3bf05b60d5b30e1]) ([0xdac4ec2264e210f84e044044497ec6ae67934c17c442487896beb7b1f861eba4d5; 0x474d15e1c7cbc9b2a0210e4ce7dddefb2b50ea2f44d886147568e546fc9b7a83f0; 0x9eb1c3c974d8d366439d339ccdffa7047190f796fb3fa35a1af8aa965f5a5450f4; 0x64e06e933533ee551e2b1f4a95602318cc405d5b0b16d7518c186dfc71dc72a1b; 0xb12bf97597a1d0789dbe1b8e9f3b42d8701914530e010501227fcc036cb675679; 0x261e7c19d543c6df516c8628b5081b1583e21c49b750c002692a456e500d93032], [Nil; Nil; Nil; Nil; Nil; Nil; 0x24426cc238653b8eb6fc02e651e2761d750a9a889bb7d899c4eaf96ff8dda3820a; 0xc440db4b4692d437a5ab19e6d0892b87458c5845411e581f72b7246ae3c34cd80; 0x1a7a1b7f45ca6e71582292ff69d0de89916abe6a105f4a9a61e2a219e3c559bfb8; 0x17b5aba9db65770c084a3489f261bc8cf0dd8794405260ea0c38ecd5434d31ff0; 0x294da5ee883dd12d4621e5d5ef27758167e6d9a91da9ce168ae52a79ca15c1220; 0xa9d5f39693b1572f053f9f90fa85ccb0740cc0b7d67d456dad1865fa6391a067]);
St (0)%Z [Nil; 0x295571004e7633a205fdaccfc6f0c83c09e54140579fadcd3b1f2c7b7fae157e; Nil; Nil; Nil; Nil; Nil; 0x2cf25ebea398c2fc192d54d65152dbe57b51a7a2b14f3999c1c26a6abc472eb1] [0x2; 0x70edd7292bb6c87b25298e6ba9090218d9c295110d21cc001015f9b58cee7c9; Nil; 0xd0a295669da03402082bcf1184c58331803840b7cf5956eb7f0ecee0cb5c6ed; Nil; Nil; Nil; 0x371efb43d98dd2d9f22f0e0302e7c781c2fc2eeb72290f37a5e21ac1c35ce96; Nil; 0x2522db76e8eb9340c5de03d6001199d9742ac364fc944fa35e148701e0ecfc2e] [Nil; Nil; 0xdbd3f72435712172b9a58cc0ad08fdf97046b078262b3cddd080479a98f8783; Nil; Nil; Nil; Nil; Nil; 0x121e59253f1bc4ac0016add9b5628d31691837bc7b3e85892c2694ae1a39f62] [Nil; Nil; Nil; 0x22006c1c0401bfdbc506980cd6fa63f04ce3249ee257baed35924c3c5a33b19f; Nil; Nil; Nil; Nil; Nil; 0x183844f79b40f0c71c7b2d9777bb97a53f0b267d0e3005b9f8e4474ba19b180d] [0x192be90adf117a0d82dc3fafc5a24f9a7d9fb7b54f25a00976b796134f7a903; 0x2c2f8aa01a168570fe1360f2ced48d9a720b9f896746740573dbb1d6e317e5ee; 0x17caaf80d4e4409f0173a0ac4984af3cfb73f59260fb0a686644bc3cd380521b; 0x29b389ea8637291229f543d64eaf0fc1e3f8f0b525d6fa24b4330b2df9e4b831; 0x1677559d9fddf7c2bd60042f936341262a2703352c95e0bce21c03d5c0798013; 0x29ea7f02e11ab8cd5980e6020865804b36c29953ef7d8d53f580587d1d0ba79c; 0x1fe7e28518a3471198c09864540ef15029c9bf404e3e66db42ddbb7202850849; 0x22f1b514f85e32fc37421ce7f5ed1282341ff0a972653ca2fcb7f68d8af922cc; 0x1ecd90c75b0753b95db570ac3b5e43ad84488d9d57dcd5adbca101b502dcc3cd; 0x61928776003aef7439a7d259e262d8c8fad56ec186d1dfbcc6008c74d6e6a6a; 0x120ad187bb585919af8ec3387672355dcdf5be4c374d9ce14437dd67b1631b2f; 0xdae7a0dc43eaa6461fd1e1a2e75f3dbf94d9128ce399d2c664f39efe24c6e03] [0x2c2d7b6ffe111fec73cb9dec8a68788b77ba3b9d5ce8d816e20556bfcf7fccf2; 0xe8c99fe8c97524f43acc0a68dd275367d2ff579a5615c392e20b450549e3c2c; 0x1bfe82f47a5732c3a5083533137caad562e67bbf405621e943b8f8406883e6b; 0x1cc9ddc53ca8e93dcc62bf86b98f49b6d2b7f6a1a7e8e81ce52dc16155fd12f5; 0x1d1c5d102f3afc274d61660c89520a31daafce8239589185de221643c9bd7b75; 0x213863bd884fa4314055261ac4afbab88f777b57035089304940de2415648a22; 0x1255fbfa98e91e79bdaf55fd9bc07d95897fadbda81a7b421d07b3975805cb2d; 0x23e91e76154e876d058278cc6c3cfdf6ffee9903c5518a150ef8edfb376bcc8d; 0x375bcd756773ad9a6c1ef5a2406ed99b95850d0487124b7fa0d89afd41c2522; 0x18ecbed87dfc09f3b63ff381577a3474d2ab9f4eae62179e9d1bb57d0d8da05d; 0xc2b8ff03aade9ba9b768413af8c7a36e42581a3c1ecdea18ffe09b6d34a7159; 0x2fb0b0a1b08544afdeb2c67b221eb52f67186248fb1d16820661115ec6b3faed]
  ([Nil; Nil; Nil; Nil; Nil; Nil; Nil; Nil; Nil; Nil; 0x2254841dfebea393ccfc2a782f372be93e536e4616600e751a88fe10716362a7c], [Nil; Nil; Nil; Nil; 0x852e7dc93e4857a5833a26c5f2e1f175b1377d6d8e9d63b7f345cbc1cbf94f42c]) ([Nil; Nil; 0xd3bf1e78265801ac32a107e07a484b9ebe262b6e021a9ce56a8a7fa1a688b4bbb], [Nil; Nil; Nil; Nil; Nil; Nil; Nil; Nil; 0x33c3a3aea71751a0bb483f4996233b40afe72f6f887a183a1f80a046a1e50ed48]) ([Nil; Nil; Nil; 0x311b979508e77098ed1f6c188f313100feb29c8c202d15855974ff5c4c1e5dfe1], [Nil; Nil; Nil; Nil; Nil; Nil; Nil; Nil; Nil; 0xad66d3a99c6a949ad9563ca1d37be0d17c3600fba7959d7f4b34723525769f70]) ([Nil; 0x1; Nil; 0x35c3c70991842eb793b75738cf3b28e854ffc73569353a06c10eaa6414bf52e29; Nil; Nil; Nil; 0x1], [Nil; Nil; Nil; Nil; Nil; Nil; Nil; Nil; Nil; 0xce0ff3181b6086f31a1a0aa5800fb6d30c632d8a0b7f5e9f3f6d8b6db7c6f88e]) ([0xd1f461b465e143b8a926bda53082de6a0613431c57a207b9b10ada28ad42620c96; 0xc6b77904f5ddd8f8cf0c3abf3422c10968242714b38313b1d39d023900955d92be; 0x4443ed7d75229f691b0d8f78cc6676ae020f0a067e876022b5ef1a3d38238092d5; 0x32553568cd816690cfc3b14a3bde73f41f0e19a0d15ee52baeec38d4edc5b28b83; 0x29f8d35af1e02f54e9a496e3a2896df8d73a9528a8342047e211040433bc73b082; 0xb7b18d5e42a4e5d00125f9b71d2c5a9a8dca0d2509e8c922f99d5db3fd0cd66ac], [Nil; Nil; Nil; Nil; Nil; Nil; 0x24912308bd3328d01103ed18ccb9301105287b426388a193decbd71e1630e89637; 0x235ddb5310ab90cb63f8d3ead335c1e2ae7663171a442de822c9720f23edb5b612; 0xcce03e71888367812b16395f353765b7521d698302d854cd11ac8c536d365b352; 0x9e678d2653cd0a6325ef47f8543aa0471f6ccb1c48bd43f59badd4529b64b8cd0; 0x8e8b82e11100e276a78357cb6e0e5d908690f9d9b64557e64f780718a67bc4ae7; 0x2f200fec0e5fe67a48f1c12ee4685bfbb2021e03a165f2cbddeea7fb8a693c5d3]) ([0x2cf84e6afd68a1566141d9c533cf5a389c3e042cda2cfcaa6abf5d1dcbb9e53736; 0x57a2b8352c8423df83868031997921694cdefb89493f3fa05c68676b31f41c7655; 0x48ca7a6126cb1a324e815bd14f1a3f9d76a6d17d8d2926a0b9fa839bc719a7abbb; 0x887ab1cfbf2838dcedcd18a5c20609a1c4c76d9f1b048a0f7f5c1b3d0e4167c27; 0x8a88d628d498ccc397cc18be2a70d6c47dfe97643661c285a797cda27e41f4a78; 0x7f1fc2cc554c5f00cfedc8c07c83f5d232ae74760d5ee212d5b1ad4c60d866540], [Nil; Nil; Nil; Nil; Nil; Nil; 0x820d377059e4587e21819aa3cdd8be4a870ccbf545c0c92a62f4d2d51b58263f0; 0xed836cc384c11107d72da5c8b7654258f56b18b6a3386dd7736f6ea4f9217f7f9; 0xcb2811a1f26741e27068dcadcc7f9a80adeec5fb0116904dc4b3e1f52f249483a; 0x1f0300f6e18fcb599b6be1c1d34b836cf51e19f8c7d33ff52a9aad119576ade43; 0x219b10de834b1f269d107d31ddd7841964abfe1deeb1e4ae200495ee3b744f33b; 0x1df666cd8930288e8d381e6916f665cd90124a6981869019d8cd2d6f14057c8d3]);
St (-1)%Z [Nil; 0x3ac262253c0112eb03bdb1627ca7e63d121105f14116fa7ea923713f828f5f4; Nil; Nil; Nil; Nil; Nil; 0xb1b1ace1a2df2a7ff2891c591ac648a34acf294041e0578e8a5464f85a04f29] [0x2; 0x2cb828508d718efb08146aa059b6d9f9c6605a3254605ae5518e5502e0540753; Nil; 0x14fb96303a34616787fdb506fe501eb01f7f1050520466a989cc050205db6ef4; Nil; Nil; Nil; 0x254933a4c703ad81b927b3f0efd4f3d362d477fd6453c514537b45c752dcae1e; Nil; 0x24d168652448b6c1b04bbcb9c0845a78d496d475bd2b30caf98fe7635a012ec4] [Nil; Nil; 0xfed5983248850e07d8dcc5e5ea967a6f1c606409bc4c3a3584dce7685f03794; Nil; Nil; Nil; Nil; Nil; 0x1715e219987ab954c1c7d1ba0a44a4137c1f7b167acf166002395db5788082e] [Nil; Nil; Nil; 0x10838814f9d1a010ea262c0e24a2d4796ed45717596fd2c5058ee8302222b8ff; Nil; Nil; Nil; Nil; Nil; 0xd815946f7a69e92916c5712a1b1fa6186032b6e6633b3a62d54477f2a3dce76] [] [0x1bac807f4fd4248eac00a91cdfdab6c026865cc0867a0445a9a2e624136a5806; 0x26a4d3a2454a92bfa1fb482a0de418a83253bc0d12d538bef91751f10476df75; 0xab33ff5e137ad25ad889bdb9631e34a40145e81ce1c47fd206e8548335914a4; 0x27857e64d2559a77357ad1251a620ba2840440000bfdfef0972d8787d9ba1d12; 0xb103a2d07f58d84608e5624b0ea4c0854e290a3940e2c2efccf80a95adaefb5; 0x22f5876d4ca44646a6c2938fcea529918a1eddbee6e849791b16ce85e67485d9; 0x2daa3312069060b230c17e5b4f43938b8073489e4940c2104422cfe011fdd474; 0x15c00e3896d0cd94ff7a32935279a91aa2a27a8d6c949dc07cd0a625f47e3568; 0x1a7aa749d9f2419c5582e8055954dbb3e9d17cffba63213fb7c56a1d622ee214; 0x194ed2cd31401fdb737e94e189ded2efd2c8a1b05fadd226519e8e9af8706480; 0xcf79c06b551f6fa3c885dea4c92a0859c7c2a6d497202062477396d18371189; 0xc6e1cee46ccd4517fc56fd37420d3f13aa2cf906d37e1c6bf5d668587b63b3b]
  ([Nil; Nil; Nil; Nil; Nil; Nil; Nil; Nil; Nil; 0x6bd9278912fdf0e58c5f3fea7e28dde7fce59ae7d65576abb7c407227468b3cc], [Nil; Nil; Nil; 0x1c9f530b33fd214be027ba4dc7702840541636fb8ee2e36fce81a4b5f99bb3421]) ([Nil; Nil; 0xd0b8d22433c8e0659c347f76782b7bc31f5cc82c18f5493b59703def433aee51], [Nil; Nil; Nil; Nil; Nil; Nil; Nil; Nil; 0x2f90581a41c2ab8c9db4424f988dd30b88c249631e9d1f73bd506e74479d8bb8]) ([Nil; Nil; Nil; Nil; Nil; Nil; Nil; Nil; Nil; 0x1ceddf306bd07fa16e96fd9eb9c4b7afd64ad309580284eb19b5d56e02e411c], [Nil; Nil; Nil; 0x5ad0d215913891f0aa908e512a840ea7b15c284596a21bc6b56525e8e20e18a]) ([Nil; 0x1; Nil; 0x14449ef06aabc8411618390a802eb848f5ff9fb329dfcfe315030c23845a69ed; Nil; Nil; Nil; 0x1], [Nil; Nil; Nil; Nil; Nil; Nil; Nil; Nil; Nil; 0x7eac394ed6af25f5d9f6194dae7d9502a9979f52cc846ef879eb5c6ade7003a]) ([], []) ([0x161fd4f1687aef14ffa2d5e0ed75890f77b94de09c53e0fde8f2947fa5ef1fb7070; 0x4289784dc1d526fc89225f9303b1325c02543722c02acaddcc12e2349b4bdbd9f5; 0xe8bb1118ac299b5c55d804b83e27231451f0da7058837d2e98ffaad411b660b932; 0x53dc51a2f65fe94cade9655177f6809ed91b69573a98692be60b9e8bc1fbd7359; 0xec642704053d2075d8eb46a801b51e856c9873fb07c4e736f03420bb5318235c0; 0x3bd1f172923274eaeac428cb17946a0a69202d9a688d2b685a0ee414cc5b0f1da], [Nil; Nil; Nil; Nil; Nil; Nil; 0x3c078909a7486c05e9e51a486f59614c01fdd06640c470eff1e4d4068906280b26; 0xbec590587081aec07df4c9774796aa66921efc599873bd8eed2fcf0b200e936ab; 0x27b4c7bf72b3908cce97687173699b400fe85a928ca3f5f752c33a5bc224754245; 0x15933c8cde0cfc428663d1261ff8c126f88b6056ec63b42d28b22bc3ef23ccf7a; 0x38d54fd34422e57c044fe06c77b59691c39920d288ae9011f13740613e104f922; 0xfcadf09280aa4f7e7936c01c243f8a87c4e8b325c2ac838f03136aa2470a75b0]);
St (0)%Z [Nil; 0x2ec312e4da274c3e2fcb0cdf2719dcf4de3490090b27327a9c5602cebb21c70d; Nil; Nil; Nil; Nil; Nil; 0x1778918279578f5028110670fe1d38c53ffcc6f7229c5c285f049d04c3dc5ce7] [0x2; 0x1a13b8e070a53eb888538d75a677b68b94cda885d4a98129fca89481d5b363a; Nil; 0x5e23dc4c6b411e96f0e142d2fb20ff9343952eb860ebcfce63d1fb686340c4d; Nil; Nil; Nil; 0x18ebbcf067da10d9903f3f4583641f985784a39a45d56e64dd1bef1214a0a060; Nil; 0x10a60eabe0ec3d78846e73d11f2d18fe7e1e1aa266c5c1aeed5c04470b4e8a3d] [Nil; Nil; 0x2ea9168c5776f4748a9029e40319162af7b22c535ee337c4e7fc452aace0b4f9; Nil; Nil; Nil; Nil; Nil; 0x22f55204ea4487d74988c23bddd34dfebb2276abb1cc84e77726b12c6bfc13cb] [Nil; Nil; Nil; 0x24c778e662f986c2b644039dff405a7eddfba9cb03aa74161d638a1a7c04958d; Nil; Nil; Nil; Nil; Nil; 0x6d8114b4a8fd4d3135d8ff25dee56cc9996a6252f4f59f5dbad10012f31b9e] [0x2931d8091751707d8d1b7df85fcd3d0a851d50ca8333554f2781ec28934201bb; 0xe8dce13ca7ab3764108e4f0bdd21d86febc0158ac35977c7499127873cd808f; 0x4175ff0794e7594a411a3364c419209598dd0c6413b5321d0634f9ce15aedc; 0x582a2575de9cd1378fbde6f4a5258143957e4109d06cf22b79497b04935fd4c; 0x18b3980deaee57e607006763910334d4c52a1c9cf909e9c9974883871b2ca9; 0x15f99cbeff2f3d88f6417190e88ebc6fb98dbff09f6e039e2ea4463fb6df9d9a; 0x14901c585cd7676caa18d8965b3ed1943ed351fd1d99bf6ddc5b7ec60aa4fde8; 0x83d65b6ada8bf147d9a8557c6c677815c9d0f0547498baef42c2eafa07c6e7c; 0x17a88c5145df873d51133747d00a6c37ad9774757bf401b95a3e1f5a4059c157; 0x4c14125fdc0da5f31320d651549c770651e630039de52842e689e431508801a; 0x7dc23d59306ccb26c97df047ad815ccc1a70d946828402aca0b805c9bd92585; 0x1632ebcd7efa65e4a160875eb3940d9d58fcdb004981dbc076569499f6136271] [0x1351a05d003b81f44fa96b913fe09f42f85d3f1c89f5b3ee0dbc2a853f1b9e8f; 0x1c36ff0fe140908b1de32b402b08b175fd9277dc161513954770fe00765243b7; 0x26e41148c28e6a24bcbd7e2690aca7764dc9d1c76aca32e3f7e7c4f9d951f15f; 0x51f60218805772af626d8aa9f8e1f59663f397e74501b1fdb82538bf4c98fe1; 0x12da91dee131aeed260a24a7f96a5796a96ec8d4a8c493f9d5fb9fd01f48fb22; 0x2c3c58cb77338367d079853a3f96183d7cad08480120d00f2136aa111c321522; 0xf1a28eb9ecaa27ba29b26dcbb7b072f5f0c6491de09a86b8df40e94d1d26b0; 0x3815f7289cefbd26c4ed0d638c6c46e1c6b1380bdb8057ea8e381b3103e08eb; 0x1894559d647e72c840b8f2f91c5800399fce09f1dfcc20969db0a15046226b5c; 0x18bbc4c51c2a4bd44136e9dc39a893b7ebbc07caa3e7571fb6ccce9477168f3c; 0x2b5c372d83b898fb22926936eac7402fe4b2d73f00b0bf14d4322e2ef952ebf4; 0x2c6ed0286de273d6d282e36d6a728d58d2433dd7a36119ea723186f6bd4e0b37]
  ([Nil; Nil; Nil; Nil; Nil; Nil; Nil; Nil; Nil; Nil; 0x110c247ebeeabbeee5e7fba700b26cbdb7d9811b2122ba9240e50e42fb5de3c22], [Nil; Nil; Nil; Nil; 0x4177ae9f21b2276dd4ae829b3bab1b03c03ec36018ff05be8b2b30585a29ade96]) ([Nil; Nil; 0x3784a686f5ee4a578b9811bc27e54daac2ce817a581d6a8a37fcfe8d6fb211e06], [Nil; Nil; Nil; Nil; Nil; Nil; Nil; Nil; 0xfa454ce6ff4dde67617f8bae7bdbb72ba66777f560c555e6d3589227b3946d37]) ([Nil; Nil; Nil; Nil; Nil; Nil; Nil; Nil; Nil; 0x153e4f718e4e6699aca8dd803911d8d111f5d3949dc595af20f3e523d234d1b1a], [Nil; Nil; Nil; 0x51743943e9a6873ac27c1fdbee243eef7bdc41824eb50ba0c38f0319c31167c9f]) ([Nil; 0x1; Nil; 0x29fe5035affb2def0fc55b4693336f424de944bb36f2af674ed04d344e34c034; Nil; Nil; Nil; 0x1], [Nil; Nil; Nil; Nil; Nil; Nil; Nil; Nil; Nil; 0x15b73ad1fa500ba92f288c4dd0f1b68a40474a409021dbcf954f9018f287fd95]) ([0x10face4424c0bf2e65dceaca58417af504f8e53797779b3ebd5d34d922afa86e955; 0xc21ccfd9e2a4a43dc89170844fd5414301bd55415a86e3beedb3fe8d36b936886d; 0x86149ae562e21f3a6aae39abea9dfcda3e1cc966ffa0b3cba05f9a7da3bf3d0105; 0x44e910d82656f74db363a7348c1d11700edb31a0f887085db4866b50fa3862095c; 0x2b9f8cf780b6b546bb0e95bc69cfa1e33d070d58ab3935db7b4e181868ccf2658f; 0x13d3716a199977c0fedc715bb3933e397f9f76838882598bf23e7df909b7c40b24], [Nil; Nil; Nil; Nil; Nil; Nil; 0x2fda54c911c9c5aa5d4e674c56973acb4844ebcb2351bc492aa3be4acd4aeed6d6; 0x227596859e309fd97eb742b358a4a2f664e621c8e58354fea0d317f82a15d0cfe0; 0x18c1ef9dd32f63154ee3c0a6339447cd963eae2e028800cc3dc76c679249aed45c; 0xdb746f4c5e426c64aacfa238edfbda75b90843593bfe27ab07297097917a5f97c; 0x9335fe829803aabc0633a8861e19dc9aab6c6025ee61642ef70d3426545a183f2; 0x50fe833d93772416660725101f019432ba32ef6b0b9a1fd61eb2754c907fa4133]) ([0x5000539ba97d8bb3f212b9641a985eb794e70848109a56b452788d82f0e8aa0907; 0x134b50dd9e1a9d1faed8a1c70878e857e156b2e2dd9c9363f85cc79c80396e54fd; 0x30ad5d13a09549f3cd11d3ae5e2277a36166e96f5258d2bc8d6a137a386d3488a5; 0x62624be11019aea28dadb4b9da679866b44209ec9f383e47ae9a2785ef733846e; 0x1af4aca74bdae0f35c0ef2a0cd6bc93fa30a1b331846dd3ce93b1ff432480a92b; 0x3e74f08d8b287d5a5d8af144b23c1ab55652862b347e6ecb03eb7a54258414cf2], [Nil; Nil; Nil; Nil; Nil; Nil; 0xd618682f8b17e0c965d0eb80b99d2234e3bdc0ad58e6931234b20a0d800fae56c; 0x374b9ca4c229215af6aeb79d1b790c5a5e6c019f3596e6f5be2aa6c1c5e8e99b0; 0x847b741949a307ee93701cb85050d7d422a6155ecbcd84ca6632dca420154a0ac; 0x16c3f0c341adcbe5289ca7ba3b37d44bf11216ffff2704b4088675d8f6a7c1603; 0x681c1fafa86cec1111f5c29f363229bd1c677d007982c2af4e546cd9ca5192c7; 0xdea59af6f2446e1c537c524f685648da040e821b8f4754d83ed5c3dd6a0dce06]);
St (0)%Z [Nil; 0x289ede1ea87d46c8a8631c75f5888c5605aabef0ca5def2f080979f52736652; Nil; Nil; Nil; Nil; Nil; 0x2d47a47da836d1a7564f6bebac05a4f3fb1353ac154cba82460752b94916186d] [0x2; 0x2dda6090f6a9cbbd2dca13ef2228cf983726bea25bcbeb9a4b9ff477860996f5; Nil; 0xf4abba86c06b16d6288886beafb057028bb92ba3d250d9152035248e5dc0700; Nil; Nil; Nil; 0x31ca9f538face826200d9cad57bb3699c6e16e55325100af619395d8f66e4da; Nil; 0xbfa9bd7f55ad8ac11fc9a124b8c74b3d5560ea4eb7bdec4b7e304bbb0450608] [Nil; Nil; 0x2e6ea47d07b1c6438e5e935e72c7e028a0e5f99114639c6eb2a5355c7aecc5ab; Nil; Nil; Nil; Nil; Nil; 0x64affa1bbb332dd3e59871857e2cd00a99f747c4389a75ec599657da7183a82] [Nil; Nil; Nil; 0x2a536fc34433ee8927520e57f22a9f7c6b7f4a7518821b4247488869e38faefa; Nil; Nil; Nil; Nil; Nil; 0xdff1a02aac757275655c1f60ff71299a98bb661a89a39ddb0d7cb4099bc9074] [0xb438b79cee749ecb7f4e6b525cfc2149d043428bbe31ac5a4948634752cd457; 0x2cf5774d97175d92f26e87d82b6c9d089ff3199f3c4deff5071dfc347f33762; 0x9e932b12e01ff7a2b0338c9c5abd2a6faea3f2599ebefbcfcae9f9d14fae334; 0x235bf599ee81b0564ab0fc0d61b678700d9660db9102f60bdac05b2a6c89afab; 0x208771b8be2dc7a50073b9bda4564654c811d90c08a09af68dbdb94eb8763870; 0x206accfe51cbde2dd96ab13bada266e1b057bd78cd20995b660f887f94541997; 0x9a1f36620e19b64f8057ecb2a6bc3d628490f8eb5c5e67a1859a6b7b4dc6c67; 0x165eea5a04a270a17e8947d5df505dee0bea0b81e6a773d96f6b4c35cdff526e; 0x24b4a0ae11fc1f781c14081fbe9640bc96ad4cd96d7e3006a258804a022ce0d3; 0xeccc35905c79167d1eae54679b1a2c1c2878a7969fde6ffd57caadb8951a4f8; 0x2ac613eaa2d9ed838b02d574915f5aa679abb159ee147797dbfdc73ee1661ba; 0x24f64242e5b98277e59e88786d16acf7636be4ff938e8f3ae70421981fc7a07] [0x2b3b67dec88809552457219788bbe137eca5961d6b6ce17cfe290533e1a7280a; 0x21a8d2ad49d66f8cfed64a50f8b562fac0e2985a7069372b3c26b4a3ffa83f2c; 0x23f863553afa1bac31ac67da8f23b1ae660f1552c93f105594dbbc7dd62967d; 0x1f677451fca99bb8e9c73bdf874dce9547245f95754180d785607ab6b0b7039f; 0x6fc4cb6f1f2fbf518034464754126fabcd5a06cb57b5466c78d75f492be3f69; 0xcd9a03b5c12ffaf868cdf62c2639bffe02c5eea9127085cafdaf49020d5cd8d; 0x24feff743d647e927a7ac3dc0224f5791f9cfe2cea810b56f9183ff1f3aac866; 0x38af510ece81f622473acaf31f72e1abee78100400d585aa7814f18aec33e77; 0xd7329c1469acda41364d301d914c9d07f8f58296c7b35786d99f2c1512c1215; 0x234d2d91aa5080305ff005229dfd8446115fd9215369e426396c7cfdfd74655c; 0x175040a37912bd4a120c930e15e59e2f636609de7211c3fdc964075043041018; 0x151211552c7ce3b3e132269a05db04522a6e60c59e85c32a6246d5fdb1e6d70]
  ([Nil; Nil; Nil; Nil; 0x177fb3a27814a6d14becfb767aafd6481c48100b7dea4fc61905219460ecd827d9], [Nil; Nil; Nil; Nil; Nil; Nil; Nil; Nil; Nil; Nil; 0x5caac72bf6910e8d098aa2152fdf3eef8df7aeb767caad4d3dc65a290f318ac3a]) ([Nil; Nil; 0xd920b25902c23acf1a73a6e1b4829f547184645d3a9a31a14e019c2954b661ead], [Nil; Nil; Nil; Nil; Nil; Nil; Nil; Nil; 0x2ff600d835a2567dc75bdb4edb5b1803893f164f555b6b51740de88bb22d47af2]) ([Nil; Nil; Nil; 0x89762a281958ac6e8b59603e7baab5a352e534593fb531fb405f43a62fecee413], [Nil; Nil; Nil; Nil; Nil; Nil; Nil; Nil; Nil; 0x1e483137b77db8729a78c9ee2e91099b7b3b36cb25f59ed5a3b042647ccae4700]) ([Nil; 0x1; Nil; 0xa77c9bbe4c1ac225e495e4fd746dedceb022024543e3e146110baa17ab3b4f95f; Nil; Nil; Nil; 0x1], [Nil; Nil; Nil; Nil; Nil; Nil; Nil; Nil; Nil; 0x27a470385fb9ef3bdc32a4f6ef6ecbe8392b8769d2d57d711cbde23c14408f4b5]) ([0x19cb907ff777951c18bfd360be9863f65848019a856e3bf2c04b4e7377faef8f616; 0x23222ecefbd3fbe85cd9d46c7b3329b5bf38531e14ba7b6ffb15b5c7c13f1196dbc; 0x20266f22f46198ee5f6b3848210d19d25ea9372c86291bc5b3168087eded5598169; 0x1f0d4c0aef2331025293cb6941f798fcbfc8c538dcffe3984488a9fde261cf83ba5; 0x10abaaa84d8582c51f49defe21958cf148ae4a34f0c9b519992fe4dacdfbd0fcd87; 0xa5bfe1a6539eaf21d298aad20c684e00ac5343b958ca4602be969271aefbac607], [Nil; Nil; Nil; Nil; Nil; Nil; 0x46b589a8311344c4f7393be63baa38c4132cc1e6582fa2d7199f0e140150ee13ee; 0x5f117c353984206fbca4dd71d9c25061af0f96429f788c73e605a5fde030372ae0; 0x5620f867576fd4d9fc0370e8a1d3da27f82a76b032344d02ce6b3db734a8af2093; 0x53f1bbbf2668b989a6d2a3c37a9b2c1927986a797b1ab42370e140b775b500cd6e; 0x2e17d1bb0218da39b1a643446aab5d75d25de18c9332cb85f5052f871985fe262e; 0x2dbfc69ce4b865f4ec3572da9af1c5ab3726baae4cb1b8e1c66986360047b9be9]) ([0x1ba65c16347dfaa903a8f69fab523929b8ce6039284e192b44d7e75404ac52e88a; 0x6d272111e9dc45e4423d7c6c9350a339636376ee0c90a74e4aef8971818b76947; 0x68d3a55fc44da84f40df18c3adff2f36333ddec455a759598e57d076b618a4bb5; 0x17822006bc9f3e19ed9c74d1a4008530ba3355e051f115c83462ce589377b56c7; 0x1f1bd77ff3da8511d948ca0508be7c4d18c183e37f26ddb9f17083fda2e8368ce; 0x2d53469bf50559bca8edd2cb7a5b28c400b80dff6d6ea6065af2f79c965b84c61], [Nil; Nil; Nil; Nil; Nil; Nil; 0x503150b2f8f34aafa969970e5d3d3e559238ba47ca54003cb620d4a48684137ef; 0x15f93398df776ef15cbde285f0b21dfa3b5cc04bb1d70aa81453db97b49b5c7b6; 0x1617c8e1fce65b6902640b54edf3f3130ea4f58a3d4619bcc849fe80fde3c0025; 0x7ea86e38fe9afda2afe6210a5dd2b5629dd19a237ee1128d3c0f54fbaea2d559; 0x8cdf1f86820b545c5e64fae6f1e78e1fefee20bd0ef843b70049545430c4034e; 0xb95272d8400e947e6b0a091ed6092e91fd29b632f372d2bad41dd7c995b88fe8]);
St (0)%Z [Nil; 0x169b55f7593b0dd0089bca73801f1d1fb1663c3ead22bfbd4c44a958371c444; Nil; Nil; Nil; Nil; Nil; 0x2ce5e2e263725941495c01724790853548f5e4de9d664714bae53cafcb5ef55d] [0x2; 0x2efa99136b9def4cb7c6890f497f668b9c6b06cd7d9f9e91675c4181550b3903; Nil; 0x28e9011bd0636abd2349d05123a618686fc6cc76bd68c5b1aab649e6ec5f1599; Nil; Nil; Nil; 0x37e6b907dbf46e86ef4444439f0d3284e8b85b2cb0b8378813b4f670d1e07ea; Nil; 0x604c085de03afb1d0ffa6f6c77290531c18543123e5594948e21db2061dca92] [Nil; Nil; 0x2dfb56d58439661799551a6d88e075885501cc518accde012d5e96ad9de737a2; Nil; Nil; Nil; Nil; Nil; 0x72e23317872cd999d642a62698d1421209971c1230f19cb9498a8aff93f5f9e] [Nil; Nil; Nil; 0x19f3185e7bd249324fcf0cac4b5fab4508d4d9f806dc5d15879d473d600b4edc; Nil; Nil; Nil; Nil; Nil; 0xfe9e426eca89f43e0775f2b0763d97bed86b798ff9cf8cfa6409c7ee2187bb8] [0x51fd580e61d7a220c8e77272c4a5c2729eb9f7baf86b69021b0020575f2248; 0xd243bf57bcaf4227528751af59633cd7db9fcd4b4ec3bfa022c7f98b53dd848; 0x9282ae1de2869e35fa524a5d3bdd7515a828d91ff2ac97e391ccb2e76929690; 0x1edf7f87dc407d02fef373a58af56043a09bbc9adf5f559ad15d6408fcf8219; 0x9064706df6f2ba11f2616f8b0e4222386df23cda2b4a830b42d65003588965c; 0x16366be50c59d51460882582f298651d4af8caa2781adc1ba75537f84de98dbc; 0x22223160fb77f7f8fa3656bd39ab81057ff349af7fc20b1b1c574a9b2bae90b6; 0x211f09a1370d7d1d113f9977f8b0e7889378d39dc3c6dde119c82f49042ef56a; 0x159827a2fc8f0e41fe3d43eabaec71f2bb795c56b071849f9e8b78a4748d12d5; 0x214627decad955c5f56ae5dd59d916e8e4a87bf4b0998d28a5ddf6e65556ac53; 0xee7bfa11f5796a7c7d62ac7a3cd079c811847916b34c8915dd21e21c1b6ac7c; 0x2cfa5455565aa58429835d0de8298d1d8a137034a1752aa346392251a9cbcd57] [0x11ceaaa5ee1a35c4e4bb7e1f9e5e30dc047567a425850157c73f9f1e0e06f340; 0x1fb34bdee60ad11a420b8e529dd66af2288645ada96fc7ca8caab2bfa2c5ab00; 0x5d239192534e8132ac84d7faedb0cdcfdd404e8aa7a1472500ae2db1f62c5e7; 0x1681bdc02512cf423b6ba8242d13ee278f235ec598689d4b0bee7c8d73e2d9d8; 0x3d543b492d1c4b47846ecf317d1892a05e830588882d721fcec197f2a7b4cfb; 0x108aab66e402da46e078f3dd3b60a286d9916393879933bcaae38302533ba6b; 0x133096717f7b552062bec6546512869eed70ca571a1acc3d2832e788fe02ed9c; 0x1686905073e2849fb49a69b36b3ba0db980a62112214d974e60a059cd8f55814; 0x769894f85f191e1f7c60c97ccfc170afc977df271cef3abd974820fdf4a03d8; 0x26067cfdc021dea69f7f52084d7e1661d7afdcb9c41fe214009cdf3fc027c0ed; 0x4068db7e6b1ed3609f5abf8deff90f12ac5137f9d7ffa6e3303b42ba80220db; 0x149fddffc719610c37ed4d75d6a7344b45f4e167b43d0a92768cbc48eea0f9ce]
  ([Nil; Nil; Nil; Nil; Nil; Nil; Nil; Nil; Nil; Nil; 0x1d26eb374eac1ba121730504a0b9b92b20f3d72867757d5d43287538bb682ddc8], [Nil; Nil; Nil; Nil; 0x80b916d3070b9c44d59e021d5199d5e472049aa071ab74adb90736f1b09ff39d5]) ([Nil; Nil; 0xd57c8e44b590ced5344d38ff69dd197bfca3caef6df2afab0ebffdf47fcb47b66], [Nil; Nil; Nil; Nil; Nil; Nil; Nil; Nil; 0x2f06ff1f280e9116e897f62f58099fba39eadd9f72c1eeef3018017fd0f5edbd8]) ([Nil; Nil; Nil; Nil; Nil; Nil; Nil; Nil; Nil; 0xe6cf819b934abc7cd2e9fcd402347379781f1b5b6d15815e7c1de8a7a16a599], [Nil; Nil; Nil; 0x4384070c1f68b35116841a1e08ea4d7368d4ca8c04bb55d5f9ff938cf6c0a92a]) ([Nil; 0x1; Nil; 0x1dd693b1afcd414f101231b555885cb5bcd7af7fb5a65efcb9c482ac5b4fa23ed; Nil; Nil; Nil; 0x1], [Nil; Nil; Nil; Nil; Nil; Nil; Nil; Nil; Nil; 0x945bd5fd15042c86535fd2067241d6ee324ed9c958a3307e69eac7b23f9a3123]) ([0xfb05154158614b9c64f494aed64195c5443939967aebdd7f5edcea75b99b8f97a4; 0xd91df66ad3c0f4445723f1d3c1783ccee9ba196abf8cebbf8bdf851f2b3f2bd46c; 0x5b1b65dded785832197b77d2f2051e423c5b8c87cb49e741b453c810ab49bb081a; 0x1d17ab276796d91283c950c618e8ae6c211776075abb9cd910df89443b90531a97; 0xe7b65a3a07a6f26c7cc82a6f5ce6984fc3b6b476f189e38d1ff16ca92133111ef; 0x7e287ebf5ef274dafcaa6cd776dfdc11201f4244ef2fd66b8760d035aa6de3e86], [Nil; Nil; Nil; Nil; Nil; Nil; 0x2b156c13533bb12fec3e71e06ad75dcf6067041a6c34b2a725b13aec7a04c2e73b; 0x24d8ffe09cd70c8c01b71bb5e2c98176ab0abe75b5ad6514267f601509a19f1622; 0x100154d84205bee09a4b32ab37166480990081d73f09c805b2d6316acc3a4ff51c; 0x68da6bab9af7563a02b19f51162252661af7415d08591986e22b21121c4c70683; 0x3a5f0210f06bc9e109fa5af119a39ad0494661c57bddbcdb924381a5106cd9d49; 0x20f192d42c0258081657687cf66bc896fe3ae3f223aa33586c5de6e5b5ede4a17]) ([0x422b96e918178d8682eeb752d44a64268b95976ee22d77c455e592aea1067177ac; 0xfdf44c1b15b61377fc93188b907a1ea518a7a09cd3f1dc79dbeb6d4d737ecd7e8; 0x2e08856db135d973db78fb64cd36b3461887838d6663749349a202d21e684cee8b; 0x1d2cb680478cd5cb2596f9f790991da27abf68d25dd34854c34c2685778661366; 0x209cb805a55bee7792174d20aa5cad03444ce48da95bb72e43b041a673636aa2c; 0x123f87883e33a47020880f85284fdc06d6a9bfad8a9ecb1160d0613f407ba55d5], [Nil; Nil; Nil; Nil; Nil; Nil; 0xc4003f3db535cb708523833e209ff9c51fc7b524660232d721613d040b3ffe877; 0x30cc8a78bb2d20409828d7ff6f4420e74c1fcf541d8e5c8631d77fe11292f6292; 0x886d2b86fc21b34db6b1235673cce441af5fb5a1a7b5d405cdd8504bf51194e92; 0x9affbfd9b4dddbf7ae6a99a60e386e00f3dba9cf3eb6e98a01b3409e450dd926; 0xb37791215c9da8d6a9f98bd80ef64a66f8ddc067f8e08bb471ca35d0e48858f2; 0x663ad2a3bb5d2066d2a46a8632ad9dda41e5069e51ad37ce0c66b9d5c0f5d7fb]);
St (0)%Z [Nil; 0x2974ac75f54779a84725949e860d54d7c865c767126c45aa8907f76458f4b058; Nil; Nil; Nil; Nil; Nil; 0x2c9ffe6d7d7e96315fe937100967d5cc544f4af148099a0da11ea21de015229d] [0x2; 0x6efa1fcebea2681712ab117fb740385cf1ba32a560584e2b31894b27f884cef; Nil; 0x13b2c8fcc9f03f802fc503f043a875c954b4f21f6d91d36ac040f8b93b21f97a; Nil; Nil; Nil; 0x3c4500563b309f858670ea67819829143321fa02068307f9b01e9f8f867daaa; Nil; 0x261e3516c348ae128a58491815c7656292a77d29acf46db9631037dd933eb72a] [Nil; Nil; 0x86cfc9bc9e97e5286bae7672bbb608ef30fa20f380f295832c023bae502b5d; Nil; Nil; Nil; Nil; Nil; 0x1c6b45c72a1970850e37333863694ce0db3772dc56f631d6e7432331d4b156b4] [Nil; Nil; Nil; 0xb98f9c791918d5da538749bb6e1b2576927b81663b184b68472ca311a44c83e; Nil; Nil; Nil; Nil; Nil; 0x114ead96eca0f8867cb588d1254916fb53efc0c188a781f17f6af2195a53cbae] [0x1136ff507a08e937c09bdd8bd445808c093cd7c6bc27c85dcba6f942d644241; 0x2037df6f327f0c0b2748314c7968e2a30b7879b9711b87a37b9aeaa23d1a8597; 0x23a3bd794077f797869b3dcc877df087d0adc611355737e17c9929daf8b51b67; 0x284f1d84ff836459cc34ede183a555dcead7d809e2acbddf536371d958b8e6f8; 0x1286fcfd2983baae2e133b9c6da4f29d14175e5f4f2647c6e63d0b13fba832eb; 0x1fcb7aca3df7e5001254a2764618b196b34caeaa24d252d5b17aeddd625cc40a; 0x2b0f60b09027064405d4d8c3a9854307b860e589fa9209f0991f87f8e41ea9ce; 0x18af059de582b94bf51ed32c710faeedc9f22ef2ec62671057666325b8203507; 0x3f62b883337ef0e649a1fc61ee3cdf30ba647778223e5fde4459092f2de9663; 0x18408f14855008d3a07b5d255379e7275767234a01c67c3bed60120f0f6828ef; 0x704f117418bf3bceb0fbed1a8bda99aaf2d821f0bfa49a55f064f8040356020; 0x1585d5d4722d483c007f23f190943541d300cfaa53452b67b8c35a2082526ad3] [0x2278b034df2837cff79776f84bdb1006ceaed7203b980221569e62259de6562d; 0x134da278171e93943136565a0753fb4c763c1160841a882d54e25881fc77eb5b; 0x21c02e8b83817f929115d922d4ff3465be71421e718523f03b783cecb1e7d00; 0xf7267b299cffe0ac23de87c96cf26c10a0561b6f940161bd06dda6e9cf6be18; 0x2c59520b8f1f927d996bc5deb20e6f9ebad42f4c1199e17184ed1399df7e7dd2; 0x2fd3a104b73bf9875a003d2a5706755e0e0ac456e69e6539a2fb0aadcc4d2ab7; 0x2d1b0ad61e8e5ce2b2dd15e805ac6bf7595fb01fe8f18c9aed899dd034b69a29; 0x1ecaacaa7d8e50ab312fac9815c382a3b2acd9c74ca085382fcfe2203bff4a4; 0x21ece07844917b29cc2d2dc1e2e0c97884c5aee273a2b0d09eb1daee59a35dac; 0x9cee671931e3ab2b48ff1550bf81480aea865783269519bf2db85373928abc2; 0x163cfcbe93c59d2946ade9050e37fb7214e3f9cb1b2521dbb964d66b12f402a6; 0x2f2efb357db67f37e6ce83c16f91eb4facec90c0644e111b6607221c759dd6d]
  ([Nil; Nil; Nil; Nil; Nil; Nil; Nil; Nil; Nil; Nil; 0x1f8f48eca42354e7a26f8dacff2bc5902e3072207c70aa66b73b9bb88b1fe4348], [Nil; Nil; Nil; Nil; 0x8b7379bdbaf481dd763e5e97de196c29c216b69283d90af9d8c2a510fef3e618c]) ([Nil; Nil; 0xd0ae5746f30634f91b07a0302e87fb2c9e6989de3179a79791a18b1eb4c67dba5], [Nil; Nil; Nil; Nil; Nil; Nil; Nil; Nil; 0x3312e8b77ec90b06eee5ccd53d6b3843b1cd3992997bced331ec5cba39c9b2cce]) ([Nil; Nil; Nil; Nil; Nil; Nil; Nil; Nil; Nil; 0x148d16377b2a01c19379073d78124d6d1af291870d3acbbfa80df82784a66c8f7], [Nil; Nil; Nil; 0x66cf4e67792ac5958e8c6fd5137b40a3033b8957eb3b81778c6e2f36a1570ec36]) ([Nil; 0x1; Nil; 0x1f78e711fe72e164c3c9f2ee0291bc96bbda3ad1f7a96b359da42408d1a7a1e1e; Nil; Nil; Nil; 0x1], [Nil; Nil; Nil; Nil; Nil; Nil; Nil; Nil; Nil; 0xa7bcbb48f22804c3600b09360ce307b70c30c84fa96eb8ebde335fb064b91e6c]) ([0x1397aff9d288dafcfc9ce036091f9e71c42b5d64701f1212a7837e0873bfc82e9ef; 0x535af76d09835ad4c5088f5691cbe1f2806d3e69586c96c98c585edea1e052a2b5; 0xc8d2c8f3157ef43f7ab7019d03b1bd59fb5a7fbfb1f6a519dbf2a270c509c4fded; 0x20a960fd19b6b3171b8cd8fd86a1da445d9d685918fc9626c3680c498f4754747c; 0x3f8f2f1b6866c62e860614e6ae4caf2d5f5e4197907f438c7b4b0ff703c8a7315e; 0xa209d4339a59b26e678090c493170038e36daa92ae3db205662cbcdb05df41106], [Nil; Nil; Nil; Nil; Nil; Nil; 0x34ceab3b331f1bb3f548b475ff751c37cafb1415fa8f578234db1c85300feeb91e; 0xe71f52ea848e33b3627c58097e6513faac59438871bd37bbe83d62b25f1908645; 0x21c658d0d8b80511a99c69f9650f13beba8055064ed47e3a2abccc835562bcd7b8; 0x6547d50fbf90366d6bd14877a13ba2f7d03877f2ee47f73a5bdb42c28eebc3409; 0xb78c2bec11e3f12f59863773e1b2af0a4c2622a2eefb65786d31cd409cb371f97; 0x26473fa46d7ed0e77745997963beace978063960fdb849a444cdad9164e2e67f5]) ([0x86ea55e21bbe1ff5c41a97a66a1e2089a801983b04e9a225a2fc3e39270f237e1f; 0x268a98be5e6d75bce47088c365f6ecc1e27b54aa2b13fbb81546cdb6a81f3f689e; 0x6d2c3836a421a539e6625f7a658c10f9acb5593da310ef1cfb86b7ca1a8a9ae117; 0xaf1086fd386490dd0342a4a24e951b873750727cd8928b6a9f2c578c3eefe857f; 0x6c2403b11df938aa952d8bf9296f241c0ac4e8a003fd603af721fe02bae4adf5a; 0x11b8643ccdb8f19b8b5b487c53efeb3a2892ac2dc2757be59fd85161cbb80aa5c], [Nil; Nil; Nil; Nil; Nil; Nil; 0x170ab3456d9db293b73dd166198f52d1ef40aa9f7145b5c3d7bac5f53b4a3d6349; 0x6be4922538fca97e8e78a0c730821c1958e662d83a14ece36ee1b4efa589eea08; 0x129ccc5f98aabb9501c558f27ac417faf57fff4d8948c952ff13fc50222155a67f; 0x27dcbc1dbe23e155ac4b04563d7117f40a84a32f3cc45320d79cad530bb48b03f; 0x1a9ff791f2735dbf83d6772a455c25c43530b834ab3517a03eb1306c222d1d289; 0x62237a2d97c41de36afa2230d12f2e0d542306dd48e6e1c7da917e8a029967b1]);
St (0)%Z [Nil; 0x2479361d96fb33eb9e0e699e440683c79976bffc42efb55f2fc76cb34190f653; Nil; Nil; Nil; Nil; Nil; 0x2f8594a6c2872014adc6e533fb28553453a2b18794098c6e940dfa8cc7d2f515] [0x2; 0xbeb18554a366c3e1a41dc183d7ad495fe0aaa952582152e0c591f6396ec06f4; Nil; 0x65dac2ca7f679c015543b1b0fd4716219bdc66b2ef986524e02d3885e917cfb; Nil; Nil; Nil; 0xdeb9cc1eaa80150a8960828659032943deb909d4683e1ea812918a10aa0832; Nil; 0x3450ce1d945169c7a6414e5f6bb213c5682d5c62cdf523d9acd352adc21afdc] [Nil; Nil; 0x253126ea232091eaca20de41176ff997c717948d64945f6187ad8ff19de07d5d; Nil; Nil; Nil; Nil; Nil; 0x7691a6eba72a96511eec101c20a09babbfffc0310d93aa9f97c95ab1398d8bc] [Nil; Nil; Nil; 0x1a01760c144b460e1a88ba347fadae3abd5b723b23d18235d1e102aeafd7fb41; Nil; Nil; Nil; Nil; Nil; 0x25ab8e6e69bf2ee650dd9e64cf7db35bb2638e4286a061826e41189df221193f] [0xb83a3a5a5718b16ca76b58535fcdc59e826518f3c738e95682c869a7fe34f67; 0x214a8322d3bd25c3af8c6e7e6f0b57c3d8705aaea85f066a6baafb1d52d1e9d5; 0x7d2ad72b1a45f6ff8bc124b2509d3b37e5448f438206a39f91cd43fc7cfcf6b; 0x1754ceaef2d618b2f2d19a3a80d45833481da3bd53af598bbf29a76712aeedbc; 0x1f0bf757472af1b6554eca33050eb7171f5765fff8bab35df2bc62b173c49635; 0x1403db6c2565dd4dd8f4bc80561ab6d22e8bf01c3b280aecb8f0cecfc450fe80; 0xa6eab81a0291911962002c007d655aa5789ed2dc5f1a18e2666bf633d12945c; 0x21108d6d4bd0a6f44ba83b74ee8854a3f1c3e631fa6b9144eb48413b64119c34; 0x1675b27cd327e4747eb7f7bbc2abf7bc48449c82783aa093cccd989bb4f9e80f; 0xe840172fa20e550837d7db0aedb85c603b4cc6e3711ecb38acc5152d9e2b0a3; 0x95647dbdbdefa792dc67db450022a3acebaa9e3f6ec8e39030a6ce9fa564fff; 0xd06a4680e9683b01ef251c723a24fb44fc8b5fc1564373f6106f415d070921c] [0x28259cddf898917b92dc7d54b72e703de538cf25c4cedc70368e8081c2bd946b; 0x23344ea84c326dcb073b8b0bd7327fef712a6ef6b8e6c26e9d59dd67cffd4c62; 0x1c99f38ccfe905df148dce799f55da468fde7d6746da3f1fc64923d7e229d91b; 0x2ffebce097739efb61b5ef903082a9b9d416ef34005337bb9abf2104cafc1f96; 0x2c3c2555a739bd15d15e8ebb00da753f1a085215cab0f534589722292b4732dc; 0x22762af674ec4bd3bac67b4a575f62938bad00c59030345a455b3f9193d277e; 0x16282e7a01f6e7d975c885d68c123576ba8a6ae4750da41d98092eeefc2627e6; 0x29be6f9aac5896fbae2310fed64c292a1bf13bb1f4e2251f9e32986a425fd9b4; 0x2c906751a562cb592f35df43dc8f4b1bd3a7f49a4de705817007307924f4e33b; 0x22f9375439c550a821a46ac3da283a4eedce5510ceddb1280c6e6e7735c71a5; 0x2e8f097b8ab88f848a1fac9d1c5dee67267c7e899fa6b81dedbb8ff06bc91c79; 0x90b1d6f7f88461e1ee3d352a0ecdb6ad0463de5943061264321616e66e74292]
  ([Nil; Nil; Nil; Nil; 0x537bdbe65c4a00f583765fc3f13beebbd005eef3f82f9705cf690120df707f317], [Nil; Nil; Nil; Nil; Nil; Nil; Nil; Nil; Nil; Nil; 0xf25d997b4003390924293cd2ed526282a970e57744a1fd0779f3720bdf5c1120]) ([Nil; Nil; 0xed73ce406631da2349ccd1ea85c0631491168d8dec37d1f22c76eeefa85997e10], [Nil; Nil; Nil; Nil; Nil; Nil; Nil; Nil; 0x38fa6258f421d33e0912378da00c2e5febc030ff543a139adb1bf829c0f0d45a4]) ([Nil; Nil; Nil; 0x6b75bb08ce823beda55192ba6b3777771120a5ab7ccac0d179ed3f89c2e339e59], [Nil; Nil; Nil; Nil; Nil; Nil; Nil; Nil; Nil; 0x15f2e95bd229e70c5493b672d03acdbce6d06c16977d435f94f04ea16de560b7d]) ([Nil; 0x1; Nil; 0x8f01123e706ae898a5ef517f191976a62ff57e4b622a44761e34d593b836bb756; Nil; Nil; Nil; 0x1], [Nil; Nil; Nil; Nil; Nil; Nil; Nil; Nil; Nil; 0x20c485a14d33f6072e60ae0b0dff624e4b5c39094faa3ed14a73c012bb057696d]) ([0xe679de18a4b196348b121b6c1476ac30103cffceb65ca1710913efc8acbe0ed2d4; 0x6cb9603c40fe39395eaf728aafccd4dfc6244e5255ecdb59edef99030dbe000601; 0x69ec6169d705805f453f15751746a0fb891af86e11f6587e86949c50782f4101e6; 0x2611188c6832e798ba9b4db105d6ae4085be904bbed324355f3f483147208be68c; 0x17c14137aad1ef90e2317be6b5f6d8d69c0034bd0665710bea23e97fc37d84601f; 0x652a3ef118f4cf1e353ad76de98843527284843d9d4aafbeb72b73d23f0a591de], [Nil; Nil; Nil; Nil; Nil; Nil; 0x28593174447c5fbac0da95f4844b725df0b97104f147d157c9702cd1db58862952; 0x13f4c29414421d245a10b539313595865dcefe9e154356123eee20da2299a43c66; 0x1417aebfb66553c8cbe431b14577e2a66a8cd6d48aa6a75ea50933f3a47fd4547b; 0x81fc8191cf670dff1944f06348bd77bee909492dc0af2c00646fb0682f80e8f03; 0x5e66786ec968a426ad1d1f8fcac94f83e8e24d6299a85d75f9c9692c6a512371c; 0x20378c71ea97f7d430d62792ddcef91e6a9309d734e4538c47542faf71a03c5c4]) ([0x943bbdce977887f0cca8a1796f9a8279f5b326ea74e757f8e6142c3e662387d49; 0x4c076479c66e6a1b776eed274b2987ecec44c061749ef8b5c425d903b3ab6b112; 0x63707d857d8e9552ddd7186612c9b37446b86088d75e76833baa9167c29d4af3f; 0x5778853fdeb0cd3a6a646e158f481c8d2188221a6d5e56b844b85a4ea8cae2f7; 0xc27883eadf75c3d17178f3e8773085c6dd801ba0d2225a6489e24cafa11b9a71; 0x818777f528486c86385308b24ed704b0b8087155f0d99ae020438a1b42e65ac3], [Nil; Nil; Nil; Nil; Nil; Nil; 0x1acfeaec9fe8926932fdce9e0130d4d7dda907f82b10f950c4f9f8b47ae724cd0; 0xdec766d8e6944c8d329c43dcd72d0c85023052e48d85551e0663a0b6fa1bf445; 0x122411f5233466ae2a38cbf8d7e71da340ec47de5154d690ae35574ba45d02bb3; 0x1bc766467ea789f1758915525100d6904be06091db17da123e4cffd79d80e9e1; 0x378143b878257bd2a4daa3f28591f2ef9f78e353f73a7816183b9fbd84c1d40b; 0x24adb575ec8646e3ec30361156e7f62e98a32fd9b3fd81fe1238bb7917a9af7f]);
St (-1)%Z [Nil; 0x2770310699f1de51ac94de4898e9bf7e2ec59f4b0fecd23aacd45c92f84f2e49; Nil; Nil; Nil; Nil; Nil; 0x13a8814c16ce3011f0aac9fbd129daeb91ec13a1b5803cbd06811a3085cc0092] [0x2; 0x8f41d6c473fc1d80bbb676de89798df68bbcb465884f8528f4c2f83e02dcefe; Nil; 0x2deef6b6eb5d9547685935ae77a730cae61ecb3c11343c06e99a3959a761adad; Nil; Nil; Nil; 0x1cbbcd26ca637017c7a57bbab0577d72059556efb2f18dd0359f71e652b0fcb5; Nil; 0x2860ec1b6670adbbe446dc86b079c8a6b2180f9c6559114c12ae3b2d424560d6] [Nil; Nil; 0xa092dfe5a7e3c87a952cc62b97be919909ac9936f6afbb67c54195517b4ad4c; Nil; Nil; Nil; Nil; Nil; 0x3ac4c6feedf60bb348937332ffc340bb263675c3af6d12f86bc97dc1e23056d] [Nil; Nil; Nil; 0x1996a1aa3066427644029c33f9d5c4c10caeea8a9c5eda361e96831acb1bbc9d; Nil; Nil; Nil; Nil; Nil; 0x1261f5160da3ada8a876d1d8c338af16f5bd28b489ab8fa645f88e885fef4477] [] [0x24faba2195bea48a595a2b23b85c26f25c77f9eb2e921815e79ee4df4e5d179d; 0x232f137fd2540b500b093d4a23c762fd3f52c5d643b02d3612f925759b0ba211; 0x281efb134283c0f6aa3dd5a8cec84035b548b39d259b95b7eb0068095064bd16; 0x2ce6a418b0ddd2067328cf9e470dee079d12e5211a8d5c806d176e62cbf4985b; 0x3ab5889108ad215af123a7d3c4d5b9f6c3003be48d560c483a41b0827f3b70f; 0x15325a48106a19fd08551d2afa82ab46f379e43a67775d9f11c829aca57f9a2; 0x260539c0f29fcc2f92cbe79715611fed180abac221f1a3f96cbd2bb3cb05e79c; 0x3469939a0029ea1a2018f91561d7f763aa5c2c43ba9ec0db7ab2fd78f9cd500; 0x26a5fc50789c40b82eececa19a16639305a888b2b55846a14b29d44c1c7fc28; 0x5a57d2e7edbf359c836848ccdf1d3f0636e1261f7a8b3c5f79e7de520eef270; 0xd472d193fd29fbbb5be4e97ef2a3ab25fe48b1e33ef3bd14c13f725955cf4ad; 0xc389585f78961db4e473dabb57ed5050fd4fb7a698600cc097f11fd195ebc3]
  ([Nil; Nil; Nil; Nil; Nil; Nil; Nil; Nil; Nil; 0x92f92c789759afcbe71d233bc5bd4ad4883802ec639b37036c97c3b471868075], [Nil; Nil; Nil; 0x25d7bec26385945fb7baae6ff63588dab1be4b7ebe44cea8682800054aa383c50]) ([Nil; Nil; 0x26eb10385498c4330b571f9b6c2de76a054b00d9454c8fa3fefa0be67add15ff2], [Nil; Nil; Nil; Nil; Nil; Nil; Nil; Nil; 0xafc929ca03cdc566084342d12474ab3ff42e0c10870dd3b99c3afb0bba764e57]) ([Nil; Nil; Nil; 0x665e4e64b2c70e8ada414d5357e72d9e02653307ab7b7f4a9335c6a8809f90f7], [Nil; Nil; Nil; Nil; Nil; Nil; Nil; Nil; Nil; 0x29682b95f732f4f54daa52d01c5f25022c2a1dbb2e2631447ff4832bfa17f909]) ([Nil; 0x1; Nil; 0xd88aa862e1a15fe789a82560ddaa47c93af2461ce9ded7123f2c29d7083da25f; Nil; Nil; Nil; 0x1], [Nil; Nil; Nil; Nil; Nil; Nil; Nil; Nil; Nil; 0x4b55c53df64628db63bc0dec3dd5b5860253b24cea4968af51c0c0e0cbb433f7]) ([], []) ([0x37e9db21da9b012750a8c41ece8c817b2cf30397590c389e0519a499c7ad81fc13; 0xfe271438574837039f7ccef7f22c27b42e49e99f8a3769aa1f7beada5eca4a3e37; 0x36befcf108aa98bef175d56f36535dccc375f4e6082fa42dffff52ba529f803848; 0xe3a6691595a4fd98ddd652d0e4c85f90aa2b24fb0b62783dc26dfaca5c6a81aa4; 0xb685069a839e9bba791d89e9815ccf669be89ef57757e2d1768826bc27bb85dcd; 0x14a0b74ef79d0925ce1b6f0826007e7565e83ec3fdb5e950c0c249d5a0fe1ea88b], [Nil; Nil; Nil; Nil; Nil; Nil; 0xa26257839f88fe0121a34624caac04ed95c14b44d3d0acbf475a1ec73e829d180; 0x2ba0127daaf75d0b779a2ef310ad982e3805b17aa9ff45107687e6e8ae01088957; 0x9b9cbfc77dfc483470c3223c025d8249657f2bc30720621d19d7b0de97a9b741e; 0x378d61bbc67da0c935933e8985350f24bf28bdaf19f89d4399545fca6526e3d77; 0x2ec3ac61afcdad22b9c3efd82699b7ab171b2d7012f6a9c02cb7852281223fe3d; 0x4f3fb969f3929254e28fe9cc2dbeaf8cbab1b47a074f5e862e143fdc9d67d3516]);
St (0)%Z [Nil; 0x1e1bdd25088bb95739e1eda27fa9eb3936601766a2efde221c523cc438668b51; Nil; Nil; Nil; Nil; Nil; 0x6a7f9df6f185bf82095020d373a14d7967797aaaf781dd030a274e7ecf0cfa4] [0x2; 0x1248714dd8a5e6d27e6e581401d76d246121532ac581ec6b1fce4f52a01671f6; Nil; 0x41192c9f84f4ad9b2b8a2a30eae319d6cbb588bc62a9a7be598e4415c94632d; Nil; Nil; Nil; 0x29bc54937219443197bb43a94a4743860109d2e6b8f9acbd0b7e172eeb8c2da3; Nil; 0x25f43fec41d2b2450656a7e2ebc78255d5242ca9bcd5c206b5f9c77d667189bf] [Nil; Nil; 0x898d570e656ad35139ba36956cb4f6a494c072315111a2ba500e43c41d5cb69; Nil; Nil; Nil; Nil; Nil; 0x2dedf0408dada4ea6ef8f5725604a5208ce39af019d41ae6735d4623f73e9d9a] [Nil; Nil; Nil; 0x2fb7d3333bb58b915f6a71b4c4d49274b16e3cfef6b2cfa87eae2922b95dd40b; Nil; Nil; Nil; Nil; Nil; 0x13e277bd8cce45c582d1c2c85ba2b114e23fbe5c8455b5fe4a9fb7862e2292b9] [0x1c5bddc384dfed2570eaec51ec80c15acab41683841eb889cf9248e9d7b0d265; 0x10c6e059e7e7eb8ebb0e38f772fb3ef49c3540d52b37f0845104c7d388289b4; 0x216b5142aed6b752c1259f1c65a79d4c62c41ec4d1e85e951435257dec59d061; 0xa990e2f9450335cfdbe15c6af9757cd8bc132a5bf3d73db1291585431294ac6; 0x197d7cf27a1c250cdf0669c19bbfaad11dfb223255e81da64947b57843f372f5; 0x1196a39eaf3a4e6fcbc2afdbd1d11e08b758629f9b4411b2183965b4e0522da; 0x2c24991718d19c19c248d97d9c6837419b002a8e2c8d3043d9fb6f0826dc466; 0x60e050befadc60d44cf36e8571568e57578c2d2119208edb4ff72d255ce917a; 0xa6143a64d87b835b74bf7677779ff2058906bf3be12b95e867a2acaa61618e3; 0x1e1eac080a6b57cb3f6b0ce0d72e77abbd4a8e91c56d674b4c4ae827c1953d61; 0x123df50e5775a2bedf8d1259cd2c681881653a53559bc485399e0b62b378998; 0x178fc530303f16f74b3096b4c7e98864fd037f46a91ee897ccfafad47e9e24bf] [0x274141dbf42f3bffd33e4ad707a8ad003e3774fad0fbced9f746ca5e17117366; 0x64a0fc475d2b7c7c17f9e82936ba17cb2cda0de665b7397a25856d73729976c; 0x388d863a27572508b10affc681b83e66148951222c5cc2b0a7825084a88bec; 0x6744f11afe31aaddefc5170b93dd3d9d61a512505347f9c576ecc3c01595d6; 0x2f17bec31ccb5875f76e5f77736fd0c40c7020f3fb0d5f5d5d7bfd87c715bba0; 0x2e39aedad74cbf4c6980f8e826a14eea8ca4d98f5ce2d2bc77eafbd0bcbc908d; 0x24e7a8141b040c7c2413a267ed3c2d2defc5c6b64b9f17ca6f9bddbfcfe60ec5; 0x1fc690763912eb5f2e0103563957527d4e496c4beb57110fd50d50a6669aaf13; 0x206d7ccc17b177ef9599100a42c486ed78c55933d4c9414b65ebec782b5717b4; 0x2249ba1509732b1a0fff8fa9669caa6fea3df1f13e73e27f9447b483e14361ad; 0x1c81de178de789362ea42a621aee970fbadc73141378f704b1f990cdd459bee2; 0x2d610cfa030f210bd292137b82427230dce86e1d16412fee9ef5fc3d6be13708]
  ([Nil; Nil; Nil; Nil; Nil; Nil; Nil; Nil; Nil; Nil; 0x65507354ad7ccc0cb4dc5ea4e24fcbedf7fefe3af7ee7229a9a0e4432eaa14a8], [Nil; Nil; Nil; Nil; 0x1407d871e1ffde52c0526ad569f8145ac94a26ba8403872d28b2fa3f8d6f40920]) ([Nil; Nil; 0x38572bb25f831e9dfeebebd2f5aa3c34f88d94b16c59000153c98de839b9a680], [Nil; Nil; Nil; Nil; Nil; Nil; Nil; Nil; 0x18c32cf8d002414e073963c783ff2bef5ab31440b2e45204877dbd2b08b37dec]) ([Nil; Nil; Nil; Nil; Nil; Nil; Nil; Nil; Nil; 0x82b6c8ee48a30570c09567c919a1575510a093f44e42d39c2147a3ab72cd524f], [Nil; Nil; Nil; 0x1dd7fe1ca756ba57e66cd36930f12ab7ad0ee8fd33b712339520c2da3b7eb69d5]) ([Nil; 0x1; Nil; 0x232efc863a9d8827632ff8e84a15d09ffe3dfc65eaf5464f8e856faa06df232a; Nil; Nil; Nil; 0x1], [Nil; Nil; Nil; Nil; Nil; Nil; Nil; Nil; Nil; 0xcc2769483526a42443071d3bfed2da22cd2f8428bcbcb5e49176e631cc77ca9]) ([0x206f4d7450672fe3dea0dc422a9a31b2d93352d805bba517dd8c77e702aa114d00; 0x1c5bd5f1152e3e2285cfc4b87ee8bd6f0354cc3fee5f24ec079d0f07c7862393d2; 0x182dd53f9aa2eeee895a916e10b153fe0e56523ac7bcbe21dea48d712db65e98c8; 0x52332154605de0df836af6c48edf044b479b71fb15508c36a2292bf29c8582c90; 0x6a48603c614c83b7c309f5dfc04ed6badfbbd008a0126ce405ec8fa1786a8d8f7; 0xd23c2d954ec718923470b533aed242c47579ccdbe5a789979cc8af1f433e4d0c], [Nil; Nil; Nil; Nil; Nil; Nil; 0x6e575703dc5f1c2df9547dc61a79f3464a859d77b86c01a47fdba5679d5fa55a1; 0x58662f76b1e228512a998f424d80dd32c63f27512123b478cade80581e61579dc; 0x472b036b114ddd33669bdad2fec37ffe58a58ff9cfcaab62d82769ead47565944; 0x17287e7e6e2736ba7d546d61350667b7f4a8fc5447bb359c211902b75ad9e3d3d; 0x1b78d6c6f605356de8d32abef499739cba7f8362a7b5be8c22579410375d8ffd0; 0x6501e6a42d6a441b4edb56ed45b5b2707ca61241bbf50186b879e63083efad5f]) ([0x103fe418ef023297015ad85bb93bf9f98d659e98555e703acd5a35714866ab997b6; 0xc4f790d8bc6e28add0f51fbc4199fc4bd938c6591cd4e096decddbc2e92a5e870; 0x6d20c4e7ed96d8562a12babc18d8b738aa4043bbb0892ea99c6f1fb46c402f026c; 0x38081b5692cf0979c45fae36ccafe49306e0fcaafdeb53c9551592700d2012eaf; 0x9d36ab752fdaee0015ac8c4c25b7659c661d3aaf2dd058f6908b6292b18915f50; 0x2dfc22e64d9442091eb069cb63a6931b615371486756663bcf109370498473408], [Nil; Nil; Nil; Nil; Nil; Nil; 0x2b003f9716e4cc85d78262456a762a43081a0f68770b970e04bf9eb0c3081ecd11; 0x28875028960061631b168a5bebfdba977cee4443d8d04a3f33df416019e1b4b39; 0x120c825625eea9972de601288f54e9c2d20bdae9360903e0728cc8729c2c40f134; 0xff4eacef086554de76977e9c12d5258e661273b5206b7ec5f2c25b1818ab6dff; 0x23eea07edb0c21831efe355d7d20366273f8819faad36faf33462b31176165ada; 0xd5bcbdcafa6be444cc5621f9fbf192e895123840874f21cbd9d7c959eaf538f3]);
St (0)%Z [Nil; 0x21b7eeb769412a7bf305b900c92555cc716328813eb0fb8916b9c6ad42b5a997; Nil; Nil; Nil; Nil; Nil; 0x231fcc7029c0cb6b68e5f623a04fbf2c8fda14bcb56c9b08e36a8ada758fed06] [0x2; 0xeac5fbb77f075adc54a8cb5b85c0291261e421029c0cf042566c56995c753b0; Nil; 0xab7d85bdf0cf664cc11e73479a5b0249b273ecb7320b60a81549a290dd29fc8; Nil; Nil; Nil; 0xd448202b770d4be4f6a4f92e131993107a755d4b3052f8458b6013c62ed1041; Nil; 0x2e561f5c9637780d9c39831950c2df4e83a0e54735b3211896bbfa8612c9825] [Nil; Nil; 0x17a5ca71e2d0f22607c1a335af40231337fd77e4a38248d19e12ed21e931d206; Nil; Nil; Nil; Nil; Nil; 0x2482910a2f91c0b9978b7ef027aad48c1c47b1c7577ad16b1a5b90e08d2cc0df] [Nil; Nil; Nil; 0x11568a67db067474d2fa53c2b4b3ab9e45612d6d9cad8a433b378e9c2bffa569; Nil; Nil; Nil; Nil; Nil; 0xf6ec4b93c23fdfbb8b05089e64ec53b4d3c33443ec84fdf5a3df2b3b52c312f] [0x1027b76b91c8c3f2fa9537d3be59fc9f5efabe2842dc539b0ee85c1b3650fe0f; 0x1acee3917c9d500522dc6266e8ce4f6e1e7d94ef2c95ad51948e34eea9fdfa2d; 0x50486fa62e83b56872200586d782bc6fa1bd08b8ac2b3184a2acd7fc06dc6f3; 0x1f7cd15f1667d73627cf66dd6e02484a7c7205496ae26662c82df99d98c59cf4; 0x2aa0a4b832eada6d831aba38fb29d686afc1625544f452ab642bb49cf65f48e4; 0x15a4dcf0e792fad079cc3b7ae345d35253df5f5675e31bdc42cc4a853cb4d7a1; 0x204c9e3c60797365190bfd80b92b4b7f9e05709ef4aa30af7bb89b0987ed56ca; 0x5781a55c46fb1a536f0728bc76c36c58eb651238df073005d067ff3cdc86c1f; 0x2a8f9f83d50e6c58bc4e7f3a516c6076b6e91fc66db6c48c4f79e641fbfbbdb0; 0x1fb628459849c0f6679169e67f120a55e414a99ecaa386fce93c7e45a8262622; 0x2a6b6c3932bfaae2a649f51bead49dfd6c0112a2a23337704553b68f54964571; 0x12e6d9980202f9eaf5a18747391fb5f08b3f8c6302df805429ee75e3d80dec56] [0x2ebea7c48687cd947d834fc9329aae763bf0e13bf265ceae9e09252524b31749; 0x2b5b5f2e2110da1f1fa9fb7f2ead5b8cd495125c48fb460d19d50d9489386bd4; 0x1e5b44f34cd42ac4917de22deddad3441821184edb982fcb9107ba8d7aa6c3b; 0x7b620e20005ae0a622728e4c888f4fdb13029c4aaea0575e690e071449551c9; 0xbc3e4bc0569157c728fec3d5073e9b271ea2b77a1758769ecfed5495e7dbe94; 0x273c841570c618f7987d025ea26b29fde7e39aa11e0cca191f5c73e3cca208d9; 0x8927f8f56085ddd1914e1ae807ee2ba28a012b325c865e7bd8d5986d554eb0e; 0x27b920dec589184652084cdd58399e09015b117cb0123a3428604d4c92eda723; 0x1fc0ff59858ee40caef7293f58fb00583415b6c671121c62a301714f8aeb6525; 0x852561d754995c1be316ec03fd033c859f61b4a79cac26ed5885a650abe21c0; 0xa84531fd6a14cea7a8885965be8c3e2e1f501320d28492fa567674a81d3719e; 0x2c7aaad1238adb385eb21d6674950a6e38d406793d1f7c1b7f7f6351d87110a3]
  ([Nil; Nil; Nil; Nil; 0x20e2a66220915e9920bbf791a2e051379889667313bfd40c0b43d07c099bd18b01], [Nil; Nil; Nil; Nil; Nil; Nil; Nil; Nil; Nil; Nil; 0x6fa61a89e5595670f8b4170bc59d8f03841a3cc2960a2c384db37007f00f86676]) ([Nil; Nil; 0x813077e87ea14120446dcb6649fed63682ce817fc400e793565ffe9f951186bb9], [Nil; Nil; Nil; Nil; Nil; Nil; Nil; Nil; 0x1fbd7daebe5aacce57b06bfd8a35a70bdf14c445b8add11ae7eb51d789dc07caf]) ([Nil; Nil; Nil; 0x23b1cc0421180d91ba597f5ba4ff71fd9caa9e5b89ddecd5e92b8caf206fecf75], [Nil; Nil; Nil; Nil; Nil; Nil; Nil; Nil; Nil; 0x76b4042a29c34958fd2bac51b391efc2810b26443ccf08749cb45bc4cb01270d]) ([Nil; 0x1; Nil; 0xaa7a3bb7e7b7e89fb3f1459f48f8986fca9306df7beecf45f9e2594e04d8faf44; Nil; Nil; Nil; 0x1], [Nil; Nil; Nil; Nil; Nil; Nil; Nil; Nil; Nil; 0x27e4ecb797706afb72bcef8603e2dac46046c0a4c026510c8e47a649558e1306a]) ([0x2f48d88eacd7f60f38210ad43fd06f8318c800154284c2ae8f4b64d004a283ea433; 0x2808f1cede09d0e2a2ada988973d8e6c2b59695535b239ed8d3e04050b7892cb02f; 0x2111c80a671ec1965bcec8c85b1364c90bc81d12269437477f5282096a7a6ccf35f; 0x18062777b80d600fdbfc3fd5a5eb1aea2db9e0f0a68c45a8dd9a6896c39935925b8; 0x13421cba5a59e1e2470b38fa240baa193084813764e48556f58eaba7ed713ad9e18; 0x308a69c8ae1e9aa36efb8dcac02d31b3e4e2896610dd9c06bb8c42f190a51bf75b], [Nil; Nil; Nil; Nil; Nil; Nil; 0x7f461257a57870d44e9a516d8f23b72e4047eaa4722cabf6c9025bb1fe891ee2ea; 0x6c713a29312c760b7a71ae53b652e892566186752d51947a2a059ef2811922613f; 0x5a975458afe3b50ad4bb2d2727097b50b256c57e8ed942ee90274ffed035898e16; 0x43db7ec6c26975484efc021a7291bdf5c08c2774a2801140e6f5edb6b029c26df6; 0x36bedbe760e72fb4ec2519303979f239730be0cecafe4b715a221aa0cd4d5c20f0; 0xb9122bf03a396b4a9acf63d2b2d92d5e76d63bbad34c6f5c5961febb126a954b4]) ([0x2f694092ddb6ad3efdfe97af0608ac978d6fbecc349734b501e8be4f5a69bfe0f3; 0x1547dc610894abf6ff28699f8aec9fedab47763f41822ddae032ea06eaaa4db886; 0x8b9f5c17e916823bff85ba5571fb33fb2dc958d594fc2caa1a4a1c46a89701ed3; 0x456426b85e440bd11fb2323f881281410b5fa0f9a526450acd8bb96df2230031b; 0x2d44ac255b8b23023516cadeb56d88f5fb273f4b1e738c9b56a07badd7a662362; 0x47c802fd115336e8bf2b1717c142e75e66730a3f160ea756b374952d825a1e767], [Nil; Nil; Nil; Nil; Nil; Nil; 0x8313e840a5c5624632a3b072820196440ff6b4de6bd954b278c1aea1f2d7c3a30; 0x3f471eca3696ff873a43fad02c6468b9fc0e104a052cc745d6c166db16c8a62d0; 0x19d3608c9b0554270287f8360b289c3d0ecd61acd0da19865003984aecf4d563c; 0x10b3c92e7735380ccf37c47226e62395d43a6938962f1bcf8feb817b47049873a; 0xb7745035aaebf7a67cdef89af4c98909befb47a65ea29523b780e9e985a9244d; 0x12177c2ab735edf860f93ab12cf30dc4e3c4f68b248e8faedefdc0514fb6e6302]);
St (1)%Z [Nil; 0x1a27f4ec87bb1feba01af3587a1560790b496e8612c40cb218e86ac7674113bd; Nil; Nil; Nil; Nil; Nil; 0x34a6b061aa82776a7b7fccd8a084bdb79908606f624c6cf63118f4925964659] [0x2; 0x163c59865976803e1835525e076bf7e48c37fc0b55adbddb2338214f713be98a; Nil; 0x2d4242d5fe91c965163f930a051616f6c425d06b07f6c6eaebe3f96f9180b1d8; Nil; Nil; Nil; 0x2d19e36cc68978b3109848e8f7790c821df0e48a724d03bdd90efccdb2e6b6ee; Nil; 0x1d0948b0ce8ae89783bf7ec7487ee6cfa14af9a07bd00f49ab78067279e98cbb] [Nil; Nil; 0x26b6844be6042d8d4d21668f6de55fa7d46b5c2db15dd19ed5411688889ced72; Nil; Nil; Nil; Nil; Nil; 0x1cf56bd935fa019a3d8f8a79a158fffc27609c6a9aeee4cf0d6bee75f956b9f] [Nil; Nil; Nil; 0x26fc920930694586333641d549a70f3289e0908db6803bc1b57ae463ec271b36; Nil; Nil; Nil; Nil; Nil; 0x102f654da89f9ce741754ea608bd3b6b221d41435c16b2f9e853fc91f9a8fc1f] [] [0x144458a3d3c76a0520622caf34330656c7b4de5b2dd6a9facd809035ca5bcdc; 0x1db623d8b24bd03deba1d182c3577be425a4b9b1f6b8ad336a7704dd4c9c41f9; 0x24dc7c4d54d9e309f7ddbc4585669c5b7122c03ebdc062b71308a918d59003b4; 0x2459cf9d7571874b9888ada55604507c750fed82d93a1f976852f2e52762c0ae; 0x89a861a1194ee7463869142726fde651e6e787c58d021c594a0e4fd1f7cd4ab; 0x1ba3b8c8ebb4cd63ebba04acebf107d1c63c0eabc82416f7da5da1c5164de781; 0x1620ecb588f97e42fe1031b9ce52738a68a63a3047174d3c9e929c7996f01b9a; 0x254b3967efa2f8c56645ce964376afcfd91b2b92b9472d7a363a186777c090c3; 0x138eb1c1f937d71c1dc9f819d0c67364983e008959488f59f1c4d02a4a446133; 0x23803b61396f5abe13b8502901a9e055065dab0bf4859a3aa781bd796bedda29; 0x2d9363140bbdcda54be28eb563bae8fe9703695eebf9010b1e1c3af022bf6cce; 0x1b0dc7fb5a63d7975473f2287cd16cdca97c579d7f5782d2013dfcd5f696fb1f]
  ([Nil; Nil; Nil; 0x43b993d46d06ceb83f4f743ca0405f1393a0bca3a4befa636d40855689a2349a], [Nil; Nil; Nil; Nil; Nil; Nil; Nil; Nil; Nil; 0x127d8c32c706d0589c68693072a9d8c1d48399e44feacf78c322e0792f078e71]) ([Nil; Nil; 0x43630c8a2728c7296f00ce510d69657f6e778be20887beb2e5c5f8088f40ee9], [Nil; Nil; Nil; Nil; Nil; Nil; Nil; Nil; 0x795cce0cd58db28170adbe8b6deea997f546e3470410eecb1e1fdbd0cadaa04]) ([Nil; Nil; Nil; 0xc9a23d62baecdc89f92c58c733109a2c938f5f65b4177ea0318d01fe7d36a4cd], [Nil; Nil; Nil; Nil; Nil; Nil; Nil; Nil; Nil; 0x3c346b795777402646f9364881b5670fc9340f7ae50bf07906f2a144070246ea]) ([Nil; 0x1; Nil; 0xbecd2962748239c655a85b2841f90e9462f47c517970c75067a5c718a57723e7; Nil; Nil; Nil; 0x1], [Nil; Nil; Nil; Nil; Nil; Nil; Nil; Nil; Nil; 0x4207eb2f7469571b6ed47957bae9505f05a7636612d7f8ef97c804241e0214cb]) ([], []) ([0x12208f2969e66ff837d7b2738ff510e59dde4ba281c687ed9254e170ade93946180; 0x2c45352a8c2da3d5635270296a460fea688b4358f5a44628bea6bf61fb4dac8889; 0xba85e2ce56f0bfa07f798d3d2062902291a6cc558f6b7fd0207e8bc450b7f969ac; 0xaf3f060c3307cd8816a86fb72f92a3e5f295ad7ac5286573d62eb65ddd350c25a; 0x9f256154ad849817715dea1f5fbea6a18dc2a10c14722e8eca6185018101d7eed; 0x936ea9aa420f729102bb89f6322eec6d9b6ae4d1e60b1e31223aeae6533f531d3], [Nil; Nil; Nil; Nil; Nil; Nil; 0x30e313ef2a1ea51bbf794e160803779c930b06e4a3ad123d3f126f397c5d47567a; 0x7f18c70c06e9ab802eaf8a7835f207ba51099ded75181e568d265520e4e95af97; 0x20c8f30477dbfbd5fda418627777eded8b2cddf0b341c4d59b44da100562d59447; 0x2a5b60c48a2c17f7095f0741756f15104a016f7b26e5c5c5a416c33be0b8e7c4a; 0x282ceea0411fa73b59201c097ec4f5b4650a9a62a9f48d597079761e827a46b8e; 0x236056f851d252b851b6740cc369bc967fa086615e708b01d2535dca72456062e]);
St (0)%Z [Nil; 0xf8c9afbfa7b60834ea72bc467e417583818a257dd405dfdad8f2cb1e1dc2946; Nil; Nil; Nil; Nil; Nil; 0x2d7f5e6aff2381f6ea5265282e2139c48c1953f257f66909d5d40dfb8c7b4d5c] [0x2; 0x20d7b376e6b63fa669a919f2199d41055f68c8398b316c8f8e915f64f6a0d401; Nil; 0x17789c7040fce18df9e88b1be0f873d45f19abca86d061ec1079e7197bef7710; Nil; Nil; Nil; 0x2e4f007e20e1e32cdfde08e53601e990b68169f107b6183664c7e1b4c01afeb; Nil; 0x1126ee431c522da06765aae6cb895a2406a6dd7e51695ec614f1ff4cce2f65d1] [Nil; Nil; 0x21951465597f1f58fcb12fda442c73398aea45bc3678e4d97b31af521c447dc; Nil; Nil; Nil; Nil; Nil; 0x239f03b741db4a599fb3df016f1bb908c69a9aa0f70e5c3b9d037017a3cce8f6] [Nil; Nil; Nil; 0x2df8087e74b247bb4e15621e5009fe8881266b96dcf946e49ced7b369f6549f1; Nil; Nil; Nil; Nil; Nil; 0x21c19126534c8d9fdea10896e826e68a7a07c0f1df06a39b8912a494afb10ec3] [0x1c57fade1839b4b4b2c5f6a99082ecc837c899264706f474a20dea94712847e8; 0x73e654eb87fbf4a3ea8890b3371f40814de8af08c816ae169905e34d5414fb6; 0x10259d814878add584cb99247679b162f57e01cb6b069b25cb4b55e62cbaea38; 0x1f0aab901428e6d06d16fd9e9ea0dd75869813befce2ac84740712eaf88d9b38; 0x3a282029e42150a6738693969ddf98b7c70f65f1a416942850beccb7ca7ec81; 0x21df0cfc3e9762bacae018a2165792230420d35df52a0df8a62e7d5a59180ea7; 0x1c8e8764248db484042a8c13d11207eedbcf7d08a91907d6187bde4ab60928cc; 0xe8e18fd0aee6eeebc3cce4a7ed2ad115a3cc8eb63a45b0b15629e3873ddec36; 0x2c445f948570ed12cb12f236fbc2065fa4432dbcc4e4a69dd563f46e98a91d25; 0x26e34ca683ae32858a8a5600d8d106ed0556b11619f24f19ce363bf5e39976b; 0x1d9fca7e427f1bbdf9cc7ecbb2913825eea1aed26ba20b751d8f6d9af656e490; 0x9a6466487ca6124a1502ca2553691dc775af7d89d308c9cdb07191faa13565d] [0x1ddd4f754ca010869125415c37f2b1947b29f01683da79096fae98b2ee3e9847; 0x165c0b2fb7f4523d4af6be58285d41315f12310edc2edae476d06552960faf1d; 0xa881fddc2d4ec8f2afb6d95c1e604de0b8cb505ffda3e5e1e3007647f5e1dda; 0xef7be6eed60589fc1f25a871125899ecc72d5e18d519738ebbbfcf4764e452e; 0x12602ae68709cad646c76f0f1a8bbf49221a00b458f1235e755e18f060ef3875; 0xb3fac0eeff907d9f4163f8761c9e98d34e0c40ec2016b75ac3ebeb148ad850d; 0x1c232a1a94b6672f7cc23e8fecebc05404758c2b46ba20633a2dfee3394ea007; 0x19ffbf9d4df319bb59369ee09b7f0f0392f0e1606e628caf566859c9ce22554e; 0x1f745d9ecc47087f1c03e39910a52aa501860a2360120c51d101110dd2bbdcb5; 0x13732149ec0e66ad5a0aaf95797a6fe03b78833a4b94dfdd8f423c5c686e973; 0x2ed1493fd5da558ff7d9b35cc09ef5375e0cbcfbc3aa6c9d1e94ab3ca7921084; 0x7f2e46c695a1a05e92529b5b4871d9251aeadd4614ef5387b57436166d0e4d3]
  ([Nil; Nil; Nil; Nil; Nil; Nil; Nil; Nil; Nil; Nil; 0x26b2f219e99f6cdc2b4c70323490127fb7012c7d38a6b7ac92adf05bd7c311b66], [Nil; Nil; Nil; Nil; 0x9f2cf59c027e97db9cc246e2fd3f30cfeb58edc98dc17e18b1c215bde37845fb2]) ([Nil; Nil; 0xdaeaa259e59b507bf9f5005e5490a89014e9f7cb088f73adc98b3186066732d64], [Nil; Nil; Nil; Nil; Nil; Nil; Nil; Nil; 0x31f367cec89b141c4d17d81ab9beedaef315cda76c61c7e1bc7ff1ab2e7165ae4]) ([Nil; Nil; Nil; Nil; Nil; Nil; Nil; Nil; Nil; 0x224a45e0e6173b1927a8af5e7aa9f1e094f5c5a0f5d40e4116d8bec02a126a114], [Nil; Nil; Nil; 0xa3a7687afd30728ede09147b6cbb3b2ca4f42568dec44f65f8917d8195516c7b3]) ([Nil; 0x1; Nil; 0x7f18f446abbc1541ade569fcf4c2b4858fdf733caaf8fb7759a1ec8cc775254e; Nil; Nil; Nil; 0x1], [Nil; Nil; Nil; Nil; Nil; Nil; Nil; Nil; Nil; 0x439befc0978daf5e757ee07690a5a7337c7c87b6a91d51b530b9317ed2f9d8a6]) ([0x2a00e6d39991f49eed86de2399e248ea86d01fe41fc5cc0414201766d72bde6f780; 0x238e0feffd7246db5cbaa2e8f32e4edb65cca1da11e080387e42aeb9124f1cd9eea; 0x20a66089500df8e215a31facacde61e2b8b3d691545c7b51371658f4ef8ad1fcfdb; 0x14d705bb5e79bcce8eb3e8a233ec0dc8df650274266710b62cc5f762d60119cde58; 0x8239ef4dd8d331af89e82e1ebea5b44e5c897bea98ba7e69324b64f9a0d6f37cdd; 0x275ac0bd54b293a3bdbba62b160f584b2d8cc02d8dd1736b20af83d810a055e9f3], [Nil; Nil; Nil; Nil; Nil; Nil; 0x725222c45c9903dd1f0d84eff13b5fe790891a5a7813bbc5c4074400a5f79ef0d4; 0x60c840574281e4d80aaf8d9872280aa3e8a6a2cb88aa5b858ecffb8789c7b21612; 0x58b59e02d7e07f02abf9e542cd12d70817c90199dba176ed6e80ef241d64f67330; 0x39671f414a2b70c5735c59ef5dce6e8e184b99c6930c3a1dcb8e8fa9034bf1abaf; 0x18696138bb8013b898f052fc8db1b63673143c6c52877900867aaf4f68345bdbd1; 0x965b5dd20bb217f4b6af93de8cc796e8bfeedbd51f1f44b7b3ece300484f95cb3]) ([0xef15ec732bd71f6074dfd8c5eb843304b318f93e7b1b66164397705967da5ffc5; 0x4206baf2959d2ccb7b1b284d048c39b5b54c1cad57a42517a544802198645a79a5; 0x1952e2dd110b28d9414c5696670c2707f901613383e4a77ff6859825e227280446; 0x3fe60356237e925e7c6ad5905e0a19843e48d0f0d75a257de5d7bdac4c06b4a24; 0x19a5eef633dd1c8cfe41d7fd49619e6274f8c923bd769caabf7dbb58dbc08930f; 0x58d93ca29e70921efd4cd8c381eebb8adc35482fcc113cc1b70304bea34f0e728], [Nil; Nil; Nil; Nil; Nil; Nil; 0x2f7cb40978c778e746a72d25d8e0722360f5ca8dc02bc3a9721f7b9bc184434b0; 0xb3c69e670d7eeda4b8ea0a8b13ce7c28541a3dc341314b1611cc094686f6e8c14; 0x4926fa7f4c2d96ca51add0d15c772f47ccfa408e91ca31a960aa1e15c51f15f5f; 0x11cc0c51359e63c3acd39349109969f71e9509fca7f0a820b94da73fcdf1d9a42; 0x6c9c3d832e7f3034cc23e1bdf21d88af2d7148955f59b645ce75816960a19cf5; 0x169d4a4b1da402207f585506e8d5a98522e5e947c5fe02964cd26c3adebe387dc]);
St (0)%Z [Nil; 0x902a56cfca9ad78838b8a8380418db6ea5fbf5198011ac483ce23d108bddf85; Nil; Nil; Nil; Nil; Nil; 0xf7a814d5726da4ace5a741a9847a144cfaf8c9693ef401ecd9cfae3644d22e6] [0x2; 0x2761a905e487f2b134c4bb33013fcaa6ad21ab3fd070afc8b8526845cfbf1dc2; Nil; 0x42ca3822960bc334fbeb9521e81504f0ce6ac0c0fada1362c3de696797114b1; Nil; Nil; Nil; 0x20e9cd258a0ac5dee9f5d19be939b718c7d1ddfad4828a6e6e839133742fda61; Nil; 0xa174dd4ac8ee6284dafecb04c3bb23c374f04863d97d6e8f45072cc9e85e412] [Nil; Nil; 0x199ed994a6146398b8cc3d8d57c82e2f70b4a43eb1400d2ef3e35e7fd0aeb908; Nil; Nil; Nil; Nil; Nil; 0x2159b75a53260a0b1cb9e623554967b3f48414ca3b9ca7e22b36e76ef6df0768] [Nil; Nil; Nil; 0x25e085ac45ef0a54577e8ff523c2d44bd0521cf6bc731533dad1176dd4f60c81; Nil; Nil; Nil; Nil; Nil; 0x2f76872d28ae8fb9c3f1f53fcfbef950d6b98ff905187c423066e4936382012c] [0x1845e2803963534b840e8390045212649ad5f1d86cbbd324c3121ac299fbfca5; 0x30356f497ae1158f6518668363c262d8aa20d39dfae3a0cb8449b298ce79764e; 0x1e892b394091387a005b1e18795b0a8ced5f9bb0c236c1e96c51fb31f39fb9c8; 0x2206a31d9d9f46fba372be48d5a805c3dbc05645b390ffe4fc3f10780acc8235; 0x2a46de98fcbd383dabb64b0ef820f7df5333ace828eec0cbb2683d8e3afad0d3; 0x1f9257c6821af525b09d674cd5805b136229d30067b7225c0a804c4d726eb591; 0x11923dc8ab5bc111199206c09478562b9175f3e193c6de34a6bbfb4e9d523457; 0x540f2eeffde6f633b297589f03ecd5e1ad49880c30e9ed642efef1bade65db2; 0x98372712ebf56e5c494e1be5c0d727c8706fbfd6f358e140e617a9659792cc3; 0x715dcc69fdf8b7794e38d86e19a64ac0b2007988457248398aa1d3a39c6cb4; 0x891d4709872155b77f3ff8b3b4cdd85e92c29d631e1f1712e969cc44922c7f8; 0x234acf6856351cebe4e9b80ef8f652a79fe1b3ba06fea6bddfb594a12d42a93] [0x1e07356549a13637455b41de67344f76e5e93f1acdd8f3adff2b70eb63268518; 0x2a0576ae667c19331e6ed638c4eae3568228725471772f7da08fb779abd008b6; 0x17bf45f4b0e91cacce98d7006f5db34dbe244b8b15797f61beb94898de8b58d3; 0x2768474395e4c317d53ed5c654f608b1361012544708c8902a2446279ce02d3; 0x118ba90f7b48b8f0f10e64eaa67703f6d751cc3f0ae2a3eb5758dc43de946011; 0x12bee5646c310647fcb3b66d9faf9886cfe6de3453264548f2a595024cb7ea92; 0x257bcdc86a066c7f4b66d59bce9839e24a2cb8e62bdc966caa7e4e4341be642d; 0x1e70fb5cc214a496d81ebd19e7e0019c86fc048caa6c316b7c46c5748f946538; 0xc85e1aa8ddc297d9af2121006ec6808f78c2524949d494c56cd33cc54734281; 0x231d384855d3a4058a0fb37ea51672a390673e0aabd4c354a3da452741c66fcc; 0x676b1cbb858202cc184592270ffa456b7342ad58a224d20abe76fdcf3295333; 0x65f3b381557ba1fffa7aca6df96793523bfb62b53845e863f18413aa7a46ee9]
  ([Nil; Nil; Nil; Nil; 0x125864e22a32876f462e306f67e47b7d2b06b8166ea49db06e9eb3b64cde4e1b66], [Nil; Nil; Nil; Nil; Nil; Nil; Nil; Nil; Nil; Nil; 0x3e282acd23b6ac8c211f64fe73a3b67fd677f9c54421837f1f04925e4134b5b7a]) ([Nil; Nil; 0x1944cab32f1229eb94bf8f60dad44129a51adc495d30cacc43ae6d11ffd311bd9], [Nil; Nil; Nil; Nil; Nil; Nil; Nil; Nil; 0x5ee1899324d18cbdbbace1bdb7fda901f4e81525e8a807c7b8a0ff4c2210d950]) ([Nil; Nil; Nil; 0x3fefb445b0dc3e3920c927f2793bf141668db198c94e18de0560b92435940d9a], [Nil; Nil; Nil; Nil; Nil; Nil; Nil; Nil; Nil; 0x5f8fe8d933c5201842f23abb58914fbd394dc801a74482cc78b40c71f2dba11]) ([Nil; 0x1; Nil; 0x3a5e515ca7908e04d9c47831ebbeb0e74e1bbf928e6bae27236389c56aeeb2972; Nil; Nil; Nil; 0x1], [Nil; Nil; Nil; Nil; Nil; Nil; Nil; Nil; Nil; 0xd46414e31b1f611c718a73b799ca08756e253284fb4edeeb52e4ff95322c804f]) ([0x1aa2501a9b9266677393c484298db7432cf716b9b3d4c6334ff379dffa75c10bb96; 0x6214cd58e8b0f7132d369f810297253906f0ac4f90336f8041aab27d9ab9ed89d0; 0x124b2a62581571574684ca453731741b5e02cbcc2ae2a7c4c0485ad8f2ce247bbe5; 0x6cc07795c5d0215341a07101a69f6e5cececb9df83737aa0fbfd85b1677b1bff33; 0x20f7696a0350bc48df352eedb39d4696bcff28a82d2b32836804f2289fca9fb831; 0x136f4ec439504dca5366cf175284bd19f11e174de41663feb42a55b80f952e78c7], [Nil; Nil; Nil; Nil; Nil; Nil; 0x478b70094c293d1b543de6ea0981fcc2f8d55cc7576335a4800b46b3012a482867; 0x11c7e3acb89169e285cffb8accce5820095ddc7aaefadf4e2966c5dcaf0e43c3dc; 0x31fb746bbc701904f422cf790597f4693f39466a08cd9dabc2f5a78c5f7c505d34; 0x133c273a3e6c741068c7dc7535c4b93e1d4e44f1f441f27c8d87af584d5d663a92; 0x74aacc5999ef1d7244eeb7b7875957e441c6c9e1849bb30b48f508eacc1d0e6f7; 0x4b63c11acfc495fe3a951da106abde439a05250a1efe34b79a63a5a57a90f9cbf]) ([0x12eb96c7eb0c137068b4d319e3e14878b409ff4fa0dafc359d3cf79a866a33464c; 0x111d5e23f8837dd3a607665e917ee7cae22890ab47257a50d20e2abe730ebd3fc6; 0x5d022780bd665ebe6f01369345270fb55d19a1cdfe1991f1e734240ecc97d6ddb; 0x32417bc659a90638a22811d5d03fe62506bdbd4797c8e6dc7e61efe26d521833a; 0x52aee9916c388bf96744beccef246c16d6d14121fa9abe5919e35d54a4e5df25; 0x25b93bc92d9aa06844c84d70007cd85b37efe12c556325f6d10ea545842261612], [Nil; Nil; Nil; Nil; Nil; Nil; 0x3c14391d957be8fd961c78cd5eabef6d624667e49c98a11560ff284c694c05558; 0x3560546f252e8c7002e1c0c31881e29784dc83df4741b171e80aebbf11cd879e4; 0x15158b0880e1768074798bba2c291c069d62e3757baf703517b842514b1e6b7ee; 0xd982c359fb4e14ed75cc1f8492988463fa9da26095ef447aa9cf8314365b119b; 0x3b266d62a07cea269ff76e9d51019a3caca1a15922d9dd44cbbe245803441288; 0xb78a1f2ecf0c7dfbe0198f78cd86bc6564b1b9a081426153292c2f367dd8ec49]);
St (0)%Z [Nil; 0x11f61e341272216d5e7228ae66ba0a7fea49b1e3c7dec5fd792e964d1bb233fb; Nil; Nil; Nil; Nil; Nil; 0x12ca77d3fb8eee63d002d93ad793e154afe5b49b1d970845365594307ba97556] [0x2; 0x1e6e303ecebf7ebc59de1d081ac74dddad37b8ada093048fc2f1f5c9bccac94c; Nil; 0x96ef55d3378617918b99971196bce79d3a9f4c01421cdefb61416b477367b; Nil; Nil; Nil; 0x1d99d69ee5a2b1c5e84d6c7ba9ed7708e79bb5f64adac24805caf7e65cd387f1; Nil; 0x2560115898d7362a65e5cefa42b25a7ee8925fa67adc6cb87d6b43000e2466b6] [Nil; Nil; 0x223f7a5fc43f59de41236219f1fe095e39631c0ea73567845087a5342c179898; Nil; Nil; Nil; Nil; Nil; 0x7fe910ad7fee713f811a0d916f66c569a22549b25f28a9f71a1b922b3f45eee] [Nil; Nil; Nil; 0x2555c9db89bcd48ba12055fc36b5269ffe722bec1c353451277620819aae2f82; Nil; Nil; Nil; Nil; Nil; 0x10eb258228367f105643c1eb88bb3478ce5064d2825ae2aa8eb21c86f306c358] [0x12b39b4b6ef9d47f7a52e918bd48dbf1e079117f664663653997f8907c60f3db; 0x1e73e81a2b07dc328debc3322f3595d629b18dc6ed0df9edd70663c10abb584; 0x5db5b4ca8e359b491a28d450ca8349bb3b57e548b2efc51aa8aa447a00ea2b5; 0x17a5c6c6fc65070bac93d33472153f8feb66fade84675880862e03fe5f940ca9; 0xe83c7f3580c64895935def993b3edcbb60ed6c87837e677cf4ab8be0addfd34; 0x2eb44fb3a6f5fb8f43d204fab3f63e6607c34e9738ae2d150f3b8a54240ac3e6; 0x167920a7fd98e7d24ed0525233987b496951c8a8a9af9f343beb4b41a33369f4; 0x1503659931cbd7a64fde660f22425b0c3c7f17ae1a236bbca3e7675a9e7da95e; 0x21fe7f600192e3643c7ef98952bf9de0cd502dee21b28c497328494694136bca; 0xfcc69ea361f6bdffa5745234168e026cf096eb39a35f93cf31e44bcade54d21; 0x17c4c7da66e0e2e66424ed5a70c8d99a5f50a28c25564b060fc161763642e881; 0xecd5037f8fa8c784406e149ea1406a09f1e499811871a6b22fbe8d458cce3e4] [0x2ca8993ce72b9cc2b1580971f3bb56292dd619013806f7eb154248304719486b; 0x1564b32366ec566027ad00476a99b36b393fce72472166df6b01c23ad832eab6; 0x2740f81b3fc9a0c883ead67e3a4594b92d7921f55a32286d0ef51f0aeecec035; 0xbb98610ec98e139afae1092b82876f2b6746d40435070eb408a79ae2520426; 0xfbb24517fe89e37b930997e7ebf5d4ebc54d6199485b8c566c14ed24a4b219f; 0x19fb100d81315244ab712937fbbeaeac2df86a370b4cb70cb9c00704c502893; 0x10b4ba8b95d35443e9f1e19f284a88fdad84d08567db3858a3ee9e5cfe72933f; 0x1800edd9067db6c40b3c6dcd41f208ff84a8d6ec1cc9f438065559f9b0408be6; 0x210e01c8163abe5933d9c988073b92c71edd001098b12d8fd77a4f56bd8375a7; 0x2c8b441bbfa0618c83522f9f21abc286f34b4f15a886e07baa7d831bd5398f9; 0x1ada8505dee07fc1238fa7c1bfa21b8f074be73a28bb825be16046932ec45841; 0x654020ef54169d5417ef205464bfff34fa423cd64bc042d1665fd1962f4a59f]
  ([Nil; Nil; Nil; Nil; 0xa3b02215e53ac3683e81bfbc83affee9c087ff7ea2cd8ad93a3ed0be6e7fe22ba], [Nil; Nil; Nil; Nil; Nil; Nil; Nil; Nil; Nil; Nil; 0x26af536f4dee9d27d99317aeb0edcd08f71d056bca746cf7dfad6d204b798cab4]) ([Nil; Nil; 0x24fa8594be8699495513f8a890b0136c2e879ed4de3c307ca2540972359862731], [Nil; Nil; Nil; Nil; Nil; Nil; Nil; Nil; 0x9149dea6b656167312b8e8740cfa232c50466bda5c8a263c3302cfbc29d92aa2]) ([Nil; Nil; Nil; 0x32a91ad7ef7f2b06061d3b008f098838fa725b33bffda6060548bea8b20cf4f3d], [Nil; Nil; Nil; Nil; Nil; Nil; Nil; Nil; Nil; 0xb749bee54e1d58d958103a6a21608e9015b1008cc22d5033b734177eca8ed8fe]) ([Nil; 0x1; Nil; 0x41c6898da29b6d8089952289c347620230eef03e7b9bdcd2bc6665422efc574dc; Nil; Nil; Nil; 0x1], [Nil; Nil; Nil; Nil; Nil; Nil; Nil; Nil; Nil; 0xff6e5f47d4d57b70504d320e1bd8e8c5d2173b3557a14059b6fe8512994ad92a]) ([0xeed3c0a558e9ce0dfaeb2aeff88d329474c6213a2f5a468645219d55837edb5b33; 0x657a4501da528d6ea02857e2696fc614a292758be146aefb746bf59e214b74f8ac; 0x50cebe15d388ce5cd9ee3efc47ed952a9a42788b7d7c99b8aabdc2c5e4b44ef547; 0x23323cfa93913b8f63d45ee7693d68acc9a90c6748345b5acfaa5adf8e1c9a885f; 0x18aaec4289a889ebece784306e80e2b67c2dbdef9507d2e744bd5c3833c38e1107; 0xb5e614765df9e7c33c8037603597791d379c2d943e2e84871a78fe85d55ee15d4], [Nil; Nil; Nil; Nil; Nil; Nil; 0x29046a40a6369ce7a678feee38ca80c6230e8bba9988388c10673479041ac977d7; 0x12bd706904c7408e90b6dfb46c9b8bcdedff8c580cbe9e3730727cbbd5c3e2cbd4; 0xeffdd6dc352be3fadf0849384fd6fe1a544ee20aed539c9d8672c4f3826193fe9; 0x7a89cf8a91eb1ef19c24849b126040b05087826c202fb057194b381019fce33b3; 0x5a483fc6ef2bea25fb1685178d2c4283c98dae5f303950f610ae1857f13311d2d; 0x2f52d0879a12219f23849648b477a54c0fc0cb73c2b1f52dd712f7003f1e2860a]) ([0x8c8aad20bc50662cd09bbfc3aa7c16ec473f4731da78b2dee199a9455d017feb6d; 0x71cc1be8bfec376b94f2bf4763c74f7f213d089a90d711570e82415a4c9cbe6f80; 0x5195ac45b00799e84f3a037448e1382c36d8d6ed0c528e4257a343f7f45f33a251; 0xc34b001b01e1bca158529afe16f219e3d942b28bf95463f855fc633905491cba5; 0x83c62140ff6ef0b98d85aeaee636cd38859685a3a8ec25a4611d5a0627fb5f3bf; 0xd0801f233a2e2ecb1ec524949d69de6c910587960d5e89c0c27909bbdc1f37226], [Nil; Nil; Nil; Nil; Nil; Nil; 0x1828233c36328efbbbbf79b2272e21fc9046ee9b1099847464221f99f9c8952dba; 0x1335b078db803bd8dc1c8060858ea585b9082d44c10c23a2e1f769596677289c91; 0xe4de3aab82eb39fd7afffa59cadda667d4abb30086da8bb2a6649a2f42f13c601; 0x2d6239bc2a6fc01a12a73498299e6f705ca3b7647aaaa8e9c4823eb392a2a5248; 0x1ebf74e4aa43cea5852ca435f2c1c54ead6da7dcdd3d5ec4560a681a5e3c5f32e; 0x2faac67103e257b7163c884e750a547233f6c02e7a2aa3f274eea62cd81a909f9]);
St (0)%Z [Nil; 0x252045e7a060fcbe79971d43c3da03113db44d10f319aee940208154e31cf568; Nil; Nil; Nil; Nil; Nil; 0x29f6748f3019016ae2da6d942bec861a3afc50ffbcd893d43689f6b6869b5c53] [0x2; 0xb44088b40d0a36b3eb92872bda7554c59cd1d8075581ba3fc000ac1f56007df; Nil; 0xb0410a8a8f5dc339deb3be3d5b90683f49978b02cf2c67b541018391c30ac7b; Nil; Nil; Nil; 0x66dd9e3b1189ebed575d8225594d2435c851991ab9936b90596956051e1a0f4; Nil; 0xea290ba4e993b7ec4122604cd7d9a5d41c8f2a05f0885e43d17d6249ad31886] [Nil; Nil; 0x18febf639fb93b1b9a1c688eb8c35eafa3077a61bd838420ab51f5dfdf856b5e; Nil; Nil; Nil; Nil; Nil; 0x212cad481e3ee9240f65785b5c103a48dea1f2d17d7664fe3fa2c9a5edda93f3] [Nil; Nil; Nil; 0x2760be56145fdd1605a665ee3350a9b59a050b5c9a06998cdcbaa17692af83d8; Nil; Nil; Nil; Nil; Nil; 0x1574c3cb4a2981f7b11bb53b094c9f712b6ebd9e6ac4c7b437b31d41c7a70765] [0xccffb6eb5c0dc2e1345961b89d1c7a03245f4ad18b402b3f18837548b88f237; 0x2994fa2f0af521e5a1ca7854e354a540e76eb20a736c20a8ff5032e3852a65c7; 0x16cc6cdce6da754ef75e493605c7c14f28711a17c852fafe1c9954628c40202d; 0x2327397094b966a757b8acf041dbd3fa7f9e7dbf84f965a7973a6168a5ce9384; 0x224f1a647bce5d5dfd267a597adcf7003260e8dea9cc1bbd499e8bf93f041669; 0x120b9df4294989beb45e9bb45800500f399002ead866f6cc8f2a6bc7c53ba7d3; 0x262eca0815ad0db7a4c116d226331f81d92ad2197791b3c127fb341bb980eefc; 0x118759d30007576a7df06f723c66f8efa01b539a0195ab5df1f7ab9ee0a0622e; 0x548e15fe28187ad02007854e77b840f1e18e3c1ddabcb69f526eaa8a0e7207f; 0x2e522d047c60cd38a48edd49f171bd562e43c3fb95132f3c62768b5fd54faa4a; 0xfa8021cb1f43581aaa3c5b4483dea47bc3ab3bb8134d56a710219f1248ce556; 0x27b0c6b4dd0711c129f408442f94eef4a883eb7bf0e05afa0a557eb79df8309b] [0x1b5ddc415bf0da9b33e7f20cca6b537bb9f426afb27b1978fecb92823ace7013; 0x11d827b64d2e52c6bf000c7428359cf7bbab9bf66987f4044b8548b706f7ec46; 0x19f8d1baad580011afaa49f6840facd325c46eec1cc9608b1531333c371de4d2; 0x2c02b384503c561a059bd8fde9bb8944e615dd91099e2dd61ca9b2fe677712b8; 0x2faf30a4fc838ca00b6ff51a8d189b3c03e91c9ee006c55a8d24fc1fa95c349b; 0xc7962885829706045059e9e79c8cd8cf51ed3fa95291498d37df5e89641f728; 0x1a4d35d958a23e62ae4784dcebf15d4bf30932e67976fcc0f379ca8c4e29297; 0xaa15b45c673b2f906a043bc64870dd9f0351b5fe9da1bd471906b63598361d3; 0x1e6769ae9e37a6529aecdcaa15f64b7d54a35e98977128472b878ce5ac1700d4; 0xa580a03e1809d7261b60289f99e9cab9862ef2a80f799d3ea35688a2dd367b0; 0x160b93cb370d0086edf38583a41432050f8fc353a6c0593b2de5180d241b22fa; 0x1616ae85cc71d49869528cd18112a58f79a67b91311ed73cd613c1e12f0d5984]
  ([Nil; Nil; Nil; Nil; Nil; Nil; Nil; Nil; Nil; Nil; 0x2019866fc44421136e3424d49a52cfb99b2b18e4fe796082ac78a10dff65103ac], [Nil; Nil; Nil; Nil; 0x8308db9d655ece7880deb1a75e2c1b7a09a6e640d896576c6b2f722bd22714fd8]) ([Nil; Nil; 0xb8b5001126267bc1a18d9a0bf7b92abf95a383a99ec912a28b628273d00a75f90], [Nil; Nil; Nil; Nil; Nil; Nil; Nil; Nil; 0x2cf5dea4a1a3faa8ad9ce67cc742a8704cf594119400bf389bb6b9be124be7165]) ([Nil; Nil; Nil; Nil; Nil; Nil; Nil; Nil; Nil; 0x1945233aaf3e1aad310d6f0c82da739d4ad21195663d1938eb992763fbd32c633], [Nil; Nil; Nil; 0x7058d945a5e5bacd9225146d388cbab1f2c902f28f47463933b188192e42d9fbc]) ([Nil; 0x1; Nil; 0x21e2c846f465e970599ac7f4edfaf446d355ea2082d0c64a8bad68db9e5eee547; Nil; Nil; Nil; 0x1], [Nil; Nil; Nil; Nil; Nil; Nil; Nil; Nil; Nil; 0xa09cd824fde923539dabb31e3b956479583b1ba6967d47c66ccac38b4cfec182]) ([0x1117e5d9b5e8ca22cde5cc68a8ea32489fc39033fa46258dab73f30233efb2ec544; 0x4da7098ac3a50c0a1e583fd5218001fc3ab9865ccc6fd8686e47a4d8d3634b3e99; 0x6aa1ff4e64459f876d52cf6e70eb2c5014290431b40990a2f9e744370315a77a15; 0x355df56886169ad2cd48dc358bae019c40bf2c79d407fd8361a99af01e7194daf0; 0x12b8ffba3a466a78d5a07b3ed68c9c5b1f7cf042d96c67fdbbd43cbedead021264; 0xb148cd005d9437ab657c955957ccc0ac5c53b3662f0b67e3b943bda4cf893adff], [Nil; Nil; Nil; Nil; Nil; Nil; 0x2e7bbb0d680843f51e066213addc66022365e51ce032e89de9ce1e11054ee4daec; 0xd9048f52ec4de531f15bba02f1238899bb29912e6b37267053b780962e55b8700; 0x12eb15a615b63aa9c288d14273eb3ed2e4fdcdfb41d4e3b63632628ff1b792ff18; 0x9c9d821daa5235e6af55fc21eb52466c1bec123f24b7f4d0403ba5f9284cb5a06; 0x45b1052f5229745bbe36fbda73e740dda229c45e5ef32593227e76b62f17da127; 0x2ac4c1cba25e35f312de5449b6ee5a0cf2bb75090a450b8c1d29e52ab940a7ef9]) ([0x79aeafa7c439aa9428b1d1c34a0dcf84f9d58ac6eb00f295cc03d4ec471597b225; 0x2160c32b7e33858f4665d5b62862f2748aff24937948b7ffb3bbb4c9f363789fb9; 0x4a8ed9b27bed7a661be58a1faa4a1c38d02ea728cf40581812ddb60532f75a17fb; 0x3e43ea5fd0ffd9c9cdeebbd5101f691734f85c15fbc6c844a1323e039b0bcdf08; 0x399ac4e9563f7c41686b9f9bf815b927652f852cdc7c0a501e1ad2cc2f1dd1398; 0x1207095998733b3a1d7bbff4b21a11a3202c7a15cb518977c9c1aa8313c365290], [Nil; Nil; Nil; Nil; Nil; Nil; 0x14950c3ba1c8bf9870a466d683b9f525f91353795e64f674062bb08c9f9b764cb8; 0x5e2797bed0fcb7791ad9ad402278223f8cc271211aa2600ca94ae50e5f434cfbc; 0xc9558b08bf14b0edd01627232f609491898887a4d2cae1f9d84e2067bff23e045; 0xed51b067e37d77b94a414cd299a32ea0d2087962a89c3f92d8bde00d7567f399; 0xee36631fed695ff5b54d6d6e5af50b82dec93afc728c9c51e69aa61d6d66012c; 0x52826ae7f86f6dbad841ac3d44b476352ddeffc7ea008643796b675495605901]);
St (-1)%Z [Nil; 0x29241568444ed8d8af938751a8e0ca797045023458070af88032954fc9a7dd16; Nil; Nil; Nil; Nil; Nil; 0x1626bcdb5d6bbcc4c5992b5816f0c3c38a4e1d3cc8443b15e93b4466dffcc29] [0x2; 0x740390a9ce2c75108bcbe64d8a08de4273c685d106abf94bbedf6c70ed52031; Nil; 0x1f66ef9b8a53cef8e13cb90df56a3c335954b22d3bbf831b40321a9720029a6a; Nil; Nil; Nil; 0x2f01e2a52b5ae45d6bf6b30100124c215edc88bd9bed86dbdd8cd7d06a7d311e; Nil; 0x1dc96c217b09be05ed36cba3b9cf68c80b3211f6e862c9f52cc0c6c69bc1d8a1] [Nil; Nil; 0x22446b55b51eb51442726b84ebd9e3253fbea57b1cba2598c1e9ae25249077db; Nil; Nil; Nil; Nil; Nil; 0x1c0aec78910827ddc9218ffac17fc48ee3b05b73dad28db0b49835065b17316b] [Nil; Nil; Nil; 0x2e2247d10ae56b8cc71a8f254df3d4dd366441251fcd4fa55082be83ef24c77c; Nil; Nil; Nil; Nil; Nil; 0x86cc3d53dfe91e5d398edb7a04021e005d5bd9aac82fdd8b3c24edafca467d7] [] [0x1644b2f356b3c589a0b21e07ed8c0c0a7e280dde1555a1dfadae00a563990886; 0x862e753af3330bafbdb30f7cc8bc48b9febf802db7eb677f44d349fc50df7ed; 0xb41ab0d0417727ab172a98992876cf47a4d3f6b181d2a5bd65d82302c48544f; 0x22951fdcf1d26c700dbf23361bf25690bb33e0496ad344553cb43acb29a8b1d8; 0xabe0bd53789afd5397c80c6134619d42019cde7919c77bbff8b6fa8c71aa108; 0x2f65b0e84ade31002d4ea65170df7b9ad45b6c003d3c3ff7676be5448f5ee7d3; 0x304419ebf341814f0c8d5fced3cb57a8144a1c33685187a853f9853de83ba563; 0xfdcfa3b2ea09deab8c6f785cffad696635f7526c88cc36b1ce12f2a111c6d3a; 0x28dcdea1e2fa69fb43ab1c8d2b24f6f42f37f54c6eed32d60aa2d3ca396ad1b7; 0xb894c92c747e3ed29cbd256e2648a400c7b8b8d56d25ac6fdef750b3a452683; 0x241e587dde71ea9f42764037b14e5fa792ff8cc6bfbaddd918a1cf5ba3a6bf9; 0x1f1a9a618e0792d94ac674c519c50f61e67689817aab9c5226b29220e87a34b8]
  ([Nil; Nil; Nil; 0x1b2f1f3d60243175fc74a129d8c39f2791fa3b69ab02b8f108176a51bed71a68], [Nil; Nil; Nil; Nil; Nil; Nil; Nil; Nil; Nil; 0xa15e8b32bc33a6efd7a69ff485b79df1583d131abc3fb48fd5a006b9b1491a9]) ([], [Nil; Nil; 0x1fba8819b927fadd9ac85e1ba7fbc257ffd44ab7ccd1d352ddcaf1a692b3c3ed; Nil; Nil; Nil; Nil; Nil; 0x31125aa740ecfcb15235853425cdec8dd3b47cf67f65b02f5f0cafd0c9aaef2]) ([Nil; Nil; Nil; 0x13ec06f97b4664b769eac517ea00fc2cee9ce97161e0e4f708de1db2e7a81ace], [Nil; Nil; Nil; Nil; Nil; Nil; Nil; Nil; Nil; 0x6bd8949b30bf4bc29e194e0fd7ce24d911c5586dd31faaf1e86b923983bff09]) ([Nil; 0x1; Nil; 0x38938a61c0ba7f917e3341ef47d650034261b851e6d93fb51e15ae1dcdb20aec; Nil; Nil; Nil; 0x1], [Nil; Nil; Nil; Nil; Nil; Nil; Nil; Nil; Nil; 0x2e00ae96fe08c5dd95977cebabcac2f7a2de235d6271f04a3af7fd00bc9ca210]) ([], []) ([0xb0308dfac109259b8872e6cf3aedb03f77c8cb2fa8bda8e44bc8576b1fbf3beb68; 0x5cb76591098efdf05efb727dfe4d04afd21cdd29bf4bb2772e8dcefc9bdde24468; 0x58bd2821a9770401435d97fdfd7acd47fb28fc34f1dd40bd7200275ab4a89c53af; 0x9b31e777c667e06c875c2f65058f026799be71f8e2c033eb5cfbd76ac34a83f2a; 0x53e4fa5997534383209aec0bbdf56fd2b99e1fbf83c70c2e79acbcc8ccfac542c; 0xcc2985ea2fcbcb00712549b81d8077570ebc37d5bb1872f5b421edf039ccb68bc], [Nil; Nil; Nil; Nil; Nil; Nil; 0x1de1e2c96a5ea776ef9b68c28669327f9bf59873bb52cfd51164f72f3d53d340dd; 0x103c2d2982786b9200facc5f24693bf7b6225b09609229ffc21a2bdba7782e0877; 0xf3b67f1d1ebc7f28fc75336db6909427986c57d3fd96a00fa342bd9b90233edcc; 0x2558612a067f9016ecfeb04acba2041640fd16b35f66badd916d0fc83a330284c; 0x168d389d390f01305b35d4a735732ffd5bfbb47b02333aa07b3ff02146eebb963; 0x327aa35099494be116325d6170de8d5e558287dd185aa4bd35fc7ac7a1ce30322]);
St (0)%Z [Nil; 0x202418166bc4fddcd01db3e710d85220a7dfe46015f7c2beef0c4ebb69a53607; Nil; Nil; Nil; Nil; Nil; 0x18b4ccc64ae0a85766b347099b6436794cf062eb47e3c1cf6cdb6f3efe778c7f] [0x2; 0x1040365c756ca24ce83291cf70a9063cefa18631527a07ce4d143d5b6ed7c740; Nil; 0x268aa4fbd33ddf02964e9e6b1d91e2c8b17383dfecde2977e442be9e4c717430; Nil; Nil; Nil; 0x17af81ac9650f7d2519cfeace61d21e44a9107a6208e08bdcf451cd7da0570c8; Nil; 0x42d8a8c36ea97c6158f2f2acc3c2300bb9f92251ba85b29875e638c10f16c99] [Nil; Nil; 0x2a17f2d931d9fb391861f9fbeeb725bedfd023d1676ab0e5535b2cbf7d448d6e; Nil; Nil; Nil; Nil; Nil; 0xab32e49128df16acc3ee529a3648bbbf46aa4f3f7e42ab9f99db7b8144555c1] [Nil; Nil; Nil; 0x196ac3490431b50a73f8255a5cd55da125d3fc4d904842dfce28ba454e48caa8; Nil; Nil; Nil; Nil; Nil; 0x27446070d407987f98e4d2b958f4fb1a37131fa9f740e088e742f9a3a12cdec0] [0x14a104aec78a244b1e74024375bbf99aad65529ef44adae49247fc27857e41bc; 0x17406ffea9bf9896c02a738e32ec81520e4b7a31f99a2ea8d7b65aaa58e1dc96; 0x222b979e0b70eb1eb6f7dd06fe191ea2eec3074221396745f5fb482d69125edd; 0xa0f52873f311b88895eb6b82fddc65004a38dc54d19195be07f20aa1cdac5e5; 0x1718838c565a9c44dc721188fce8c64a00592813f933328a4fa15f984655abba; 0xb388578e04896e785482622ba3a4f7f96186e155c90830d3a266bed9cf84f96; 0x1d5463e8dffe74bfd46a2072beae4b486ab1ea321c79e20b2621c082e0715ce3; 0x27b279cbc9ae4978613d7327861c690f9e6cc3117e71c9d2b269293a7776ced7; 0xd8ebc4eb600187009219b0f8de37d7237d6968f44d0504907b951cf34a61e71; 0x25aab40ba3daea8ae59a60a30a9b0786e0234bd745930e7f02fbbaf739be895f; 0xbb48fb9d0781ec4010fc01774b762442bb36cb08f822f230161af1e26b0dbe; 0x287f191dcdbdf2d9a225dff159886a2ac49946879835d50977a7bda5f363c3b1] [0xa5ab78f8879eb9be74b3ade71c2b2fbcc76bf07e77a60c775bebd0f9be8ecc4; 0x146cd81c5a7eaf14746b085739a282967a93414172c07dcbfc95c7185d0e479c; 0x1ed426c4db116854acab310996b670251cef41d282ff492d770e9994e059dfb6; 0xb4d971060a242c4c6b865a359bc73e1a797fe996f8dc477f1fc2c491f358ae9; 0xa8caec30eb216a1dc7c5c6cbc975eb7ddc39690c96e1cd837c3bb120f968999; 0x137d7f33e1ff0e8a96ec51cf057e4983e91ae0dde001441a4e12bd03ed5af0da; 0x2b7c001820f611942c23374365892845e08cea8af09073d344731ec843efd518; 0x1b094a5ae6674aaacf1ed348493a5c471e2765ff2ed94ab65b3369baa698c63b; 0xf4c700e06bd163c7de89fce49316463760162144485c97d27e535e5240a4c67; 0xa31497cbcf90306b9bd07da5606f521fb34c2387167c35cde5c02210b83c9cd; 0xb1025c87d8db48d6bfcd10f549eff09b4f7a1b318b552742c2ade4a1ad15edd; 0x15f7c01d334e8df690c209e09f961be7c9f0eb74b87859e52321785ea6c0263c]
  ([Nil; Nil; Nil; Nil; 0xcd0b3366d83c678bada088862c9f8d18e335ccf79c6022ad27a81d64ed6b3a349], [Nil; Nil; Nil; Nil; Nil; Nil; Nil; Nil; Nil; Nil; 0x30f87438fca9764c53c2f708361a270e92b6332dfa2cc30a84767259738d98be2]) ([Nil; Nil; 0x3f4f9559f81fbb85593b0e23ef5152f621535b40ebed7c6e0923c046bfea76d13], [Nil; Nil; Nil; Nil; Nil; Nil; Nil; Nil; 0x103dd75c78096243b1950389670429165544edb35c4be9847135db5ced19b16ab]) ([Nil; Nil; Nil; 0x2db3f85944f8f61f7850abdb3ac8e3bb914b678676fd6b2f20f42741cfa046823], [Nil; Nil; Nil; Nil; Nil; Nil; Nil; Nil; Nil; 0xa6e660458dc0f63e0617091a347e0f99c3eba8eacedb3287ecf093d6c0056e62]) ([Nil; 0x1; Nil; 0x47f3d7ff170f9eddcd09f3b9ab96cd9139a77b33cd5f9d24e02531ff640768bcf; Nil; Nil; Nil; 0x1], [Nil; Nil; Nil; Nil; Nil; Nil; Nil; Nil; Nil; 0x125d3e850e409b2c493846dfd7a98d13e7df3b639d94b5bc9fb5bf47e667e6684]) ([0xc3a06d245ec7648175709f06c940dd653ceb876841305f0f9b91e9e3dcddac95c6; 0x1601fb846c0d0a23735b08a44df2f91a8cd4e60bacb8770dc3609a22a8f7b464fb2; 0x87a3ca05b31ef942771007094481e4b4cad6018443292c9947bd50eb37f732affc; 0x26624b49a2f7d1e74f25e151e0663dc76d9c114576dfd92e3c1a6d50551f8bcc61; 0x959ae85ac946ba5fe6669a95ad9d086e8d2f00e2e608939434e1ac8a119ff87269; 0x1a574de918f088e887652e68e262848e3c85d91791fa30d1c84982b7c562f3c6c2], [Nil; Nil; Nil; Nil; Nil; Nil; 0x22abc8c516b0c9ec4a84b10573cafc6ef24789265ad573806278f5cbcccc9b9235; 0x3c666b6c43d741243a344c00e3713ef45cb83fcce78060b5600ab8760d6753e4d7; 0x1987e21a1de1e6008d0455faaa2fe01bf26eea3e712f2ac4df168bcfc702935925; 0x8011119d350fd5917b9769df0d966444020ffe6a5de123681b8d4808e252eacd9; 0x1ae8b68ffb94226ad4565c1d09dc67eb82178c62047511da0e85d9554d850e225b; 0x698eea5d1720a9f649b18ae30c22e06ef608bbb60e938494232e01b64e775cec7]) ([0x95089d86d43497205c2221b31930945c7be16584c634afaf23da99210ba8346f5e; 0x5c2bbf665020fee98750c4d8b869e28daf7ab7efdc7812734c124c6cc830fae94; 0x24fe209436c9db668ae76ae3d614281c9e61db3f8eb30b55d4dd4d3cbd78b98dc4; 0x2d3de61cedb2647b0189bd164218b1debcd330e635325e0b3b315a657ec1a6563; 0x6eae732e7913d38ed205bda54b93aef964964c92add40e731378092ccf3ea1e05; 0x5a5f17ed0dbf958ae6a6f73ede64e85a38a9862db22e2a35404eb6c5b3bac280], [Nil; Nil; Nil; Nil; Nil; Nil; 0x195ebfbae0951db81729ca316031d7c064a6275b5144e315ab4bbd9b612a6824fa; 0x16667914cf3c87658b9706205e3c9741e3009e5a2b0c9c10c8820a7d5bdaeb355; 0x7237a681b5dc3f92841d8e99a9c6e437d69e9ec9654165e1759a8d6df24e0012f; 0xd37110db1122fdece527c74a0e6a53dacc4fac38e53c7c21e1fa525cd88cbacd; 0x1bcbd1ac8e2a2f785f8e93efaaa277037a7dd470cbd90d2999636624349f5498d; 0x34cfe78b813447c6e1f8f969b2ffda1f8ebde346541a880f26e30e4f5002dddb]);
St (0)%Z [Nil; 0x212eb45a3d5244c77222150ff95aabb31b779868510431b1df95990ba49f6885; Nil; Nil; Nil; Nil; Nil; 0x1720da20b3b6ece04069a2384ceb26321f83eb5935c1921a747ac23ae368fa38] [0x2; 0xf359a18a3df5b62462e30a68826acaa7c09d229176d98db5c8af30b33dd94c2; Nil; 0x27dbffee193019b34a46ec36947235bd940592e5664b0814e7c6f07d175d5065; Nil; Nil; Nil; 0x194374522d7ab34977e6a37e3496322b77fd7f3832b03872c7a5c9dbf514030f; Nil; 0x131ae81d45f43ae4a8d5967bd915b9e90b5a240b4f4eba805b2bad38bed9e949] [Nil; Nil; 0xc2565381fbff85b0761473f5aaa50a0d3c10cb201b9e71c8bca51075a30513; Nil; Nil; Nil; Nil; Nil; 0x1a33c1227ac115519d32651f62d3797f11177455f3622fc5ab129f5ee840f677] [Nil; Nil; Nil; 0x1fc2b294416e6113006e21712493cd3a3718d74f73326c89b5b8cf316e5d8470; Nil; Nil; Nil; Nil; Nil; 0x1cbed0e4364ab58de34874140f06bb173c261060292c45c42f056f6629194a0a] [0xe20aa08a4403f126c12dfce11d8760b9071441cd7a35e317e6c0ec6fbcdfc5b; 0xbac91b371b8d0870cd45d8d74313b1cdd1565e895811f95be7374c6bab41859; 0x135e2f5921e3dffc5806d6b63ffaaa6c20ebf1fca77112c2c09fd2c5b1d2f614; 0x2e23723c34c022062efb03801e0d9b08ed5a01e625c139f9fdacca385f5920bd; 0x25166b6256e5bf7c0cf238c48de2201152b487294e58fbc81834a23b08c224e3; 0x275bdb44517d201c3b9695f2080f0b2302905be258deaed9dd40726f08010935; 0x1eb61acfbe471b8411e811086d28f3f95a709a0c68b2f132d4139d5215309ac8; 0x2a7bf77957a488a102ccf71765a4ab1c81a469c33bad185de3c70967c3953f76; 0x247f64af658296f06264af526b0af8a404f24bf4108b2a951266c06fca0257c6; 0x3a3f8381f39e129c8e1b62c6656698d45888960d0bceee73ed4d1ea96fa3c02; 0x1f49cd8610c701b29ee3444133b702365634b10aa206678dbd26e9fed53b4f5a; 0x177ea1b2027fab5c4ae57c0b8e742e74b334f75d25529d7b4a4ace7084019f96] [0x49e5cfd3c339eb86ba7b6ce06b22704eab2a85dcd44918bfc52792b4a3bb66; 0x1e61e0ff05a62e1e51d8c024c4dcc338dcb94bd4fd02e0f67473f8c4fb372baa; 0x1a9d6f7068e33463a2fc150c800de2b810eeb9da7458aaeeb85a47820312c27d; 0x25b6e5b533f010cac2e539d26bd2c6ac2828c4b11fdfb9be6c0c4d00dc46ebfa; 0x16f889feadaa948a566b762b9b86039f99bcb1616698283a98fe2f30533efd3a; 0xe8ef25bb08bf536dba44d2fc6d5cce8b5bf401a0ac567c7988f51beb0e4c625; 0x2ddc84935ada735edf6341cf8f0b000ab896eae20eb35f875e139791dfc053e7; 0x1d70256c0ce738c2bed67ff3a720272973cbfc9c93d3f3eaf16bbe998d01de7; 0xf9982d20bdbdce0c97f9fecb0d615a565aedb176530426938a1206c1324b3cb; 0x1e8f5d6195cc6673df8a4c5ea16c7b6294a1360d74a29d6d162faf98c0a418a4; 0x1a41ba48ee9b5d16d1ca5f7d69fe6c9d0fdaad6901800c1c88cfc821519848a5; 0x1f5584c656f0834d73ebb9d941c95740e5189e69fee88fe46c54b364aab44fc3]
  ([Nil; Nil; Nil; Nil; Nil; Nil; Nil; Nil; Nil; Nil; 0x23a2aff0a854d0e6fff96bd47c03c496daca6cfa38b134ab47b6d001e6c7b6d1a], [Nil; Nil; Nil; Nil; 0xa0ad1570a738e1cf75158361fcc6986a7b13ad42fde1a5eec41568e9846f6878a]) ([Nil; Nil; 0x373ab2565f8f48cb6d96ddafcdac852107ef65e6717447fe52605bcd798c7e0fa], [Nil; Nil; Nil; Nil; Nil; Nil; Nil; Nil; 0xe6b0624b15ff08784406f99ccf5785e66809196f057ee00487269efe796fa111]) ([Nil; Nil; Nil; Nil; Nil; Nil; Nil; Nil; Nil; 0x7c3d22efa0e06baca66785b90ffa324acad85fbf8827aa517e1883cb72718d70], [Nil; Nil; Nil; 0x27be4230f636c980d6130604c51771361927dfab2f9dceff72b6d25b7e41d4c39]) ([Nil; 0x1; Nil; 0x1867a131d5cd1161dac82cc6b553a3a6dd93ca2eb82f7a8d14ca7f47c37965df1; Nil; Nil; Nil; 0x1], [Nil; Nil; Nil; Nil; Nil; Nil; Nil; Nil; Nil; 0x778167114a583beba43289fb6921b348da71a05e6b0971bcc0ea054a3c023ee4]) ([0xe3d59b0779838ae3ad567e36eac1d3650e2c6d611fa2aca5115bc9dad61ebc7c61; 0x8a795f4293c5a58a809691221a03e1cd55f31dc7224ea1b28a8b16e4887888bf57; 0x58f578aac3d641bda19bb4ecec3e033f92d23920dcd628e6cfe7c21f2acd73eeaa; 0x4b0e7d32539956935201188bebb77fec6caeb3adb27e3b6c5bd5878134127b7c87; 0x4a99739731e7547c02c149cb5bd69aaad9d34df300d731f70ffe212df6b10c14cb; 0x128bd4ca3dfe73f3960328f17710564211cbf16122ea1a1854dd7a4efc5fe6c82f], [Nil; Nil; Nil; Nil; Nil; Nil; 0x276c5dbea757dd4698cc6650818806b43c29a1a776f5ef32923d86f55ac86fe085; 0x18c46b33489245c0da5c73a64bccf7810a13410ae58d1912cb92946483cc84a0d0; 0x1025ceb9c071a71505ff30846ca09989f1edb564a58e27e70ae7830b6ab6723ec9; 0xd997dc5b924aa7e9cf4b09f1027804103e18632f7ec41a7f920d825e792252bbe; 0xd7e0d7112602351bcf2f4cbf97a1ba6824bad94609b1e6acaba7556be22ba50ae; 0x46ed7a9a51a7249b51a1803381ae56f0cb48b901d23c9fe8a0ae0ced2937c8e46]) ([0x5ebf7d9c4a7f8252b7cc4d852c79c1e20e34f11894c4bfcfa189a2a5994ca69bb4; 0x5948af1b2b453f24f51110e06d7ae46cb41b3e81fed021b3d3a0f62ec42aede23c; 0x47bf06515e61f640b9523eeadcb5145a9a152c2aef322f5e69bd0e5e0db2dbaf63; 0x9eaf100ddf973e7981f5a062011b1312585a89b37bd0394ddc40780da654de683; 0x5e31937e1f5b616f13e6deaa8f990d0c3be480a732b94a0264db7592f9f765b73; 0x9bd5f458109e6b31ec6b7d76141ce0a58f80a19675a9f0cd88787d99da8f9042f], [Nil; Nil; Nil; Nil; Nil; Nil; 0x109b1c3265acc0c19819466d841494f9f9b32e0c872aab405c9386b7391f858918; 0xfd4f4da57520a88d869bacb155c27f264074af1386d48ce598eb65f2183f18be1; 0xcfbd9be999fde4be7601c0ee47fe29a487274c2b0d456120b64ba2dec17e98fb5; 0x265ace8af64ed912f0359bd3101dfd44d95bf5503c195161a24f23c4815d166f1; 0x190f440874e325646c07477239ad11e406d591ddabbec522d407048207bb82c3b; 0x26c4a72fd8c1b1ff2432d2b3a341bcadb962a35f5620b194bb93667dcaed27e6c]);
St (-1)%Z [Nil; 0x1d9379d4f3bf690d55c32eb084140744788c8f836f84c57869b33669831cf931; Nil; Nil; Nil; Nil; Nil; 0x18e5b069966b7a95e5a1890427dd69da33fa518e1024ce2919b491be173a3f19] [0x2; 0x12d0d49ded72371c628d1705fd6d51191ef4db0df8ed0514d26d55ad55600416; Nil; 0x29273eba4e7ea159da03de208896b946d70e9e9147b35bc880caa9c956ffb699; Nil; Nil; Nil; 0x177e9e094ac62593d2aebcb259a3ee8363871903584cfc64226bfa58c142be2e; Nil; 0x28010f4b2a9f9657cb97adac5c01ab56cf08692bed62bda841a6e3262c7afe0e] [Nil; Nil; 0x8967eb0651bdb8c9ef5dbb6da5aff1ccbc39a130a4edfc8b21ee15e5d0bf941; Nil; Nil; Nil; Nil; Nil; 0x7615cdb60b74b4ada59a356a9f77c2d3acf0b4e9ffcd927c83e6f8ec5a84a9f] [Nil; Nil; Nil; 0x1d16e0ea375ad6112199943f35e9993b5170a877ee9750bf7bb9a272bf7ce321; Nil; Nil; Nil; Nil; Nil; 0x546757a912898e626cf41c974cc1f229ee72666ecb4da4989ff7204f9072337] [] [0x2e5e030e139f5c1a3ebf91680aeeec82e84863beec92844df0e9504d00ee1256; 0x103bce5cc26c6460f0d649813f919cefc12d8c8840c2335c6217fe245f8d4b0; 0xd1939186f48b39923c5e01045f4529b6c48abc33ae3bd8b4361918d55907e99; 0x101b64c131f4386de34489af60c028708c94de62d6eaaab35bc6708989b7b7e2; 0x2d4cd83f44195f5b9a9aa4c67c19284fc3f862f7b0c72aceb4137ac60c98631e; 0x22861c7095d78bc2f04d3d4f1d54687b4e700e5df98a3541863f0f76c7e16; 0x1e562197f919044e310231be01b6ca8b2f964e30b4a7b5db7e36b553c9ea6eca; 0x792236fc410f20e55913c111af4eda6b148b2980af7a97867c215eb2c251082; 0x328f93f386ab95fedb24f59c3a77486add587607bc3d1a84f4b13465af7bfb0; 0x1826386009828e71040f7d23093eed9bac87d73e6f2913ac2051fede16590a25; 0xb945a48523309573179004b0c9f8cdb127476013dd9467f5ad3032fd6ea59b8; 0x2d807d33113b5e2f8dd76b7795dab7f2073ee9255cb88a4b586a578bac432d73]
  ([Nil; Nil; Nil; 0x30baa0f5ff6425dd22b754f56b772ece1617365401c044f9ccab1f28af3b5fd5; Nil; Nil; Nil; Nil; Nil; 0xbbc5ae1a3d6d91445104c70794320d0c0f4dd1911ee5d83f13f18648060f12e], []) ([Nil; Nil; 0x4084c0d489b97a4e3ebbbedd4c92bd339fc6cb021af851a28d2dc6d2ad32640c5], [Nil; Nil; Nil; Nil; Nil; Nil; Nil; Nil; 0x10500cad780c4b17139b92c288269253d1f540fb3f88687e2323b5c3966009af4]) ([Nil; Nil; Nil; 0x31ed9030695f4c7784bc7018eb72949760577ee3e8c9fb05bba0a41838c9c10f9], [Nil; Nil; Nil; Nil; Nil; Nil; Nil; Nil; Nil; 0xb5c83dab3a1fc4de5cc2d727d440800f8131540800de576e8760bb9fb8ef27ef]) ([Nil; 0x1; Nil; 0x450f67a91898032648df66d1263ef7907ff79785e23a09fafd8db97492b33190c; Nil; Nil; Nil; 0x1], [Nil; Nil; Nil; Nil; Nil; Nil; Nil; Nil; Nil; 0x1030f37b7134c2c785117a52006c9033d7014e2577bba54a691a0aef3e3a3d788]) ([], []) ([0x101d8dd77855e1c0b357a80f67f3b6c98aba29987d020d01001d6de5e8876761a2e; 0x91837305153e7b1f4e9db495666d36218697176157cca377ad22a2356de33a921a; 0xa1fa26a2e6d4717f78cf9447f5148961f77c75f76b17bf3d01c363cc64fbdbe937; 0xe8743551851485191c2dca3c2b2beb7d88bcfe957041c8ace87ec22ede3a8a33e; 0x514dcb864758c82d58e2770dff4cb246a5d6c7bf2b4aca354b7ba1200b2ba6bd8; 0x817368a351ca2949ba5fbc0519621bc71d2909b032891d81d7648ed0cd283470d], [Nil; Nil; Nil; Nil; Nil; Nil; 0x2bc8736db9710e2c0c063222f7aabeb3fa494898672d84dd440308f631b9e80050; 0x1922cfa024e251688270b3b4ad5439aa7df3a38d8a44393528d28b04b8a281923a; 0x1b60b8e545a22cac0d2e2b0ff5114063538f678c8359adcf6fc22cd3efd83c8175; 0x36cf9f1b60f0b27b2f58a4f62e4bfd4a3996011c7369106bf9ca2a9bcf604e82a; 0x15f51d5b6e7ced34021f1d47b6e0e251bd69d1cb64815616959f33ff5e2112193; 0x206371d47d7f714f25f8a2c04b8e85a8a3120bcd05b5e34cfc5a0711060ed96fa]);
St (0)%Z [Nil; 0x2ec5573632e1d8a5058e26773b42707874053af939a18992f6a2e769711923f6; Nil; Nil; Nil; Nil; Nil; 0x121e2d845d97269577012a4bb8751322a406024d9fa230a629b75217f0518e7c] [0x2; 0x19ef73cae4fc784b2c21f3f463ee7e5237c2f982ed040fa457da4ad6763d951; Nil; 0x42b4f8dccf9138d28238b16d260c78bd3900e88a055824b5796ab80e56cebbd; Nil; Nil; Nil; 0x1e4620ee839a7994414f1b6ac90c453af37b6843c8cf99e7126939fee82b6ecb; Nil; 0x2a0f1740a293e6f0b3c4f8c3770402d245692464d732aa0b6161aaffdae95324] [Nil; Nil; 0x2ad23e4cf32c18bb665d784e897c32c274f887a442be51643dfe43020b39eefc; Nil; Nil; Nil; Nil; Nil; 0xfc90dfb4da879dae09376677b4f2ceefff7bba06ec93860bce84ba3b342bd80] [Nil; Nil; Nil; 0x1940b3c68a303a8c9ebea06b2b08a69141cce7b80725667d9069e47b8481b17b; Nil; Nil; Nil; Nil; Nil; 0x1e23654e785e03c17af4b8d4ace2c262d038e9e267a944e818ed58428d2bb329] [0x2f1df4c652ccdab219d93979e0493bf2d690a7caf2b8ff97d699d7754e9cd528; 0x4507a4404da4a41d0091a72bd806a5c34605ed9e743582165593a07f2daf5f8; 0x2be86171c6545411ac18e2c54f03f2e51afd581eb01752bdaf9864983dc51a83; 0x1f8eb94fa14b1f3ffd9485526c9e9689479388030682706e51faf61d0c2397c5; 0x1130fdfae5e3ea8372c43b9bb4bd1fee07e78f51b18644981f223107e8559de1; 0x2fe7b1ae6382a34f06c3d80233bc0ebbf47203da6ea14a3c0b51f7dcef883102; 0x1793ff5846c44c8095d094ba44c9b65c36ec853c16c1beb70455a6ed880d1d7d; 0x28e80bc9d3815e00c07b674eb2d9ad5869a8f0c59312d091d59528fbac4b4868; 0x9fbabf37feb612023eb405567527715c9429352f9f221da5ba6f23197de045; 0x2fe2f68221d42de4e544dfe54cd1386ba6bec4699a9c4a88cf2105fad4cb6b99; 0x2ea72837fb67c0f6e1fd5d9d763e58fa33528e0507a1a0f242d2f1831d6d3cb9; 0x13ecf40170d4911174d66ec5eb52f92152d2677aed25c811f1f12be2fc7ed77a] [0x952c442cab769d09626b54ed7629708a2f4ba244d8ad24851f41197cf415ef4; 0x19198da8b94da45f4410cc26cfef09696a4a7cbc4f69443b1c450f4a171798a; 0x1eb29657fe7890d545a7b6e55617f22a3e0f4337c07626063e5503a5a2103ea1; 0x118afda8324ad5cf82b15a93b45052970c4b7451a9415ae9fe18cdbc78c386c3; 0x19e196be3e703fb9bfc7287dee5e29e8308715fdd474143cbab25e3cb2ae6f2c; 0x139672be0b9e7559e46108d6f970e9c626c07b8e3af1f1d5e9d2d1afd0eb1708; 0xdb099e70b17bc4e86593b9ef796d2ec8cdc4e90b3b0397e36b56d9d26475339; 0x1217c951c7741d0ba7ad9146bc55de944aceddc23996f81d4f3a128d106bba0a; 0x106286508dc2dffc6db16879e5f680800fdc62334651428d452a5198fa314b4f; 0x709dc08bc033ea0c5a2a6c5280bc511c152daf9560c738f82e448ca97834602; 0x21e1ed127991dd1d7e39aecdc8b8eaed3395ad53311a6e36d345827f4aa57b64; 0x25c4ef36c767be54676b9031a9314a080797d0faf05ed50613409e12d6c36263]
  ([Nil; Nil; Nil; Nil; 0x4a50dc9b36d9d761a2627e5eeea17071e937d843201ba1bb6b5892d8af212b9; Nil; Nil; Nil; Nil; Nil; 0x2270ca5c92d750b1a68aa670e111ce3fc502648e8929cd5b950082ccc321c9d4], []) ([Nil; Nil; 0x1ff075e0dcd26eef701e8b21056ad7ac52fa3846b9a2a70961368b834cde7f4f6], [Nil; Nil; Nil; Nil; Nil; Nil; Nil; Nil; 0x9d1f35a291605bc224893bad78a7c3b4c828c8cb21951196dd709ba8d519e6be]) ([Nil; Nil; Nil; Nil; Nil; Nil; Nil; Nil; Nil; 0x4d956e6332288b7920f30f782c36e3bb81a672869f05f05660513acb8dc2360e], [Nil; Nil; Nil; 0xe0f469229caeb3f1c332ce91559b6d4d43ce7e00b3a062c085298e35a7165446]) ([Nil; 0x1; Nil; 0xda480ae617004c6391b858e3d820a13251d9e0dd94c4199b348ad87e75871bd0; Nil; Nil; Nil; 0x1], [Nil; Nil; Nil; Nil; Nil; Nil; Nil; Nil; Nil; 0x3c15f9251e3f945f602a641daaedf45e23985890d6987f260f5e8685e94ab0b5]) ([0xafdf9aa5e203cd8c56699a900644c1fa60b606927b246c39f180a5c7b675544ce8; 0x80c5bbf11196697ec62a552bd4d3f944f6e615b80a04f31b818ab93e529b4c27b4; 0x128044024d915899856f4487c84f46779633c4d57286f6716ba06c4a56af0ad95c1; 0xa2bbb0642cdad46128b7e9083627ca3947479c791a4a75793518c8a31dec02bcdb; 0xfd7756a7113a4b6e6828673a1302d094e8ef40e6318994c73ed1c00d587ce01a44; 0x1467285f6eccfdaa9ceefe41e8b099e584b76f98cdefc038f481811d1b098f8c82], [Nil; Nil; Nil; Nil; Nil; Nil; 0x1e154e83519c63bc68fdc8b50439f01bd96e7998243d308b43b4185fafcc3ed843; 0x16d7c24553fdfacb56a2b0e01833b860c122e56352adfc0c689da1bc25beef3eb8; 0x31d23c5a5738b37b8c7d6a1a787c05644eb99054c5407d981a0c412f62aac82089; 0x1d0ccba958fa7c513bbeae601a604040f4f3c919c2ae36dc7e3c84cb8003a79641; 0x2a59f56f11592531f2f2592399065fba9b406a6f31e7a42fb1d15742aac89e99fb; 0x4f1ecdb78166d05d05bda94638e001f581be4e22e8994b7cbf1cd817a0a845774]) ([0x14bc178cd7449065cd8e135556e95fdfedb48ca84603c191a8c8e79ea1c984b28e2; 0xf49314f1544a4ff39d9f40f053ca12a560c9e2f928af29154626801bd89990f03e; 0x79ee9b3c40d8da9e5b9c531a5ca9ffb3813d23be1de01a53632eb772689b8d4541; 0x6aadd6b8c732ccf1da7de3029edab7bc204e8cdce57519728c2a804cbe522239c; 0x14fa792a2e70435ffe82060491ed29c809b44ad1ed3194971d823659df1f889c15; 0x9815ea6f7d59d8dd80323aacb8c2c5b656fe6ac72a125d085ba40238a4ba5ed16], [Nil; Nil; Nil; Nil; Nil; Nil; 0x3784629d0c0a8d5e4e03b6a481b9226d5c7e278801cf2ec9c5c91d8cff5ae766b6; 0x28d315417975cd56836dad58c2f6ca77b98f60c70f321bf43ab4b0ced5f9cca5e0; 0x1540238848515e98379b56d5afbf51e24fb32a95e660a3712046bd19adde0572df; 0x1be5d0ff89f0c7ad305744a5e2383f5f998269292bd430a064deef0e8d0791cc3; 0x4b7d1882766acef343dc5761ffb688ae0230059a0bebecd73fff85c453aa6f034; 0x249a4ea7228a5f19be12a5c276c721c13acfbfffefe876e09ee2e08b61f9f3ce0]);
St (0)%Z [Nil; 0x2f5e39fdba06e8c54e8b0b1399698a98a8d028519aa6b5f48168de5cbaf8b828; Nil; Nil; Nil; Nil; Nil; 0x1af2071ae77151c3ee5cb42e8b2bc999e312e0323bb7afd3c0a79b6ac2c4c063] [0x2; 0x1061475272ab76469c53aa2e817cdc4eeb1423fcdcb1498bab7adba1d84451f; Nil; 0x16270c9a05443c1cfc4322a32cefb0ff22273bb2d0d2516a33f5ad4a918df53e; Nil; Nil; Nil; 0x15724757f9c04e65c9f39187f6558ec3b46e8a5f2cba1ab97b78f0ac15b83ce4; Nil; 0x1472c0290db5404255e8237731941007099af6b8e18b1b34798b0a18d5ad43dd] [Nil; Nil; 0x44be75c0746945b16f20a1d014c39431166f5be1e4091bee0e374d7395dc4b6; Nil; Nil; Nil; Nil; Nil; 0x29744a4f76dedd0fe333e4ee4401b43109f36fae34e86c17cb8d3bffe009e7df] [Nil; Nil; Nil; 0x15015428a57ffac9e92f1accc70fc87f18aad1f5fc4e294073ff093be90bb0d9; Nil; Nil; Nil; Nil; Nil; 0x24735d7d410c939a665c0739fba884982c2c580e2c2e850b63cd8d10dd8de11c] [0x1fa0e0f2524cb40a9dc114c915ce8895309c82f84b9613dc97be3c78bf2aa57c; 0x1e2a8c3f4eacac99ad9d5e62252bb862e9861f88a4fe26d503ff20811f06723e; 0x1175a5aeccdf06e1bdfd57b833ebaf2a48fd2d3512f098067160468c77763d63; 0x2edb48688293670af157d00fca12136ec33ba96514bd5db7e4d43cca25ba905e; 0xf31b11126041b32c203cde92d6a2202b5736d55177346fba85d3d2617b141e7; 0x4054b9f7d93a3ef0e8ec62ad2e39bf4db90c14ee86ab5a89acbe77add8c247a; 0x2a808d71dddd1e1a8c0148e5fa40e0f3710e3acbe3f78e44db73a68d90f36d1a; 0x19892a1249c200cecda619253651642c997af947f4a80ee5565ac1f3f42a20ad; 0x18c0da5ad66e54958a320ec271ac5ae67f7b1ff092b2e9596bff63f7d02a5a2; 0x17ffcf4fbad2075fc9766ffd7f655ca64a2a54357c41d28a49e5bd30fbef7b8c; 0x7f3c2643a2c6964672cce33bbb2bf5ad7547ea54ee319e2f472cced52eacc35; 0x1d80ce9accbe9d9fa61747142759af009b876b6183160634929e82e5e1802ff] [0x70c5cb6d83cce46465c63248d7ce8fc60a2ff5ead4fcacccf46e61592f28413; 0x2288b7f840b050550b2bf6dc621ab0c7cee5741a22fbb80bcb107d98de4c6733; 0x12bc5c0208b82ece1ab9fa93195a9570ebffeb06d2f3cda5f21b62b693073214; 0x186c3582795eaea92d04f766f2c443d6a3d45080dc0976fb2cfb7f0a3910cd23; 0x3275948bad21fe6a0dad0726b297e7b995f83f0841098f8d412f12a19df201a; 0x16d5a2fd0c0745c266112cfca00da0237a238857cc4d6d9a4add3b0eda3927d2; 0x22b7baf0ee62b9adf12581d8d408200a7d4d07fd0863326cf9dbc6fcffcee7ae; 0x11a67b918b39ab113a708853b9bea7c8b3d98ca98895d889cf3d69420701e8ac; 0x189392a9da328cb0c836df981e49557bde5bc054f238e2afb5c59c0a7d0dd4f1; 0x784486277d79044d463887d638a00b0624323280db030e08cb4f20e305e7c94; 0x8efc5fc4f822163d282843ceead79cc704432b128d59a161b3137947ec41423; 0x105536a808d4e78a0508b4f2e1c5bdf2102d533d8b78e32353fb9d7a6202d2c0]
  ([Nil; Nil; Nil; Nil; Nil; Nil; Nil; Nil; Nil; Nil; 0x14964b7018bdc844ac558803f99b446dab961ce3dcaa9475174de184ff0894c52], [Nil; Nil; Nil; Nil; 0x60db60747f5ddc928fd5206288bb8f448d02b93f45eacf79e04d24b25ffd1e794]) ([Nil; Nil; 0x49fefb01982bc6393ee4c33950820e631301802b99d364784811c6122dd1249b0], [Nil; Nil; Nil; Nil; Nil; Nil; Nil; Nil; 0x142d12dff749e9d97e8f1a420b80fee1301f81a55e8c450685ef3a30f3ae006b5]) ([Nil; Nil; Nil; Nil; Nil; Nil; Nil; Nil; Nil; 0x104f2558e354f9403c2f885bce1e82d5d337fe870e0600ee4044d0b295d06c883], [Nil; Nil; Nil; 0x4b9ba0f85e6148b7b247b1d5e822bd21cc13298edbf41ec4574441bfd3c90c8aa]) ([Nil; 0x1; Nil; 0x2a6d45f98788ee3a1b43888aad1633b625dcc0152945bbe08deefb9037205bd5f; Nil; Nil; Nil; 0x1], [Nil; Nil; Nil; Nil; Nil; Nil; Nil; Nil; Nil; 0xc581e295ac4f7b37ca02a86fdeba8f41bad4da5ecfbaf0eb81a8b5923aa04a22]) ([0x148c144deddd0d7910dbaa9a04f40b2d123131edcd87e654fca6f995006d25391e2; 0xed724260b748349a3a6c587e764db874ee0bbc0e197fd16dc9fc171d9e7998e556; 0xe36c51ea6c1bbbd25a0a1bbf0637faa9db070597fd4e6df45781630362656eca79; 0x14bd5eaf1a2bc7c415913c21c1a187507ac647075cfe6192960ce2172b1269c6d4e; 0xbd3d5fb52565d33be53ea14766e5e8a6ad0d4ddcbc95efb8d600772172ccc88dc0; 0x105d3ace06a12f6e66a940e05837973a2112a02e193777639bb843d9a16f544b58], [Nil; Nil; Nil; Nil; Nil; Nil; 0x379f46ccfd9760bc9925a5e93e9c658876b03acb2068136bc349efaf4ede941d57; 0x28f97330345e3fbb2accd9cc72ab03f1d6304374b2f8f26337c19fbdd5a3b009a1; 0x270550baded5e5be022989cac9658a849eaf48aee9868a8596ec89c797cad0a3d0; 0x38221a1347c96bd27c10c848ea45abcbb9d902fe859939b0e178a818b62b1b5c36; 0x2065d11c538e3062e327ff718b43123c015d2a9599227c68de4ee4be74850dc91f; 0x3e27e427be00f5722cabe6ffb0891286efc9d1a78c0e15773f939dbfa9004875d]) ([0x49a0180dac9413227f25bf2446ae94264bf642f21d194732b4553963d784db885f; 0x1ca0975855fcec5cd2e1051d13bd3b669c192678fd55e3c915b0bcd67d4ec8149f; 0x8edf1e431e0944489cad08cdc5b92561e283bd5b324cf4b7df31f53fa4c1fa658; 0x5ea0e5f5c487433f4651ac9a3e8cc9bb923cd9360f5538bf5dc713b825c49b75a; 0x6ce28e9ff87fc0c4c01b6e2343853fcf60308447f3068f5be87abf76a367306f8; 0x14e482239ecad54f02f574fb4eb3c223903a65d8a2420acbbc9a11cd30a450fe1], [Nil; Nil; Nil; Nil; Nil; Nil; 0xcbc58afb7c910dfb2f263d678731f76277b3b036ff7f314a74b8f20a269593af2; 0x54b31a893e8ccf8627b8246ddf06f4b240f205c4f97a960c80a4daa669775dea6; 0x1c5ca7215d3e7487850dcfeabd5fda13d7fae503e4c04d06ebf18870d13809f90; 0x178346d12d67f3a57e38c0766594792b6b1d77e476690c2daecdea20cf3076e76; 0x1af626e2d749ccab9bf5fa13c1e9d69d7d5945f1e68b2bca6e7d9b38fd60cf377; 0x5a311929297a70b14819417fc3c5b41afa16b52b5b5e01e1dc069bbd7801214c]);
St (0)%Z [Nil; 0x176960a5c7a7a15ff627370bf5fa63123253dd85d4da5d76325efd0222f0c621; Nil; Nil; Nil; Nil; Nil; 0x267f02cf1956d1316a0e141e993c3c1dc953462cdbc0b4d2edb3b8ca4a4e2c18] [0x2; 0x18faedcd1989fec9c2290eaa8b86f54b652d8d0b93976d1709c18f14b58c3726; Nil; 0x5b2514dd16c47a191d453083a86236f66772b09baa782f8729bc5ad82ad104a; Nil; Nil; Nil; 0x9e54ba3c7dacef84e423197e8451c3fce2e24648cb115ba4e6cd34c8e2ed12f; Nil; 0x518ca7e750943d242de1851c9ea96ba591c0730bd7b8de6672196eabb21b98e] [Nil; Nil; 0x21e8da9869ad98bafd8b5cbae65fc71163265893476320e93ccb8400dc7c230; Nil; Nil; Nil; Nil; Nil; 0xdd573d67f9885ac28b299f3dcfdc4ef17bdf84456da1a210c4b442fce11eea6] [Nil; Nil; Nil; 0xdaa1e1fbe009cc06017d8c85034007649598346a43c2498d9deda0632af6955; Nil; Nil; Nil; Nil; Nil; 0x21563a51077fd54a47c02767446cea1e5ff47500023e14283a2eade9c2e430ec] [0x871e49af919cdb0b81f416110645a8f5658614af18371a883ed7a8e927cd9e3; 0x28fbc2d956b2c1c5246764f8f521d0dca182fd039d55a5c2b92b7884bdd27090; 0x2dee108b950367347993c2f2925bef2381223121983cf80fa479d87288043111; 0x224fb41fc62cf78f4691f0c81c0e1bf20adc1bba48ea69d37fe820759248f805; 0x1db8706d2d408505704c4c2c1dc7ed530f8f6fb038ac4deddc155468932f21dd; 0x24d4abf274c25655ca6dd1526543ef1374441348c925765941ce1451ac0274dd; 0x2380e15f7041ab17b89ab498269077501d49a1fa3b571c39e8663406e13ce956; 0x17735e6638f63262eac7e482e4e407be5e027dc963d61241bd5cb3c1d6599e5a; 0x1990ff71b82f2cbb67ee39a8af63e27914115eb0203a31728a0a030cedcea7d0; 0x1774de8081b2a08a010d5b183d924e3cb1892f16c8caf6c21e19b8a9a0145ce7; 0x1bed475cdd5f101eb680b5f8f0b6c9722dc3295964f1fd523b5c4ef7efd1879; 0x2d405cb860b4a3eab8332f6e2babca1b120d086c952211da28fc8567b6a5929d] [0x5d2a682a79797e07258e9f4bf9a9b3c5abf3f5b0d940c710423551b137e4422; 0x18085e5e6f6af4e5e39a09454815244b31fa55a3bc397f68964f0d9f65ed36ba; 0x21302ac58e321422ee07aa1eaaf38b6763788210e0fb4a5101ae3937fcdc76c8; 0x296e57c5dfdcdeef891af4a09838ed97d830cec56243c03a503e6bd61781342c; 0x1351b380d8eb5e1654fd89da9781a1bc178f583a0cee227bf4ddf48183c14f35; 0x6e0ed4d76b99d7ac42359c64aab56ec7556f48334071aa49c9e35a1b81b4b3d; 0x7e2258a4a4374a082679b773fdbc74eb53d7d5b3df823af419c3ccaab6aaa8d; 0x26cf861be6b53cb7cbfd4c082880b283bd9a0e7f8673f87ec6eb6e47a74d9ff7; 0x33b4f48c71eee93bff230e85021aace9ec1fa6fb374df21138023f73f8c6d6e; 0x2bc081b2e635ffd0d51adbd311443959d533ef8648095e7952cbc9a1435ada7a; 0x4e33021c2baaa8e09d987bd759faa8557eb333d984bfaaff3a97effb2dba12d; 0x1ffe57e4fd4f9930ab329423eb0bcb0b475b6af3bbc42ed2584fa1a412cca6b6]
  ([Nil; Nil; Nil; Nil; 0xf9f79ee81d2aa4e952d7a1380d088fa149a3a6390768d7c0724152f873e741864], [Nil; Nil; Nil; Nil; Nil; Nil; Nil; Nil; Nil; Nil; 0x33b1e3981dbb70180afa53c8dbea7729afd8921033192ac9c3bee61b03694b026]) ([Nil; Nil; 0x9c3d80cd168291729860a7932bbfe6dccbc3fadbe72470b01946b2287e8f94ecd], [Nil; Nil; Nil; Nil; Nil; Nil; Nil; Nil; 0x24c7b18a17f483c36004353d7341bf39bfc46f7b9553b6c5c5aa7c5bcbca7cb54]) ([Nil; Nil; Nil; 0x708ad79a75f6e5c1658904c7f0b912ac5346698d1b6f8d6749761a1e31b5bc228], [Nil; Nil; Nil; Nil; Nil; Nil; Nil; Nil; Nil; 0x19a98b0733d868b541287e7529ddb5870ac19a4fcc8d61d25c5fe01dbf9da0ae7]) ([Nil; 0x1; Nil; 0xa8e0e21f5a10d3500b2f5649836016f531bc87fb4c5443c4b40db2239af39be9b; Nil; Nil; Nil; 0x1], [Nil; Nil; Nil; Nil; Nil; Nil; Nil; Nil; Nil; 0x26910443a610a3f2078a608afb04960150f670f0e09a34701f32e7181ea947663]) ([0x9a360067718779895cb2afe22e1e65f45c7beac9ec01f2d05a0d7c57fff0f778ee; 0x8669d2389a6cf7d0313ade0307573fb4d87ca6c7d84edb5763704e4c922287c046; 0x3bef949b1453820c1324ce02f4d0de4d4f468f6364d3c13fb5ab3c980a7c58225c; 0x2f3aaa6f2bbbdce7b587d545830c02760aa69942ad5c633a7d1be9e315cf32bf65; 0x2e6a03d5985ce4386e134ddbcd58b048cb037fcf225dcaf3f3e3be8e05e6679cff; 0xbec42d50ad3ee5b638ad243badac63eb05975418b08f5d94ddd66db974b2e505b], [Nil; Nil; Nil; Nil; Nil; Nil; 0x1afa8c624ee2773abfe20d54f40212270abf083e52bee914f36caae6542e2543c9; 0x179b211b4bb512cee19a3fa47b6ed0826df1d980e2d4a9fe973c64eb64ab3a63c6; 0xb59cdd4b283195b2ec86226ce1c292422007f81098762d7d5beda88e7c8d8b410; 0x8cfc5ed0d414e30569678be9c5b85854ad922b571f9053a2943f60f81d744094d; 0x8b7242e9a7d83e186c3dda337b45bf61e6b3c821c9f00c352bb433bb872f27dd1; 0x2f7d01715e956deca04a8b915f91ab48ac7574cd4b01ba620a37735d2fcfb56c5]) ([0x4f887a4d4a99618743a6dea9c0e6034233603f9882efc70ea7226f9741c891e256; 0x46fd883ba2e62be8b78004219be2f152e6e7096980d5a7ea353788bd9c075a7ac; 0x1fe1b2bedb515fbcd5645326226d11b083ad115a3b77e129a2060c4152e635c0b6; 0x2c6a11ceef86321b97966381a79dede3467bbe306924ce8b54f61678dd90384ca; 0x23d529543fdeef45180aa98f4bbc028ccba6b0eca2f6857f738224d99236cc171; 0xe5536f9b0f970065358a697e1b7b6b07180459afb3a0b82df15c5fd7fab75e0f], [Nil; Nil; Nil; Nil; Nil; Nil; 0xdcb0d84e7a89edc09b14f248988907417d4489884ca6e71a997250cd416f943c5; 0x102c45887f175c186919e4ac7acacbcb3337eab014be7e15173ce9dd0043d4640; 0x5963d56bc7da8ccc31559246d2e5e744bfd79ea359f6507e8da63744df28b7438; 0xbd12b9878715d240ea237c65d8e59a4a6a06f2d9cc56246511e816092fbaba57; 0x9d0009d51c46990a47b7c6e45660601460849d6ac99d0e0ad19aaf94fd5f3668; 0x45b85ad0a1c522fb45fbd3364f5da9efc0944e6212a5e7a1b8c2ac594fa9257f]);
St (1)%Z [Nil; 0x2631a322bd72c1a25ad5ff5a85a10c1d9ed1d0cabea246397af58d2149f6e433; Nil; Nil; Nil; Nil; Nil; 0x2b2d961e785a41233ef3bcbe65c0cfe79da0c5e96652f8d5608849694e41603f] [0x2; 0xa32ab5023bede875d7a465bfbe04c3ff8af99c6a9cf8453c12afef58e861914; Nil; 0x2602115eda2d73a8d3c7c06f121b73d3ff754cbb73e876ab74fd68c0f82f6280; Nil; Nil; Nil; 0x536b85468d75f06795c88f81bc08875f9e0a4a8021ed1b7db9842ad8a3b9d08; Nil; 0x751fbabce9432dfcabbb962e71906ca98361303ebf4cefd707aeb944eb3dc38] [Nil; Nil; 0x2db88d198fc758d89be031f059e41bfe1aa0e5b518c2d2b38869fb0203ab98d3; Nil; Nil; Nil; Nil; Nil; 0x12733028b422e5ed8d848c4cf236677ad5f7187577d8aa36962e41935438062c] [Nil; Nil; Nil; 0xd8b4dcd7a4c5fafad4b20fccb4a49f286870f8ab3900213b884e7daf3fd6c8f; Nil; Nil; Nil; Nil; Nil; 0x81de7e746b2356ad8e0700df9880cd52b4cc5732f017e2cd666401cd710f6a8] [] [0x572a30a1289e69673f5de76f7a05a9ca9bcbd0dc470df6bfcbba0ee8b1e0a56; 0x2d15b7d80b6b15576f155db30506c38d736eb4c74591f00eeb3f0ea1fd65b671; 0x76da0566b96ff4ef67688ead0d391ddc477e5236e4c60339f2af84e2efa12df; 0x11cdee7706a520adc3fc87a31cf0d2a526e245bcd8f266bf4314423c781c11ae; 0x13af386aa2ba55fb5e49799a56c9af748bb67c225e4aaa13f793046850cfa146; 0x210d8d1d3bd2a3cd3c13f65e0c4b49ffcee09da54d48c33e9f92877a59df61b3; 0x9b43f51f490fb1853fae94500cff35581c6c8d76f55864860affc373e3bb746; 0x1d96bbd355d6f086081afc6b58b2e96746596cea6413c0441f43716c5765e4b7; 0xa69b637dbf099e45f5996f21bf2f9201c6ff3c05cad445952aa6017e4be7f9c; 0x1d212a41bb42dcb5e859564afb7e95826bbaeb6ea6a7e2013f72c6380106b56a; 0x2ceb282b690d74a2fa5973be722d53781a6bc991e4bc058fc3cc7aa642809285; 0x21228d4b1f83ca435b5400c56f93c2fa25acb92af359a265670c056c2e21bde7]
  ([Nil; Nil; Nil; Nil; Nil; Nil; Nil; Nil; Nil; 0xe3b84fb16d094f78d04445b3a29399e9fa676217136cc2ceb7fe66283ef8ec29], [Nil; Nil; Nil; 0x33f06934cbdfe6eb8763c6b8a6d61f7df11c86f4666777f686a0f732ece991562]) ([Nil; Nil; 0xc38fdc4ee2bc0a2517e9a70b7fa2b1d8842f45c5f8995e713c8dfe9edd2183706], [Nil; Nil; Nil; Nil; Nil; Nil; Nil; Nil; 0x2f9a06f38771ab53b01db5cab755f10e10b84947fa10fccd5950d7dae3aa8c6a8]) ([Nil; Nil; Nil; Nil; Nil; Nil; Nil; Nil; Nil; 0x74af928c0abe59e4d21201e5a538f5a8885da3bf854adcef4dbfc0b3411b82d1], [Nil; Nil; Nil; 0x12f54473c9897e11eb6495111f8d1c80f6eb2023d3fc8d1c9e254e0fae03e8411]) ([Nil; 0x1; Nil; 0x3f27b322135ba61213df32fdd327a6c95256bf8d6d9d483e24055980557d2e19f; Nil; Nil; Nil; 0x1], [Nil; Nil; Nil; Nil; Nil; Nil; Nil; Nil; Nil; 0xeafd5a41f042361b605bc762e6c17869cb5002345233050944679a7e850ba55e]) ([], []) ([0x4971de2025857a385cda5b751ddd6dfa01702a5cbd137cb49fe56e67038180e55e; 0x6b21452b1ff16e9048bb702a79a204837b96f93072a1979baca3aa7485a963823; 0x259b07762ec081ea59d09eed70513c760afaf1ff55e205288c831a0af072a4a321; 0x72c538288df5babd9eab3bb7ab834dcaecb177f2c767bb34145ad6aa2f44990a; 0x34857b64766c94b25fcddd44137d46b6def9130aedd1765178a73390da502db84; 0x3520a29fbd85d5c41822e0b0974f0086a2dbcee8343fffd1515b076566bdb5d3], [Nil; Nil; Nil; Nil; Nil; Nil; 0xd07de96de7c03e18d72997508528889cb4b95821a74f17fdf20b6d18b7e7a7568; 0x14d5e48750379427bf54370d9ac1a5acbbf076e89ef275c4aaae38c59a81c15ad; 0x6c5ae0285e74a56155e62beade3a532ce49af2f1abf3d4322ae54f50fbff87d84; 0x270fe16edd3d8cdc862817cdd9d76bda112f26ec273a5d58f48bc3e6aabfb88e; 0xee53e15fb06a5e6a1d10ead9a8620d3d6bb161d2232347f0117577e72c1f497b; 0x1cf2a4abe2f833b0d2ac5188ac90484cf3ae4a89926436810926ab28dbc76b97]);
St (0)%Z [Nil; 0x9f1529b1599232095d18d0cd8df98719ea14e56882c4695287f874146f05750; Nil; Nil; Nil; Nil; Nil; 0xd1342bd01402f297888fa8b2850a0c555adb7438e8468b937854c9c00582d36] [0x2; 0x2672fbd7cb987d09227eb8a9a8a1bfebf8e01c3ae04583f813a104d5918ca5f7; Nil; 0x27cd15df03ef64776348d84cc00b4b14b31a72b639f1c801d2044dca9703ddc9; Nil; Nil; Nil; 0x23510bb5dff171003fc74b2b5930b79841d3b34dd9ed61d4049b3f7ad824d011; Nil; 0x12f9280ce82487248592eea593ece446e8b2c83bedf4af2df7c13d6340069716] [Nil; Nil; 0x7ccd0c56366f084ea8da9cee5c239f17e86a782fe92294ace3de7324c30227f; Nil; Nil; Nil; Nil; Nil; 0x12b58b82f4e9faa897fdc6435c14844adeb0382f8d66a811c0d17e0d2c107718] [Nil; Nil; Nil; 0x13dd16c5ea0d3fa074bed145845482414af9bdd48f29010b10d5931ec3bfd38b; Nil; Nil; Nil; Nil; Nil; 0x698002b5b84944dbf96524a48e3bdb628e0fcd646dd5679307c79f3800749da] [0x2270188ecaef7ac35660fafc46076989598ecd079fe74af380b3f396e786f71d; 0x15bbda5a5383f56cfeb1d68fcd89527a01ac4e7feffe61c9d904f13ac2476f12; 0x1632f980d0e1474986dbe3c72d8436cc414b6983bba443064104c545e3b157b3; 0x40e752b9fa0b0a0827bd918f21b89e2f7d04c86b57137275a9fa91af1fba66d; 0x2cb8247d1db898b255cdaf04f98a2291d6b4e6ada502faf8862fb3ce517fd90e; 0x7349cba7cb92380b6753cfe59c11339c11577fca2bb15792a188fe9fe26f7b5; 0x26b75469917c77b9168dcf3d39bd5be00e6826e85907a8d6213875dff511498d; 0x5651016f441f978cfc7812682f7ece9cb4c3ef8cef80028404a17cc60d6d10e; 0x393efec6b2820e91dc6f7666a3fa42e2dc9705243aa41ca99825f4ffd288861; 0x1a295020ce4edde409dea8716fc4f5fbdff4a3ef6e149c3c8d7454c69b1c3e4c; 0x1c7294eace244a64e52d4af878cfe70ca180c47a5ab4831cc8152fb7445aaeb3; 0x17a1f8e5b25468d3abc034079f5cd3c7096cdaa5ea6a754a84af0c7088ca6e3b] [0x919c0a426c05df708bf2fd7c75a59f937d7b56f719b7601145ba60244ad247d; 0x186a5abdea5508d73ddc6e091a7c9b473586de35da7e5edaf864636b5ac80dc0; 0x1e175e6df1e7c69e31c6dd5b712a3c06feb7438f9add663db2d9433c536daf41; 0xfc66eedab8ca0b7a764db2a64f1d3a45107940f773f0a99edd354541ed305f4; 0x294138519a5e076e05be3df082ad007931713f0438a31496a7e247b9d972abc4; 0x5a562a5fa05545fe176cc8f6edb372e45c603526aacfe5193cde4fde4fdfa28; 0x168d278b08f59d7bb61228cc3bbcae64f8e559f28150eceb8eefcf325442aea8; 0x11728358dc01efe2d5097e804b8cc844087223f18782a39bde343a9b005dc0af; 0x26188fc161cce642b971a466d1826eac6d7e845883737839fe23329615f6593e; 0x10b124fea87e395d476dcda0768bf7c4724f1bbae8f98db73d0b90dd01a9dc61; 0x4960f4cb2246144e773f4dff9d23851aee7f8fcc53aac8db915d74b3552ba07; 0x728ad68764b2b7cc514cd2b6d5604a054d1ccc0a14af6550459f4bbaaa39f54]
  ([Nil; Nil; Nil; Nil; 0x4debabbc62349fae8da58316ee25223dca4c2a91a28abcabaaec6ac15376f8a13], [Nil; Nil; Nil; Nil; Nil; Nil; Nil; Nil; Nil; Nil; 0x18ad53becbfef2f4d8addf9db98dedefcb89f423444dfd2cc01a4589bbef583fc]) ([Nil; Nil; 0x11fa6f52e5c14bdb359e39758be9965967ecfa5f3d034eea1feaab2ddf4acffeb], [Nil; Nil; Nil; Nil; Nil; Nil; Nil; Nil; 0x44f6ea22f0703dff9de6697d69103e69ce39ec7e4fadd3592b93e2fd97c699e8]) ([], [Nil; Nil; Nil; 0xd88c54690a3bc81fd600094ac75757fda5fc3b6a4087a37395ea354273c511a; Nil; Nil; Nil; Nil; Nil; 0x8ee9f4875aa76802a8fb04ad520a1ca43c5ed2d780e5135e77d5731c4613c6a]) ([Nil; 0x1; Nil; 0x18f62243f5a84ab19ab9f7a20a0fea68c0c261af83ee4a8d7ab597082e4be2bc8; Nil; Nil; Nil; 0x1], [Nil; Nil; Nil; Nil; Nil; Nil; Nil; Nil; Nil; 0x69e03c546531a2e172618fea3cdd19aec5030f00b6722ceb1ca5e9fc9ad9b6cc]) ([0x1ed84f2477c6af14bd82f03a5a46f5d288216c10cc6b42448450df80d17275ade53; 0x1a7c368f253f1a861bc3870ace9f1c487de6f07b8b708a21c5422abd2ea1d4204d6; 0x1fd9e096f5e44a2283616e971bebe12c539763c99cbaa637989adc364ed53886784; 0x186b45a441c9e1be0ff4264443a85191e923e9e76073b0f882c224e1cceba7d0de5; 0xa30ec5cf981a5ed65ea2190f69868c89fbd0687d020d425142d56aca3f418ad0e7; 0x19ac60026131d204981f4d456f738ea21c7ea7940974adba14af4be2c1113437e3], [Nil; Nil; Nil; Nil; Nil; Nil; 0x53d83b44ff10d5e1ace8ced61c84a4543ef71ac74f6188008751cce70e9308bb0f; 0x47555a45b11e59cae1add430010768c32d08130b25f1861f20a27aa2fb398bcc30; 0x56225594ea1df5317727c33809ae1e869dc1a95eff6506cd4bb0fe8f9cde13412b; 0x4258927f95be8f2a388f9b2a5fd10d4eacad02553f99643e5d46e8a647d5dcc97e; 0x1d06f2a538951f1f5636a9e5fd49520567d73ee7d8a2cf5781be49433a69ba8e90; 0x63eb1677cd89961e92e31ce3d8c2871c9058dcaa58e5983ea945c41f148b7a41d]) ([0xadae669dd48522d736b514fd74e66ee976b214b68f4235e34b4ab315f1ab1db541; 0x565ca00813750b9f9555d6ef9de81c32e8d0090dd98c2ee951d485a689a96145d7; 0x3dbf702c4467e60c084d75fa69e32fabd79f1f68de34f037ee003bb82099248155; 0x584e271f62d1ade8719bb4dceb4d126ef2cfca5662b215c6450c62ad3e4edb222; 0x6b5f237883d3bca38653642a541b12f77738f0a1fb6c0ee9670d2fa269ff0d7cd; 0x6e3a845dba7ee7aa403f50077481f9136ca80ea341c6e0e129d30b1ef7f02b3f5], [Nil; Nil; Nil; Nil; Nil; Nil; 0x1d59bb2285c5579964991eda0a12f6c79c1af6839b67f8f3266465537c04523728; 0xfc532a82b6a37f1d9a0c20ca13a686a0ca12086b68d2db524959a426e7f1c4e89; 0xab3fe54ea579e686f7c0bd99dbfed17a00523a9d63ddbcf241d71d1d02ec92a61; 0x1809fb3628066ca8dc328696713af2e00303d1079487e7a8940fc2bf9cbbd437e; 0x1a272511226324b23cb206dc1cb5f552fea3d4581207d39027f5b9aaf07bfdd36; 0x1d1d655f85dcc697197789eb66fd988ff224924c055f74dbe4c11738aba70641e]);
St (0)%Z [Nil; 0x10367df5eb45cd09854ea7428145ea5682acc6cac84e7774ae5200003e5231e8; Nil; Nil; Nil; Nil; Nil; 0x1c9759def8a98ea8d99b6637ee9c73150b503ea420ef53907af71803ce3ca5ca] [0x2; 0x202dd07cf5ebd32033019e74003b6e0714d4a3c6a02353188dce8c169a2acb5f; Nil; 0xe505ea699f7df38dec4fabf20843b50248b1cd6472dd2999262d8d27643a274; Nil; Nil; Nil; 0x13ccf493e8881180deb4df7e92e4e5488c312bed478276fcc12974130a40577d; Nil; 0x67e7fa3e3035edf1493421da067a42e7f3d0f8f8752a12394b29d0ba799e476] [Nil; Nil; 0x9492eaeb5a254c807ea467d0f93c58494c50687aaaf8d15dae9b400563554be; Nil; Nil; Nil; Nil; Nil; 0x28149dd593791501b775058a6b14e9c0f9f2955e2e2d93ae51d841677508df19] [Nil; Nil; Nil; 0x1a0267b1800298cd99b1c1830427b594b21c97c11a1df628270b7d300748f87d; Nil; Nil; Nil; Nil; Nil; 0xe2a93c7e6fb37aa9cc73a432fe771da144143c1d387ae71b564274fac9470e] [0x414fa5623381dfff3bcde9d63b3d3cb42c1134f80f13c4e517afcefaad10f43; 0x61fb719afb3445ea1266d698918bdea31056404501be733182f8d3d3181c5f4; 0x1aa1bbc308e15a1615d458214bf98c7dee7851bc7bbd43f7f3bb7927542f557f; 0x15a0cf8c3f6c56f9f9360bcfb1b4ef9c005b9abab75d3cce55b95570d2f407e2; 0x2f8c61fa35e625738fdeaaa4c80ee56bc70983ee21f0d4a6f4feed1b5a85c671; 0xf8502e13c40b99cbde1691057829a9ecd7af8f7c76a6a3d6f0204f7ffb6bf23; 0x2ba6ee9ef983305512732d2f1095b376d1410861e5ba050bc17d9f3da1daa6f9; 0x1d5b2e73200fd4b429d34abeb91a376e89dd3444ab554319ae246aa419850246; 0xe5632d3f7021f7ebae670e0fbec5a6ed21bac7db82a27d19c199e197ef8dcc7; 0x2961be31c4cab5543f9bffdaa9bac7e41387bd38fb55d037f8326df24ce139f1; 0x20cc6fe427362cf8ef214aaf7eb54b9da5852df0d611c61336fc0e9ac0050648; 0x45abfbcb09af19c5232b0ad1476204a81260870f83347cb1b741196a3a6da25] [0x46b13dc7c2a12cb60762bb36a8802e95152edccd654ab108fc4fac387f853f8; 0x192f90437a34ec1c140e54cd2d0bf761cff36fa5b270ab32fd4b540694dac14; 0x101079f63286593bc2dc82ae717ded6b7253821d8ec4ff3ffa176cd7aac06767; 0x2fd66423458a8e5fad5fae21950e544b98489b1acf77afe59bfe32f62b2e2062; 0xef606407674e95209118a415fdd5242adebe8441cb143eb16ba157893fc1c9d; 0x14cc9f6236bc4dac59cd301497356a725c04d089e3dde2da74c5694a47f89b78; 0x304ec9e680a91962cb7583bd83623edefecd4934c9a3fd99bc43f0a4c4f80d8d; 0x18c63d67384b39fca1cd38af6de52fd9f8f30a86eb387b80ccd63b3b04f111b5; 0x187a50787fa12edb81003d9312614fd068b229225655ce16f3938e8726525512; 0x240324e6bdf27beb5373b4994ae234196d10b04f0b266f631d25670becb77c78; 0x8f81754770c7c3732c5edc1656bb54c8147a5598665fe2cdcb8629fa04f0a14; 0x22d96462a348ab93017e04fa4b0295d865b7c451566a5dc2aa2792ca34294d09]
  ([Nil; Nil; Nil; Nil; 0x47e06354261c43c9d1525df91298e3a387f1739b801b878f207e73ca5603543bb], [Nil; Nil; Nil; Nil; Nil; Nil; Nil; Nil; Nil; Nil; 0xf08de4cd76316c664b5255d7849222497ef595b8f554117c26813fe9a43950fc]) ([Nil; Nil; 0x563c04154bab1de8ecaa417f4e5c29361ae18c18e7ed3f0495968e43b892eb85c], [Nil; Nil; Nil; Nil; Nil; Nil; Nil; Nil; 0x14338f7b4b067a47264a2091a9e8bdec5bdb20e61bdc06b613d0ffb34371b82a9]) ([Nil; Nil; Nil; Nil; Nil; Nil; Nil; Nil; Nil; 0xeb51fbf3447d0fed691957915810f4cfed991712340a35dbfe2990139ea2cb76], [Nil; Nil; Nil; 0x40ae6354f9ca0a5c5705e3f35d0c710e3c7eeade850d572834c6d9b1d23a6eecc]) ([Nil; 0x1; Nil; 0x387ce25aa983cfe249e67520d2c545917e4137fbaedec7ad8822eeaa497501081; Nil; Nil; Nil; 0x1], [Nil; Nil; Nil; Nil; Nil; Nil; Nil; Nil; Nil; 0xd1d8bac6900242a43e97b683c6599f2047a24ef59834421f745fedc63bf5334a]) ([0x89b02fc4f68d4f6b5b09e881bd1876976c3fbbe29812d7f4aca0c5b4018a0234b6; 0x682ccfea07700e09f6e6b9b0fc20e64f8050b25eac8979e31fddabca5077b95584; 0x3186167a10fb94ead8612faba22f0fbcfeffab907009e16fb217fa6989ab63fadd; 0x19b775eb22f2b6f8c251393c375b95bd718e8ab83a40afc95522f1abb93f188b6e; 0x1546b8ea9642c506d6fac68853414311931d61f4e46c71ccccebf4b8ae26fa3f14; 0xb5dfd45d7b2c07a3ca858546249d662b70a38683beda5ed584d95c744b11e1421], [Nil; Nil; Nil; Nil; Nil; Nil; 0x18b0e1282c74b6e20a12b17834ead46c883438fd1b1dcd6912ce8515e39b09bef3; 0x127fae6f03e28dc8d974d744f6c1f653a3f292b250f6ca75812469f6d839816dc4; 0x98e66fa2f318c3ba9fda5609cbc0267b1d9f54c40bd108e2bec97dd525748ed4f; 0x5989916fecaab8aab2b8bbc11ba6b71505fea0e2f307e27e1e7038c5fed033aa9; 0x4d437d86b873a1998478851596ea1a53cfb210f244121c2bf1846f651899184ca; 0x2e49dcf9432a678c931194792dc867e75d9180988d26f1c16c9f4d2839ce3a96f]) ([0x321a883f1d9e745b1f1c587c1c9fc0e6e2e621abbb9c92949f5932cf0c0484c61e; 0x243d57e28c0c6c75fcec5973ead51262fa6d1d06986ec324c1363f9c62f47ed9c3; 0x847d185d512e44794465ed91f204536a0853215fc38cbbc43b159d0c1e09f169b; 0x3ae78ebd4aa7041d0f3d0d38276b55d7f2adecaaaf9947b012597c00020fedc95; 0x69f4cd191fe28718a59e813b7ce1482a35dd0d30717060bd1c179287b75e8fe09; 0x4c2bbb43cd88ed0a324a7e70f9bd9f0b36117571e4d40bb1114fd67462ee58d8d], [Nil; Nil; Nil; Nil; Nil; Nil; 0x8b6d10cb0002e23d41952751debb481061d440fdd6c123b0d6421187d8151e474; 0x6b8ebee8b9e057d61858b5ee2a184fe35042bf7133c467f0da62e583d4553f039; 0x1bceb3d6369a9415911b9c6c69a7b39d2f0c6d2680b5d5a09e03a0fed97c06916; 0xf4ed42a58005dacbd01f37b547938413044c98861fb81f09e8389939b240bca2; 0x1a590e81af4e4bfbbcf841fc3bd92a33c484ab437d2ce7b0b2b5b3275d4a1b1e1; 0x14546d476ce4f5f1134444cf1b7e75d14565f1b77e0a8ad6a148cb5aa89bc3d40]);
St (0)%Z [Nil; 0x2bacaa83860ca0ed461056bba42d9f4fafc43ec60ecb6795c3c45e81b7c98c03; Nil; Nil; Nil; Nil; Nil; 0x2df4a03e2588a8f1e69dd725ccc4f9dd537fe558abd7c55a134ed405b4966d3c] [0x2; 0x4b7a3ef5b24ff3c723feefadd53b90de7bd2bcb59a662f7785c2d9520b37144; Nil; 0x275ae051dd2869b7b8aef785f704be063563b3307b73155bf737564df3975788; Nil; Nil; Nil; 0x26fae34bba8f737d1b26e90b4bc5e8044018538bc9a053328d1b81123e6900b; Nil; 0x2b51c831d3404d5ea88fee5629b91721f2ccdcf779737d4a87fab560f3d811c6] [Nil; Nil; 0x268262c65d5214de9133b1d9abe5c8cf60ba87757170d1f7f915737067e1cb30; Nil; Nil; Nil; Nil; Nil; 0x22650d3bcf4fd3ea4599fdc45817c4272e71166a6a94362f8185f2c432a99686] [Nil; Nil; Nil; 0x1934d61d0c78809fc2e9361194f26ef18ea22fc285e15bc3785594ccc0c4fafe; Nil; Nil; Nil; Nil; Nil; 0x121f7d2b8a395ce9fecebe1a51a7951c216c9b3092cecf7e8423fa3a535956dd] [0x23a1ccde4d606968979acc41543716f362027e69b40437c88db1e0b827762b6c; 0x4a6e73ffd96ea01227ad757b66d6b8c441285e8c29212a70f3ba82b7672b305; 0x27876eeb57e4bbef55362659c0367d5b46c90be53c72dbda5dcaecdedd9444c2; 0x151bc69378a4b0b5b709795377908e3dbb6c1ac3192310ac7ec852ff6e39d9a9; 0xa8318b1c2f5cf045be40408b3eb9cf7addf1e06d56f6aa2cb30044872bd0151; 0x2ddb630fa254480f941b90cc389a8197296301c8f3dfced223f38fcde6e5b6b8; 0xc3fd22b659d119839a78c0cc7fe01bfb4b1ddc2ed10169692f274a6ce841ab9; 0x93fc89128331dd263e1a8ffbf14266337d72c4da73b5f16193ef2e788a098cf; 0x229bf3ad53646b1074c3fe53db2e66534daa558ef28919e89e830db37c1d480a; 0x156e442e67a7586e4760c38d49e69aa6c7cca47ab1da5273667fbb739a072410; 0x6619e363caf1325ca4b3858c107ac43980394608e82a4bf4a6992e11b9ae185; 0x23c6e8d0ba36281df4e2b50a4f3ea4b0fc61221036161305550573afda53ec88] [0xf21452752ab7f40a9a2df3bd0d1a96dbbdcb679892769f980ebaa11c508c148; 0xa3827f6861294d88c715ab1b256dccb7c784a10e54ac3da2d39bcf7da0bb5aa; 0x164632f244053413f75de6d7053e45591384a3713518c1c80a57f1fe6e3711a3; 0x2a2131cc9307c98e4a7932a6c997845f4ec04e6bd6816c38f742c829ba3f5d9e; 0x4081a8e5e837767c32685fa6270cce1cb652cd5ab4c2b3e5ad4209df100f8d4; 0x1302ddc317d243146a4e9deb7a13656a29b36918953487a95f554ae0a5d0c791; 0xeb9c0335f93150cbf51abd6c42cc31f6c03098c402ed1fb257a902b497aa89d; 0x669a4314e02641c29a586671dabdafec0e58ee869426f9c7495caa782fda744; 0x2654827beae2baa4f2601815b9a171995906162f38af238f408e11f136794075; 0x1316b33e5a8256e068fcd091e3f935556977b0ec50f3d01bb26413b4f39dedda; 0x29a95b09d2c071ccd8611c011defab7f64a5271c5b6f42802539881f0af1af5d; 0x9785e7aef40426dada40b91fbab66c6f5cf7b10d596d4a8aaf81d1e157d0337]
  ([Nil; Nil; Nil; Nil; 0x1f861908d4296ed33b0406e7f3a698333a66c35ad9977dd210debcf6256d86fae8], [Nil; Nil; Nil; Nil; Nil; Nil; Nil; Nil; Nil; Nil; 0x6dd802d33a0aa6533dbbaa81a76e004a98e02f1cca6d0820c197347a5fe62fff2]) ([Nil; Nil; 0xdd33979cdbd3eb34d56b96b400135ed1196178c8cdb42a330dfc14281c11a69a5], [Nil; Nil; Nil; Nil; Nil; Nil; Nil; Nil; 0x36481c3325f688828bb9924dc2a715ed20a2d4f2e9bdacc33c36687f5a402e1b0]) ([Nil; Nil; Nil; 0x1d52353b91578417f34e54580090e39a84ad7ad96c200a3aff49d53c4037232bf], [Nil; Nil; Nil; Nil; Nil; Nil; Nil; Nil; Nil; 0x4a923e6e6c7951fdea8053f4b46866ef928508771bf20b8af5d92d905e805fd2]) ([Nil; 0x1; Nil; 0xc28c2e75ffb5b7ad98a34a857ecb37cd8351ac12cce8163daa3db0b6c124da725; Nil; Nil; Nil; 0x1], [Nil; Nil; Nil; Nil; Nil; Nil; Nil; Nil; Nil; 0x2da1ed93baf6b5c38e93aa86a70b3214512fa89026f776de15dbb7466327f4d51]) ([0x1d11dffbcba4cc6e4843aca9bfc1abd5cae4d5cb0b0be9d50d10468c3bbd95b1592; 0x1430a85294a089db9b318cbbe1493fa09edbbd2a713d11b2dbfa7c8243e00558c83; 0x16a1a98574bf21895b8c35e7960dc57f6036bc88d99b2e9eb1816465e09722c7ffc; 0x72df7d2faf5bd6a4c5598ec298dd4d1e63015b609417d192f9e415e168f09eb98b; 0xafc305305c1ccea54024380a793ba8255d54e1daaf0db696944e5c88c742605a24; 0x24c144503c0f0e07c9671488889f0d85334a8bdd091abae5ffb3b7a4dec7a5f0a8], [Nil; Nil; Nil; Nil; Nil; Nil; 0x4f713e345928047f1a89ebfe9419ed6e89e9e73ad73fbd2f110a427026c9c8c399; 0x378ae2f8b711f4da1b60cd8af70dfa1eb48fe6bb9bde1bd7558ef6e039831f6263; 0x3eab8579d4615d01cc1da7a94b50148af15e9c40a2375365e316cf6ec8fc65fdc9; 0x159b26102d9d8f97e1414ee0af3c4d376c81132a1b9c2604710bf3652756c4b23a; 0x1ef984b31488985b84758c121931bcdd6067027be72a0290eb94af21085677ffe1; 0x8a190885a3db4cb808a5162b7f983545535c2df8b42a9a96d00ea598d5e419a7a]) ([0x867c983ba9926561e59e4c0fef60043881a3acb5471dcae0a2bfc9c87e53602374; 0x25cbd88d644ce4d0391517fd26ccf477c346d52a36a4060db270847e05ac740976; 0xcf456b2061c2ab66b37c5c5e7959e15f1fd0ac0bfcf43ee3ed959cf47a39d3d453; 0x3f133a8982e114b66af2f90907d73862467c9d136d0f42d7ea9c8582e1f0f56f4; 0x2f990272b3c9fb81a7c51e542561a9e87f5eb741a13e4f9d152d28aba5944f4d6; 0x9e5a79b7293ade5584612d0ccb12a5efd46798dc27bed434414312a98656d1705], [Nil; Nil; Nil; Nil; Nil; Nil; 0x16e2514d9b242ae79057a73e529d8436aacfd3438e8fda7e7c40e398cc7c6f0e6f; 0x683d8791e560aaba44fae4525900e566a60805f8bf9c24886c36023ca0210c0a8; 0x2363f3a4dc4fab2d7141da7ee219af6621380c6e6547f7fcb9f1b6a7d193ce7674; 0x113f63833cdd6101a3f87070496f76e00037a893589bef5acdb7b1a0aa54453c4; 0xb74aeaf8a1660ea45a24958ceec637f8de209effae5b78a6c68a04ce76a90af6; 0x27422045ec005ca5e3ea435f34a17345625c90007b7003f30a5cf51d7eb226c16]);
St (0)%Z [Nil; 0xfa303e1ea0f916df633db093bed1a55e2f69720e11b4b482a3e8a0b161b459d; Nil; Nil; Nil; Nil; Nil; 0x289d83c69d492a4fcf5018092bee6ae3c33ef25b9de84d201903324309ab1120] [0x2; 0x20c14a90f7220ebbc21c6aad45943e07b48ad37087567f4511e2020bc261b7aa; Nil; 0x3680dab7dad0f3a2b1231939fcfeba06c528ad8eb2cda96f86b44884beed879; Nil; Nil; Nil; 0x7c6caac43e875d9e9002dad5592ed79d4427835ca897d6d231d59d3ced1ec27; Nil; 0x10121cbeaa7909c6842f9ef3b5d54ce207a99255628c8017f39fea3bb32c802a] [Nil; Nil; 0x2786f17cc2f089d5137df7e6deabf75f95ee05969ca4c74eea0cb2b856a43f8e; Nil; Nil; Nil; Nil; Nil; 0x1797a5cb471b7487ecde79a99036c0f5923ff47ea6d4ee8b17fbc344e594e0f4] [Nil; Nil; Nil; 0x1af27420dd17f1321011c88f6215b4ec5db1a1187d9a5ea9baced96f554411f3; Nil; Nil; Nil; Nil; Nil; 0x2c7d427fccd123d3d06d96342d99c8a02d76f940c3cf8b0281c1418a6b092d54] [0x1652399cf0c2f808c04f2640100efc24d05ed9424a1c7ded3fe28a22d42b911f; 0x24b082387b6c382f5d6bbb55a861eb92ca5c403956925fb7b6de5839daf7bbd8; 0x2eb2488be117b61713960569efa4e6ff19373e9e703c01e8f4fedd2205da2423; 0x2d953f63f1cfbc1aefa2bea11009fbdee0002bb6efaa33a9cf852807acd6a35f; 0x183aa5f4147d35184ec6bdc1feb3bb576f0a4e9d2c7e16cd568ad58b9917f264; 0x978a3947c3c94891c0a76614c713eeda247f5bb2b1587ec66f2456203c44b64; 0x15e34d35607a4c04e5464dfd9577d8238e5f95bff308275966c5fb28ee597e48; 0x6c19a21ddf369114c84ae10f9acdff5cbecbcea02336d4a4705d0dbcde67b2f; 0x1a07efb5ec0c0e39be7a03a81fdad7e206535080246e4f3f1862eec7bcd00b1e; 0x19c035782716f2b3060f330f1825a9d2feb6fde1ee27b7115bf7ec002302fa79; 0x179014f56d5a5d459747e64f8d27d19696fb4e5d5267497cccbae9a2e6a00ead; 0x2c52bc17a77a1c41643a5927da0eec2ea4e1ed290d6b41aac760b1d7cbe6d01] [0x1a11f5f2d83965597ef9532847e315887f6ec93e6069f06ce6fe50aeccb39ef9; 0x562f7343f16bf93fb45597ef0c124dd05c37a6e49a0d37f30b0d9e99524ea0a; 0xf9717d54cfec316eb16a4e029745dffcc8e25c01e0a5e74b0f50b83a28024ad; 0x47f290dd2e6fafe7998c12bfd5c8950f6e547c863c1a3636aaba89d8ed7f75b; 0x72ecfab75f4f32353461442c7f55fbe3169a0e72ff9eb8795ca79522f6bdde3; 0x143dc5cc0bdd655952183746bcb77dd6089804b84d4280ebcb7efd5dba2e1737; 0x19b0c8109475e3819f576ce2be12c3203a5eb6fbbee3c2f003d5365f68d574ce; 0x228209dc97d1b0284d40915ea5e7be061e53e0fd9a79ebec539729a40e5e1f10; 0x266a1aadcff612c86a45fdcc3cff029b79761d516b657899278de97389db550e; 0x2e29573dd29caf22c88bbed1d99665b202e53a30c8f754f42de920592c80c4ec; 0x4e16d45d3f3db9cfec6c2828e75051639868d85795798c90e9c85f9c24f0b76; 0xf20782ac84462572be2bf0f98e8a44e69fd5e6c335e2d6693c67297655623f]
  ([Nil; Nil; Nil; Nil; 0xd7394bcb223548265758e1a63d2ac17c197645ec9a4915c2267dfc2e819e8803c], [Nil; Nil; Nil; Nil; Nil; Nil; Nil; Nil; Nil; Nil; 0x372b6b09fa936d387aa20894ef9cc01a91a901a3d950eed18cb1122371a98518a]) ([Nil; Nil; 0xae63323e4a16c71a5be28d7520f9423aaf200ae348d85cef10065aba08e7ae5b3], [Nil; Nil; Nil; Nil; Nil; Nil; Nil; Nil; 0x27fd70510f30801c3041af90d01aa1fabc48c44c6dfd79f60d3eb52ae8dabcac0]) ([Nil; Nil; Nil; 0x2e7c6a89bd93142c9f5dc0149a4ba118d01870f8d567138194194d21d0150c9b1], [Nil; Nil; Nil; Nil; Nil; Nil; Nil; Nil; Nil; 0xa5d4ff37a6d4fa6f03f5185a06ca0478c575c259a98295f486b6f3d4a4c0bc9f]) ([Nil; 0x1; Nil; 0x932b18efd9125ef5a051930b884318be957d8bf10acae55badc4e48b4be9c32c1; Nil; Nil; Nil; 0x1], [Nil; Nil; Nil; Nil; Nil; Nil; Nil; Nil; Nil; 0x2330cde72fdf6d537e6f5be8019eb9d34beeddcdde2c237fccb0e46b1d695dba1]) ([0x1d3b213c2c5f5f17b8cade06f642d86314c3e00e311b0087e878041f9fc91aeeffb; 0x139eb487fc55d7314bb8312478f5436456c2e284a1262614e52fc6b3729083133f0; 0x10ddd61c970b81233d359cd2832c4e7f612d560a154b47eb8a78b062e96316525a1; 0x6fd76721c6dc8e4b19eb1981b26bd2f0f901e62cdb81806e61d950047cf77a5411; 0x206a94d8c40e6e9c5c56d3c4a505276e7bcccc16972f3edafc17a6d58d0cd8828f; 0xedd481586632d5514da7539369bbe345e97d912cf38ab2835ae96b9422f6de86c], [Nil; Nil; Nil; Nil; Nil; Nil; 0x4e89c205d3bf58178cd911cf6529766209aa7bca6a3f9cf888d73344e1bc898d36; 0x35b789ac2879912b01294dbe4ba244a4d61580a96a1c41d7c6054f6438c5535739; 0x2da8866a9316b65f9cd5933ed5ed4cbbbf6a16c0cc341bd328be190048569cf216; 0x139a85230160100996770166703628bf1f004ebc4d8b85ef3c88e4c2762aba6f09; 0x6e6dde60a9e02dda685b156db15fd701afbb123182e437feeed25f931dc14b79a; 0x3c7459182112a9bcb6d3fbfdc479a2fa1a4348206ba3a5e17e1b047e6effcdb5f]) ([0x3a63f8badf8e5de1726b876771e4a6f299f5ab5593d410b46e8f245029ba216f4f; 0x314b051342df4eb4ad4e5897910c6c9db8f53d59ef34f4ad2e29c4d77f4cd8602a; 0x69ffc766bf78cd1f8013f91cd35adf3d1d4343ea0143e3998b5877fab64313e95; 0x389e3c83b16287f5f61b0495503e6c535588cff00a22947069524b8bb81ebaf04; 0x1e9e062dabdd78385073f6ec2a999839eea694dae40ae3210f8115837f8a54f81; 0x3e7ae9686ed0f67909902a92e90229e72f957d8e0e143690793a6d6dd59e6f4f6], [Nil; Nil; Nil; Nil; Nil; Nil; 0x9f92249e90025b819e1748c86b285890a9e1c920842340bf86fcce6ea1f7cddeb; 0x867cae7f4de63ac32e8d426360b2b972b4948e8d1c125a9d1b023b7fd7ac3605f; 0x13970649fff10d54bd717a8a1c2bc141df576779d9e2aced1a08b4ff7818da048; 0xf036d9d07bb841ab0551d707fb42e1203db160b55c17f5c805730176083854ef; 0x9849ed9fe50012aef544de65feb7508711ffbb3ef41ad0e8bfcf84d2ed216648; 0x104f25895a566736593f5a69b2249e6f18b3043c7b34f04c10b79870ac2290a5d]);
St (-1)%Z [Nil; 0x19e3c20b55446de49905f471fdd8e99dc1734ee307d29092b63f60efbff97e17; Nil; Nil; Nil; Nil; Nil; 0x30280734edc7f5449f52f9aee35287d6de69bbd0954e826da7e617763b851150] [0x2; 0x16808c678bed32451f4a514483a86ebfd60e1bae609f39fa85e12b2718837f30; Nil; 0x18b0adbeb61dfb9a0bb73cf4cfc8f74c3a08e0b1a9e6e82273dd9e643b262745; Nil; Nil; Nil; 0x3c473df369aae518fd4c079e2ed086b917aec0d323481f943a74a09cf7ebf7; Nil; 0x1a812f9ea4c5824e0e63eb8e5397e0998417186a86077553bd0cbc907700f558] [Nil; Nil; 0x20f972b2ddfcd131fb63a351439654506c0b6398a4488385f7db2a8265cd232b; Nil; Nil; Nil; Nil; Nil; 0xa761d5671bc3ecb7b5cad04bf6f02388fc26e383c02d1acb221693f88af6a85] [Nil; Nil; Nil; 0x6bcd6cca42feab68f3e09ee0675671787fb42336fed8db0f6c1c00215d88d91; Nil; Nil; Nil; Nil; Nil; 0x2a341de157b273ea124b7077c81260c81010add70dd8aa734c306b72af65c74a] [] [0x1e5f0118cae3b24d2280469fd4b65c811df385b4c2c888afe99dc24926c696ff; 0x14ab15893178b599ddffe51c5dcd1c02eb7da7fdecfcbf820487ce448007953d; 0x27b6aa03b3efe7b12dd354c72b9686076d0e227836ce78bd23561accaa6ef621; 0xda4ada9e8b63772b97eafac7977c4e4fd1645ea51470eee80b2c26db4ce8660; 0x213c825504f05d470409d873569a760845868f481767d1fbc1d148fa2280c0fd; 0x2c30135680b4904b7d5e3021d1f1ed1589d80a7f7de4cd159fa566d5ebda7f52; 0xf1dc0a790414a1f8043e7d2f5fe48683a66a1c2d53d021bb318800ef4ed1131; 0x222bcf447a0da2509f68d993933e93c1c017d32b76c4c105f7ceb8be541aa274; 0x7d23aa0271428018c3556bf432c52166411a43f9e4ba97b01d67bc4d7cfb30d; 0xcc8953a3f0cc7de006f955ed2e0e9dc095e2f9810e0ed607eada0b508cf0466; 0x2f02af6acef3f3d148ea47a4c60a4ed968cf48698205952cbf579ad825b9cf71; 0x2f6372ac6ed188bf65e7691b9f1736b3657d9204224545a44715345d93da49fc]
  ([Nil; Nil; Nil; Nil; Nil; Nil; Nil; Nil; Nil; 0x20ae77301fcfcf84cefa834c4cfcc9f7bda5793d725e0a763100c71b9c2d9506], [Nil; Nil; Nil; 0xa2396aa032396964c4f96591d267f866ca72bbc76019098e948af7a50d9fc509]) ([Nil; Nil; 0xf4bc1ae605c487d4862251b4bc552af63270602bdb94a43d89d0df02872ac82aa], [Nil; Nil; Nil; Nil; Nil; Nil; Nil; Nil; 0x3921fcb8289f866272da9d74dc714432f83d4c93ab534adfe25601e9d7c281d33]) ([Nil; Nil; Nil; 0x42bff06b6856c0e493592f7ca841b1757251a3152b5f50ade76772ab03c882889], [Nil; Nil; Nil; Nil; Nil; Nil; Nil; Nil; Nil; 0xf8c0eff34868a5777cf9e65067e54eac07c92192f746cee56079fc1e687f5a7d]) ([Nil; 0x1; Nil; 0x77003b23b63480cbf364a0a934ab50d05db0abe08cc1ecfd2babb96529acc8f5a; Nil; Nil; Nil; 0x1], [Nil; Nil; Nil; Nil; Nil; Nil; Nil; Nil; Nil; 0x1da8d9c4285cd2382cde4727de7630c16fbb91b70e889049c4b590e93aceb44e0]) ([], []) ([0x9a4df2a175838c1594c421c63ed254b34a8037b97c079ab84e3e3218b771a1eb9d; 0x1176762080ae93231001a419a682dd8dced71cc664d3d9a71772e1ceecc16046cf; 0x6bc32cd7ff45d97aff79f1499d6fd62b38f8a1ca59a4836178daa6bc79daf8d7b; 0x47c97ff7353cb9d84e321e1b84efc86e46ce903305edf1eed43cc4c698c12d517; 0x61b67a88a1c7ab85c7ec37176757fa4e9fdd95cf5733f80084d75bbe782137a7b; 0x6b3edbde0d952e5cf9b5f37169332b74518e19556c7d24d141fa992aad4d98e21], [Nil; Nil; Nil; Nil; Nil; Nil; 0x19d14717a8fa8ce9b7bac48313022e353a5b0bee7dc994c73ac1749a3c877a33b2; 0x30c85c9d2e1c179f6f3b6fcdf1bffb5b0829d5ed00aa13ca0851ce8d0d1798126; 0x16af8949a0f806aad6c96abfa21f4441b434f4ccbaaeb552aa1f2bdad37ed9262; 0x12df76f444fbb8ad04c2b6f6b5dc64dfdc0bee8b6653439284324058bce5604a9; 0x1824ad736dafee81b1d09921968b919b726627a599e1e78c92921238893e07490; 0x19996e2d7a7894d2ceedecc33a3c598c10995167dc83845cd92b24a4db79c92df]);
St (0)%Z [Nil; 0x1488af893a9f1d06aed8072dc5d657f547832cbe5841dae9cce34f63597432ae; Nil; Nil; Nil; Nil; Nil; 0x23f97fee4deda847317af5815ce5bfffc5a6bc97b3b3f697fc34d64ba053b914] [0x2; 0x1bdb9ee9a692832309783e88bbab00684ffe3dd3102fefa36f3d3cb37f08ca99; Nil; 0x209a65bf424fb70684fb1b212119790b1092d3bbc64f4539f7d8efa03ef82; Nil; Nil; Nil; 0xc6ace849343f7e286d55035249b985dd1daadf9b4bdd3f53febb5cb38294433; Nil; 0x917c640b4b9627ed7f37a1008233b74c4894f55758feb5b51caccff9da0f78f] [Nil; Nil; 0x272183ef27f40bb17b75e4a87fa4cc6c49d662288842fb1cc2d29c4ea789dab4; Nil; Nil; Nil; Nil; Nil; 0x26da5b8c8052db41930534c8e71400d580273da1b7dfba43dee004cecb99ba20] [Nil; Nil; Nil; 0x1e356d572969b180ad901d57cbb00b744f88bcf5674aba8abd6c61cd9de988ad; Nil; Nil; Nil; Nil; Nil; 0x27c72e56a653ebfc5be54262321816d8a35d0b16b6fe603a6e338ce30bffea6a] [0x381019ec3443c1e30feedca7217faef69d105ca4c6f0973ea92f82b09143ea3; 0x7161d272a7486d97d38e45cd4bee83d741806da61dd20b1dacc8f2152821f8d; 0xed07b2ca76f508aeb09370d00b2c170347ba91b614f944353aed070216ce37e; 0x2524cde380c807e6f4083387ec2f6e3a6ef8f311e0479778fc39ad5405c71591; 0x136437650eff7f04f04afaa0669125a7be693ebea32d7ad522d7418b28f8c82; 0x2dc706203ef7896b1b286ea4d30b4e81b0097366da051a0cf014f286dbaff71; 0x71535ab55ceae0ecceda3db3deeb5d2eb8fd58a72d84649382916c3b39a0594; 0x1f3ee1ce12265468213713a5fbfd65ccbb543d6cf6303d07f502d2279a0a3db; 0x1ca419af93775575dd13e0045a3d6bde806006bb7e7294272cfb04c30853acd3; 0x1b090cc06e0d968ac5cf6161c461d5851311ff50c1687b2cf41ad3f9d22ae44b; 0x1a9c54b527838e66ce09e1605e3b33a67f468d522f1339b713f89a2fb4c93061; 0x2a7aeb8d7eaf03cf63978df7c6b1d47a29bda3454bd28aa31634bc90e422b331] [0x20faf967b32b48613f3a3bcb3a4e79511d3f4580c677249009bf7410dbbed77c; 0x2df464aae7977cc601ef4f214558e591b1d72530004bf5a08e6f0a9711a3334c; 0x1f4ec8838362b1482d53b31365892221b8e4556814bf3e3052a71acfb4ab2416; 0x1682b2574fdf490a2698f503f518b466df241778fa5e0c83249cd01c444f5a0d; 0x222b24641e737b140a35406fc05f6d1fba41034ef826bd68906d58d9336ec8d8; 0x29f03de98b8d071fc4f0eba38907c739150b171ba9bd8bcca5da3c7bdd548910; 0x161a63287cf0d5788710a51fd5e63e33bd3708e6d6d1377bb7b1caddfb2b54c8; 0x1791714f21b6fcd54e923535a865b9a24cead758dd31b67a6fb4131ea09404f8; 0x1a2700fef5be9195a5e3b16a93f129529c0ca8c5c2297f963782f8e98867af8f; 0x1dde59ea3ee2bf7bf99ca061909720e173558bed35c35bec3935e6c8dafa9dc4; 0x303323691ef7bea57f7752b4878ce7552351ee56e1166d33093b41ce65d5ece1; 0x147279ae383de4bb357ef021650dfdb302a3c8f98646dec075b47f5b46839dc3]
  ([Nil; Nil; Nil; Nil; Nil; Nil; Nil; Nil; Nil; Nil; 0x3f2699b0b525264f961cde33c3fc83042d0b3b6c487edd3ffa5e683d07363ed70], [Nil; Nil; Nil; Nil; 0x122ab98ce69b35012e9b08e25c32123eb4643758b6e3343d04c39c99868425d68f]) ([Nil; Nil; 0x888437f0a127bc906244a4fc7084d5709c196cdfe3a41d06dd9134fc1d36700ea], [Nil; Nil; Nil; Nil; Nil; Nil; Nil; Nil; 0x1ffea4381e2ead00438b566d3be18d37d51822273a45014d0eefc17d91187d5aa]) ([Nil; Nil; Nil; Nil; Nil; Nil; Nil; Nil; Nil; 0x18c89eb49c0bf92f1134f255d766b753f5ee2cc0d061ce2d173461c050cf48c76], [Nil; Nil; Nil; 0x6c01c2dec64eeb5ecc340d0254793c8b39476540e059472d01a3f02609244c984]) ([Nil; 0x1; Nil; 0x26fb94d8e47b6dd6e3b04cc24beb77e27460fee12773413fd253b745e268c3f97; Nil; Nil; Nil; 0x1], [Nil; Nil; Nil; Nil; Nil; Nil; Nil; Nil; Nil; 0xa8f04dd09ae8f1f91772e7dd47606e269237be3979788839cfd29dcecf1cc407]) ([0x22dcf153b9519fcb91380377e2e2eceabe4d493af00c7354b5d59167649ef7abc7c; 0x119dca4e82d0d2995b7997075a3a77939ff39f0374e9ecf78684569315885f04b11; 0x1c5729e7e94aee98a0ba3100fff05cf5c41e8fb7b81cdc881600b96516f179df2f5; 0x24918e12ecaf0cd9815149504e5c121199fc6b0750a65808c741d8e9f90403fa2b1; 0x1368a134c6d93202ee7da8c0e8d02f7ec94ecb3302679e73198d1d76828520d0cb7; 0x1fa859bf3e05f1f2798e3e8809494389c318ba61b73c368c3c0f58843d0bfe25ad], [Nil; Nil; Nil; Nil; Nil; Nil; 0x5f869812457c63727aa8e731d14595876067b35b669dcf732394558e5c726afb92; 0x319b4b09cac0aafe0e253c68c939e845bf45643164bcba104ef56f19134c20aac5; 0x4d6023379c52b0d22e7ea35e09629eedbed6e58a721a3b62c50976e3cb40fc3170; 0x6390fb1ed9c82017db1f2ce3eb3fdfb0b3148fdbdef2b0482825110293c39f8f61; 0x3603874852d6588f9ac6902f7b7c1f7671ceafb6be1c529c92942136c2f939e991; 0x7d1e72d12c553227d1a9c4c9dd108ea5ee4593e96d7ba5e93221b5b7eebcd63d7]) ([0x667106cc1907c01864eb20c8a12f3518c2320691b86eba2f692e9d616b3a1a8fd8; 0x1d7a4bbdf1fd3e701962e34af10a1aaf5babf250a39821948d06f1abd73a5f026d; 0x2e57307a9988c9c64eab57dacfeefb1cd5199f32bdcdd4f0e2816b6854b5e62d63; 0x2bf3cef1f96af1d379b5042dedfea7fddd9334bc52d1070c2071eec9855fffd27; 0x2418e4a57432280b80c58ebe8a3dd74bba06a7f083266d48d02add45019c9c49b; 0x3e88301f0268aa0e6145769c13f8e4451cd63217bc288b4fe8e2e4a4431e62120], [Nil; Nil; Nil; Nil; Nil; Nil; 0x115ffc138e1592322dd09ac89db1676284a13aee79475686169b3acff398be64eb; 0x4e3e8d96b171856321874aba18fc9c08b25c3fb6c1a00d8e2127d5c42e857f043; 0x7a16c997b13167bbdafd049de82ac36fa7b28b3a851da61a7e7c8f6f65ada42b3; 0xb130b55dba7112a27dcaeaf8d3d868b971954eb7ab86346dd31577c23905485a; 0x9de6a4bae6d28e87fa608e5238298f615f1e71cc17f3ada11aa04a9aab2057a4; 0xee325515527cbce15df64c6002dec7757951b729b5d776a481f7b039625a886a]);
St (0)%Z [Nil; 0x9cd3d695324f81512552f23de76db465f52c0e8b8483b1469ec0b617022c59a; Nil; Nil; Nil; Nil; Nil; 0x142111e6a73d2e82d708fde97241095833ce5a08a943be83a6fc90414320753b] [0x2; 0x269711098e0ca814a5fb1692a30a7d17382ea9a8b0298f78d23480b5685a37ad; Nil; 0x23d8a0d9f8a2c54f3598ffa9691a7540526ad940f06022d5716c610ebe71d189; Nil; Nil; Nil; 0x1c433c8c39f471a6e14747cd0f404f0563b31088bf2e0c099523fbd5955c880c; Nil; 0x147b550afb4b8b84be78e5a416d9665be64806de9bab496952559362586725cd] [Nil; Nil; 0x170264e3959988114d145977f5aa7711efb3be90352dc4e7d9d8f430b1e16f96; Nil; Nil; Nil; Nil; Nil; 0x180712dbec8a6f99afba1fbe8f88da616a64d1313bf27a26764de2696b840831] [Nil; Nil; Nil; 0x21a1cfd28d83b4016409499588d6819cd74ba20f045b9e68a6a89bbc441ec511; Nil; Nil; Nil; Nil; Nil; 0x2dbf4481b16962eca771d96905da405c723cf37b14de30eadec3d55f4737cb39] [0x2c759aab8921ace61c5056d313b02f351bff9491595418222a954fa69484085a; 0x2fd53be1709c3d067917fbc9f10e642017e994201458fa8101c8b42f87b956c9; 0x257df250a06f174723a288190987d02ca327db1bbcbd0f12d6cae5ea99473e06; 0x132f6dda5f9a13e44fdd3c41f9a30e465442023ac6976ec9369f59adc478dff8; 0x12fa348bb0b4c803d358958c806c302a3000ad7b5c262c5634ade6e0b3b7f4b1; 0x16d4c560e8fe2f1c8b9801cc7419d706b64a9d5f50a4413687b4ac19ed51fa7e; 0x18f053f2b9a487e4bfc3c4ed2e3876cbee16d689880e1879730ffe578117f5d; 0x2abd75cdceeb10bbd9727be27c3fddac03fe5cb9e922c7ffb4081b329bc9704a; 0x2fb5b5f30a50c5d052306b235543255bc379adb9d12b49903b6119068fbe2cf8; 0xc1037aaa264ada3907ab833f66579360878dd9bf10725ed4c01a2fb5d5e22b8; 0x192b43500928e93d878018ece79d0c795cafd556ef61d8dd9feefe3d4d24ebf7; 0x261c8d7fa0eff3886a84c18bd63dc86ab9576073ee27c505717af15c01ee40d2] [0x9b697a884a75e3bbc6c8a6d67caa38979637c71bb6384768dd0bfaa68dee3eb; 0x2dfb3965e22eca103d4fa7c45e20976bbc1f380eae394e793e5f36de0c771235; 0x2ee9afbccb9e157f1caa90c34d358a8023c99d913baad7c0287f85145fc7aa90; 0x1581ef7457ea566a2c99ab7d8735fa6161b32ddcaba36f597cef481d078f293a; 0x269d5d1467faf364f00704123921ea72dae2236f5e5e2c6923d1b053b93c0d70; 0x295379e732256769e30c07230122a5b9ee1f7deb843a00b00fff762197c87b89; 0x3052900b923c6a36ae9b981719469185fe3e321f7a38057c98b392d4f94e4475; 0x2f1cb7affa0e55b1227bac9f76bffae501822048ed2c8155bf4a66588747207b; 0x29bc4a69d713b3d1053db57a85b7dca41d6c1a9e3d2e4104bdb8835780859501; 0xe92bcaa7b9baf399f3012e667465ba94dea63daf566fa8640306c6208c50ce3; 0x61c3c5ad13c38a73ac7c013480d80b89ed5a171f43d46da4460b7887f4477f0; 0x2e3cb648b269ccc15791436442aeea50d6ab019477aee00ff5e0b6c24493c9ab]
  ([Nil; Nil; Nil; Nil; 0x130d8da40f78831d7183c3a0f4135b76406cfbab39fbc5daf901d779b1c8889624], [Nil; Nil; Nil; Nil; Nil; Nil; Nil; Nil; Nil; Nil; 0x4d417f7fb22f8ed67a432d11c4ac7e1a599563976dd409058b8595f8524a174ae]) ([Nil; Nil; 0x2ac9965c84d5936af71b388dba7b9bd10f54e2ad590d94143c482e6df642787c4], [Nil; Nil; Nil; Nil; Nil; Nil; Nil; Nil; 0x9ede336ab0a9047e0697fd445064254aee20c7c7f508edbfa7de09a2106a1acb]) ([Nil; Nil; Nil; 0x1f66915ffee27f7c8777fb68535a354b7994631a80358943695da2620c609ea34], [Nil; Nil; Nil; Nil; Nil; Nil; Nil; Nil; Nil; 0x78b5fa3a710007506515721e10eb0b5fa26c622deb036f1a967edcd45c5c12c1]) ([Nil; 0x1; Nil; 0x5254e764f8119e440ff624325e182efd7e2c39ab8e1fa0dec0e7ab10704af6ae2; Nil; Nil; Nil; 0x1], [Nil; Nil; Nil; Nil; Nil; Nil; Nil; Nil; Nil; 0x13b0d220f505fd981479d50e50982cf901d3279a0cb30ea8975e69b712d938113]) ([0x24edfde88b07f90f285502b4caebb066fde27df1586ef84e1279606e3cd6853e4d6; 0x20fff71c485311fca46f58aab4e287b73d4ba7f56e7d19612203a8d232f2406a78b; 0x1ddcc80510be9bc532e40290c666e12843803bc2f0cec7cff0279c6574a6e80e1ca; 0x11f66e5493c3f31a65772a9f4149a6e08445c6ae7cfdc64675b9bdf89e5714ef5d8; 0x58afc69a791439af486f8b42bcf6043bed6362387c537faee890fc2760ddba39fd; 0x1ec58d9dc7ce570daa29754f794a766aa0d88f6b0e034d251f69122ad99fecbc3e], [Nil; Nil; Nil; Nil; Nil; Nil; 0x6564d074567e86dfa866024c0faf41fe52a9732c5400749fe4ddd65f85a48bc220; 0x5a7191469372fd650f7dc84d99f6bbefefd97cb3c9ea31b2b36f80315732291eea; 0x522a9cc743921289548bf0aafaf73c3c2023f8c1e966aca1760216708b21116e22; 0x32e7038f7b7b44b0d61beede688b480df4fed9f49cb8092d2677971e7282a10074; 0x11c11d263c2ffd1e6c4a6011f42ae02a9a76d5733621f2064231492f74b79e775f; 0x7e0649631eb8caec7655b0da8899cc90e74be5bcc19d067dad9a7675181c0314c]) ([0xb13df43fd4d11d796f45d28c4aa210b7d8e636766da040aecf395ec76fb40a844d; 0x461e12b11a7d39bb378da2fa70380a7916227a147d145951af8bbc1fae3b641ecb; 0x70fce61587440bb4c577d23ba6f9fcfd5a69b351e64d3a671e03d6abebce4f4f71; 0x8e423913e23f4dbf57629e42816119a2188a33bb6b2b3e258c3c2ab0d7006c24c; 0x7da593ffbf631f0646dedcf5d3b681697004304a19edd76ac2e91c53647328cef; 0xb024ca2a19293aab9bc2150c15b674b0bad335879abccc417e32deed6ae376b9e], [Nil; Nil; Nil; Nil; Nil; Nil; 0x1e44ad3c792e5c18188337e1a5c2a85cae346263571e7f39f9e999a19b2ba623e1; 0xc2bc8c61132a5694028886f4b5b74dcb6e72e35acfe095ad997af770792ee87df; 0x13f9f59b19d3396b8cd6e11e4417d5aaf6cbe38643895612d61b547e35b9a95c89; 0x25158ef05bb49e6ee87ce493a6afa3a6842de86641b61a0cbcde1fad6e597e0ca; 0x20d297793428a3b793095ae97a3e93721dfceda7070da373fd12c45b22dfeffcf; 0x2c66ef06dbd52127031626f56d01b76ccb460d5698b68022805ece9ccbeaf78c2]);
St (0)%Z [Nil; 0x2aa85b37c4a8dab059f20992e3f988d0a5bef9580e277a43a8ccba9a4795c4e5; Nil; Nil; Nil; Nil; Nil; 0x10ddd4f47445106b805257d3c2bdbc344a15ce0dbd4e81e3b4db192e11192788] [0x2; 0x5bbf33b1c88c5795e5e3c239d87cf8cf1c271395a4a50499353d17c90e73862; Nil; 0x2ae66c04deade48287c0f81d9bc77f35054ed7bd436ab7b7dfa089176e3e6440; Nil; Nil; Nil; 0x1f86797e6cec8fbe37fdede2bec39c294d6b9c83ab2348a9874572e8c763d5bf; Nil; 0xb38d0645ab3499d7144cd3520ac2e1be320413374207c17f5c8335183649f77] [Nil; Nil; 0x19eafd4332aaa633fdb6d95cbea076f947934f1cf2c6ade95bc71a9653996f0b; Nil; Nil; Nil; Nil; Nil; 0xf66c12ab6034e08438c9ab7b846e4f16c04adb16d4d70e2d320cabe625c6c38] [Nil; Nil; Nil; 0x2654031bf80d61a43322cd45e7e1cb59c482f089fc89cb08bc9cc1db5205459d; Nil; Nil; Nil; Nil; Nil; 0x16ce84d1da6d742ecb47611a464e9a4b087fb6dad89a195def461ce1cb3a542f] [0x2588a5d99f6aec55180062679e386fed3a456827cf0e662861e3c120b9f7dff5; 0x1d6e29ef88896ec4001001b3b8ec7ba6b740df161ca1b084f69027346f82d96; 0x1cbcd88000a1775568ee1671a304b5c617f3e45d5e9477eafced411cf90a26a0; 0xc2615cc7c807937f797b0cb3badf9c20eb0c8b2e7a47069d1b379348c6fb164; 0x17a806031643933f930a0c14099f5a2e1c7fbb5e2bb536ad8aee2615e1f392ab; 0x48a46f5c119033de36749ce5a4b01e64a17a58a92cb639e9625663d91dac93f; 0x2adcd226daa21c0a284cf56c146824a700cd52b7d68e1061b77767b748b8bb72; 0x2fdd27bc1e4de4cbaeec6473a96ca9a5d798d7943d65eac6ad7c12e34882d0bc; 0x2e0f56fff6ff957cb8d432c2c9c294788311dc30f2b7f8e1d29c0b31521b0eb4; 0x172ab8a44af11cf8ce38f9c52b72058129017814c2877b3ffacd080d7f43bd74; 0x1d3d94c2ddce4f635c8c55c4aecbd92d191e97854c37a69a0c8fdba1e30a75; 0x131bfbc742adb9582a412df8194eb9d2d5befad00f6a1c98878658965c9aca29] [0x8d07b4bd2befb245d7b43891d15f7afc049bc7ac4951ead398c579595bf6e03; 0x10d66f90ec1ee34fcbfcbf0b3eec3af1841c088cc71e642eaea8e7a8cf39518b; 0x271b0aebc916dfb45c2fa8c0fbfab0dbab6315cf966b2b45de5b10cf69243994; 0x16e833b657a032f341bfe2beac4b0b257242eb41e2e985ef766dc54ad03c3ceb; 0x30e1cee18f3d78fc38556a7bf8f613f42e807e4be86363676ead045940c3a58; 0x201975104f8c36aa530c021dae915dc75ca857a2fcf2a823fd44b01425186190; 0xf4b32ec5883b16cfd38a3a4966069aae2d88b586b71ba0200e3b7268a9af692; 0x664fef1c983f9aab47fa130a60bc98e4f906f6efffe9efc2b329348f31555e1; 0x1944bfba3795d554b89f735ff1f4154e57d44d239fec702e21200e86ba97fd38; 0x2c543556d8e58b06a4dfbfafca0e1f4d65589f7b7522ba564b3c674d5ad6c379; 0x23c8905abe9327d4a8d53dec7f575e1f3d925319f5728b96f9761ade1674e603; 0x16e2cf06476cde1f56ac3bcf79ff8716043dd12f36bb5d07682575cf31240016]
  ([Nil; Nil; Nil; Nil; 0x15a609e100e1a98202a0ff3d4a47680ad739314308962518d546f89b9d752958c], [Nil; Nil; Nil; Nil; Nil; Nil; Nil; Nil; Nil; Nil; 0x22ac8ffb4513eacb56d7a007eab1b9fefe90f8237f4a39e44a6882e6daf25cf0]) ([Nil; Nil; 0x1bc72d27c8b57d3fb39853b7a0bcab5e76a40ce32e77af8a73337ac5065b76a32], [Nil; Nil; Nil; Nil; Nil; Nil; Nil; Nil; 0x878d529c6df8c1ca60bd81b54a0cfb62dcdc484eacf3e4f484506bd52e1a881a]) ([Nil; Nil; Nil; 0xf91ae95b3f2b425705c369744d3251558438d8a0278665958cbe530b29703ce1], [Nil; Nil; Nil; Nil; Nil; Nil; Nil; Nil; Nil; 0x3cb5891c77b44f883c13ef2f5549976a62d119d04875534c403b2c580f131c5b]) ([Nil; 0x1; Nil; 0x29a6f76d5779402c6b5c9a8b896528f514efe6c89813a891408a41d5aa10c5335; Nil; Nil; Nil; 0x1], [Nil; Nil; Nil; Nil; Nil; Nil; Nil; Nil; Nil; 0xb3f176b3b0e4561fafc37f9fc8f2cf65aa959dd6218b39a5abbbdcd04c93f1f3]) ([0x2bfcab4e9d4ef0fcfac184d4de8fe0824afa90b2058b81dfcec922f63e04939b926; 0x23bdb50f9d7972ebde1453f232b7886a164654aa3983a4f8beda2743945bac42fe0; 0xe66b8aaa0305d636161b23765eaaaf2a6681c84c67a932535680acaa5cef3680ef; 0x81457f65465d28e8057dcf9b61d41eeca88e476757cc0d57bf2d61c99762853290; 0x130243e118b3969e020877645ddc7691a18f3e70c300828b2857278f54c1d73ad8b; 0x28ed350d0c5046ca105f9d2c593c00e192581f6adeb3e18fe30b1d407e7f41fcb7], [Nil; Nil; Nil; Nil; Nil; Nil; 0x7995f494c4723e10bffc286a7eae29db13fc8f5f834f3d74094ea40e8fa92c128e; 0x63b32913823f5ad94c7571d42b747e0d79b8f7fc7cddea613e18b24b8ecda8beec; 0x2a82e1688341063c13ba7042ac05b08ab8c59aec5d566d3f98d467d0303b0d288e; 0x19d5d60863c093c031596bf759d4d00a4381c0925df89b8770f1065ccaf171af7c; 0x35bc5b0038eeceab58d4b49dccdfc8a59df7e5f929f241beda3eda1aa3970c9ef6; 0xa1606e37e15eb2f09877c8daa7b053ee5bd1258197d51900cca8afd6b9d9fd709]) ([0x6fe78496c99443d3a396164999ac37bea848f0a10aea27938a226220dd782bab75; 0xade7e73cb1b77403fde047b6c5dc96abbe61e62ec3f1b8b571f6228c8734dbbe1; 0x294cdd7f590b8dcb14f33fc9de78eee0a7825ae08176c6766ddaca6e6c099a9f82; 0xca6e1b1af5ee2be7fdaa0451b33644930ba42a2449e7296afbe79e6770792a571; 0x860a7d0200345f463b1fdda34cdf165ec2e6dfd1b2a769f82145315c5adfd1816; 0x355ad8b98df1fc440bd6f8d14f012326ecf9da1d18a3dff5c8be2df5332ab5876], [Nil; Nil; Nil; Nil; Nil; Nil; 0x12e6718b27274ff70321dc0e52aff153e5cff61b5663eebc6a5505246475e018cc; 0x294191cc70e74603c859c8261bd4360eaf7d6d5db7e0d89df7626873ba1d1f74e; 0x7b070e6ce5f4f27c4e0e331faa428379420d51c610643b8ddda3dc6b7d38aba46; 0x315e83f094ac250e236158bd3cf7619f0c7e0b9dd94522e8133ab023dfd773342; 0x20cf85e3497f0937e7db455c3f437b447032e6790ec86168e8cdd422775e964d3; 0x10085a83a5f1018486e571cff51fc1c4214494663112d0100cd70cac4a905135f]);
St (-1)%Z [Nil; 0x5ae887303486a190bb3399611ce54510ab0af79506335d98a77df1beb83af2a; Nil; Nil; Nil; Nil; Nil; 0x21c91fefaf522b5fae9358c8eaf26e2fed7353f5285fdce362f7a79b89c49b5c] [0x2; 0x2ab5c5ffdde93610ac9d0c206fb3040c8cd0bb18180e94b3b1a8acfaecf94e1d; Nil; 0x292a5ae6fe7ca8754f4b9bc93ac5374d95bd78c8ac7cc56d83e093b92e92eaec; Nil; Nil; Nil; 0xe9b2e8331df74ca09bceced968eea2daa0e169c4011eda9d928e47b4eb861eb; Nil; 0xe0da83c6cdebb5aa5fc8b7f7bc6abe91c90ddd5e3b55b05bb30e23fa7eba05b] [Nil; Nil; 0x2f39ef95cfe62190d9e3ea0a18364e0581d8662e702d85411785da6320f56638; Nil; Nil; Nil; Nil; Nil; 0x285dac0cb11dd4a6b105914a72378b964db97fd9dd49bbc5e251fc8e65852b3c] [Nil; Nil; Nil; 0x3d3d7f825a1007d33b56084063808bcff3ec2063ae49d71d31ee36fd3665aaa; Nil; Nil; Nil; Nil; Nil; 0x2116fcf294ce184a93ee8f70c903ed6cc5a19d1d8a1f0467218994e157c63f36] [] [0x102853b4fd8db2663a109a36607e01ce98c02c97df90e70eb16f5c48928ea388; 0x183545a0f09ddafff2f541678affd344d6a7df80955b975c54706ac6612acc97; 0x1262568f899374c979aaf299e61c6d60c44b3d3eeca94c236a4ef522d8756412; 0x2dc2f5e532eb2794e3b60d36e58bf9b0a279f901c7c13c2a2ccbef1e49492aee; 0x15a173dc11ef49affcddf83e43b8c825b8db0d7a05d502b6e271934b03f71830; 0xe2dc69c4c8ffa70e04acd31dd91b6d316a8cc1d6f69a0f62e1b9d2665c1f260; 0xc78c01e6149a7dad81e18d2b4844990323771596c21b8e30be22d0aef1a0732; 0x11abf4f96e7a5926df12abc0fc2155312c60cebb3265b0ee3d4b2d05a4b44e4a; 0x2b1996ca96fa53cfd8f3d2027410d544f72eb2c56026499fed486c450fe5eac7; 0x2cb2966afd4941a68b704fb8b3c688ebbb0b0fda248894825cb6fb760616d2a; 0x304be1f48a3345019d564b251d9a414b03f2481b0e8e0e852b561fc122ee5345; 0x20ff3d428dac0329580e61c2a67350cfc64e0a34ea6afeba39445da0451096ee]
  ([Nil; Nil; Nil; Nil; Nil; Nil; Nil; Nil; Nil; 0x87d2596d107fb6b79becf0210fd69c059ec31a8dd490e49ac6cd4707e004343d], [Nil; Nil; Nil; 0x24439c768be6b348603104215a386c53ad303009c95c6597c8c07990d13f3c551]) ([Nil; Nil; 0x78d8dff3ea3c6b80b91b278aea5a00d1db4d4181948a54e8c3d215795c45f509b], [Nil; Nil; Nil; Nil; Nil; Nil; Nil; Nil; 0x1b084d8d9b3198c438cab134e98ebed96d198ff66f3494f41d5e17bddbb55d116]) ([Nil; Nil; Nil; Nil; Nil; Nil; Nil; Nil; Nil; 0x14b89b4dc58a98753a575a4726d50b9291fac93839138cbfe4ebe654e966c3c9f], [Nil; Nil; Nil; 0x592b65bd58b7c9eb1eab09d907a07d583f09f4a400f54005a4f00171d071d5091]) ([Nil; 0x1; Nil; 0x36eaeefa3abd7ef59c707d4233387f154fd5ca8b0fab193fc7ead3a6f68f86bad; Nil; Nil; Nil; 0x1], [Nil; Nil; Nil; Nil; Nil; Nil; Nil; Nil; Nil; 0xd573fd479e6a0490615ca00e25a6c1ba8d17a86793344964af4ff2ba87bac656]) ([], []) ([0x89d56e4fb86b3d263791d745c804a5c2ac03fd1e502d8cc669192f21b580ddb614; 0x4765d7090636562c41a1accc6a0878d63f38db94a6f75abcb2731a01cbd0e0ac7e; 0x301a166392bb45c813cf294d8e7b245ac6f844073fa3b38d520fdf8c560293a54f; 0x3b395dab661a75674879541b599a944b865059e36321976e7d5c012e3686ad614; 0x4bee24eb3d8467d5da7a2ab703f5ec577b59e3f2a2b9fa46426e325872633217f; 0x5ab6a4ce1f40fe8c3a46db403229be0d5ba9b6c176adb57778f8a6b850d46fc36], [Nil; Nil; Nil; Nil; Nil; Nil; 0x181b580318e2648fd44512f6a5d1829843631ac2314ac917cf4f24091397f8cb9a; 0xc6c8c34f702a8973d898f85ad2ba8baaef7d0c668a018ceec86e32106976eee7f; 0x89764a8d0aa45de250da1dd0c08646db3779b06833addf17f284b54bbca32617f; 0x10ae74a9edab49b5c9b28862f5a796f9a9e702e3cd5b7230a8398034e6876a857; 0x14aa1b2de8faef811c8f31665e7332a6840cce58957d2502716428cb436035300; 0x187da7d3ccc44f7196a0467f249727202bf888366777ce319986b317a6d9d962d]);
St (0)%Z [Nil; 0xb5caaf6fc4fdc5a8b9d09d3ecef1209e7c777696127673dc3b8a8b2c763e3bc; Nil; Nil; Nil; Nil; Nil; 0x1d47df2cd9d145c0f8c146fa613ae972f25797789e44d92fd4662163c09e342a] [0x2; 0x2507a37be4e1c3cf2cb33be294924653afb9f328074a634f7867e3641119198b; Nil; 0x52314a5fb6f61cb365267c7ed9e9ae748040724b15e9db3b732716e6196fcef; Nil; Nil; Nil; 0x131c6f4607605a68bf8efebc20466eeaa529d318ca2cf15d67ba6ab317dec91d; Nil; 0x167350a55193a421ff36cdfc51e3cc6dcdd31e57827e86042644b9065d8a67ad] [Nil; Nil; 0x1e4fa8eb9b44833547c373597b26c4337f1f74da94e90cdc17f0202edeecd788; Nil; Nil; Nil; Nil; Nil; 0x2075daf080148d99a2488f7de67ba2a7ce1127e1a7119afb1c0b69b9f27afa5] [Nil; Nil; Nil; 0xe20335c2ea4b34af6e7fc7de5006719fc0b2e0bf01ad2bad6cd1631c83fea38; Nil; Nil; Nil; Nil; Nil; 0x17bb131cbc670b8d0742fd706c44dece2921e399d973646254e6b85efc2c9fcf] [0x43534cbc84afe21c3c92ef3f6c1a83b14c5dcbc9ad5277906e5dd5d46cfc64d; 0x88deacf16c1fb2ae7fa543c7af01abbe3417360691b3dd0b16d921cb6dba285; 0x16f5523553234d13ad5f239d3ed98ab22964e0fa3aca195629df5eddeaa854fc; 0x26c242e6bdaccf4358320fa084449ad95abe6b5edc2ffcc6199f76ef5670751c; 0x69b7a0df03d85d26c71bb7a20893bc1706359af093efc3cd361b88aebc166de; 0xc56d999d4e8f696274a0ef4f47a625195edd75c7bd2523441ea0136c73b9eae; 0x2a304889da07c55460d9eec698d85bb8fc4370ff2babe507e3c3b73e13396a22; 0x189c4365b338d202c66be72d49b6b8c2997f97ee26d08557e8d1dd63a11a2384; 0x1177b4993dbc3f2981920d764c136d9e0e3ed7876d3c51d94fd5de4ff1f4f5d7; 0x267984a455ce78e91ba113d13b798247af0b9ea09a82f8928692a73a1dfde88b; 0xb83f646ea5855c420aaedd0c585bf16587e2b32d61a565fd40983442e138e16; 0x7081df5d43d2d5ae8af474e0cf0c73cd5cda5cf1c2e6917bcc7e38d685a25b9] [0x938b8f53414f7bb6b710ce5a6af3014002d69c5190cff5b8c0ce218c0a3f85d; 0x2ff7fb88f9e03acbc4ae98c1de793a1e9e0a5854124ca46d0b0903492c634734; 0xc7ea8ac49807ac808841737264dc3640f12efd378b6fc4d6a500993f3052124; 0x1aec03630d858e7b24d2e82573fa1ea3b1d99254f15247f0cf5827cf2820b8dc; 0x714d5b4724f315fee14e29cc1597899331abaf664d8d5ee14d2c1a5dd267ff6; 0x995b8464bc9637aa9b2adddf15375f3b3731618375d5ff89e69f461841c809b; 0x2b6ccd0342491bcc3aeb85c350f23ae0faea076a07c525d2317e361654ee7081; 0x15391f99554334ea54865d7187dad633b950eb5d281378fe012c3ac935821cbd; 0x604a5dfa3515a92f5225d7a780c52d7a8302014e1d54ff86bad63fd9f5137c0; 0x26287edca6a8c94b277b525df0127d327e592a6f7a308651350a3f571eff4788; 0x23573d0d5d83397f46a6093e152e6ddacb8220012d6a3db5c2453d407c9760dd; 0x1f26549b7f0bc9fd0815d4f89311f3b2d2116a32ded0242bb0fa1f4f873be2dc]
  ([Nil; Nil; Nil; Nil; 0x12ff0a2e61e112f59d07398f0bcc7460491892227aeb938bd72aa9db3a89ffc5a0], [Nil; Nil; Nil; Nil; Nil; Nil; Nil; Nil; Nil; Nil; 0x521a52716280d647f71c317e2f89b94387bef5b20a791cf49995e120bec891728]) ([Nil; Nil; 0x5aa223981ea9f42ac6284eff92ac186c3ac632911966a81e34a09ee3569fb7990], [Nil; Nil; Nil; Nil; Nil; Nil; Nil; Nil; 0x14ca8489630198210a2ebcd863e90b287968c340e10bb0936d98e3312358b150d]) ([Nil; Nil; Nil; 0x76a2c7e77b91e469bddd51081a2dffa3919b09180590dde8939741da62a1f6782], [Nil; Nil; Nil; Nil; Nil; Nil; Nil; Nil; Nil; 0x1b4c7c063ed97719af291697aa7cb76e49b91649484c46989df38c856e3a8e87d]) ([Nil; 0x1; Nil; 0x7c7b797463cf0ff5f9d77fd111d532b12a93ed1c786bdd2a5b9724fd42ae4218f; Nil; Nil; Nil; 0x1], [Nil; Nil; Nil; Nil; Nil; Nil; Nil; Nil; Nil; 0x1ddb17d9567fd13942b434d55a63dca98b470a2713313bc9fa4d7f3bab008368b]) ([0x2a495a99db31ddbd6e6b5440120cd8430c968beca8ecb2ed2e108aca047e4821edb; 0x1a4124917431829c947344bbf4de181cfd2eb2c3093f50ad9e3529eb19ef74cae4b; 0x1574eb2b29c9a46263498e8568c2aa98149adf35468f7388083ccda175d5c8a96a9; 0x1989d2dcd6e8dc35dee78cc4796ae88ec86447018cf4584d0f03655b611d69ff6e8; 0x9c945693ff643b6aa4d84a89c2e3104cbffd4f48b5ca1f7c67218521b924bfd0b0; 0x1215497481acaf41269331d474f48151438854c65f6cf0e62e3b1c5edeb2818c6a], [Nil; Nil; Nil; Nil; Nil; Nil; 0x71844ea60940759ee7ca326110e0ad7a3625c4d4a2b2cd197715851e395cb32ec2; 0x47e87d2f961fea4d9be374828d01059c11fdeadc62d0dd578dec67eebbed543a40; 0x3b15146a4a39e72cb63c427aefe55630563416ba64df85f0170e721f2483fe19b9; 0x4502b10e17ef5dcd0e3f0ecbb468953176a57ac8a6bf22b2ef71765bce6fd0af91; 0x1bad4bb7d208a426d43c183820e72cb023d6541f0c5c35f3fd8543fa41b990ea94; 0x4b7bee066ee5d5ab494ccf268873b3f5387a3aaaa19d198b161c2e39cdcb971af]) ([0x814703dd6097e65a87bd63ff624a0715bc2be9c3eeb2804282e52caf082a174c21; 0x257ff55edc9fba4205977a2e70f0b9c2bf403555bb226bcbaab453fac4b1186a01; 0x17f818db6a15d285df2ed55e92fe71184583313832028579c4772066f86b5a3d0d; 0x8689a8fa298f0bb38558786f5e8cdee60ffdfa0140d49f484118428b009750521; 0x8679fb5bd570942408680e0352f554c6c19962e732292a0b93f530db0163b0347; 0x405edcd7886de52f5327ac28f899c86e0f3477e1e81eb6326ef7cc5e478d16915], [Nil; Nil; Nil; Nil; Nil; Nil; 0x15d2efeb6a3dafb32ff3a2a2af2ce0781f2b6c1ca8606bd39205a4bdd9bc2bfe5b; 0x6a895ed58ea74a3a95bcfe18ca702e56518b5cf88ed33971fbe3d2fbeb5ded694; 0x45067260621f71ffa4cedad9f1e7c8f8cefc74bf25439262646499845608bf0cf; 0x1f9574b56597b22d4d5b52f3a7b490ac7870bdf6ff2adad73b8271eadecd04fa8; 0x21258b595cb5e42268503e395cd45771bbc51aa4cd9893d39c5a81fad31930821; 0xfba73b37f59bc24e7357ab8ce0592dacd0db6f9b6fbc43c87aa60bf1001ad403]);
St (0)%Z [Nil; 0x2dfe77f3a3a4815b3339dafacd76e51d125bb160faf892fc646609cd3990c11d; Nil; Nil; Nil; Nil; Nil; 0xa8b49c9032dde387e012bedaf07884805eeb65ec9dc73bd181b1fa31ea35921] [0x2; 0x265d67f3d8d1ece85166abbb40a73408525b9306d793790d7ba82499eec3c2a; Nil; 0x17db4b2fdfccc8d875578bd335fb0a06f730feea42a2a6d4a41a6d1fc3fadf1c; Nil; Nil; Nil; 0x25d904a9de03c1f13a4f19c8d279d0159192b4329e9556d024056c73b9d9a426; Nil; 0x2f92cf11e19226e949bd0b76c50cb4b14fd85d5950d7c736758caebb29bc4e46] [Nil; Nil; 0x1d76520f114db41b1bbf807563fb4564109414cc33a384b9680951113a0a2432; Nil; Nil; Nil; Nil; Nil; 0x169f542fb219a7f531d5753e701758f010f343862cdf9e2f372d72ed01e05ad5] [Nil; Nil; Nil; 0xf63e80b0d726fa9fef97c9a58ab63fb52bfb3d8b019aa82cacaad044830626a; Nil; Nil; Nil; Nil; Nil; 0x1fc5cb1d42b254470c55e4bcb35ef0b807f1d210b837d249a1e796b20ec5eaf5] [0xcb6626f772fde6e2bbb3c5c3a20345e4365b9685198759c85bf5bae11d4b2dc; 0x6b41d16988b12fe07e0f4b0594c38a46fc3ef9b47531a41a11c3db834959a5d; 0x44046099c1a71b9cd4d6737a8b37545353bce5b61ac8dfe15c03b5e58fc8085; 0x1231e383102aae518c05fe47d76860b876f315428c2b607dfc6f40267daf6733; 0x1d494a24a5583a16834ebf6affec79727af82cf5a1ab8c3a4c1bd3b2172ba02a; 0x25f5402b4d73a1f39ab3ef0a2022c35c12e594ae9b1ff38001dffc51139a0a33; 0x1ee0fb8047bd148ce368c0b0b824eb093cda7945442212a7eb9953893bfa43da; 0x44817349e5d233149478ad931866fa208b3c9db2fb14e811ddf786889f05acf; 0x22cccbada41424b6daac13e770185298b8d9d6dcc5cc3f8c4c17cbe66e759928; 0x299213151df0e40f442afdebb5a45d9d57308f80ee263037a08f59b663cb2714; 0x2623833f7457f6ea1a2af3d1577c2b39f09980e4fe2373e0e415ced113c81a89; 0x2eea60ceecd8e44692e0a959934815b6bb7d1fb85c02861330c6f2aed462666b] [0xf3c3e39339fc8e2c02c9ff47a30513d572bf1a6e0143eb53cf9c000f186f737; 0x2ecca4b8b4355539e22982292c8818dc570ef5275a0ed5d94f86fd086e7ff51b; 0x29aff2e60b9a689a8ddd84088aea24cb970f879e4b20d2bf492f71f0636d04df; 0xe2d20d7e4ad135f5f39446bffa8ef278b99662b2e7f473cec3325e6390e19a; 0xa86cf68f0277440478ccee9260a859a501b9cc40c8a502258721dc5f15ea369; 0x287089f0c77b703f68eac59ce837c0aec47713495edb3a8bff23cdfd974af74f; 0x9fcc4ac40d5bbc5aee88e036575c9140350cf9605162a71f418bc55ea044ca8; 0x2282b654a66ab27bfccc538c0856dca387833310e41dcfb5a6342730db183a12; 0x1c815d18fc4813612d1f52e0971a0f3cc796c69ed1ccaa50a97614e0444192cf; 0x25a0b9f80486ed3a519c19ae9f198232a711d47bb168066ebe4ca6056f8bf11a; 0x1658159621f9e3982479186bab91fca4e5826a7ea415269aac2cd461fcbc8a5b; 0x2b4d572bc235b5f1e6b43103ed968f865701f02d32f5ec67fe93144556ec628d]
  ([Nil; Nil; Nil; Nil; Nil; Nil; Nil; Nil; Nil; Nil; 0xe1316ee0c2b02397a807e40b6fe5bd66cd393d6673fa75664e1f64b35084b8e4], [Nil; Nil; Nil; Nil; 0x3592d54cd2422609982416c7c3a3fe73f4a7f85035f4f3cfb0efcb0ac9bd0632a]) ([Nil; Nil; 0x90ad15b9d006c4359e3a75fb8b6156c045248b93da25a5d33ec51d823ac26c5d], [Nil; Nil; Nil; Nil; Nil; Nil; Nil; Nil; 0x3d65bdb7a080aa910fa3ededde3d5054b447455c94874c8c5bbed6bf52f8892b]) ([Nil; Nil; Nil; Nil; Nil; Nil; Nil; Nil; Nil; 0x6428208f145fd59492e1c3457fd351d4eb59c53c59e3efef5b1a202d7934d292], [Nil; Nil; Nil; 0x170c0a16b40e23c6fab20681201438833a39dbf7dd975929e9c10990aba89b6a4]) ([Nil; 0x1; Nil; 0x77054c5a73b595bfb75a6caa3caec5412b4092e105cc4351d05bba97c4ff3ca; Nil; Nil; Nil; 0x1], [Nil; Nil; Nil; Nil; Nil; Nil; Nil; Nil; Nil; 0x107d58fc638d40a1236b2b2528a38cec522dc9105e9f6a833a61b550aac92312]) ([0x1b4a6af2ba5e451e2dba23cc4fcfa68f05143c8d5780c7cbb995b96ff4d62410707; 0x1903b262dcd6aa3e8697a3db900432963644c33df2dcb1a47e44dcc04d7ebaf281f; 0x1c9893c95b2d1bb77e058b4f91223aaee147502632c8ca48e2413c01f09e205cabd; 0x1253770960eec7b5c5bb1d817324691d9a4133451c22d2cd2fa3d55baafe9025c51; 0x969ac5ccc2ebc83286a86ff8196a707acb768a61f8fe004d18d645417d158b462e; 0x1ec0c8776c9955b591b8992c544f2933c91c51f17b7f9d1705bf909a980502e1bf], [Nil; Nil; Nil; Nil; Nil; Nil; 0x4adbb6d8142bbbec2c0a5d2c9ab2f2d15d96a8e609b059d3d05762f6b527b5334a; 0x43f488864c012a0c02415f99de5fe5379208204b79eb7684cb95ae9fcc0e822a91; 0x4cc8aa44330ce61ae7714613cf862e118cfc3bb39a1ecf43ee1fbeca03c7deea50; 0x322ac8ce8139f10a00219b9ba014391daac4efaf27c75acbd2d092fb3d8a4c6914; 0x1b3285f15922aa28337365f4d259b4c4350d6ebd35d4fc57037ae524e94ac0d0a6; 0x74adb6dbc1e35e092c426369b9e667cd21e0ab1d7f3d9b16b051e125a993cd10d]) ([0x1d5bbd92e259f852b626702c24c56b2d944842ad3fb9e595a67bd7e9ee67795b99d; 0xef27238cd1dd3aa73a0c0082cfb52ceaa1438d05a2608ff478569a1c0566a27daf; 0x11e5b0b97e1cf388658850294d4f8d5a9c00d07ebe55e43378170f1f5bd4ee790cd; 0x126a986c01323478d7c62460c6361828c9aeb6f776461d1a820e171a3fd28f8786; 0xbbeff09b6537feeea0b8221f593ebcd2520af1bf1f3d2a0fa6ef72eb68a3888b9; 0x147fbf02805317df08395a95a3f4d9a88190769288fac148cc2ee245d286619c73], [Nil; Nil; Nil; Nil; Nil; Nil; 0x4e4f9e71670f313dcb3e30281c3eaeb4d42c1e625b7c6ee3974086b3b64601c19a; 0x2896c92e082c38c66d78195a390e6a74fd84b497ac2042a64b26acdf1f3902d2dc; 0x302e03bb16ac84282b733ee5fbbec3129e28b5cff645756607302c92a06e175f9b; 0x42d1a4648f496edc8cdfbd89558290a1b1a9d1b56e155634a757f6f58773b852c; 0x2adfca47f0edf6c7315b3ae75b276b85e890924e1f344bfe61c92ce3984da0361; 0x4aeda56e4989c8e113079759263664f3d82b5457d3919a0652302d1c5ec531a8f]);
St (1)%Z [Nil; 0x1317d29f94eb85e1b5466fc08ebf2e6d40fabf97c9a3dc55309f0793e618da47; Nil; Nil; Nil; Nil; Nil; 0x28a382d361c558e672b1bc1b77fbc13bbf0d5ac3e63bdd896e35db30d332284c] [0x2; 0x1d4c7bd34c461a480309d5f5f2c229f05686aaf99ecdee380b818482f2642300; Nil; 0x23fdd151fae5352fbb03107e5a092ca99d2d438617601b7b186bddc800e2827f; Nil; Nil; Nil; 0x7c0cb9f7f6c4743459e899b09859721d8740fcd8235ed03cdeab0e6054ad4fb; Nil; 0x15e2cee5b455948909152513172a7df2289e5d279100be79b271977c5295e622] [Nil; Nil; 0x2505c57d4fcda17c4ad038a32b7ba74355d2222953788f2cfcc575144fb81970; Nil; Nil; Nil; Nil; Nil; 0x2e2b5cb11278fc865345cc31abeb6b6a40bca3715a5cefcca26a81d73ae15310] [Nil; Nil; Nil; 0x132e470e218d1d73839949fd9bde38ac3889c2b487f53f73ec1561d8825cd145; Nil; Nil; Nil; Nil; Nil; 0x1411c2272da0f1169f354891eb9bda8a5a30c97b376102f509147d86bdb2fd1a] [] [0x1dab6009313141ec11a37a99e468dd8e4ac981c862c084976dde865efa3ba3f; 0x2d81b7c4c29f96dbff009ca173052de3514c3eaf51ffa553e6cff847a8831152; 0x17fba9b7caa528d459af6c02562dbd403901d7a85f634d6dd9ec70af1061b4a6; 0xb8be61da711d8c982c6324bcd71e762b850318f2738bea76265dff748270c64; 0xc97fca5c197ecaeff8cdac0c107d6ebafae458ffea26be51a424fb27deb579c; 0x17a1a486fe798fcde34b3bfb9ad74385ed7de5c3038e96392a9728b0999b9842; 0x8ab3a5e667b56d7b10c953c356ee4de62c7b1d452a31ad1192f144bbede1d39; 0x12944f1477255986927811ebb074cc4d33a88e692a2e69a9c6194213a1ca9063; 0xfcb18dedfd153d65afa444709aa01cac4e5109079985a7e2cae4c611fc50b8e; 0x28764434858f4f5604c6705522add1b97a20fc57749b17d36c3fb554ec03b7b3; 0x108a3cb7f0946cb46f7ce1da3915d642eab91d87dc0d9d1f62b201d4147f256b; 0x19a4c0857ea66ebb500d1fff057a1400ca41b5b07321df65efbae9126ea0c4e5]
  ([Nil; Nil; Nil; Nil; Nil; Nil; Nil; Nil; Nil; 0x32f7272771a34e5b2df5ea0a2773b93cf789f00135191101f147950b1b01b63b], [Nil; Nil; Nil; 0xc7855e788479d6317ed52358ed4e9a87581d3231d36ec985d2dead996dd68f89]) ([Nil; Nil; 0xae6f1bb0ecfc0b17504f1321ba3a574b39aa39b904e12791acbd498de12586e79], [Nil; Nil; Nil; Nil; Nil; Nil; Nil; Nil; 0x2865e38484bfa1cd0f4c232d35224e00d3e98485eb1c0598869ea565b8d81cfd7]) ([Nil; Nil; Nil; Nil; Nil; Nil; Nil; Nil; Nil; 0x173943d4116003b23c626a18270b091c34e697ccd74baa67bf89bf51732cef504], [Nil; Nil; Nil; 0x65284e784f1feee3a617f7a2365f77460703307f7774400816c4cda4116ebebe1]) ([Nil; 0x1; Nil; 0x60a34afe18e65073201176a967d58bd180dbfa4c37aae1cc7aa095bdf90732b25; Nil; Nil; Nil; 0x1], [Nil; Nil; Nil; Nil; Nil; Nil; Nil; Nil; Nil; 0x177a15b9ffb3451c25225918a9650b161403cd4fed847321d12360b8e032cfa94]) ([], []) ([0x9daf04bfad42fb000e812220b698c4c7dc7f5e1ed00e79a7b6213d97e9480a4ffd; 0x4196c051e2629d5bbf099d8a2992407044427284068891c0e9326d956564781dae; 0x82bfc36b9b3269e1a4ef5c179623043444fba19c570cecd6d143300e59926a3fe2; 0x2c44fe00493b319ae44fa1a0a37ef8304786aa1e7365b37f4a9bbda9a77db3677; 0x6cad9d1108185b8d4c72d439964ea24c07333167a014f2d2cacca95855b30216f; 0x52150322c09be3a3983376a8d4ea5065d03c69e9bd42e66ef70313be1ed0f0ed7], [Nil; Nil; Nil; Nil; Nil; Nil; 0x1b09d9774c1cb9c5112cc839216d551e77c32d0ee2cc7621827cf65dbac6309237; 0xb3b77e5b0c7b2038fb40d09277061a9843b8b7a54a8296799beaa212c36cd1f69; 0x16ae4183de394b16f452eb7d553f3d183a04158d843be0561c8c21f2fdc06ae774; 0xc9c450b46cada2dfac434c276c2ea1838fd71f8948e72a205bb218114191722a; 0x1cb36cb961cee6d3fbb76e6a22537dd2f54df7447e4d37bd5d49dab9aea9a0147; 0x15fc339abea667d688165c349e2e8c75c889ebf462f850fa6921d0c9be1d2ff83]);
St (0)%Z [Nil; 0x183076f0dec125557cf254d306ff61fa0dc3d3ae88858a8283899ab2caad591f; Nil; Nil; Nil; Nil; Nil; 0x1c43fd864769a2a9fc2a7b1769f1e083d5cbcc84624bc714deaba06fc4e892df] [0x2; 0x1833d78202707ad43b5df0e37a81f66389bd96e2dfec400ab896f1640dcfa428; Nil; 0x25ea134f68eb76a6611c3a78fa173a15aa6ffa1f3438b0da6dd487eb08804c4c; Nil; Nil; Nil; 0x142050ec99c7fd7fbc25ca9f178f77d9c1b59e0d062603785d74eba713946a68; Nil; 0x25e35f07bde41372ce343f2f28e4f0bd20294e2bcda093129daa9f1546cb984d] [Nil; Nil; 0x27ee5d2a070882ac46d81adca99525c7adabeb0b4fe911f19aa1149d61a26f24; Nil; Nil; Nil; Nil; Nil; 0xa9438d9c36ee1d7831a6dac22085840894740ef8527f5a6dd79e8bad8022020] [Nil; Nil; Nil; 0x6973223352b00578ffbadcdeb157cf268e9fb95a5391bc8051363632f847bd9; Nil; Nil; Nil; Nil; Nil; 0xe12c6380aa86c2501400220b2b19b39b46b7cc02537bec566648e0c33284828] [0x2b3d7ed57de80fc86db98d2f21cf36dd763dc1c9f702fc49d98008f9b041563; 0x2294b9e255b98ad4773d93b6c5087396d2f34b3fdbfae1149a6d9c07a6b84c02; 0x237a7a3cfcd856cab7f012dc350df1cb5b5510dc2616e6b331babaf019ee366f; 0x8162eaea31a6c59d6eea0648f1fef7386115f5e21d7ebb5762331e98e0f280b; 0xc96b630038b917b97a8fe659de148e05b99d8eba7fbfd60a45c4a903de29e30; 0x2745258bb020948d47542c2a36f715eeaf760abee587fbe8d042a90766c3792d; 0x296668fc56806865e54400eec564ce16ffb59ad07e2e5445ca3c2cfe8a8976eb; 0x5a5285b7ad29cf1a2d9a98914bdb0a0f62ca7b616efb2d777e5cf17f9a5ef5a; 0x22644d21661e3d9b8fa6d8b010ee31629a9acb0db74d8df379672facfd1930f1; 0x26b5df8d6aeed82b0cc9c839eb2d5cc97e7e70cf9a45ea77e9c45be848b74839; 0x55dc12ca93257a2316155a841e90177cb95975f979a7ad92966bd37f195f135; 0x21d45dfc31fc799cc99371bcd726e8081eabe0eba0a88479dabbbfd1284eb576] [0x2805b6a85f0b87dff5eaf185483ef8e9e3698814c58f4ba3e968bfe1879419ad; 0x19de0fb8f21a1bd73314726915accdaea67288e513d4d6e8fc318b8301658fc5; 0x6013f56ef973e33217984fa6d318d050c2b3625a9de365d69c0f618ba1ca080; 0x27fa9a71794f7ee5c8061c16969fd8d4dca022d0a5c760ece855f07cf9455f0c; 0x117bec025e7fd458a8331e0beb94161999270dd6687c7538e544e2af611cb044; 0xb98531286bb7d1685b8a477d2703d22068d3b991fefde468c8d6339f81ff99e; 0xbc61b39b8e2501a8004dfb75e1600e215261f648c4ac7ae0c6397aad9b20e41; 0x25515a43a751f0d23f9b43813284b3962531a6381d748d98b07353b41971d6f6; 0x234bb740c46ab71a78c8e626081425590955136fda68ff0fe5504f0be45bb25c; 0x2f5092045576c30eebbe736e6ecf91abc2b3a399021de579a55984720f1b97ce; 0x296a69a667afc1b90dd703f47e90088f03e4108da8c5495c2fbc364795123f4f; 0xd1fe00c9bc06f66a88547574dea2d0d7bb0a21879d8f5d8b12f7063c8327ca2]
  ([Nil; Nil; Nil; Nil; 0x228fc57c801c20d4e420d14a31ee77dc7c6aaff84f9b1a278d55fe40f44c479eb2], [Nil; Nil; Nil; Nil; Nil; Nil; Nil; Nil; Nil; Nil; 0x84e198c4a4cb7fe442e2fba132f9fd217bfb2618074ce19363114e8f1c5139faa]) ([Nil; Nil; 0x53db81ea37e1f8bce320cccaa576e92025798bd882f3a533ef7cd384c9f428cc3], [Nil; Nil; Nil; Nil; Nil; Nil; Nil; Nil; 0x1456f91770575efaa62d8d147b32837a993ea918e9b2641065000498910b08d0c]) ([Nil; Nil; Nil; 0x6aa1801424967f4c1a269b3ca3d7f268aa8e353a0f2d07e8586932ee251217fa6], [Nil; Nil; Nil; Nil; Nil; Nil; Nil; Nil; Nil; 0x18647dbe2f2c85b946f80fd8fb648bf78452f4dcbef649ab14e98dc69d6e12ace]) ([Nil; 0x1; Nil; 0x890d369db55be753bffb92cddcce64d1f923ac1dac14a8249d8b9d08dc611c397; Nil; Nil; Nil; 0x1], [Nil; Nil; Nil; Nil; Nil; Nil; Nil; Nil; Nil; 0x2121e189ef033a5d1adb0946c07cc3825e8a426a5d8e64afb977526859cfec9bf]) ([0x196aa123de7a940402468c6f516e5fef1fe94bd36bcc8812d1221e63f1a901e2ae8; 0x118745954342d1caf2766d53259a2a5016fe746c2dae15b8abcd7cba09fb5ea905e; 0x12f196a68dc81c2860fe5462847c234a7af4199038198a15bb3055781ea3e48e633; 0x76ddf0385bdd9591b3fe1a85d22a0f268e8433ce3f4ea15f88a84cc34b49c7f759; 0x63bcac1da330951f87d6a8bb3015067a6582a82ee8cd246d222df3760ba5923a88; 0xf538e7c6bef50c28cfcbc3066df9e2bbc4b34868346eded3c4b631c8088bc0447], [Nil; Nil; Nil; Nil; Nil; Nil; 0x44e6c98e5dde0c58c4bd09d79d52ed8fd0157c75efcf5708a0511570dea2a9d28d; 0x2f878129f7ccd10d8da3f4bef954d9b46db604fab9446350e7037b564382f0db14; 0x3341d6f4d9a243e106208877d5c74f71f52852f3d60a6bdccf740a1cb535e5bced; 0x14c811c6b21a63221b4abef6c981f34a4690bd817873f552dd47856e283a2f7c6b; 0x1207f834e7541d00238af249c09e3cb3b92a5360502cdd923f81e287ef1fe45c69; 0x3c83afbdcb7f2e83a33e71fecbaf451602e5e215b9a30122bacafbced8ee40d14]) ([0x11642a8ce7ce7334a3cd025d1c5c8198650a745c1411c6ce8f9e0f06c434ad93027; 0x223ce3ac0d204667fd48e2061881b039552748c1fc181f315a71ffe9db477feb83; 0xabbc3842e3e771097b792a268be013123fcb25caceaaac4cecca3f7f411f6dfac4; 0xee2fb100df91c8b9c765df63776c5158e6387644b7ad42569030c2df1c64df2a8; 0x6737799c299276af6840397b6a0fdb2e09d2fb4c95be6acb2c8bd806883d50498; 0x934ec654b39cbff567c965224d19985a2cde78d96207c8b9b834a513f92f93546], [Nil; Nil; Nil; Nil; Nil; Nil; 0x2ef7dc89c0c6413af9762e25dc85c39d6a649fcaca449bc5c928498161f6395927; 0x64b7826b503edff379db610d206ce7a8ee1adee7f23a92d9983fe20e986336b78; 0x1d6a8ac69d365e722b997a9e7658729ab621be3a377c7f3ef0665443185720e150; 0x38b6cccd00c5dff36fab72ef494f1b3176806f9a2365a18dc57c8c8cfc10b958b; 0x1a792f53df58d31f762876b4d1acc86ae87e4b4e4ed8039870fe56e98eb520597; 0x24b7ffe51cb67f1b8e351ae19f8d0c677a0a44a2a4d554c1353bca7391bde054d]);
St (0)%Z [Nil; 0x29aa9da155da06abc3563ac3af71bd3505bc4f51fc42d5632069271c453d5513; Nil; Nil; Nil; Nil; Nil; 0x39a425164665132e666266a2d004be9b2d4057c615271ba26c0eca13704acd5] [0x2; 0x6b9b0d18b57997df4fa0af2d20f9b2891c51b3f6c2ef52a1bb764fa933fa834; Nil; 0x214c10e6af63dbf160b89fa57935347005bbc39fa3da9fef32b32e99b86596f; Nil; Nil; Nil; 0x2cca0c217ccb4ef6d1ea1f4c54810c73e4ad6515071f58d3155f9f75a1785072; Nil; 0x6b2653181f3d015d120b6a72359687249482dd40f1cfb2e16e8abc7e63816] [Nil; Nil; 0x78737e939319a62c4b83314d0438570861a2c92f4442371ed544746770205c5; Nil; Nil; Nil; Nil; Nil; 0x1f9e2f159c451c701a51050049be8bd1a066ee917f70b6c321ae52decb79aaf6] [Nil; Nil; Nil; 0xe8e602b802c1d866b7482e41e2011264e08a6f3404afcd48576eb319720554e; Nil; Nil; Nil; Nil; Nil; 0x462fd6ce0c5b4b05d4391d5a4f543096a8cee8d52e1c1015b75a678e3952339] [0x1cc02ce40f1cbb8be02e6834a6a50783a725105a17087cced90dbb7e4a663367; 0x180631f1479e166bdc67a00e02143f7c736424db47587c3bb20353fce36fcb44; 0xa8dfb92000c7d04a4dd633c24e8f9740b86a952d73a4de6a3ce3c13fe58e41a; 0x246346409587f771084c220d7f5ff5c9255cb839527c5ff53e6292e6c9da0600; 0x2657896cf3ba262a62fbe542d90265af60f0718c323862d2770d34dce77475b1; 0xe115f399d324103161b1de1ddeebb7f81d840b40e72c85e788eec8f8128cf1a; 0x2e1ac69044b1a2ce75a311d772a1a3788ad1dec98e5333e299dfba6dea2505ec; 0x18fc3a70aeea5904e2f5c8c83be9267d4b8ed00b16088d88a545a4e8606309cf; 0x29c09e92a58cfa402bdda49b6f8b8e3dbcf0ca4878fc4ebbcc6b15ec19dc5407; 0x111f1eca43a7648a52eff7e49e974805396d4943715211d8aa3c0765d7e1c9bb; 0x2ba1db83f956f9c57089bf6cda2bd5137329b12e84656b84db031455a711bace; 0x2c6d308652d0923d2bebbad59dbfcdb8b5cf991ad2df86ff2b3d6605b045690d] [0xd3ed650283bcf4ec27b4e97986b05765f36b4fdb221062a2c77d34a42ee2cb2; 0x233d4c28205e6ec4ae91a16e474e78c91b6e391afb91836ef4d2dfec18077140; 0xb769cd59bfe56e72456b520a83869d9e420525989ac1c21d6e91e07721d02a5; 0x211d60fe9c53d0049371cc8073b80b794e1f052c3d8afcc1f4fe350fadd42aa6; 0x2c25a2d075a9734864d785ab71f1e012649c5586f612bce9f8eb0acea6630231; 0xcaf285f8eb9087d771260de0d15c75d030fa110d8c7c2ca7cfe5de3f7d9b41d; 0x2539f9004cfdd67c8b163e9428e1707981c7e12881264a1f43e2ece6b4d20b83; 0x195d25df152ec289c971b22e58c903878a0919ad99af1080bfb0840ea93be2cd; 0x322a3d10184cff30425ee286181c0db3c04dd34daf6c1d1e5cd9e34ae8b32e2; 0x28423127234c6f96b49210f001125c2330363912f100053b1d1132dd38e2ad5b; 0x2abdd1a56f0f23a529fd7743131166f839169aa765ce3fd1bad1e161c4d51023; 0x1f3181d582db573507bc4fe68088d52cf5f4b3583a25034f80cb146d5a7bb432]
  ([Nil; Nil; Nil; Nil; 0x135990d26f3d9a7f0c09e315b7b3c901446cb4a9dd88d7eb9d84afbd2bde618ea], [Nil; Nil; Nil; Nil; Nil; Nil; Nil; Nil; Nil; Nil; 0x7253ecf6c2834bc78459ee9f442320430f2d4b48aae92902e485459bc0b1647a]) ([], [Nil; Nil; 0xde2356eceba8c07a53b5b3d6bc78c70c04227045f5a66068b96916b39bb2516; Nil; Nil; Nil; Nil; Nil; 0xb0806346384742f234d163e2f1ad523d21b137b4e3f26460208af6c20009546]) ([Nil; Nil; Nil; Nil; Nil; Nil; Nil; Nil; Nil; 0x2be53ae7410312bafc5efdd394b3a7e0b30badddd8163668dbe705359551282c], [Nil; Nil; Nil; 0x9c5546063ce7aa50464da740c76014e11d748080f7cd9a34ea74d192af23bd8e]) ([Nil; 0x1; Nil; 0x1e32d52384dc3cf2909a282f9162827896fc6eaa4e5b3d1963caa4679b6ace44; Nil; Nil; Nil; 0x1], [Nil; Nil; Nil; Nil; Nil; Nil; Nil; Nil; Nil; 0x1a41f1e7914f66fddec498804e6934f3f4bddad70fe701402bdbb255767df5fa]) ([0x30b47d99534aba886a57f04b0c83dfa434f10521e2544ec0784e2f752419cd78dc8; 0x26e4fa7b68bad06dc8ee0f7d0d1296b2bf47f6112c59c5582ce3babc6fc728a1ff6; 0x186c23c3f51ce6f0add2b6ef4cd7df18d1e252c875bf410dad22365af423cdee01b; 0xa372abe78480c4fcb8044d04ba332138cbfa9489f1c258ae91a02bb6ffe6a28088; 0x3c54a8ac57e41ec94e0b51311cb3b10cbaa6fbfd680fe98f88224e32b84ea26ebb; 0x2c6d67bb9b3d7f88d9d5b2b062f3ad99f84bb2685b12c621036931d5cac8eee59a], [Nil; Nil; Nil; Nil; Nil; Nil; 0x82b4ee2f247cc99ab7ccb591da5e69dee9485e81ec12dfdf49016fe56f36151fc4; 0x68fb696bf461eb46c57bc4793b2fa47e2f96179d1bf90a595cdda22b034d776161; 0x42b79b6a89fe087a885928ac3d655dfb6e9c6945e31fa20928af56e847eef7dd01; 0x1d57dd7797601c734e50351f65b5086910547140de172134336449f2c57e5dafaf; 0xcf318d94079677b615d087fd64544cca4b210f3e3c653bb67ebea112a3d8908fc; 0xa73bf82bcd74d38ba53b4b2ccfd78898ab67c2771efc94ccb5a41b8b239411fdf]) ([0xf3857d57421b5609fa5fbbbc53641b04438ef8570a9783b16921311ef680719a12; 0xe658277fa05c4d6aebf20a2bffb712578e60080f9436dcd8ed3b8301c175df644; 0x825aa2db277a5817ff7efc324cbf2a8e034e26558a8c97cf48f98aef42f9d51a5; 0xc60288e200a1ba0011b4d9069b742592ba82a4741bcfa0c86d162425b71ab2617; 0x50e773ead09cbca9c686e4c89c23517038fc6b017c7f4cb18790d64fec84f9a75; 0xceb8ea41beb9026ba884697dc9310aee593b17af7f1344e03960927d37ebdbf6d], [Nil; Nil; Nil; Nil; Nil; Nil; 0x284bb546fa1ab738981b443068bbf01dc12bd3bc022fa8dcd54f2b3fd9844e5289; 0x34a9fbd3cbecf597472b8ecb0b13d20954ec6744f771bbaf4cff1520aae39f20a; 0x1e2e7cf021ee3430b31863b93d7a7e95f225c58541b20b46775c81074614dc494; 0x2c99cd0bf32016800e1f0bca26428a964998989edacb4a891a373b5ecd6533e63; 0x142a23d4ae3ef8ec3cd9dc4528234e5e6ff32531d28c3986dbc55c995a6ee3f62; 0x302abd0bc434037f35014c927e4eebd5e87e3143466ea30a440ec73351f90c785]);
St (1)%Z [Nil; 0x40d7c8b2b51ec21cd5e16fb6215da2bf489a22d3b284d63d597c75c9af33490; Nil; Nil; Nil; Nil; Nil; 0x16f8e70b657b3a8c60f98b28a65dc63c91def42bf624320be2445ae991f83bc7] [0x2; 0x2c56d1e7b5dfb407eaf22ebb1f6b7e31a2f7c8642d497d296688c4ba3d89c8b7; Nil; 0xc22590277ce61f9e3f4c173b6ed4a5d570b71813c42e41dbe207f6a2d098ecf; Nil; Nil; Nil; 0x196b67677bb6659d5756ba8ddb23922105a27665724d988159dc312d4684c180; Nil; 0x1ea2b20fbead9e9d653d8593a98bc5c336fbd478cd6a8d628cb3e8c4ab3c8154] [Nil; Nil; 0x1bd4faac159968387a2ce58f87de754fbb3e5e0f6b13617ee0a7e63f029c0e22; Nil; Nil; Nil; Nil; Nil; 0x1ca2f4f03cf2a686d60997370a10ca2026881b4e8bc7ea21649957be3ffbe3f4] [Nil; Nil; Nil; 0x2dc3df480f80f54812b7396f39a4ee6a87033937cea8f750809aed73910cf5e8; Nil; Nil; Nil; Nil; Nil; 0x1ecd204a6dd8ab9ea860ce099727f69ac1e83c2a66ed9eedeac2393496274ddc] [] [0x21a65704479b226645654220815f4291e054ff290f44ce85b07c148c8baec586; 0x25392704f2f311c956599564f14248e4c4519d5868548e0407dc0dca7aeabf91; 0x29015c5d42b717c3b84d15d4e4c41dce0ac0096f68e1d6158bded8ddadbd0c3a; 0x1159a77b04a9cde97079f2ec2870d0a51a1ee9f5ff745844a09ff768dab8415; 0x1a68575fdf44acdec357be0e6b9e33afa8b1321827c9ef412025b3593d6ab94c; 0x1ff6f0ec4e285813d3dc59767f32e0615c36fe754e64be0ef40ea28641d7de9c; 0x2b98183a1e5356dd1f59b4649bf4de24f8e416db177f723a70bfa8f936143218; 0xc69212371f6bc2d00aada27c079c2687e9881f4157af67f92caf452aec2459b; 0x289b678c79376572c5102b73e5a68ee7305719115a3740802d8e701ffbbf45a8; 0x858456885563bdcc5d04c07745ec9e879af52ea8b9cb6fba4c38fb93d7446e1; 0x2b888d51659de98c71f3a79b9022359bafd6687fe5b035c4f4da5a143d470914; 0x2f30e161f96023c6461e8a16118c955f66d3aa4e20cea811107939d6734ac91d]
  ([Nil; Nil; Nil; 0xee5011180abb1d4ad441cc902a9ba1ba9f82ccee40671d29f90e17fdd9d35f07], [Nil; Nil; Nil; Nil; Nil; Nil; Nil; Nil; Nil; 0x26ce2e7acaa1773f41b4d7ddb0350a5d152e86b2eca4fd781ab92ec96924cffd]) ([Nil; Nil; 0x37de45919ec275f8b1d79fe329b0a73a1f95eb3cdd0393ab690c950df4b894ab1], [Nil; Nil; Nil; Nil; Nil; Nil; Nil; Nil; 0xc82475e2eb8dafee7db370befb2c670497ff52149fc6a9d289b5570e0b6fbb2a]) ([Nil; Nil; Nil; 0x75c11887abdbd75009d831f3c8f95ad67a7bd34c1afca6c163c89c20f119cfee], [Nil; Nil; Nil; Nil; Nil; Nil; Nil; Nil; Nil; 0x10162199f1fd9c7414308fabe6b5242381d71a0886de02e03bd2f4bf2d5c8564]) ([Nil; 0x1; Nil; 0x4ce253d9484cc0630f2058416973170521fcdceae4333c0739efd2c2051866b97; Nil; Nil; Nil; 0x1], [Nil; Nil; Nil; Nil; Nil; Nil; Nil; Nil; Nil; 0x1146458d47b03b02bfb561324bb85b0e8e21d4d38a81f7cb4e21caeef95fd81a6]) ([], []) ([0x106a7f20e3300cda18aa33f3e6f95750d628fce471f5f01a042a9a4397362b906a8; 0xae9c31a9c7c67c792ed8c9d2754df2febda0e83effda72695f4550ef9c47ff8503; 0x7b13a0ea68a7a7652b6b1b497ad98a43eccd63b2e06a3770b9a68fb599337c5d0c; 0x805b8c207037114eda1c28931f3765bb7d7f05050a03178cc0ee6d9614dd12760; 0xbc395ae8ee2a2d335467c8324663859d42fcd146bae54c079f8621f070abbad78; 0x7a87580af88f6a47bea450d0ea69cf23b9c9b5b3a745ebc66cccad855d72a5840], [Nil; Nil; Nil; Nil; Nil; Nil; 0x2c52680da2893569b43f443e7cd9fcec5c3fff8df50c5315ca3ad2fa213078e657; 0x1de03ead2e7228aba0aa7d1d761ca97df3852ce7a323dca018b1ce3accad74c7cb; 0x14e504a390904ac6b0883753e11f7e3fdfd53aa64c7a20e8c3b5a116d38fe25722; 0x1e077380c95a5a8f11bb2b2c0221351cd065c1091cd33067f3bee3dfbb9714e90; 0x2f0a15f68ee19292a3589e7a372461e6957878acb99ae0b403d07325a3e9931e6; 0x1fe3ffd31469734b2e8bff9b51f56f9b980c4abc97621ca5ed7e5b567bd529192]);
St (0)%Z [Nil; 0xd684563c0775c45eac08620ba2bc561e143358ebec2a793398442f42090f48e; Nil; Nil; Nil; Nil; Nil; 0x1795549eb0b97783fc9047885996c19e84d7d4ea38cf8a4368c0709980199fc3] [0x2; 0x22fc090f20ba43e3cd8fbf95c75592fbb63e3502a9af22fa029c4922b7ec08b9; Nil; 0xe65ce43bb095420b049582cda408b926c39aa247ac29ddfb5a8bf8c00467d1e; Nil; Nil; Nil; 0x18cef9d4307828a5bbbffe2e27ea96bf12a995a72fa24049d3601b7d58635d84; Nil; 0x2014c6623f1fb55e5c629ad27bb61e4826bb1313f6ff11ce29186237468c2698] [Nil; Nil; 0x10258f216c35d38ca9e1c3f1b755d80b6d82c29e47ccb6e2e75aaa71730055be; Nil; Nil; Nil; Nil; Nil; 0xae1b3e547730ac7f4754a4f778f8559fde4e4151a74b572b825962eabaf7bd4] [Nil; Nil; Nil; 0x3b081a6a39647641a490d009a5dfca75fe1a1a39c04f81524328d42bcca018b; Nil; Nil; Nil; Nil; Nil; 0x86f78960ff63ce1fc36ab91cce7f0154ffbe6c1707f0d15f15ce570fcd245a9] [0x206000b35df8ff188403e51a12127f2d7d56af52a31e8b8c5c956b0e333af7f0; 0x18856845efe17994e3571f602c3ae91a9e28a9df77c536eaa47379383f19ca62; 0x1ed86579b295b5f6bef0fa78d12fb9048dfef157df90a7147221805ffe207cbd; 0xc3660d85d4c7997cd4143bd4da92b2d97e34faec859a8bf97ef96638dc7367c; 0x18c6820b2a4e615d8a22c76990568acf15fdf2d2717c39f8c09e64168c4bb36; 0x30311f4090ae22575c6fe2cd7139757939c634857603d7c5f3dab230eb8f6397; 0x1abdc20dbe14257e13087f9fd7558dea170b5df9d8b73a1cf92b54fa851e3f30; 0x161028304be74c53d4eb54c8cd160c48e8a0fe2956a9ddb7b3c5c0d3a1ea39d5; 0x1cc5da03dc86b537c9d2d0c70c8e5895e952a7f0a358347c713ed6e333afa951; 0x2540b409498e715ca4f121f1ffcc3175f6c25757d3e0cb978d31cef82076c57; 0x2d3faf79b0d7f87b44b57ba5ec85623694a5353da1d898d47b0a99559d1a2e61; 0x268765b90c2043137271690f9da6da34be801456cae806bb206f970c3bebc45] [0x11c49a205e059bea08573a995b295b3e5a6e8283ed27a85cfc4cc6db93d71208; 0x2bada1193822dc6e845ebec183826821813d0535fe891402228c295c47060fd1; 0x2fc38546e5b52fcb88a4e747e97d78d01b07bb85cff08e8851cc5bdd23c1924f; 0x1d32f6f840c3ebfff917be18091820e49680f07b80c337eea35a24c3e9b6324a; 0x1596a1fc1d5b6e75172a291ca9e5bc07d677f7a93bcb9d27a7322bd335e581f8; 0x2fe74b508a5a1da2a2bad0f511d88421a62207c47affbacad32540cf1e00e31b; 0x127ccd98273a31f823c873349249274729988c0285c5ef1fc83c4ad7882c909d; 0x20500a012d3aabf1eb5f6a7948e4e89b3dca9bc0b9e494c27269ed0be5f4c60; 0xa9998d2d4ce5187ff00f330d5550798e28bbf8ad02bf583ff030d7df18b3783; 0xdf657378e056dedaea6e79fc93726eae340e2f34a2840c267ab668f37a10b04; 0x128799889c60f7101fcd5c8851d6685355b4f8e22c168e1ab347edbe54d4f0cd; 0x816b73e1dd14a0cc1c76d0d09b352bea31c6835de3ce2bfa593b31fe9f8d7e3]
  ([Nil; Nil; Nil; Nil; 0x69450d376046a7fa10fa26ae2d7f87b1163d438daf0b0645e4e430988bff20b7c], [Nil; Nil; Nil; Nil; Nil; Nil; Nil; Nil; Nil; Nil; 0x19bd92e079bcbae2d3acc8ca5a13d97583843ef52d1c3a9a47d754bfbdaa01380]) ([Nil; Nil; 0x3aab8ac84d0eb04649a2c5b4efd9159b7ba5eba38b1b0f485724e6e2b020a9be0], [Nil; Nil; Nil; Nil; Nil; Nil; Nil; Nil; 0xdbf1ad8a28c1a2afe38c7b5932ec1b32553f38a2645d8d25506653b7919c8cf6]) ([Nil; Nil; Nil; 0x2c24880b1f771dcd64a3596fb81a8cab7433ef3e9c3b3aa886a2f32125ab07ced], [Nil; Nil; Nil; Nil; Nil; Nil; Nil; Nil; Nil; 0xa65cbd5df8653a038599cf96bf3ec7bb816128c643883dc2ca6012260b688921]) ([Nil; 0x1; Nil; 0x470a96ebc74085db0860b9d8bfd31b78d99c8f112bd77460032346e8e953e1d4e; Nil; Nil; Nil; 0x1], [Nil; Nil; Nil; Nil; Nil; Nil; Nil; Nil; Nil; 0x110b39081ea4b22da91fb1b430df713e7a4a9a7a18a65d57b35808fad8a76ccae]) ([0x2880938bf1bcb172486e24b332db55e5bc7144121b616bcb83fae6009db1d25af40; 0x2547f74ca184f3b5dcd4f627aca18460de6800306216051587eb547274e2de956b2; 0x16b2ee42e4648ed24582039c71ad9b1aa58f43a1436f1e212ce4fd00a103e75420e; 0x217b0fb1c8430373138d88556218d77e1295a2a4c5b03ef07045df8be8629ed3e44; 0x1426d06714df72a5f4b7f5d162518dde57a75449d9b2036705d6092c6dca70b91a8; 0x26887ea5f0c91513d1bb6f5bd9054e110b1169893889f233a515380988bb47628d], [Nil; Nil; Nil; Nil; Nil; Nil; 0x6f42635abe6a5a337c4cf4405050a986f169ef160a1cee57dac0c687514f73bb71; 0x6559def52c5b5ffa8c540fd1c0d4f75295d0760658fcd10609ad53fb92d6ec03e9; 0x3eaf47f2a63f211e34ebec6262c823bf9700ee0f514257f06aad883797834d5691; 0x5af70f5f254c91cd966201c387ac6c46f9e94998d980b00c8c5bf772a2662bdf27; 0x38eca2b9004d5f4d4bda3cdb59c7981be6146f8bc51dd51ae5134ea45e1626244b; 0x96427fc49936696525157e68640c992f13c7d46a3ad278e9ee9b0cfafaf153cad]) ([0x1b4dbaabd45dbdf69ea1a5fd087b31e527a0579ea039ee9012a89d985ea569cf72; 0xb5e5215c31d0108a254ae97a06e4fad56ec2387f3a8aab2908839d04429e66caff; 0x1738994fa0ae03949013eda569c85de51605481001ac20ddcb293db42fb0482fa1; 0xa475169c6154323df5c36b55e2c8a79f0e4c9685630fe99b86a2f086cf78accf3; 0x5012338690048c3b8a320d5ca59f0eaad02c67640806b0a4049bb597aedbe65c4; 0xd8002840923c9075ebe3085b9843afa092c32a4104389590f77adeacd3b846cff], [Nil; Nil; Nil; Nil; Nil; Nil; 0x5410126022a3553b4433ff131ba5c12f27bff74044510b9dfcd814b8e31f077d8; 0x1e7b5949ba442b2792b26d9a047b570331feb5e90e9370ed32a58b52ad8dcdd336; 0x4c4c1d76fd34df1a982f45c30cd25a8eb441365ec1c36bdf1add42c7c4cb81d36; 0x28aa627bf533e841b6ac99eaadabd11029a6437e5c0edddc0f5128f6a5172fa79; 0x13b8781e9affb7e7afbc32bdf6d1c811a03ff00d4e9c6d79420fe3e164ce93b9e; 0x3376977ffe6696cc9eafea1db07d60322f4bb6ecc19cd095ada5ac919a7192f8a]);
St (0)%Z [Nil; 0x1d850bd221784b8455bebe1f4192bb2dc17a65307a29b0880c70b0cdb6fd777e; Nil; Nil; Nil; Nil; Nil; 0x1127d8b17ef2c064303f02dfe619752b1607951d9d0cdb28a94204776c6e6ba6] [0x2; 0x12df42a0bfb954a5629187973fee9d2fd6070560ee481a052fafdb49217f85c9; Nil; 0x2bbeeab1d5b535392f7d394b6fd4cd574d8539bb4ae98e688ca32949a4560d47; Nil; Nil; Nil; 0x1f3c75c1623edfc5881142d69b67e3328179d573cb64ef6492de879f6c0e91a1; Nil; 0x405d0709e110c03d690b583ace24ba033dd23e0e3a5dfb1785690dad89ad10c] [Nil; Nil; 0x2f0c00d32c89965ec8d8d78512a7566eb84479f9325f574c10c002a56f651206; Nil; Nil; Nil; Nil; Nil; 0x2cdf6e68179743c407176786917b02f6eb750d4a7336328a46f187e37d243398] [Nil; Nil; Nil; 0x18b7aa32536ca51d0050e095c1e6af246e001ee5e7b7ef144a41497dc618ae49; Nil; Nil; Nil; Nil; Nil; 0x2de86fec1140981b0a721f23ac82932b0392996a7e8fcb91288f30b47ee53889] [0x879aad4c86b1052f91a6510f2bcaacf0fc42a91665aaeacfd4980f99f03ccf7; 0x1d7cbf50e448336993c0ba95b62d3d21fa162240a333f2f29efed0c126756718; 0x171adc8e05a7ab68a4c09b95716bb011c896da6ed21b2a2bb0d9d448f1828eb1; 0x219a9ffa33f414826567e683a62e7e845e64eeb25edadf635072fd41921227a8; 0x131078efd86b80b9803ceae56f096d222bac156b4908f75191a96957e42addf8; 0x12d941a976f537529d57c885989dc75d2fcf268fb1290897ab15adbe00363d2c; 0x3155f94d9c853ec2544069203ef4d7db891c999f35603511a7460e57b2e2769; 0x2d90431232f48b876318362514a28a0dad361ffd2af1d88d990472f0db032d65; 0x21809442ecaf77e0845736e299f2fe33fd75345e85d37d9b3234390aa48719d0; 0x87fef049cd65a137d2d331e250344c1e51064187ec1be120800d7f78c21c652; 0x12d0e925efa236c17d2e90606cebd8e7bc63f9f23879dc5025cfa28b44c39b61; 0xb97337162d6b7d35ec76fb27263d481be3c4cf5c148588375b9ea3e3452cff9] [0x121a22631f81c2446b581c57e00fe813d784a421d85136eb711a5f2f3e6e0359; 0x1d4a96042cc39313c42eb3a0b0c218e10063d0b7208e594a2e85e0e1e9f0e182; 0x7235c841ae7892e58811b21c0f290ad5c78d8f367b0bd6c77ad5381dae74b3a; 0xe587c45ad784790796b6869706ea8b913ed8eddefd7b0ac41e3f3e4cbb630e9; 0x26aa83a02f4903ce637ee937f4afe81198457605cd426c9ed0491cc689bd5086; 0x2eccdbb7359789973b9e9b457ad864a77679deeeca452fca6dd38260be16d913; 0x291355c6cb0ff22d30e7b59d4af21e375e367513d864c4eeef25d3ad66783935; 0x200e7ea63c4c984a43ac45fd5ad7fd7c57511297f193577d324257fc1b645a71; 0x9acbb479a9578a4de55e00fe1e1df1796101381660772bb0e6247e7f58d1b0; 0x652569e03e957a73a662f5df196a3979519fcc4aa8938cc58b872de03f9462b; 0x2424141fc57f788a062fccb6ccd06d479d36dc39a0f2b68fd3e95482040917af; 0x2c69e5bc1d100eb3841cf042ee0123e234306152a0f61e7eadde1fb28ba69308]
  ([Nil; Nil; Nil; Nil; 0x63d64d42db6875a2d12532fb3262dba92e18dea0744274fae8a0d638f9070770], [Nil; Nil; Nil; Nil; Nil; Nil; Nil; Nil; Nil; Nil; 0x215a59885a51e689f0c5d319a7cdfbf47216c1c7ab46d51355e5a1caf8a06988]) ([Nil; Nil; 0x1e0b640ebf1bd46d9808f32f11fcfb04f830003a15e02514c0723e079e6611cca], [Nil; Nil; Nil; Nil; Nil; Nil; Nil; Nil; 0x8267c6af418410a6059413694ad3d27d53d3a0d341e78ee45e0b61a26ec5d0d0]) ([Nil; Nil; Nil; Nil; Nil; Nil; Nil; Nil; Nil; 0xf898b5e4c7595246a3c18f0bda42bd49ab59e74920568aa5169efa03d1b62da6], [Nil; Nil; Nil; 0x3c9481c60bf5fe921ff9bbf31877274736faf7be3f830be6d524e3fb788afa434]) ([Nil; 0x1; Nil; 0x1327b99366c2b5478b631bd3dc0a0d907e5a4b0d3fc9a338f4f31d75c918a8b52; Nil; Nil; Nil; 0x1], [Nil; Nil; Nil; Nil; Nil; Nil; Nil; Nil; Nil; 0x51cd133c46758a25dd560a850d5679361c467cbaa2102ed984fed7e26b43ac01]) ([0x6642a54333210e2388190e1b22b544a04e09e2e472f9ef19213fbf0f71b98be54f; 0x69705e5c03807612b3fbed3e46dcc30f961efb77636f513f020ee3f032851eb290; 0x576d43c825dc17508ae4151f1c78d31f1e045b97bd3dc6e854a7c7ab5cdb0ffd58; 0x350ec4e4cbe2e154efc9fc657359d98dbd779bd5443e6c16f48159b95340dc8a82; 0x121ffc54821e580c6ec3a1b9295a0a2c2db8062223e1b0abab83eee7454a447707; 0x3eb65dbdd7dc0edd3e2831189c8a6678f5c5c853863ed59c4606725df9aaaf654], [Nil; Nil; Nil; Nil; Nil; Nil; 0x12f8e7be6c835ee25b2cfee55ad30d5282271748527dbcfc4a7fa91f81e4e3c901; 0x13384d4a7c227c5b54545af254751df1f31c6a43a9db5474dfdf76b54c1f69c295; 0xff020f2fe8d20fe0a5b07084fa2b9219a974c0f9f6a623d70c69e9245ac7026e8; 0xa23b1a1001c29b77600cc975102c373977df4f84bc6ba7220dc51cdd505ccae50; 0x423277a30a292ce1f53c599f57df5e611b0711da255f24fdde38cc6bd7bc404ea; 0x16f55a4be85d44af3b9f0c49c818f99ba3b8e29828de874f5f26f405a6b7cbcd9]) ([0x37e91f8e01377e5cc53459c091ab277268d5d838bebfed0ed77d79de78207124e3; 0xf994edfa10a90374028f929453bb10744fe840a7f6e37683520e9f6e732983835; 0x12c9f63c2435ed4fe26be0ca74f42c8a71957e89c252320c9103a43dd62b1d8608; 0x6f19cb4de0fa917c974e029eb3bdf6fdb2bcab8b89ab85b82aabd2fcbfe69f671; 0x2d0b601fdc958b769f8180cb81c1b5f6529269b50067fe02da00ab8d3536f4bee; 0x4abf9a808a06d3e3216e5da4364cfc8508fc91355d5a85b656b7e1076ea9b3852], [Nil; Nil; Nil; Nil; Nil; Nil; 0x9cc34ce78cc1bdb892fd2c87360bebf7a495ce99f1933d7e911d15ed49abd87df; 0x304f3fbd339db48a8d350abf8ffcac7059a1fc50a0d69cc20169a7d632aa83017; 0x409343381fb699a56282c477755f9e0c7e3beb1038d6a606146daa196a8dc808f; 0x1a956a9eaaf6df6c877a92aa5b9fa3007a0bb5850d0ac50f113e4b814899b2853; 0xeb942cfe66c201a29b29d7a2386e15ba388e64a022a90af2a55e5b1ed09b8364; 0x1409922e8ba1e6d998b498eb87dfdd499e393e87bc66106df6c7b089ea7f0a61f]);
St (0)%Z [Nil; 0x1667e06135a918d47b7253969c8f6f1b3a4a2610810e3d95ab70f1e292718337; Nil; Nil; Nil; Nil; Nil; 0x2b9a3a63bbf4af99a0e33edbbaa9de8e9c2060599424eb15b502cde7927c7530] [0x2; 0x19fc6e11ab8887553cddf21fe4f1e9425d374480e7638cf790af9a34460b7a10; Nil; 0x73f5d1225b5434911f8525715937b527bb67ea903dcd0d8ce39511ddbfe04ca; Nil; Nil; Nil; 0x4ca140f253cf090176d06dac6d779cefb610a37d44cdf77871dbe2f46008817; Nil; 0x594d6a7e6b34ab2cc9414078a6da6989dae6b91f616c863890c3c8e33127931] [Nil; Nil; 0x1ca9b2fa00f2034b3d7016f8e4e54e78c0ccaf6f8c93b6d53c75735fa53ef1eb; Nil; Nil; Nil; Nil; Nil; 0x23e495b6ed1e4336654c1a4d84442d4fa9534745940a263770d4db3700e61c2d] [Nil; Nil; Nil; 0x7166776f9b92f35b3fe07bb531859c62943fcb9a5bde57ea358cab8203686fa; Nil; Nil; Nil; Nil; Nil; 0x1c4bea2e7fa4b0b2562d5f25e17e153c88a7ba2ae0135870827446f9cdf5554f] [0xa3b95614edc83bb94653041f5b7b73bac77f97e30be9e6a4f1065299f2956dd; 0x2d8998efe008cbd8c40a1f8a037edbdc9767666dbf9f23854d7e3d96a7de02d4; 0x82802c23c0a037a8283ccffbd16a612ffc3388887d186eb4ff570d649817540; 0x78cba4867a170afca8435b891472c6b4e6a789e921f706915b096e6e5eb21ed; 0x1aebc898713123ac02f5e822f69565ab0e0de7f01945cef4d9be4c7661d0ab65; 0x153b4912cf6b1c3cc08c1ab8f8072797ff11cc91c005cdbb9b3eedad4aeb76d; 0x2b1d367529c35d269edd7dc851f3edf966a58f156a2ff6620e8cd2f109116c07; 0x15054fc6c574c8f97f0ee46e8d2daaf889d1098fb8cc7150b02b40e94f76b320; 0x1fde9147077dd85d18f52d00492260603af8e5035016bada32db439a2f155db7; 0x954f648a744cd4fc06a52765302a85ded8579fb83a46950038af91bd238d585; 0x2d83654c1ed3f3c5022b9724bc22333b49b328d0ae3174e4945f2b31150c666d; 0x126b9ab84e926da76eb362c2f6143cef0c411411b950312106a02612e5692403] [0x2de704b4804a9627da3776c8b1e9dce8f47a2d1ad781dad0fc20adbaa1bd24dd; 0x635d87cd83445c20395cb198f6948ca527df380ee3bd2b0965468df7fc04e80; 0x105f77ad907642304ce1e57c2bd8c5e2e68545c0c33877b9c9559f737009cefa; 0xcff39c5dab70a0d5c51a586c442d1b2cca6b07718ea3acb53c47d855d581106; 0x132eb05a80980e4e4ef87038ea6c56f09059d455a3ee2dcbfd6efe315a01824; 0x24485b67b548504a9131f650ab37b754c152f41377c1a3f7a1e9ac00e5a122ab; 0x1206fb852e10a72d88364d5734c2c276db9ce33a613259cc3e997f996cfbc953; 0x18f7879136c61ddbce209d77d6189bdd8a8260aecbb9bcc5dcd1e35312a1299a; 0x21b485b142f60d2e8ed6900ad280938ee04ed9e1dad2e37ec278d3a871cf9537; 0x669fd1134b113649c198f6d97fb24f0217a65ca2f143bd95965f909de20a8cd; 0x1f209a0b46e749ade3893523d0d7e6b0689fec35916b368f6a624da18540e618; 0x2f5c4cb91612a962462f1b1916fe11d0f4179c8d200f05367ec95017639bfad5]
  ([Nil; Nil; Nil; Nil; 0xd09e09127c59ee370aff49677621c367135ef3da47b60d5f8c780ec15d85121be], [Nil; Nil; Nil; Nil; Nil; Nil; Nil; Nil; Nil; Nil; 0x3a4806831478863410958e76963fc28fded2b38b771e2073197b32f5259e3060e]) ([Nil; Nil; 0xc8b2ae00813aa778e92a48537295446bfdec5b3893539a762eadf7ff8f586c7aa], [Nil; Nil; Nil; Nil; Nil; Nil; Nil; Nil; 0x2eb8b4e06ca926117a4aff51a96e0c439d0332fe2c3f77b0112fd1e50b6ee5225]) ([Nil; Nil; Nil; 0x28ef5dbe35793d44de0360bd5c8fc87aaee2522bbcda8fd04a89f30a09ee05cba], [Nil; Nil; Nil; Nil; Nil; Nil; Nil; Nil; Nil; 0xa65ccefbf3cbd2065473e94a9ae9959b044ba01efdd9642ffbbe77c72daa2583]) ([Nil; 0x1; Nil; 0xcdd9d9cabe15378851ff3bc82f05b81f8413c48024ed5840a912057614500d76f; Nil; Nil; Nil; 0x1], [Nil; Nil; Nil; Nil; Nil; Nil; Nil; Nil; Nil; 0x316f00049b525dc23a3f7915436c09fc61ab6d34344043c0c7259db848ab8d282]) ([0x19262183aaa4abd46d27bdee0fb9db797f553677d0b93fc5b88b851af50d6fb80ee; 0x5cdbaf296251db6774040088620b325e369e079f31649c30c176b111a5f1774f70; 0x1046b03b1d94812b671bb89c9fa05895e5f3c0f9185c897a1e504eb3081e8fc73c6; 0x1af3bee32db27851dcb955e6a5afdb146dec4a0fd81bd51e787fbdad4746daafa95; 0x11cb0d5666549163d3d4b9c6f88e3c6b2784777244fa929bfe6f839a71c962b53cf; 0x2733db25afbb1df49fe7b9c5200d7f44d1c050c8fa6a6389c2e5df83ce99a7a681], [Nil; Nil; Nil; Nil; Nil; Nil; 0x4555a0a8bb223b37bab6a2599ff1aad0ca2fc4888c6c442f616193f1ba41a3eb84; 0x1174208493b8b9b690337e3974b063d1900c9e620e03465a1ecb40d5696201d076; 0x2d407c683a2e42de47c0215b79c30fd37c4e08aa645346e9cca2518d7133b510ad; 0x49dfb4aa5ab9c861bd9e7b65515be125acaabc81ca60bc4d89cb9f9fd7d1324945; 0x321edff6932c9b094b7b5dc824bb3671b1f0561e577d37abf46d17dadc12fa6f64; 0x97fc35475d4f505f42ffcf89fc83e8224d3fad785c615fe4f5156b7706f82a31d]) ([0x14a76260e5eac1d950eafa43a772b058ae7e2d95e0b79e1a3cc08356929ba00849; 0x22ca1021ecee12e3f96df65e6e9317d355709a9b8535481ce68227603739a1c7f4; 0xdc0c2463efac1e729a20b82a5e5372d978661446b84952d7f3903da98795c6934; 0x2947c8d65296db18ebb7119faa68fe522db9e376c301ce3c1782064be2a8ed556; 0x107aad3506a232f216238bff63dd371d6d7ca03bce8f2095eb28aeb7f6cdc45e8; 0x28f199ad83186a2b9ae56609410207a3c93c58fda94c31e25496f7523e0fcee13], [Nil; Nil; Nil; Nil; Nil; Nil; 0x39cbd1b66102ae1d8b6d844284e7db47b06ae1d685d9f61c1f79a4b02c3b20043; 0x611f12109d05cb5f7c55aa6b4cb9c1a621026e076b1b62b92e392bd03fbcbad9b; 0x26bff4519ddd40423984c374f82f57c5152d8a07b5f0fa068ee3cc95b5a752957; 0xabd7433ce4e4e58291a12f279920a8bf71ee739f5cc79bb8bbb493416a18e630; 0x4a6c88b47e445be9e9c153d87c1e41906a41b0dcc05053fd07f60932489f76c1; 0xb40ff5faafc61b13f8f6fe442585571ee51cc1c2f84dbb070b4977626e965c92])].
Lemma steps_ok : mrun x1 y1 z1 steps (1%N, x1, y1, [0x1]) = Some (29793968203157093288%N, xN, yN, fN).
Proof. vm_compute. reflexivity. Qed.
Definition phis : list poly := [[0x1]; [Nil; 0x1d8c8daef3eee1e81b2522ec5eb28ded6895e1cdfde6a43f5daa971f3fa65955; Nil; Nil; Nil; Nil; Nil; 0x246996f3b4fae7e6a6327cfe12150b8e747992778eeec7e5ca5cf05f80f362ac]; [Nil; Nil; 0x242b719062f6737b8481d22c6934ce844d72f250fd28d102c0d147b2f4d521a7; Nil; Nil; Nil; Nil; Nil; 0x16c9e55061ebae204ba4cc8bd75a079432ae2a1d0b7c9dce1665d51c640fcba2]; [Nil; Nil; Nil; 0x21436d48fcb50cc60dd4ef1e69a0c1f0dd2949fa6df7b44cbb259ef7cb58d5ed; Nil; Nil; Nil; Nil; Nil; 0x7c03cbcac41049a0704b5a7ec796f2b21807dc98fa25bd282d37f632623b0e3]; [Nil; Nil; Nil; Nil; 0x2c84bbad27c3671562b7adefd44038ab3c0bbad96fc008e7d6998c82f7fc048b; Nil; Nil; Nil; Nil; Nil; 0x2c145edbe7fd8aee9f3a80b03b0b1c923685d2ea1bdec763c13b4711cd2b8126]; [Nil; Nil; Nil; Nil; Nil; 0x1b007294a55accce13fe08bea73305ff6bdac77c5371c546d428780a6e3dcfa8; Nil; Nil; Nil; Nil; Nil; 0x12acf2ca76fd0675a27fb246c7729f7db080cb99678e2ac024c6b8ee6e0c2c4b]; [0x12; Nil; Nil; Nil; Nil; Nil; 0x30644e72e131a029b85045b68181585d97816a916871ca8d3c208c16d87cfd46]; [Nil; 0x217e400dc9351e774e34e2ac06ead4000d14d1e242b29c567e9c385ce480a71a; Nil; Nil; Nil; Nil; Nil; 0x12d7c0c3ed42be419d2b22ca22ceca702eeb88c36a8b264dde75f4f798d6a3f2]; [Nil; Nil; 0x359809094bd5c8e1b9c22d81246ffc2e794e17643ac198484b8d9094aa82536; Nil; Nil; Nil; Nil; Nil; 0xc38dce27e3b2cae33ce738a184c89d94a0e78406b48f98a7b4f4463e3a7dba0]; [Nil; Nil; Nil; 0x18857a58f3b5bb3038a4311a86919d9c7c6c15f88a4f4f0831364cf35f78f771; Nil; Nil; Nil; Nil; Nil; 0xf20e129e47c9363aa7b569817e0966cba582096fa7a164080faed1f0d24275a]; [Nil; Nil; Nil; Nil; 0xc33b1c70e4fd11b6d1eab6fcd18b99ad4afd096a8697e0c9c36d8ca3339a7b5; Nil; Nil; Nil; Nil; Nil; 0x3df92c5b96e3914559897c6ad411fb25b75afb7f8b1c1a56586ff93e080f8bc]; [Nil; Nil; Nil; Nil; Nil; 0x215d42e7ac7bd17cefe88dd8e6965b3adae92c974f501fe811493d72543a3977; Nil; Nil; Nil; Nil; Nil; 0x1563dbde3bd6d35ba4523cf7da4e525e2ba6a3151500054667f8140c6a3f2d9f]].
Definition phis_q : list (poly * poly) := [([], []); ([Nil; Nil; 0x8b4a3ec48af61160a3f0f563f7e82618bebcc85bd709e87d88b359f8850658302], [Nil; Nil; Nil; Nil; Nil; Nil; Nil; Nil; 0x219a490680ec3e048be5d3c0c8e50103faa4a7d8de3c3e3a26e28a5938909da9a]); ([Nil; Nil; Nil; 0x567fef0b4d3310356550536f93352c7c5606fddbbffa6200abaea657661436806], [Nil; Nil; Nil; Nil; Nil; Nil; Nil; Nil; Nil; 0x15dc8829c4214df52f7db06b3b60aed0a0a9546c0c88524cad3c30c54bc879fdd]); ([Nil; Nil; Nil; Nil; 0x1c9eda449f304da4b7e2f2e20512cbddc62c255ace2b2aff037a05272cd9839ce], [Nil; Nil; Nil; Nil; Nil; Nil; Nil; Nil; Nil; Nil; 0x86bdc971e5844a59a44cb5c2ec83d5ad0bb142b03cfde493c42edbc439e00cdb]); ([Nil; Nil; Nil; Nil; Nil; 0xa84915f7bc452a8ced63547c0c2a4e962e618b175fd25804c1e7ccac567508be7], [Nil; Nil; Nil; Nil; Nil; Nil; Nil; Nil; Nil; Nil; Nil; 0x2916ebab05d2592d0bbf6ba4bc5c7a586b07109bf2df1aa4eec255346897f2b01]); ([0x5b2e8e7be2f81d9fa49fd4716ba4cd81e8ed2db9faaeb7b5bbc4774a43252f94a0], [Nil; Nil; Nil; Nil; Nil; Nil; 0xf94299ba9c548c83e8d532bc5055bba04ac0a7c1899b9f284160bae52f9b721b8]); ([Nil; 0xba9d25a0ff85e47e13c2c0961cabdb3a14ef0ea4bc87c079ad1c4fe974df59ad0], [Nil; Nil; Nil; Nil; Nil; Nil; Nil; 0x2acf92ad1ad93301fcab1ecc9a42d5df199222e360ab0b26798337dd650c3496c]); ([Nil; Nil; 0x4762a8f0c2da3869453d4b04dbc7b45d8c19d9c1a27c0dc9faa7fadb4f6b9eb9c], [Nil; Nil; Nil; Nil; Nil; Nil; Nil; Nil; 0x123eaa28f76630d4b4b8e1b940cc47f6cc2bd82534827019f394582825cb50c0e]); ([Nil; Nil; Nil; 0x2f012384333a6de8555ecd95a5354a683f16fb59b1a5ddc43286ce01eaf0bdbe5], [Nil; Nil; Nil; Nil; Nil; Nil; Nil; Nil; Nil; 0xaf857205bdcd189c5d75c0272b39ccc750e04ba901d637c5383d0fe68096a682]); ([Nil; Nil; Nil; Nil; 0x3967736dd5ca9e024218b784cfd1877e1b876a11dfb3f395a09b127dc70244660], [Nil; Nil; Nil; Nil; Nil; Nil; Nil; Nil; Nil; Nil; 0xe897114ef41764e50df2e61a314bfae49c053635f811dce70cc056f58696e06e]); ([Nil; Nil; Nil; Nil; Nil; 0xe789a176a60f6d11bd16d2afc9db8ad525bf89941eb2e2339e3a4bfc27056c12], [Nil; Nil; Nil; Nil; Nil; Nil; Nil; Nil; Nil; Nil; Nil; 0x4001e1ac1cb569f18cf4c639f9572bb11803cf2c38f52404c7a6d6a8e18fc22f])].
Lemma phis_ok : match phis with p :: f :: _ => chk_pow p f (tl phis) phis_q | _ => false end = true.
Proof. vm_compute. reflexivity. Qed.
Definition sgs : list poly := [[0x1]; [Nil; 0x30644e72e131a029b85045b68181585d97816a916871ca8d3c208c16d87cfd46]; [Nil; Nil; 0x1]; [Nil; Nil; Nil; 0x30644e72e131a029b85045b68181585d97816a916871ca8d3c208c16d87cfd46]; [Nil; Nil; Nil; Nil; 0x1]; [Nil; Nil; Nil; Nil; Nil; 0x30644e72e131a029b85045b68181585d97816a916871ca8d3c208c16d87cfd46]; [Nil; Nil; Nil; Nil; Nil; Nil; 0x1]; [Nil; Nil; Nil; Nil; Nil; Nil; Nil; 0x30644e72e131a029b85045b68181585d97816a916871ca8d3c208c16d87cfd46]; [Nil; Nil; Nil; Nil; Nil; Nil; Nil; Nil; 0x1]; [Nil; Nil; Nil; Nil; Nil; Nil; Nil; Nil; Nil; 0x30644e72e131a029b85045b68181585d97816a916871ca8d3c208c16d87cfd46]; [Nil; Nil; Nil; Nil; Nil; Nil; Nil; Nil; Nil; Nil; 0x1]; [Nil; Nil; Nil; Nil; Nil; Nil; Nil; Nil; Nil; Nil; Nil; 0x30644e72e131a029b85045b68181585d97816a916871ca8d3c208c16d87cfd46]].
Definition sgs_q : list (poly * poly) := [([], []); ([], [Nil; Nil; 0x30644e72e131a029b85045b68181585d97816a916871ca8d3c208c16d87cfd45]); ([], []); ([], [Nil; Nil; Nil; Nil; 0x30644e72e131a029b85045b68181585d97816a916871ca8d3c208c16d87cfd45]); ([], []); ([], [Nil; Nil; Nil; Nil; Nil; Nil; 0x30644e72e131a029b85045b68181585d97816a916871ca8d3c208c16d87cfd45]); ([], []); ([], [Nil; Nil; Nil; Nil; Nil; Nil; Nil; Nil; 0x30644e72e131a029b85045b68181585d97816a916871ca8d3c208c16d87cfd45]); ([], []); ([], [Nil; Nil; Nil; Nil; Nil; Nil; Nil; Nil; Nil; Nil; 0x30644e72e131a029b85045b68181585d97816a916871ca8d3c208c16d87cfd45]); ([], [])].
Lemma sgs_ok : match sgs with p :: f :: _ => chk_pow p f (tl sgs) sgs_q | _ => false end = true.
Proof. vm_compute. reflexivity. Qed.
Definition fx : poly := [Nil; Nil; 0x690d6194a434aeb5d6c8698ad002bb11d08a87c680df0c3302024cd202f719e; Nil; Nil; Nil; Nil; Nil; 0xd6b98e29dca4786eaf4ea76d5e5883ed4169e25e55f247b9f5ac1e62410e140].
Lemma fx_ok : eqm fx (plin x1 phis) ([], [Nil; Nil; 0x1ca3aa6fc40d017b6a4d65b10a4cd75fcd91adf6bac3351d312687d9968cf680; Nil; Nil; Nil; Nil; Nil; 0x176267b0d31144e99073ae206286b87de555fa66ea416f51f293e511a3a6a864]) = true.
Proof. vm_compute. reflexivity. Qed.
Definition fy : poly := [Nil; Nil; Nil; 0x1a3b655fb7aeea574bbb1cb8f5f891d21290b443a3ff61f1e23e1de4d96df40; Nil; Nil; Nil; Nil; Nil; 0x211deca8c1d666d2bbf7862af1db06c460561e089558a2fbdfdd52b511756e53].
Lemma fy_ok : eqm fy (plin y1 phis) ([], [Nil; Nil; Nil; 0x1c2cf0fa0a1331375c5d772fb6d9c8ac4b668710c97b6a6ff0418fb5992fb914; Nil; Nil; Nil; Nil; Nil; 0x8523f4887c7958874443c28f84ae9c075ee58e3b17be5e86db43dcb4e0b4116]) = true.
Proof. vm_compute. reflexivity. Qed.
Definition gx : poly := [Nil; Nil; 0x734a4d784a7858c0017e4597477edbf8169ccc24bda4c992509936d6aa17ad7; Nil; Nil; Nil; Nil; Nil; 0x148e02f3766351d2edd3ec9bfeac8977e491187c53713c2e1ba2afaed69531bf].
Lemma gx_ok : eqm gx (plin fx phis) ([], [Nil; Nil; 0x5d61f3c25e33538c4c8eae029eb883b438b65ebc245491c47e8659dd5c666ed; Nil; Nil; Nil; Nil; Nil; 0x67b40cd7a186a749a875a36d28a7750b3af5f45e57fef7a55d7b1c64b4f925b]) = true.
Proof. vm_compute. reflexivity. Qed.
Definition gy0 : poly := [Nil; Nil; Nil; 0xe0e2b3a5ea166104e97afe1a2213756235168d4819a68857a0c59ab1abfd742; Nil; Nil; Nil; Nil; Nil; 0x275dc4a288d1afb3cbb1ac09187524c7db36395df7be3b99e673b13a075a65ec].
Lemma gy0_ok : eqm gy0 (plin fy phis) ([], [Nil; Nil; Nil; 0x11e87c5075b90ff0f53b1ede94ec9428b21db64407f16bccf58fbe50466e98d7; Nil; Nil; Nil; Nil; Nil; 0xa9da05d02b45ac00c8b9e9bbfe008bfb22ad9a6b586c133f27e7c376c654aee]) = true.
Proof. vm_compute. reflexivity. Qed.
Definition gy : poly := [Nil; Nil; Nil; 0x2256233882903a1969b895d4df602107743001bce6d76207c214326bbdbd2605; Nil; Nil; Nil; Nil; Nil; 0x90689d0585ff075ec9e99ad690c3395bc4b313370b38ef355acdadcd122975b].
Lemma gy_ok : eqm (padd gy gy0) [] ([Nil; Nil; Nil; 0x1; Nil; Nil; Nil; Nil; Nil; 0x1], []) = true.
Proof. vm_compute. reflexivity. Qed.
Lemma z1_ok : eqm (padd z1 y1) [] ([Nil; Nil; Nil; 0x1; Nil; Nil; Nil; Nil; Nil; 0x1], []) = true.
Proof. vm_compute. reflexivity. Qed.
Definition mA : poly := [Nil; 0x22e3b94756af2b6d382dfe504658e4ccf027d3f5b93843e4417142ef94e8125a; Nil; Nil; Nil; Nil; Nil; 0x2c13b92a9865149271506a0cf4adb8e51bb7b759b89321223b82a2dc793c0185].
Definition lA : poly := [0x2; 0xd80952b8a8274bc802247663b287390a759969baf3986a8faaf49274394eaed; Nil; 0x7585288bc700933726ae7dad50449dc1a594539feef857fe0e28601563ef55c; Nil; Nil; Nil; 0x450954848cc8b9746ffdba98cd39f787bc9b337afdea96b009de93a5f40fbc2; Nil; 0x76977a3015dc164aa06779922047f52feac5ce6be883eb119609b489c01c905].
Definition xA : poly := [Nil; Nil; 0x5d2819cca4ed9463e4d976151d76078c4c324047c119f5faa760ee275d9e1d6; Nil; Nil; Nil; Nil; Nil; 0x2e5e5b0d69e04ded9bc3e7a9704bc33936ddef9f1da194a2aa2bdcc6105bd68b].
Definition yA : poly := [Nil; Nil; Nil; 0x2cc8425afd19a8daba9853c85b837a2a193ed9ba2b7940fd4b1ae50685650864; Nil; Nil; Nil; Nil; Nil; 0xf2be9103df182df217e03645313d0c3a9740d642a53856f2818796a5354c33f].
Lemma lineA_ok : chk_line false xN yN fx fy mA lA xA yA ([Nil; Nil; Nil; 0x67e842056aca00fa72df77c4457950029a9c43a1eda7fd8900585bde3351789f6], [Nil; Nil; Nil; Nil; Nil; Nil; Nil; Nil; Nil; 0x194c4d76e308938c568fb7972cfb08fd4e0c9155875a4ea8370e55187bb4a7d8f]) ([Nil; Nil; 0xcc2e5f16a5deba06ee32f4f402aaac6a6c2ae47d289c713f3868e1636d4da98db], [Nil; Nil; Nil; Nil; Nil; Nil; Nil; Nil; 0x31233feec0729ffb2a30df2c9aed659c32381580d3fd7259b403c31dd8177a342]) ([Nil; Nil; Nil; Nil; Nil; Nil; Nil; Nil; Nil; 0x9e7f7565f9ac9e764c85b11140b3964f52a89fbee69cb8089e1edf8b1c3c8bdb], [Nil; Nil; Nil; 0x31ee16e47ebbed8a837cae4450c902afa0c4a8b8d5bfb94da8080901fe4441cf0]) ([Nil; 0x1; Nil; 0xa64203c346b07605eb0eba3278818411054dabe81fb3067eee4f07604813f8de6; Nil; Nil; Nil; 0x1], [Nil; Nil; Nil; Nil; Nil; Nil; Nil; Nil; Nil; 0x28073a067a14252bc8ee0e91185b032b67d93c310c47caa0104dbf9104b841fe1]) = true.
Proof. vm_compute. reflexivity. Qed.
Definition mB : poly := [Nil; 0x2a813a29e00fff5c88683eec03d0c81bb2d619c88d13f058191bc751b5a6fb48; Nil; Nil; Nil; Nil; Nil; 0xf49839a756c7230eb1ce6ac75930ef1c79b07e58c6f6d8474cf6e5a58468a31].
Definition lB : poly := [0x2; 0x5e314490121a0cd2fe806ca7db09041e4ab50c8db5dda352304c4c522d601ff; Nil; 0x143eff37ea4623e636a888d0451fcfbb7ebd5935bc15a76c4b588acdbe2bc075; Nil; Nil; Nil; 0x211acad86bc52df8cd335f0a0bee496bcfe662abdc025d08c7511dbc80367316; Nil; 0x159264c370c89fec6d3090caefeedbc33638c77a60ef4f4324d5619b60a3bb84].
Definition xB : poly := [Nil; Nil; 0x810605211c7b7889d078bdd2fff871e51e27cc1de4076976a03cc5a186c0b06; Nil; Nil; Nil; Nil; Nil; 0xef0f1481dce746733ca795132ac84fb20cdfb6479a2c46d5373050cfe913679].
Definition yB : poly := [Nil; Nil; Nil; 0x1a3b655fb7aeea574bbb1cb8f5f891d21290b443a3ff61f1e23e1de4d96df40; Nil; Nil; Nil; Nil; Nil; 0x211deca8c1d666d2bbf7862af1db06c460561e089558a2fbdfdd52b511756e53].
Lemma lineB_ok : chk_line false xA yA gx gy mB lB xB yB ([Nil; Nil; Nil; 0x29de66224cdb66a6f24c2c16c2c9d5cf5446363d09f87416ee17bc166db2c4809], [Nil; Nil; Nil; Nil; Nil; Nil; Nil; Nil; Nil; 0xa9055f14b5a21dead2a41594c4e2c31e0c4bf1e9fc79870516cb3394e00fa745]) ([Nil; Nil; 0x166aaa454beaea6cc3632d13b01a14f98b0ea14e4f4fa902ad87dfc605cd3ddd3], [Nil; Nil; Nil; Nil; Nil; Nil; Nil; Nil; 0x71c824104e16dd2b0a530edde28f3144e1ef269cdcf2e82392754b53844972e9]) ([Nil; Nil; Nil; 0x3301163ea4b4f97d5af86c075bfedcba09050363a5bceed52556afe52151c2718], [Nil; Nil; Nil; Nil; Nil; Nil; Nil; Nil; Nil; 0xcd99c39ad96856d16c46e34eefa6eadc882132c3abbd6f1b11ad2ea3b082d91e]) ([Nil; 0x1; Nil; 0x4ac05ea4612ee34a3371b925bb2a7c72933cae5bf649f4c5eeff3e85591d548b9; Nil; Nil; Nil; 0x1], [Nil; Nil; Nil; Nil; Nil; Nil; Nil; Nil; Nil; 0x1323b306bf3c8b3b9f6cf23b52f26c4b7ea5c9e0fe1400a000bdc980abc0964c7]) = true.
Proof. vm_compute. reflexivity. Qed.
Definition fA : poly := [0x2497c8e3109de4f4fa5151eddbdf8a32c51f121f532c48f5f54babde218c18b9; 0xc32fb8705dfc35479973dfeabcf45d4c2bd40847bfb9f58ba835e91c101ed4d; 0x1f79635f77073822a158786637e955dd60ab3b18f4f23acfc6e77791690856df; 0x19ea65f4c7f5537517ea67bbee609da1dd1dea5c2e35bb036cf521423702750d; 0x1d9bdc2223aa569563079c6005ebf08e1e252ab8f526bd5f24a5ead0bf41740b; 0x300d0c1e5291a3fa8240b7c7aae493740368c6e5308cb9476c3de232921e7300; 0x1e6d2cd78d53a53db4acd7aaf3d732c95073c0f3eb5f53c4c5025f02fb45941e; 0x17db1dbe5d5072aefc3fb15a4e147bfb5c08bb08a3a9738d47b9eb4a3dffe568; 0x4b45d6cbadf56f5a47d9d20d2868343bf5e17be4c75ec4f352ecb904de77c51; 0x116b490299c92c58a2cf433e23e2ad8dad1fb84a55853b2c7f342727729113fe; 0x1b121f2732262206c153c2bc787a42d74a1a78577e8f8e448359fe37e89580e1; 0x26eaf08931d862b562fe6b77f94d513bf1bb7af55acd0ea0d3b68cc179ad63f0].
Definition fB : poly := [0x2b4c7adee8ccb4910784605ab2f1517dbb74c0988d21f4825341c23c9cac4b49; 0x1dd3892b72f1367de4e44d9fb56da11e864bbaf1a8e97a885f806e37abe67a25; 0x8c2c5183b82f9034991d34bbd62a03e53afe4a22bf64d0b3a3e546ecf7f849; 0x16ab8b2fe9bf7ef4be9ba5239918354606267d4f82c334e946a69fb4db8f33cb; 0x20d74170a0193a2d9b79b2185f7b0cdaf417b8eed9b53936eba8cc196b1229cd; 0xd1c18da5c31f4c368317e3e96ceb4716a020b8c69802b0ac053c8f389180f3c; 0x25fba65d7ea3f916ca272ea98a0df992be255e4fb966ce81e0ad5bd6ae4a7091; 0x2146795ecbf30f50db61d9aa52e09a7e023bfe43e0e85e57e948a688d8ef4cbf; 0x2441b62fb39c633c1eab766c42a408677a6c33e1b4078aa4189e884ae3e8486f; 0x27b5ff20643df75e7699c0bd49d9993eafdbc748b28d47fea58ad616794daf3f; 0xf5528ee79f8c462bd40d5229378128a0845b9afc453d091ecf6546e546f0ba6; 0x15c229cf7c0d87a5daf40c843afc1f0e125ee9cbe31e5e914bbf5bfd5c22b50e].
Lemma fA_ok : eqm fA (pmul lA fN) ([0x243adcb0b1c31cabe244ea237e0ac92ba7299375aea2c1007e018ce97a25bc533b; 0x1d868603fe70df1e1eeb997369a73e1d8137c07c609cd7ee6c21ee575c8cdf7898; 0x2e9ce71f62897cc8eb924734476ec6d789609cefcdb8f29ffac5485ab69fd6bfeb; 0x1cd4fd6966d59ced1284f1c6618b03fa30cb9346a695e1016fff6134557a7064b; 0x163e6b01464ed0498f3558f0049d913226632e48cccff6259f36d8e270d8b286b; 0x28816ab6e645e6b8df242d7b89978fc4ded3a5c5435ec2963e077a3f109d33e6c], [Nil; Nil; Nil; Nil; Nil; Nil; 0x655365b115ead33354532ba595b991cb8178fbcd5357873c8b630c99ef0d58871; 0x5005b59ab17884834d8a1550fa7de21583669c4b09154ca64b6c3dbdbcc41f367; 0x7f5febb0e78b007914cf76243ff36884ce675cefa432135cba069c01a2986e6e5; 0x7c6d4c8c4e0b13e949c52a20245f6e48df452a88a7a4bc5460de3eb80288ea26; 0x56d11ba248bc2b3e725ed4cd4958fc6148e46bf6930cc232b6582fbd122ac26c; 0x9f4c45f59e82edd52390106a88c6dd0d5fb35700459aa45552140aefb96c4eba]) = true.
Proof. vm_compute. reflexivity. Qed.
Lemma fB_ok : eqm fB (pmul lB fA) ([0xd859f423aca4f1e12f188e64c946779423f5cb618ccc4901abed98bf0e9309fd1d; 0x5414f639aaae4d9d8beeb0cc030a5f857ea7d5516f8117f79514ff0413cc147a82; 0x7552c3a9a89bbb5541c13bb05b026b2c698e3db7fe6c895397f67409f195d1fd28; 0x54cf63dd6eec3bf520205eff2baa3b483c446536f5d1f816b974fbf9e63b6ea49; 0x730e67a66d08399cc1ac589c41ca879e1f748732bf2cd61448f8dbd2669c00fed; 0x689c1ebd06dbb272a1cbd1350bc40015739dd7a184a411c7bf97b6e50180428d0], [Nil; Nil; Nil; Nil; Nil; Nil; 0x248aba184bd7f8cd05d929fc05f9b73cb0dbd274ebec7008bb43c0638bd9a5a660; 0xec18eed7a6faf171117a9c0660ae0de00d708277799cdf9d599ea24472ab74ece; 0x145217ef4aae0d2bc8e8a75f7f44c2e91294d31b42c0f3342646e07f36dca49d0f; 0x161376ba04334cdc84a4b719c2d89cdfec4aba4870b369711a46c76314f661e34; 0x1b92de16d25854a45a5c67135759aeb19e74dc9d93331440b1bb1072ddd4c0d60; 0x19aa37dc2c1964bbbad3ba09abbdb7b9e9db27f0cf981d6d67e030b0ac1803f88]) = true.
Proof. vm_compute. reflexivity. Qed.
