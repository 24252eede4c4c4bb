(** Order - 1 times the generator of G1 is its opposite: the certificate. *)
Require Import ZArith NArith Bool List.
Require Import Verif.FqModel Verif.TowerModel Verif.CurveModel Verif.OrderCheck.
Import ListNotations.
Open Scope Z_scope.

Definition cert_g1_0 : list (op Z) := [
  OD (C 0x244b3ad628e5381f4a3c3448e121024631a10fed0e5557e9ed186911225dbdf6 0x30644e72e131a029b85045b68181585d97816a916871ca8d3c208c16d87cfd3 0x15ed738c0e0a7c92e7845f96b2ae9c0a68a6a449e3538fc7ff3ebf7a5a18a2c4 0x3 0x1b386c209eabea1777ad2736a8d8c1b4a538cbf1cac001ef71d24eccd9c64e79 (-0x244b3ad628e5381f4a3c3448e121024631a10fed0e5557e9ed186911225dbde));
  OS;
  OA 0 (C 0x1d7829358c6b59547bbabadd17120cc967c00abe4b1758e322f990633ee9a75f 0x769bf9ac56bea3ff40232bcb1b6bd159315d84715b8e679f2d355961915abf0 0x2ab799bee0489429554fdb7c8d086475319e63b40b9c5b57cdf1ff3dd9fe2261 (-0x1d7829358c6b59547bbabadd17120cc967c00abe4b1758e322f990633ee9a74) 0x11f2335a0baa65fd4b59192e05d81ec2db1420cc7fc7a75c5f251b35dfbf851b (-0x2ac2b8ae7a750dd271e488d4c0313fd44ba5372446ebae6bbf1eb8182ba7dd8));
  OS;
  OA 1 (C 0x10b6b797531bb4e285d30ad3952c471b2f72b9f3808718fe684d12d83dc08dda 0x17c139df0efee0f766bc0204762b774362e4ded88953a39ce849a8a7fa163fa9 0x1e0559bacb160664764a357af8a9fe70baa9258e0b959273ffc5718c6d4cc7c (-0x1840800b09d7eb337b52b5d4ecd17feb05e66d965808de3fd5c935438839bc3) 0x5c5cc696dd1af13ec3e1c601d3c5c7e16bbc61a276b12f66d657557844c0808 (-0x5a4e780f0cb229afcdb57b405dd6ac2a061107e94c13a88661426c168c6dce1));
  OS;
  OA 1 (C 0x20dc360d412b0fe3d20bd5db89fdee434ae9fa3f986e2d245d1e1bc343a72aa 0x17072b2ed3bb8d759a5325f477629386cb6fc6ecb801bd76983a6b86abffe078 0x168ada6cd130dd52017bb54bfa19377aadfe3bf05d18f41b77809f7f60d4af9e (-0xe13a8e934b3181a18004d37d1010d5c8dc48dfd835989b3ca1163c3e1d887c) 0x165043fbeaa45138949ed2a2f19d054646452ee37de4e14d9e05311b618790 0x7e575b2e2ec300632f50cae93f6f5de48a3f4e65b7e343369365ade1e8810);
  OS;
  OA 1 (C 0xb0f379af8205bfa93fc06e865ca7f4ac252f71f922c0f09669148516890a6e5 0x39730ea8dff1254c0fee9c0ea777d29a9c710b7e616683f194f18c43b43b869 0x73a5ffcc6fc7a28c30723d6e58ce577356982d65b833a5a5c15bf9024b43d98 (-0x49253e7ccee8d08a1ca6d85b97bac7c5a34df51979b8dd90dea6a5c776148c9) 0x2870b809285dcc766961ef74afea6eb75b5c07150d9d0f86f1f1174e58e3d33 0x471351663dd5f1f9c15504e20456a91f6872b34dd1d144be8975d60de80b2a3);
  OS;
  OA 1 (C 0x247be6e9a11455b8b485c3f183820f6cf308c3cb820e33e55ecf63ae00695045 0x2a14705537b009189da8808651eecdb82482477fe92ac12ca8b71f80fc3d49ef 0x2df7ee7f243ea8b38e1ddf14029258877a618c779fd4717db6177e19ea67ec38 (-0x6d42c57a1dc48722dba325e5d10a39bec73dac8e7c6e6506ab71c64fb80296) 0x1b819f3215e0fd612266802b4091e2ed91385d9f22579d6c2d4a0cf9a451db22 (-0x1d04a5e4b460582ce15047c4646286af8254f4d3fc4d92840c770968cf1624a2));
  OS;
  OA 1 (C 0x2f0d3fff57f27971a9f42ea5109e30d79edb67a530634c48c5fc23c0b382d8c 0x5e86f8cc8a7a4f10f56093465679f17f8b8c3fdb41469e408b529e030f52f3f 0x2857bd14bbc09767bed8e913d3ccb42b2bc8738f715417dd6f020725d22bcd90 (-0x25f94cfecb88438e19dd77162f3f3f0f193d5c74c5088f0126d94bd40f94544) 0x2dbfb1858c98aa32b89adf494f113a4a30d598d772a907accf590bb85dd379 0x232b9350c148ee21772abd6ae6de88eae7ea77ca6b7245aea386028e40619c8);
  OS;
  OA 1 (C 0x943389ceeaa33ec04a02ff1a9f0919d769930e15507376319c9fa848fd40dbf 0x2d96b121486ab9da7bf549e57d2f8a6cc1983a336903524fb05dcd507457f63c 0x1dcb45731979ca35dfde49a476e273a1b1c9b52e3eca22fae279459920daa7e3 (-0x8d4a7f14a46a5bfd5fd8fda554037db6fadd81cae8da54a3cdeae217afaaf8) 0x1c5dee85090d4bb08792de17e3237ad05591caa475f7c02c1abf629695db4b5 (-0x7985f246b61bc56b3d3fbbda04b712e343b6c241e4209e2fb636361637f941a));
  OS;
  OL 2;
  OD (C 0xe961a40abfecd3902bb1c8e3868f2f06a8e6111bb6072b6104efcafca7fa6a0 0x9f4ca411a3f52f4e0792fd9e792779856719215d3b32a762afe3d5b8c684af9 0xd8ef3d795acd4b35d4366ab22e4ad335273aa59429e26929d0f64583474d9c8 0x16584f81c6a94ebf3e621b23debc3e22b0f1e6b56e419e6795212813ecd6cbc0 0x46589fae0e4426bc7950c3c4b13c383b03f13d5df84879c5948375b5aa10d21 (-0xc43ceb900cf7d0b0721ebda651440759f7aec0a9d252d2de2613be1b846a6f));
  OD (C 0xb98b758c06981308b79a1a019a4b04010da58f80b6f8222a5d89ee7855f6456 0x25d32c471c8cd1ab9ac9b4118d040166f75ad9e4f36526b09fc0b7d1002bc851 0x2db09ae9bc0cb9addf3404069078f0367ff42b63cb1c200bae5bf9095585b69c 0x5a5f2ea62651bcad88ffcb4837ccaa88e0b89ab3aa242b98a05c61d2aef44b 0x2c76b3fccc30b234c472b65235fd5d399619de2d0ea835d1b113216107808d7 (-0x6adac64761d5f13d53c4b0e48fdb441753de98cc48113f5cd3bc2355fb53e6c));
  OD (C 0xcff828bafb248c839cb800c24b8a47cc46daf2fd5c2f040278d01985527272c 0x2d3884ee594280d7510d2d0d5e732e53085668e1b6d8f91de3942f922ec35fb2 0x152fb4da392da5c238d1e65a12a41f89c9ab5f5e7a77107ad38e34a1b835ce5b (-0x4026c689ac6b4b9dfd5bad73f51fdbf952abe393aa7dc4c81411f93585b64c25) 0x37dc5a7195492c489bad8c96af8df1b085926e549c3c3fac990e1efadfcb4e4 (-0x1fc8df1e8820c30b72d3274a9bc710e0147c0063ab0d6559d87027f7db3cfc5));
  OD (C 0x2256e093565e4984ded667fc6496031dfe0fe653a6ec989265265b1fa025fae6 0x1774c9824d457fcdcdbbe9679bd152d351a7597b49c9f69bb2467a6328b7b406 0xaa49fb46445cf3aa565cef7d4040b4c60d3e4f866e8c90a876f9d7f4d0adfd9 (-0x60b456e57b9c8321a9dd442b91d38ba2402a68370830e94f32f8112f9c4585f8) 0x185e1a2fc52327e0b85a32070bfe4d7a9f2a70b7d3b1f18abb9059004caac7f6 0xf71c307164f3fef4cc5b27bcf5af09789e68b2d5aac2e72ab82f39021a8a10c);
  OD (C 0x251b3035663e7e72c895811a4c9a83698329e3065ade57e3b20c3cf2d1d28208 0x2947e347a1b83971790018d5fa3a3c691f0dc720e0cd494a6c5f860a58ccf953 0x1143f0155e0f21c29867070064ac3778983f0d47aba2ee9eb64dc3f0e22a2b67 (-0x11c967ab374c2ea6eb17dbeff2a78dec3468636be7c1858f732a905d75af1844) 0x1c73d9dd2d56a33c3b27f9a3d7ac89a46bdb09b4451f69c24bb8a5e69f1bd697 (-0xdaaecbf2e82fff534d6809e1ab2505492ef0d79dabf989823f805c0b70d6718));
  OD (C 0x1767741ab1f087c8b7880487423379ad3aa38e3758a05b97fe487ba9f6408325 0x2e6ac62f9e70e0c7cb62fedf1aea5461faaeb507efe3c908f65d32ba58c93551 0x238fab1dbed6117abf1bea6fbc8150553142788f80a72fd114991c4f1a964b69 (-0x58f19f37e194cbc11a0fe9883f1c09e6c1aedacf1bfd775343cf2271f0ff21e3) 0xb51b18b3c388ed9bd90b71d7eda2a10f78b0053c6cceb320d60e63791b5d28e (-0x27bedc3e36870d17135a0430debe67c6e9f9f10b641992972b2b1940d1cea4a));
  OD (C 0x15c4edd0c274fd21c9e0ec9a95996a76601d0a21321da13f3b4742328648fc9 0x273cf78995a526ad057fa6a68c1422e74536f9159debd436d136a9bc83a3b941 0x137d2e48680478bd629a73e643f274f05f29e131372687e9aded7ee6babdb527 (-0x8391b2d581be4e1c0f3e9a1e93b3ef4f0382ca9451ebe336c61b85476a8cda77) 0x9cb01187db971e619664f5da84fafe2b1d332767cc8b8b93193a81322b7a2 0x33abeb1624cf9f882778fcbee9a3e08be323d332d050176a7cf7679c69e800);
  OA 2 (C 0x20f3cef5432cf72d2e89eed35c13a8e4c753b2153cf532f036c3e224db7a305f 0x2b65f4e693d52d982315a229c7db569f8c79f93aa206b5353a3f8bb669cac132 0x29f24e9fac669034b4bcc9aded460e0a046a91eb0b9cceb2647fcec23979fcec (-0x15abd7b59fc716e154077396594ecc7cf56c078337dfa61565bae83ea1e79fef) 0x16705b9436212eb24a42965199cb48d6ecae7aad73478d41e5b5265fd7cb3332 (-0x2d53437cb37e1937aa5dfca942f06c0b38313f4a150036dc2225b0f13fa006e));
  OD (C 0x18b5190dc47a8fc2388d2e7eb1be103087916a1bcd4bac52b9b99019d79be8b4 0x2ead2fce0edb7d5401c712891cf90a0c0c8e090f91fcba4c51dec8363d3f5d9a 0x2847329a18a4d1dd391b26024919bfc1fba4aba4e7e33b6eaa150b6361fcb9ec (-0x49ed3e7ad2a5c24926744b968080a7e83a122675f57ed70dd360bcdf2c9bbd34) 0xc9d67c49b79f878afdbcb7f44513a5433a9848f75346764e041ccc967996dde (-0x1ac7c588c662b50cecb822c70ea14cae1e94c7e478e57da9c05470fc068ac48));
  OD (C 0x2020edce0a784e6ac774151e3160c2382f646fc6c00d139446eece41741a97fe 0x14de9b29cdd83c5eed88899646f1cf9097e05b47aec57cfe936552fc10b6fd58 0x1e24a987e680be96594b56c724b83a47c937b070dbabf453a4f7fe3ef9a166f6 (-0x5195229e5287e884e62ef18b247e04e46a1d46ce59ddf58f077226da52ae2784) 0x1554c03c771e2c9f368bdca353c884e64ce0630d2ea24bbd5d606df2fd19b8c8 0x1122493cbb9d902229cfd06b5b93d24bb74480c5a8ce52eb6a7b86626e486196);
  OD (C 0x1a48faebb3190a6f38f62b206455d444378f35fd1d1681a4b72fd171b3a6a3be 0x3019fd738a37aad11ba41d67ff91919053e5244d4664d306469d903abbbc6f23 0x11f42edeb9250b22f7884e1609c9f2536012197a3085aca4c10efcd015f2377a 0x5bec2525739d5ff920e4b33461b34af2ddfb4b66297d6955d4c8edcdd0a3258 0xe46fe38bb413174b5f53e226f31d9a9d0f9014a81340e7018af8ed17e14a3c7 (-0xecaa8f45698802f0a1cdcfa1b74a0a85c62e77994b7e5b78d2c9a7a8e5cf016));
  OA 0 (C 0x19185428ef39f8fc71c632d8bf590612fc846ea28669a43c8998439282f440df 0x1d08fea0d6494b1a2ed61046840f53cadca36b2258dd52a1cf6397221784d0f1 0x8fec6b661a1bda3262f068994c9eeb97636f6539847cdfd309d8b2ac82d8a80 (-0x18f1ca2cee9991306ce61791ff4297f7140ddbb23589378feff0fff14c20eaaa) 0xd03876075f8fb163f3d757a317e4e547f1c6ea4b3c8877f506f53829f20d274 0x9e32fd94b1f1c90450f6bfabd24f98c5b80b3dedb045086104ba484a40411cc);
  OD (C 0x16977aa83d87ad71978b57c89c3d6f10126be63485c6db94afb9eff33f49e493 0x157c16ec92ebeaa708ce9803d09b97f564b3d35fe34d46d48e8f5486252e3609 0xa12e3ac90116fd7c4098b37834bd4cf156e469512d086c0d274d2e55b85e575 (-0x2bdd4ee8e76875556ebb590f9dabc0bbc24c8cf0fc2b57aa9952dea5e4b2dec5) 0xa8c04344d3350ae95ceacf831d44e2c92865458bfc0e09b8d34ff9e5bde0e92 0x386606089a237defe4ee5950799554b2f1b84c461f83160f50d322c50e23825);
  OD (C 0x27451181e3f178a29d5f8e315b3e6720e921f458016ed9ee9bb7e66ad382e014 0x17711b568b0675e01bc70c255e5d03ac7a2499583d3e7a903d1964f138026d45 0x28687a50b3c052468273146cf2f2033581bebf586f15013fd4b4553a0439fcbf (-0xc442cdbfb61a2f9bd6c372b68ffbbc0514e0529cd7e5d478741e987e723697d) 0x1fde07daaa6a5f8a17e8efeebd65389947e4de23b36fd3f1cd51b95b19d26e7f (-0x19692e359d9e5c95934ccf0717a574cbb59a956d9491037eead60d9c4fa17fc));
  OD (C 0xbebc5e4a72832894dce797b023675d94ba4fb3a6a36dc63c5dfee849abad581 0x1e58559e3af408ab36cc76330c7dfb09d283ee44f03b2bcb3077b0355fd711b6 0x1d2bfc02d25554c536eb5a84f9aff6076e9e43cb4581188c9eb7dbfcf2e9f369 (-0xe2888fcc656f39be01a2a2d7dce3c89da6f116a2ef62122ff309a7e997328cb) 0x2efc874bb2edcccf798571c42234bde5cfade11c3e6d4cdf28c9062f48e07b7 (-0x1b3581f36b35397797a03ea45574d1220f92c8ac837b1becbb1b1bfb853e59f));
  OD (C 0x2fc6abf9f34d37080e5e40038ad78f066575d4dbe9f9c72e48ae6e350bf51275 0xc0ddb2e56f43ac699e79a186c8f1e9a445253a5739717a44cf361899fdbe93a 0x135d61f7edd7339701080b5b15ec9850f568afd5f803ecaebbe2c3286e876632 0x840cba8866fb61057b5820f45405eadb18a092f14501598179c38b714e66c2 0x2f2b0afe4b8e7cc7b2365218d80b6f1ed48f9f852d69f9fd4d308fd00cf87a15 0x120ee56dc9132a1a8d0784ed3608949de6cc12815e7d82beda36772ee9a30ce7);
  OD (C 0x2fbc56cd08b108c4eb55f8ce7e4a98e7f55f193278878a2e7e169a14140ab59c 0xd3867a142efcced8b4c8f2a5a4eeb90835cf852e8f020098947d452fad6c440 0x269de21be7e35a4eab6bd394ed32298b8b6c4f683d66f75aa7ba4da1c3d7fb23 0x1d32540cd4da52449191454720fedc68d688012e48c8c1e1ffa49b942568e85c 0x2f16a62a65b2a44c0b8375d9d6b832cd6a58e0088970e4779c82876aafb1dac4 (-0x1268030c94af8b329b786a550b0e753283bd59cee3ee0154d2e80d0bbaddb9b));
  OD (C 0x1421bff45125382339a14090f41f5d599c1737d3d93d711754108cc776a29043 0x1eaf3f2d9dabe75fe30e9cba62fb98b2a1e376c3fa767cd40c3e6bf1cc56a76e 0x1b2dfdc0297fb5af9a53c8856a4f9f0be462a1c424aed7cc01018bf63ea8d3fa 0x154b9ad150307378d7ef3d8c2c2443edc35d5e90252d60f1c7f346dae0565a1e 0x8600c918ec7bddfc3b7edfaf691364ad37b33c1096cc0e480b5b671f830f30d (-0x743f29740db4d0c51a36ae26853f114c4323088e1d40def2d45da4070309221));
  OD (C 0x20bac8b13d7c45041f8fd9512621fc11c12a6ccea00d978d12d946774d55a3b7 0x1cb55f46567034805917dd7b5adc7ba9474fb4e4df118d7dda4bd27a133ecac8 0x205658778c94c3d08801efd9b30052c7dbe344183f7f5376ce22ef049e371424 (-0x159aacc9991ad73f574698b141e31c0bc8b86a1fb6546130df98dcb1e2dd8ea0) 0x1622f56b384f42b89e2334e571544a075472e462f0bfd78bd417fcb20efdf5eb 0x1562578ff64e9c74740b80d9cf86656f82ff6da8e824f19a0c92c923414ed14);
  OA 5 (C 0x2dd80a45b1a728c390490661b1d9b93ce676a55a13568fc738a45f78fe3c72dd 0x225327e947e1138dc23e45de1e5a011e9d4f8a391c2a893066e204e2751bfa6c 0x283ec6e22c51bc0b2858945f67365d65844aeb194fe161d37b02a12a023b796c (-0x17cb9ee292d36aec33f93ca7de9bff0d0b962bc4363cec64ed2ff83a74245051) 0x2b6e1de5f6eae1dc95ee1cda44c4288b96023438c888bc7fa1c5b817d8a1a774 (-0x55214f588d5482cffe742ebdfea6c380211bb4467c854026b7df9299d739abc));
  OD (C 0xd58e8d273d42440642e028fa299caf4b6b60f364538a9b92dc8aa9c396a0047 0x2a56a1ac03ecfdadb3cb26dcb2bea4f135af0727fb21806bc48bca992c70e208 0x23f2426f577e2620732e483b4e750be019b32038dbdaa921b0d524f6097fa0c0 (-0x32d718ef419c19272dcfe4305e0da45a4b0757773b1afa0824c4007e28794ef8) 0x3ae715ba4fce18e6e1745406cc75f552989d65979cd27065c28fdb18139a127 (-0x235d51f219846c9a020c5b321cabe1aff20c05247c58facffa92386756d6e10));
  OD (C 0x19d1fb64de101a3f064e9cfbb38ec312ed7d5365f3d2be288cfc65b3ed87bc8a 0x2db43186e4a936c08235b4e100c00abc41885f3254f56d36b437b9a8310f5537 0x20359b913b207844ffe005abc0d7accbe5d335c777721bf81ea51f6b1ee7c706 (-0x48c4650475e5e2a9b94b4cad739ea4b93c08d65f266a222db1cf5ebd987e4040) 0xdc6dcfaef89969652a6cdb04a4ee4ee1d11b82ad0183372cf14232133ae507b (-0x1cbb34a85fe8f61414632490a0505c3a540258ca186de631fe9aaef85e98204));
  OA 2 (C 0x2ae1890a027bc4e056ce6d9711989319f4497ba3795e2096dd7b08b4127fd6e5 0xd656198a4895dea5943bd3e6e39d1f4ce7a5e5c76612fba953b7bce17c14b72 0x3f7c42a464986266e8bb1fae49b2213637974c939a357cf2fb867f5343bdcf9 (-0x21ee265cf556df4608cd42bbac620ba854a24fcc6edbdc02e7a385b2fcd40632) 0x25ff6bf7856bd8d1c9b4d37d0f6f6f863235555bc59dcf7d3d5ef758d4d6e1c0 0x1ca0f033089daead41d6274e178f92d9182f081ea146ad20cfa54ce6971df3f6);
  OD (C 0x2b6d2fa38bdae61a43e939fd275b5da1bd06f3823e74fed6562942fbd7cac6e2 0x1fe716a279860d779cd8981cc065027f923fb1112fc6b1cc4dcc60ed0f825f8 0xc02b1b9294ca834d6df557e24a91987b5780bdf3fab4c164f472211ea9a6d18 (-0x400ebe7bc154de01bb472cfdf8f27fa4b0061bbdb55f45263fd34d46954c618) 0x26f87dac03b6ff9cb8c81b484336d9d5a6fb5f6793bb96d45cd72878502afc18 0xa3b6faf9d995a2d2fa6cb5e123dd89bc0ab3d9e9f57cd69dbea3c3c65dfc0c5);
  OD (C 0x26200d5429d515598024bfe610e7878a494e590700cdaa4f6bd465b60019a277 0x151e37bcd860948a593b1d6583be7aef2304497f75e86b07a6670feba6b5fb56 0x15ece7625df7c298c7aa6e821c8947c8886e486f18a476a1839d648f301be90 0x12ada97f08c852b5715bfd5368f6e5e17372cf5e8a88db8b597709702cab3ff0 0x1e0965d6641d6531712659dadef6ebc4909e549e4de7d319fa8e5e835988cd1d (-0xf111b3c8cadebbcfa27d903b94ee5253fcbc70706bdce278b945bc493977bd6));
  OD (C 0x1c910be39023ddd1d07af27da09ca8ea16a0405b4db5b39088c26eeb6603d62d 0x105f313305c4abe0e43ff88ed1a159685a960420a1a2af49bdc7006822a77e9c 0x1af8fcae0ad66002a68576e9693200b21dbedd8aabb457c99f937f62225f989e (-0x1a0798032c4f947c5a227bd766eba9b5f5360895b70756c46f67adb5dd45b194) 0x10dd06ce4a6a9eefeeed61c0d4756f44ad78c1fcfc7a99b8558ae1e3ee7228d7 0x2cd40866cd039b1a80d9f875b2c89c8f894e38e9b24bbe0907616f2cf9c945c);
  OD (C 0x679855e3543653d50e411ba00afe68e303959d2f925b1806affb0ff3a2e80d0 0x12c80d7e033196eed40cfcaae288bd847e70de34166ea511949f3f72984462d7 0x13e04d24028c41659d9803664d81d489e513acfb59e937d72e640dea85fcd1ae (-0x96622e69572eeb524ec88da53139a2498e64257c9e8a3c0e68086b878184810) 0xddc58e09cca39401beaf74ce9c17b52afffb092719539c288d7cb5de18c407 (-0x5288c2d576ced5cee5f922ef089b4f2c15be2324c831882aec269d050d81e4));
  OD (C 0x1137a42b6be56c4e695d2c2066b66d2cd0bfdf3e4c240f8c674eebc75596fea4 0x2a09fb217c474bb65c1ecea6ff0a8cf30c3ddbe22bb3942a39fa9d28dd39f6f9 0x154fc270e5784fc3db5d8402c29deba0027422926807eda5520b9c0c13fb2bc0 (-0x7b9741041b1b173d14847fca99c2cf4daa0f77b9b961a1523411d5b42d11ca5) 0x620325d44130dd5b088d95bdb6984716378ed0f08bcd68c5170471fb40f30cf (-0x84659d48c1dac508e9341fc76b6a6894f77bc215b6a6978d7e57a3ff424ea1a));
  OA 4 (C 0x190a067af624a692c766363230f7db698f63a42b06800bd5b5d80ec6ab6cfd0a 0x19c2e7204167047148e9ae9601c3fa23c884245bc9e1a03e309ec8b3687e3b54 0x6ea177549e049616771e8f3e06be46fa16a9db2ac9b9d922277cee53c716418 (-0x9d636705f7d3b8a1624192614e3e2279d5466bbe3ec353ffcbd7912cf3b62d8) 0xcf4b5db423b6114879135f32c525c6e92b17fc2232e421ce334820cb44274e9 0x86c270237d48bd36533050533599b3cfda33cdcfcf2747589b46dce31b12296);
  OD (C 0xae8014f6919e0274f0af2e3c37f022fb8f79c46508728d48adf96e03ea145b8 0x1ce7257b76631618ec3d3ca7ce6d66b5c01f2a2c7e500f3dee357328d9c4744b 0x6587155a14015641f19f2383dc17b16cb24a122c53027afad8d70dbd6cd8286 (-0x2606810fecd15d5c875ab276ce36206e5c2e959735f688661928091d6d016e50) 0x2753efb773d2719c696f438b64ed58a5dc2a913672ca0639d432e07c1ea7ecb (-0xb5417b05dc1b410fc006bdfba8fd47926e3f95ff7ef4701c9d2cae8541f6aa));
  OD (C 0x2f32de11a7f1beb19c3bd7a238726cef7e4b057511b48d9f6084b8148815312e 0xed0cdfceed465e34cc44573646288e1ae736a78c0d67304c2c3ac689df8e011 0xff2e53deab21ba9c98cdf2c02a6b145d245b2f2ee1df1b3a142a0d93f8747f3 (-0x27690cf6d290746bd7c86a6ddf73f80591ba518882ec9309c34a63e18c0311a5) 0x2e08f58e41bf0dde485a0d730be02711640a79b86c86d28a02b9ebbe3b12c1fb 0xdbd6d066044765670463f1287dc6ce089bd6fec9c7f52f457dc8756e55b8bf5);
  OD (C 0x27c02623a8ffdba4116d8c720e3e90cd9a374b3bb259c2cb2a40742197743f6f 0x29983372fae8d73b650ce64494095bb4a395c617b2eec73f3f1e05f22c7841da 0x2f1f6e919e3472dfea1715d64eb4101f0f3f50e3734e7bc43be9dc45f15615d 0xc980649352fac65ddf63649ee74d252a3a928e3895c523a2c2ad19633971971 0x20a70331a6676cfa3b5861101b00906ceb218e369549e616c6204f4581274d33 (-0x15ff3d99198d7e801e53459749da827d87e77b34e172c43ca4825e1ee4920551));
  OD (C 0x17ae8109735db05f80e909b5598ac495c941601864053a41b503e2d6b246b9d5 0x260fd7ef8859ddd02edcdb77b74df27c6f000ce588c241a71264f1dac7071df2 0x141a80fcc1d5a6c5fc6ad678d3665d6c8dba06dc6439705d50c909baa603977e (-0x685f9c5bfea771586509efa7e9ed62dc6021cf02f748caa6939241e7aa290186) 0xb96d392fcae407027135e502646702c7545641d22affabb4f9cc05e100c2755 0x1ba917782d0945b024f0dae7de5d7e2c7f5ee1aab401167a30dea5f4efaf9eb)].
Definition cert_g1_1 : list (op Z) := [
  OD (C 0x24d11e4b2b1f998a94614c2948274ce85a8cfcc732222b766a4f67b65742fdd1 0x218d7952fcf6cccbf515d15e741af39a740259ae5636f9b6d6068fc65daca7b0 0x16a7ffddfde79a3353b16b8620344ca85d2066061c3af150fec2737ab464bcf7 (-0x3b38a39a44c1fc7c663311ee19b67fc30ed927f8a4276f899088c44ed60130f0) 0x1c02b3c00f041be07f3643d3380e9895810e34d90b54fbd36dd15530d80a890b 0x36e40d227f0f404ff12b7d19069f8e1b33e23f5e0cf61356370eb098a5b25ab);
  OD (C 0xaa51a06179d134cef779d9df3f81115db369fdf79d2ca2204a1f62748f8dc02 0x2f16fad04c0f67c74dfc9b7261f7125bd31604a21116ced680c6a0fa929ff98f 0x26f1d3b879e33282d65bd69957e0e982dada2e01f2b8d907e0b875ff169db35f (-0x3bd2ed5884ed35bc113d46500aa24a2aceb3ea9c82c8cc897feb9d55883d39bc) 0x25773616b5e07f33140bce8408918e09ac2a648014e4e5c933a6ccf3205f6c3 (-0x2fa51f572de003430bb4f0ac9258ed03b88af36774c0581720196e27249c14c));
  OA 6 (C 0x28e38b4ee07f768b3eb4fdf4e18966f3b75399970bef7b5b260ba3b2465f21bf 0x22703c7f05bb7c5025a8a36d6d73486ef4912a804366baaa410d9e01e7378b60 0x1491498e058717c25f281265df7b168e704e822be71c0eef63f3cca28e98284e (-0x43bb005e25f0b975d9aca2ccc54fe40bd0cb2abc5e30aff407c4e012fba6d7f) 0x228c96d3f5d8eb090426c719f810f9ef3d3569945c682fd274b42e4322793ac5 0xab09682a73c8e620a31458fe214cec98701f89bb8524f34541a83620f70767c);
  OD (C 0x1878fcc85c1dce91658be516a7432b0270bc1f0a136921644da7d3f8510170c5 0x2d04013a8518894fec065acb2c033f905ed84371d5cee57f94bec869faf7ad25 0x21906a1c3ae514f33580163a288ffec0bf12dc02a58016104ecc6a2317aad6b5 (-0x34b8ef0557ad36bf19953e713066f91fd034095d48ad324ead5676d43a29a66c) 0xc6050dae44091e6d000258e11975345ec786cc6ce37c95b5d3a1124a15db8ac (-0x5595de68865e8d906949d7426c7696fb6887b8f618cd488c702df148b7b5584));
  OA 0 (C 0x2a8a52af043646d6a23ad106e7d79330e60efdca49a8e79faf2ebe7d18342a1 0xa6e386aaafdc48debc5e1022386e6c6ace9c87878489826c6cf1357b6af4dd0 0x25836d5350c6091707470961bbe2726754f2889552f293e912936307debaccf3 (-0x2792882e82d320e85cf0b9a6b142f0815482eae02d34916ae5766d5f16b5807) 0x25657972d9bca74f15357e5f2468086ebcea3b8b7c3c924922bc2c6ab5f8dd 0x1e67313e260b95f314d1d864df511edb6b8c6b7896697bf2bf8ed10a79c414b);
  OD (C 0x17bb8c9e8957d37f901ef4e021c2d48c25514468863656d7bc971e63af5916d7 0x8b318ba0a2f254211949d247cec79f067d455cd541bb981a59e724af3e04c7b 0x24220185d812807b7050b987ed4c2f2dd3d38f16bfcb034e5321b6a2d4797daf 0x1e0ce57bfcb21e18956ce6fc36c696125b561e5e375dcc399ac4b71228e73a86 0xba39bb1c8479b3fa3a45791873465c0d2233da8562038607b36a285ccdf5eda 0xd951ca049a87ad583ca809d1b6c247f3f62259b635183d50b20c92e50a4cb7);
  OD (C 0x1dda5675ccc27bf681af2669823a2e82836679361947ae1669b1dc004e7a6e07 0x22269f0fa4e41e45e5ddf4e6f9d59b9fa76aa58dfd251704625103daa631eade 0x8f7dc58e7d02aff6b4a98ae6fc3c263aab934be27ef89de71a848d58820d2a5 0x27e3859529f977966ac075c28b6942c87bf2d20bf001bfba22a080469c6c1b01 0x126a8d8adbbeb2a52e3dd477d1d84bbc38bd8024f26ef4782c9696ffbace573b (-0xfb36c38aa10dcde290774eeca7d4ead986b4c4b607acf8cafc59a93b75e592f));
  OD (C 0x1442c245686c8b476cc84a5337dee66479a11777716e64f1963f27564cd51172 0x28e5cc04c1464726c67c6a1deaec49c480d400e8bbac17ddd605d69cff226642 0x509bc2ede457a1b5d76ecb6c2a645284cd845d17b1f901a9159e3d63f226931 (-0x40caf1604c7401f91c0375844dbe48e05d52e1b2a099d7d587f512208d4882a8) 0x87b9a0a6acc4d3911053eb544a01d2b5dafbb6a27422152b44a29a4b8a51a0a (-0x2d3231614fe7020d2669497b414c9caa59c43ed9196e0297a7d1cd241ca11b2));
  OD (C 0x150b05bc01631d37449a18ac375dcca7f6be692491ff0a5a18fd0c4c5861bb2d 0x2006739343c9a726e9879a9b948abd3d2bad01f984d4dd218285e5b54de6c8f9 0x1a7ec982b70141a8006171c47b30f4320a03a89b08e2414d6b81d6bc5d9ce663 (-0x634f838d960edadc2fdb679a17e6a540a80073c1edbeb9640ad72902556e289e) 0x92688514abfbe2219ff93f9c2c2788137f99ec72e2fc0567437de5d1a135234 0x3dbb047ca994ad2127738085bdd5e62df32565dcc89cc72a12426c2c4a34937);
  OD (C 0x26e99335e96fe973cad007b35e14e37b3685b24860f0336d8919996c73a98d2d 0x2e5efb7e927ac4ebc8340144e9dfa02dbec413eaab0930e96b0473f953c36cd7 0x108df32b9176436ee0bb49a583109cfb97a98cffbc21a14ab844311ae456b66b (-0x14f8b7ff432b003755ad905f64800601f08cfc61d8c96cd10274e17a6af02693) 0x1f4a369c5ee97f93e427dded282b8a1aa8b659aacc7a2dec80e933db3f249be0 (-0xb891f7bf07840b502ab53394ba8df42f2f70dfc4bd1ec6722577d5461e4628c));
  OD (C 0x290d734d3c1a48cc87ce98a046f0e642fd70e36d859afbf040f7051c64bc272f 0x57744261146708c7c6dea17d81d2b747996eeafde60839bbc754521683bc4d7 0x27bca95d23ef8c0aaac4b0438ca0c409eeaeb58c15e272470050ec79b739179c (-0x69375ecb6975070d8b4697dd0b9ba93fe0e1911391cd6748c37011aa127e6ccf) 0x22d38c6e76a97ad781e85e12bf1a04ec811755e00197a4c872f9614f4cd08104 0x22b3898a37de1e4076938a43ccd081305467a14c2830a85ca9fd7f19a3595ebf);
  OD (C 0x1f0780d57723f456284593142d78705bf677b930156c6ad7272fd6f8a5730f51 0x3aa885fae5d85c70bcfc7a820ba9bd93aa4dc39bcf16d28350acf5839feaa35 0x16c9606a81fa3ff07717f88d02d3ecf4af35566a63a0baa0b8a69912db8970fe 0x311b79fa65a733b47346006e413f1880862ece10157e56ba07e51419a7f08353 0x13e573b51e4c580d76f8eda5aae77128a4777fc5c6531b55ae1eba5223ba2552 0x1276d4454e153b95fd714b6c25222d5650aa016fcdd54ec3b200c5bc68c3c18);
  OD (C 0x290d08d34cf0a31a5a5ef9246f385442c3b59bd535ecf86d163dd5ffb059ea8c 0x1549ecf6e207354f4d4ca9b8ab8550d76f940f6835865f60d26c9ae347177994 0x3026919e4179af16330198e045aae650c8a65c40dd0ef2efdfe7d97645da71ae 0x25d3a163909debf1a601e0d074df85b01ab8ef54a0839651e91e7e6133375673 0x22d2d7c79645f5ed4f35d9d55951caf4892b66b01ca1e683c0848fac09b75dde (-0xef306ecbef565af3ceaa2d4426357866a76a003dbef2278965f258abb3faa60));
  OA 5 (C 0x2306d5100bf27b1868e5d7611c278dd0bbbe018aa2035865d1d2ca087e3fe510 0x263dda419b86777399bca4d88505c10656de74fcffacc821f3594b40f8fd97a0 0x25f7e8a2c2f5036e61fdd13e7af41cd470bffaafdccac517395e84ad1964a0cc (-0xccf68fa797bf1647d78c2c799db2c20ff72125f1b70222f48e91f64f3f5a296) 0x195a5215e6b4ef6d619843cb6e259e678720fd2384beef743548d9b3c5137305 (-0xc454d00816ffa61731b0b439fc764f39f35c3ac861669a7b04c3708a2e5cbf6));
  OD (C 0x242128315ae5396c35862786096b149a114e5460da5ad3daff439ce9e7fcc5d 0x26f16ac80a65f4ea6cbaa4d011c31aa4298119cae653cd396836097a148a298c 0x11e2061f1a6fd788e659526363a073970b50ee713a92f6b6bbec07cc5434ac67 (-0x571e2984d5e4ca26b0683b59c87eeb6d47efa311b8e4b36625d446e8055d8df8) 0x1af974bda0c1bf1bc371fa5848ee3b3658e4d26e628cbd589b241a91a2a19b (-0x861046dc618aad94d86c6b85de660f97f809ae0b9c109b66a5033f2633c19));
  OA 0 (C 0x2e9bddbb1e401b18d7a607ddbc67d4b8d99858e329f95b3331cba4646c0a9472 0x1eaf194a99062020cc86913e0eb7b7a60f1606f9e5ece1adcf663fae0cb6ac91 0x2f237de4c78fda25b24736da17f309f655092d1fa34bc2dc4347527b1ea0fab6 (-0x25821975a29049a32e8f02c6e8152515d7150ca01bff26866400266b631db0f7) 0x2ce43e3d52773a0b5cb9d815eee609b7fc333b76b874959adf5898809dace92a 0x7f46adcb7dd5703954bdeb023cfeb0ea5fbede9ff4b57e65f15b66839464e8f);
  OD (C 0x8df6f9e9074dc9b4821f9f4319deee252ff56908a024accf49963f4284d7ffa 0x2d00c18ebfd27c6a67dfabe2809cb7c4a4948a4d64c26f6e0bab59e1f5c7bd40 0xa56e317021ecdf40baa2651a6f4a4b500a1a65fe71362515420370fa319ed70 (-0x2914e80fc809e71c6b7078535d7cbbc7fc5143a00de06e40c42343f40278733d) 0x1a079a2433e0bfad44347eb58f02f273bad0e75a8332e41a2a019eabf28e12e (-0x2a01c300af1e7f20fece1a17b485b54618be4acbb100db1ac1c1c1bc8de3194));
  OD (C 0x29bc6d3376b3e4f403abdcae00f7fb5abccd2ba8ff6d54c8014474987c2d4d5b 0x5e2b0545325e8845898bb6746ea04669c5acbeb4f4f2e2fe36441f3b5b26d30 0x2ea5e44600027fd630c68954fc61d5c22bc7aea2feffdb1d2318c86c349df5bc (-0x6bb8355f7a5d71ac0549ec98611427e5ccf84679226a6dfcbf0ff40039ed1aa0) 0x23fee5b2bbce7c5ecef16a877974030068df2e26ba7d6b3246275a46302fa48f 0x21bcbd20cdeaceb0d8d0e65cf496d555289d3309336b6b07ea5b1ef20eda3b5c);
  OD (C 0x25f52c3ba81ddc7e1fac3cf0eb318176cb77d2e944925f5c15db595f86cf6e46 0x66e5b700dfa062649f64bc4445197e3a216dbfdf70cfdfae87e018437da2f79 0x4e988d26310bbea4f207a560e5cdf4f5723fbcc0adb6ba4f3410e8514016335 0x470849684b73465a7c47f0304e01ed3c990be5094484d7ae6cfdb1e893bab1b0 0x1dc5fb5b0a42c76b774570fc8231bca87d7aabf99f357475163d7b97e4f69ddd (-0x6d8dafe2749e88940d4a33d8676af99c5aac14aceeb77c70aa05120f87a961));
  OD (C 0x2e423aa097f39fd8877f671315d0ac97e254efabb066aa6071ca2dfb19e98e72 0x2bd15c4ec312bf0e3a862a4214f91a090b0cdff7d7786c02eb054abe6ac6a2ff 0x1eac9c167b26245350cb4ff2eae8d707d002d7366172bce8b6487306568ef32d 0x6d3d242cd59d7f02f3e88c1900586534b4e2de8b3ee731d09a043b3ac4e2dd7 0x2c383903ffd82a643afd9ebba95e50c5f4e1d5751945e18c8982102c26c70e15 (-0x23bd1ce649a6342e3330e356051ff0db80a403d58ef89860aabd767816ad9282));
  OD (C 0xce209f7002223d60e5f0c89a5814fbac2001e8261c984af416068ea9c0f75a8 0x1794ef16964b9ff8efd498938abc374d9201b2a914d1c147d1e64d687e96ecf 0x9ead4edbe5c354d183797968a027301ef8a0fa787b04ca7a71abf856eaac9ac (-0x66b2345b093230cb9a0abf6992af2dc998d8003a0b21b0a5a87a37da36a1a4f5) 0x36e02a389b323a89b554ee812d1e24ed35786db38de3d5357e3f4e906933875 0xb45dc14558a68e6d3220d7e48dd5635c1194d51baceeea6e85e950718980fa1);
  OD (C 0x1857f6de7ba69ade8de256587c85990db8ab164e4aae7c37fec8f20017112a87 0x20b8f3a8434dc04aa7f9636ae7f20cc2526a2659ef0a7d336bc8f6a89b407824 0x61ae695f673446cf4b7ecf070ba77ae544216f45c8a0962089de75db75b918a 0x9d7dad1feb8d14d84e7e94febf8d3724c0625ef0de634ac4da3c99cd9902313 0xc3f00ccfc62864c5b394e6dd62a8339a9e54080e270f80c6ef0fac3aa403299 (-0xfb83ce7c0f185d71e2cfe5fd31ea9f1d5680c86ee3996e6cbc4ece860bbff2f));
  OD (C 0x2488333f4cefcc5255c595fb714fc8735a440ecc59ffd4dbc292545c6826469e 0xb8f03854139cbc0cf46fe4604b48dc766b5bae3ee8edb55bad4a1df2bf633d5 0x140c9b1eb9e40e76a3f94dbf0a4689e15c9dc4f11b49f70c2fd87edb027a4160 (-0x3929b4e9518aac8c2c13eb44d6ec0bbb512fa59bb7637600cc744c2814f45468) 0x1b942d8fd9c90fb0a472d610f1ffbdf05f0692ddc5eb41306b7494345203a6e1 0xffa1e5493b7332a56c78b605cf81135d8e09a2c4eaae31c2f961a1d2b901d68);
  OA 7 (C 0x19ed9392536e630d143574f63bfa4c9d4505bf670edda3a3541741fbd3cce43d 0x1e143cb9c98129fe2f22af0ea284f15382ad59bbe75232ec491724e3bee064f5 0x217ea5c180406e85652d6239a48a33b67d98c41d203b10a8fbcc02b5141b648f (-0x307113f643284aa9f2792f3f535ed748ffa87304f7137721da0396e6fa9e3a2) 0xde45f20ed7f1d4f872aeb24b97ea417b0ea8b7d32b4cdfdbf51e441aa1cdd80 (-0x9ec514fc4d5bd9bac0f989228b85233f9342f9952996e723f39facd4ef0bc79));
  OD (C 0x1dbfb1889fcb8d70cf3aa88c606610534b771910aab8af44358f8136232b040d 0x12ecd235755e35a28298f925df137b8ea01508824b4517b42fc4eb3f69ae5bf6 0x53b6b6648a18cc8819a22f83d92155578506647cf9e092e69e7397930d56afd (-0xee8466bed000b0ad88eaa504aaae0aa02acead5e28ad274225b45e675406e73) 0x1249bc901825f031b40f533c82b0195fa67f68f8d17c79ac4fd93b08b55b876f 0x6db5ce7cbf1fa9e3a3acf9c56ddb62ecc63b697b434a41f64f9e736df32cae1);
  OD (C 0x7d0e4de599e89a0bc21bc4d2bd7832bce267b1e16c133d72a651cf3d0618c88 0x16c1dcf5078f49c49c69fa4ee4ebc2c30276f1ce7813c91ce7feafcf4991338b 0x2330a185aec2392a21e3a61e27677c6225ff52aaecebefafc1470eed5f19669b (-0x148377f5fdd5685d631e95d3ff214f5be9fc849f9dffe61c94dd2a1752a7cec4) 0x1432c8266faf38de8a57d415c6f59e2304bbdbafd4886e1bce3be319d99dd6f (-0x9e73e674a3dc339db87ae6004ec5d33028074c55ec7ad7dac4763b2e24e540));
  OD (C 0x2cf5a01d89d359a2ae7b4beaef0192270182845d1d56c4427dcaaeedac96b77d 0xb96656b328c5ceafe6295a1830698008a8218344c792ac4e6a02d4849ce87ae 0xa7ec0644b4fc57b4ace95fe3912c8a1e3d938eaba6acbb438beda972dbec2a9 0x21481f74158145a0bc452ba89ef2d636ee0fcf72895ecc3aa87267567d23a0f5 0x29c5448cbde715d968c9310533c7cf3dc7bcf222d88b3aa2abf364992c320813 0xa60a66264a651841c656f07711208546aed7728b3dbf69e9d2103c5394b3cb3);
  OD (C 0x1be7c36735c142edeed61917515c5e4373acb9307826dc2f53106b72b98150f2 0x2acec64f3ff33d5a79e6439b986f3ab29b39bf5f5f89f0d3d572392145c34c81 0xa5b4f305f1df4960908062c9744269f6000b1c7e383b6bb46b1691f7cc0c3ca 0x3c7ba74b18c2c3f41c6befd81ce03520c0a6f5b224344534302474a928dfd88 0x10177a5474ae0b96a0c8cd56be730cf9fef7887111a812af12f892bef5862761 (-0x1200d5c0f81eacb85a8a9e5fcde22a9e5be7a82fb6cc6b065fa321ed7e933b4f));
  OD (C 0x2a930c420be9d7752987279c1f1505f995771c2c31e9eab166989a2c7a815572 0x278a4d433a55f2cb0810143ee329f6d7635d48072359646422a45066e8817346 0x2c217a4ba655ce3e3a0d6299711c6ce143513f72529d7d73c7218ade97be0b7e (-0x5f6170aaf44bedf76ae2175d86d3a085f1ce9bb2c21071a68c4d45ff4a28c18d) 0x2574d201ae92b98157aac7ced2add174147b3c5ed5d8bda8565f847a35c51fa4 0x2dfea975d1cdc411ffef76beb4eed708ad3163634baebe236a0356e6f132312);
  OD (C 0x1237ec0a92764e29f1e2ad621601b8cbf79d5560527ead139762d2040107d2d8 0x136833e662a3f8598f3e88f3cac64a1d7aa4ece91eaf9dfd05118fd48114eca9 0x248b3ec4d81ef8b5876787824ead1cea00e8781ce119cb938fc2fe58fa9e592b (-0x3fb1d9b15cbc96bd96bd417c7a49321c8ee0e8bdfe5aa0edd4db03acc774a6d4) 0x6dbdcecc5845cf9e626d2b1cce4fbb8ccc0a68a1ec17e37c8daec8a6755de1d 0x794675c00da169712cf8038152f76592d9777a044813a1974617bd6ac394339);
  OD (C 0x15e26273249766945affbd32c2dd606877ea793e57a60d0a43ed85f8739bcca1 0x29e93343ca6076de9a610f2bfb7f12a378feb2fbbe4c056246f6eef7c376adf4 0x2da0b0c07b0409a033d48651787e5efa7fb270b614f6c4c36af1518d7cc5bdc9 0x9b423027b95b1806cb1b342edb78be47270993fd6a5129bd071c9c48d70a105 0x9e59364ca5e79ba3dc3f849570785665565ad9fe9051b8094b2d9e659a8cbad (-0xa2d4e38f3a454c4b5fb25b3831be59d0b1807d1246514cc57f74da7ead8af69));
  OD (C 0x1571e7c652b64f803cd992ba6229230a3941a5fe9e4c4b929a7638806c22f791 0xf94461ec566037f6a0af0784d459866cd439026e5eb8322a6a62366991a9c38 0x361dae585d64ea897b0df0e496edcc507d29a9cc4995020a328ddd9da1bde6b (-0x4474391293ca2c574c63d29bbeca11827fab0ee88463042e1957580b53e1e112) 0x980dd1b0efecef500c170421f5101ea92a797d8dfcaba7e57beb917615f3477 0xbab41a3ad2558cf72cd082b838c5dcabd8ceca112905e7868e815e2e0121678);
  OD (C 0x8d29a1583908a49bcd000dacf822e00771782025dfff89081e78825fbddf7cd 0x2b7a06552f85c15706165fac985272497f3d352fa297e6344b9d7e72ab65e34e 0xac77139debdd5d5c4c833db09a6c1eb0cedd319b57f0b96ee62bff9da427560 (-0xdd0379b678f55267a07d293eec91337ba0fb6b06d57b1f74aa7fd6cdddf9a8e) 0x19bc835e78d66e8179f10bd7b37fa8f879e6198b529a3b4c592a2075c5657bd (-0x5161077f328a8ec16748021ca3b538e4ac3d402528f33013471e0aa6067e2cf));
  OD (C 0x682051972d367cbeb643f084ab8901394bc353f99ea5f6b4536d6d4cbe97221 0x20e58f9406f6833a37e05cd1b5633d3a64ff065d1ac536cfe75ba13500f98652 0x21844382d120000b7b47f5226b6c4477efd4f7aa5a3f09aaa31c63ee7707b997 (-0x7248716392613f72583f10c7c2bc87aa0b6fe2666a9f423907736a530a7b1114) 0xe00d42d8b8143f6ff77eee95eeb47164f0e494c42c78caf795a5bde0504795 0x16c3e39e85e1407593da302335e2e454000e9c8396c9c6d1e470c348e3a9cd3);
  OA 3 (C 0x1967a64d61b91bab7cbe9a31d4bbfffc25419b0e3462fbf7bc0fc13326de637d 0x278712b937598417863daf8104ff51ab420bf952408ea7018258ce2904eafcda 0xd468d7eeda8eb16cf97b6e408d23a77d53828f4860269011dd14e9af51d4556 (-0x4cca2c76b9cb7558938da8c0cf6dbd724befb0786742064b881e5a0ac726b46) 0xd564e1da9c8cdc7b35390ab07ec6da9deac3144ee8bf3c66fe83a9dfb53602c (-0x37b2a3d900f97176ad6e454662da9cee976eed1a41f115e12a232df35ba4483));
  OD (C 0x17879a7b61a17c327d14a24949623da0393bc6202eb3a8e355e66a65d1478f71 0x1204303c7fea2c0920dbbc488c64ede65dbae20146cf59982887f30a1c20c69 0x118df95c4b95b3e8c51e1c443a8e203925403ad401541be25dc505166340bf69 (-0x53f38bbca7a14b66aa153ac7a67e929f21bbafbf2b430c6ce85e3b012af97500) 0xb70dff27353275f5159f40d6e833c52abcce3635881e22816d511ad7dab9a1c 0x12ac109f6c34e28a16a04ca2bb4e936162c8887159db6a01e15594bc95a8abce);
  OD (C 0x4ce96142a13a74d4549dc4a88a1a52d15bf441a4220156a05855f16b2981b74 0x261dcaa02ed0ad50b46d2218c9877fe368304c1577c028f75cccb7f7a0016f41 0x1a6233f94357c0993bbe26583dbd0d902132f69447e067c00418f8cf78a38599 0x368b0d6d2b369c77886f41c8f33faa2436d3d272b622ec0ee29d077bb2012e3 0x7a3d5b189ea08ab29d8f1419338d3501e1e6bf1d575ca3c945bf8d97d6221b (-0x3aca6a8f4df651367c0c4bcbf00f48aa0af293f5f33825b1518b7a3e8169b0e));
  OD (C 0x2d8aa5030be6913729bc2a6aaa3c603646309401d8d9f109dbeb8948ec639481 0x26d4ab127b2d8677c489774e88fc89605bee1ebe69103a822e16fa456e2b6c96 0x27ef3720098a3e9c55c5fabaa55e924efc0a5302c8b2fc48da9334a08aac55dc (-0x2868bcd85c46fbb6ac7cfa0a845011c22fa570f40fb76c453bd5b6cb2f914aa7) 0x2adbf5912389366d815b9dc33b2e94c867d26913e72f971c56255fd49943e34f (-0xac1afe45d5f51ddf2eac8f627b123fdc01b366d8124502e3dd2396750cdb66));
  OD (C 0x2b213b4dfa074f44b4288aa81618d6fce48b17f3f95a0718626680d953d435fe 0xc779664650872aa8c21b8e61ef6d14cade6e75ff5e87aa8e0b70ac7e3b7a209 0x2a2d1c8ca945309a7be14568fed45dee796935b64ffb07e4925e22f9fe79fa1e (-0x164abe265f6906b3024a455bdc75c48903a2b331d48d4df175a89af8dc556604) 0x2670a272bd961e040a704ba00d404a98a1a9480ae062148fc87ca82a92517839 0x177f33af75b6bdf49bfe3bc1fd4809bf0bff5c9026678c0c0d8d65ca75b9a5b4);
  OD (C 0x198d172e0a2042d3b0f7be4e38a7f6948595b45e5f4537ad0402a3e76eb1acc4 0x2d95e8ea97d40a3c2677822e274c6afadbc9e60fc3c063403a896ca486ed0fc4 0x19b83716689be0fe7cef1378d83d57b4cc364901515bd489ed665f1bcf3fc4a2 0x22e7203451ca6cdd21689938d1241388aaa261e7911a0f75f33e4af28f93819b 0xd7dbae0eb65032c64ae75d19a93c5a38fd2707fd18d7358d2a09a493cb5c0f6 (-0x117c993867cbf22c3b952f5850c803ddfb70c2429f6249bc2672ad81e40130b4));
  OD (C 0x1e00ab3f8ac042d12b9aaa265fd8afc2678a1aabdef1140891200c9ceecc8d6b 0x2496b0c02efe6c5c78553a855348aeb43627f9fb94e03211e74dfac698f45181 0xcd8a011499a090f5705ebde3a6bb25897a2ade612fef2464bcc4a3fa19628af (-0x60ef2d9fe1ba4f2a70a65974544904e59af78c294dae225d7ce00531dc1f451c) 0x1299f6e8b56c9737ce7ec13e8943e6c84d637d9f71ca267f772419103186b0d0 0x593fb1ff8f2fd27edd9acd84aa4c84bde204edcf0298f354255b185bf6a9ad0);
  OA 7 (C 0x12b1dd98d7592b60722254fe946b4d93c9d53c99847d0ca0a8e7555b0451065e 0x539fabc1326a0707ee6fc66be742de0eba2c1bf5643015f96b1fe450e7de2fb 0x13bc3712627be5aef71e10199ece565fd5c01a66b08ef457360ba2aad79defff (-0xbda43e5dbb404fec4c452ab71e7bd86675a2acf87d3acc06fc5f425b6234c7b) 0x738e1a5182521edd785ce6905c98c9502f0130ad2e7a404b9ddd27b5110836f 0xc1da951805ae268f9bca48e614593b77973d896a546a2c7e8cc224a3285464a);
  OD (C 0x1d50b7f61f62aaecf080474a170a18fc8f878bd5abb45fd350628a175d063b95 0x1e16e77c3d0462a453131fbb150fb900030a9ad4be9822cf922a466cfc7a2a5b 0x136a1cbca7917ca55cbf8836800ff1a181ec702f8296f8ab3d3bfdea68641ad3 0x1637a624dd74a6936d8d4b9aec951481b52521104623a5d455c80f93c59a629d 0x11c24991ddd91869bbd42707b057f407e9e54ac4ee12be333d4f06d63f1cdc58 (-0xf0fcfa4c7bf6eb7ff8c2fad535bfa901413261eaa855331e47e1b235a54edbe));
  OD (C 0x203ea0aa090878d8527b73e97aaa58e0cff80a105dc9931183ca7cf5350206fe 0x1ed5c16e9253a41b7dfbdca80dcfdd99b53c83762acbfa083a0230f82139c0cc 0x22f238991ad65104285217a81d489cd3e88d1e5ed1d12bb138a4743419738dbd (-0x1e4150edabdeb27a47de65dc5067999286f1db7ce0c132514133ca6061e9a671) 0x157c41f277863d7b911334b12cda34c2c2c1a837101fa84ae7e4a10c86df366e (-0x7f2b3aa652d9939981589a9adf5a939d10057b20e671e343802a64755536e2));
  OA 2 (C 0x1554852f9e0eb5273dfd51514ebe21483827f6d4d0c806ea1f318d0b7c6c9ac3 0x279f02bd00a2273ce2663dc6d01e54a2814b2509703c79651c825ac6a30bf870 0xc91d0aaa619342f9b23e769cff3030e7848055203b41a69eb51349857317fd3 (-0xa52ebd7928446f76888b82ad517aa0a6353e21f21ad7406d4cefe520a48ea08) 0x966e3a54d12f1a9c4880699e7d0b76f03d6b55a82f3bb7906a13f4ad92d343b (-0x3df6d5827a4f3b3637df5a53ad1040c21d08d8e3333c8fc97bb853d35187aa4));
  OD (C 0xb610e00597c96c1079176489bb7378a5c49024685c120b102e1efb6bea36d25 0x120cfaadc2927e79221070da34428ac7873ba9ab63f905edb738af214d1cb9d9 0x2b321e0bf681ba00ef0ae78a23207438c77c1008439826da5013f0bcf60d166a (-0x5b68ab322574bf30dd3fd77ee2a318c120b557c18d111219822d4397580bb6ee) 0x2acfde2fc5128606079e23725e4eacc66d029709a2574f30d0b56c51aff0e60 0x5127b1e86e69b4d2fb837f0ba6c55d578330ccaf7fe9208f4f1e9d7b57aedba);
  OD (C 0x1e1ac59502c903441e65e9b29d57e7ef8cae98bf55e2b3725a377cd1b58b246a 0x2131bede48a5a5f0e46bcca99b38351c9857361a15ea636c68e4b18f8a4c8357 0x1424e81cc7d0b54046c571950e8e6305403c37d33ed29826d2df0478983cb8e8 0x218b7cd1c421481f62a82596e8d577b565e165518e6c3411ccb8cb0d1d1e64e3 0x12ba62fee1267b1e29129debc70704d4ad341c234641a14ed20f9278eb96b5cd (-0x96bbd046dd35a5b7d83841537d3f3e945e6db5e59fedf00b0dad14ce136e592));
  OD (C 0x1e4f85c08fb05978e54a2c6270592522f79527c3996b14a788a7b174dd063287 0x2fea7c927621e26e0ed6076df4ffbdb5ac63e53485c63fad94ac5fee0787a66f 0x9d99014513203ead22770d2c957b4a9a06809731f545e046ac4cea2a6b2d4fa (-0x2b12e9a42573cbe46b871536e8664a10d832090c637f296dee3550e9a30e7365) 0x12fc3e666c8f615f48ec2656b28fd6f58965024aac78492bdd7368af7284334c (-0x938955a9b32fa1ef23e069f04409373cda952f1f6f265a82949b8a6e6fa2126));
  OD (C 0x979894e03205744b1603e68c1a98a80e4c94e2d008e0ff2d495d3681c41819 0x68cb95e882e0508249f2a9e7bb1895daa64dc668e0e268eb28af9ea4e8d3589 0x2ba180f56a7fdc38245ccb9bd5948070045a3938d5a2695df296115bdf75f511 (-0x8e17e196f57f500a32e424ddd8b19bd7d3d06a291beded4e9583ef8419a65b79) 0x1dae6cf5b971374ba3b753c13d9c91617c52b075f38f292825518f3a66ca6 0x819652548b5057bcdc1650cb67b4a1782b27c9fcc1ea185bc2debe6a4239bd);
  OD (C 0x195c5802e045cb7aef280e15a2c84df17a71e166d93733ad8fe39d0f5bbe7d94 0x2f76ac2bbfd4ce3c092fdcdecd057259e21404b1f59f1104dcf9518f952a38fe 0x1ce8b0bd1e2e66ec4dec6348b0268db8ff38d92f61ed27693ea8612373694455 0x2b1263fd86967b572bac5fb708e61950e2978ca654dd767dbb106ac3b897dd23 0xd4a71d9b2f9e77cf186b79118f2df507cb9abf891bdc700a84b7a4e5bf7ba80 (-0x157115e8392121769813e1ab4096347caed7f56bb9790503d54ca74863bef2a6))].
Definition cert_g1_2 : list (op Z) := [
  OD (C 0x1df95f96a0f881338d1a78e4f681ce1f24a5d321442299c827b4eb304f4eeac8 0x1767cf95a56b0c095e21f5fbe164af6aec983af78baa4b5324ca4bfb169c0beb 0x3a751d25dffa1684bbfe4921192489474abaf2cb5172279456091589542f19e (-0x67d8bf8f42e551d6a537d7b2108856ae11761b313fb9ad87f55b0f8cecb2a8e4) 0x1290ec2299def80a48e9a68f5cd7e688fe33c3a19299fa888e3c68c5b19eb75f 0xee6d3b2c26f0154ff21d82171c4a735e0cfa000cd644cf94e041728d5b8a873);
  OD (C 0xe556b5a5169842eaf5315e9b46df2ecfec8d3d89f1097db56fa576751e47909 0x224c91e4536532899d92c38561a572b78844301a3d456582df11f8704337321a 0x88e60e0dbb431ae2627251fb10ba778a1c6f831d37d9a4fef6e926125b26a1e (-0x1fcc08a62e4748e8d0951567cfe7e3a6ba688e908f56718736a539ed2f6e46f9) 0x43ee2054696f6ce66bc272aacb12b7ae9e5f303ac5c807c9bbf5d9dbaec5117 (-0x33a07f5892fadcce423d248cb7e1ca40c865da2f0936cd8815b090cb8b34805));
  OA 3 (C 0x10b58c1e4eeb25b384e340962087896035a86db2b22de0e081fbc4aa2fc62973 0x210301ad44cd6e3f5b5dfec6d0775a4bb06239c1af0a5df46bcd842caf914858 0x21a5df53132237b9167b07f52c472eaa061d3990a2fb1e1046804e620a69ed94 (-0x3a40dd54a458b641d6bc95d53dcb7680c3f404876b705822ea7cd60f6daa757) 0x5c4fd92ffa711c59b4bbddd4105acd951ae4227eb1961ffcbb9919a96aa8302 0x71cb6d15b00f386565c22adde710612fa886d02b396486995677455a6349ec);
  OD (C 0x112b81a89b1c57c0e16c4c90057f8d5409d5a2a63160973e841b331e8bd799a3 0x17fb78775403a8d098da16c8b11f8594bd7bb03c3304ef355b0586aba6f5aa59 0x18d74129f559e0728deeae52c07ef370af8105a9d633e82eaa81774668c3dd8a (-0x2baea1c868dac840164b6924404bbcf9558646557148d6491a0c0f619bef5978) 0x61792df8fddeaf9abd2a633ab603dda25a473dbec300b5be299e56102584740 0x33428812eb81d22e5c6238b88b67bec287b70c03b17d5c9c2a6f3fccbe42449);
  OD (C 0x9c5c687f1f3889e11dc89016d0c8d0a5527c09d63b2fee40825e8d30f6dc141 0x2edee0a2dbfabc305053e5c8852f3bc828bfb688ef9e3ddbe43ef9dff790200a 0x2dd7fff2def9ee911477b2673edb7c8e0f175151bbe85318bc5f7674e0301791 (-0x199f727c1f0726b0dc7a30ec679caa002ae9c8eee8f887642159a0e5040238c9) 0x1f9399224910d200f2e5f90e075f73dc04e2e91768ef0b9175a0d49dc416293 (-0x49f497251f70ea82b7f5cf647b1c2ac462a824327beb43c8c6f6fd052d9cd94));
  OD (C 0xc20952c118eb9187ccf1c8d33fa608ebef27f0a2334b99e0ab6c536289d2f64 0x2996df09039564a449133837afb21ef03d69d60ac36c1df5ffe0354e3e9bc9a 0x2e3c465110e6c8b2787abcaf325fb8dfd40983129b2fe97511cf3cc2c30ee3bb (-0x7136d96c26d1ea9edafd6f135b3fa543b8a0d3a071e1d0749b81c6dd122538fc) 0x30a06d8e8b38337c3ea42d162d4fdccadf1bb8a8568317f276834861cb3f38e 0xb183a9d394d3b327393778e2fa719ada6a225804bc3885ea1ee0f74d66419ec);
  OD (C 0x29c370ecda430fbf5cb240ac975f5b6716f3523eccbd169ddf2d12df6eb22f2a 0x403805ea3d8a32cadffd699fcb9aac47f87e0b1b60e7b9ede0b7cee86c37adc 0x2017d738cb627666353e703a2f8cef4384a83ea819b0c140736134579f3285e1 0x4f62d104ff67b0116d9315911694760e0d0d9c7302463363973cfb3d39b74f10 0x240b0032a09ba679e2203f186b5fc259856a992373dd45b8f62b3a4fcbaf248c (-0x1387a547d90de61d8fe7bdc93c352dfdbccf3cf79a2ceff74459df9f528c610));
  OD (C 0xcaadf0a15a58f18b77c537e6c98241a47c4d104d437c1bf39dabf2d43313c6c 0x2e82fd179f850dca69271f2cfb3310ca6677bbc9507aa2eec5e37f4ce2f914ad 0x609c0cfe660777bf19a3816c5e6871128a10db8d691454757f043fee5a510c9 0xfcda237cf9159cb10ac2f7ecc8e89890e77e6e62fcace9942f9c89497175818 0x350e1ddb2178b7c9535f8b502380349cf6660ea593461979e0ddbd5a4b1ecfd (-0xb1fe8d847a2150105d9c3b1a10a76c7854ffcda9f1b247e0d38ca57e335a57a));
  OD (C 0x19c1a075bc7593b7c8907a50e511976caaec45e8074f4cdb3f51ddb27012f384 0x19777e372f97008ed25848cd22971a346f04c1485a75b807bc1433637916521e 0x881328ca1d4d57fb2197bc693aeb7b8b6f83be014a197f7f0a0b50babf95b57 (-0x7fafac026797b6aac50921f2386d4033a7cda6818c8bb0498856735ad753b075) 0xdb56e7e9a51c092aa3cf4edecfaea88e57843b8851a5c6e5a17820213de86a8 0xb33791ce12f6da60684bd1be67c07426e3d2a0b3f7b01246d8c2cc38f4da684);
  OA 0 (C 0xd1c4ef7baaecceaa58721427001cfdd0086dace0daf045f46e91632887b2259 0x64f3008c7f257ce3fdfd2332b475460481d9b078c20528b20d69afe3cfa8d75 0xa39a42ec34a18b3837a81a03bb3d6cb44b11e74e44820cc0dbd956948c7c8f7 (-0x6e64c0e5208cd8fd846ebe9a826b02a22442106b5ecc749fa5bda416eb1ff40) 0x38d4f44e21fe850e66a70e10985899b8a8f0001183f5488f4298167b85b5c3b 0x530b3977f4a7e6c976eddc78a891813604266c38f06cc131b2301f994523d75);
  OD (C 0x112f8842639ac7b70f58ea26773ac9996fccef0ac371e20d69891b6a2557669 0xc972238103951178be295eb8b24f9969ee2e2d0667f24c6d303b6e8860d1cb5 0x38346a1da4e12a14aa0a23e3d4c724e6f57dadf9aadb3d692417d4a0d95ef10 (-0x2038ff1fa86dc2a70064f287674d2852f5b5865f3b6c20c30db0b04d7f65c4b) 0x61a6e8b8454c44f53efe3b411e2943162b6f2e9399788577bc762258875fe (-0x23b0a12d27231de1a80d906c55f591712acdc73923a3acf7ef8795cd212401));
  OD (C 0x223898e14545ad37ff32aea43ab66a0353126d0f1e2eaf9d1cea8b9bbcd78bad 0x2822e9e4bac82d2d8b6d20d22a6f30bc619204ea187893fe36cd7f016359c4af 0x1884a53e5d6f4777f72310d73a910105c664f936a27ab6be5172c0834def4e67 (-0x4dbdd81661a5b670da11baf5b7f0132fcc429383b5279e34889c9b928baaadd) 0x183333c222fd878000b8597b4d74e8bb6904b213f9b2799808466368cd972cb0 (-0x137ac89c6bfddf7b392b2cd3c42407f3dba1d89234601b35cb434f143d9b35cf));
  OD (C 0x9836d84d11be7c719a5e1e74c9e64c03901d04ce676567b978a0acafa57178d 0xdc367c5827f9542a230ea055543ae2a3ded3315aed7eca2cd8b8ec349a2965c 0x144dd4d282a1a0594d188fa13c84fb454a9ea342400585327bd8289862cacdcd (-0x5a3a4ed7503c3bde7b64bc097e877bcbf1fba774a94c1bd94b1262584ca537ab) 0x1dec8688e8cbf81ac14ce992d0a0a4a6d91879ddd7176380fbae77c399ff819 0x52f48e9b0283a28e5772f175b11e51886ce9b0f4d43c27339eff0f026e954e5);
  OD (C 0x2b9cb5e2e8af24419825950e9fcd82fe3d81391a267f354f12e49ec843e567c5 0x2337f3423b50bc50e4acbe9116a0aa2a524a19dbdb231edb88e4bf28a6d05ddf 0x2aa7cea73bc9afabda89b826c56b8f01dd1f8f07719088af1d0fdf79a1c7ee60 0x18da90b4fb36dc18f55bd373059b9fca579e2aef635b1488b67f7173e8373e1e 0x274df82b0bd39937e975730fff8ab45d389406b99366471c994fd5eeb9ff8dee (-0x13560b7fe6becd053b91de1bb0f01a251926237d3561ad961fae94fa08804d24));
  OD (C 0x1eeeca5fadc3d637cb7e38f528ed6f9b8d5ed6f386710606f176d117dab2b9be 0x1ac3cf883be2ad190b0c1fefa43493c6b0bc1b17800dda282054ed42dfe2b99c 0x4ab27c221a6760ce98ce7667d134d5090679c939f08abd3ecd9e89fc5157e7e (-0x165ca6eaad4abf39f0d1206f4ce81bda833311c035029eebe9c22a26b6202125) 0x13c5cf26cf3794c4f9c5edd04900dc5dde9f5f8664fdb8d9761f9875f9f11c06 0x56759af46fcba80019a631a8bdb03649966e68b43b98802c1ae6c8b6285d744);
  OD (C 0x2825fc7f42b05b321ff19e49b80d87f68f25cf1215aca1f3484a0e836903094e 0x11225a86d4eea5e461e3c6496fe3ef946c45d1571fb8300008d6b6bde752d522 0x75cc2055b1a437eb99eefd94d6fdf46b39f5ab32adf9863c0f50170080dfcee (-0x24a9d09044e2658d1e5da32ff008355e538a05c82bb6dec87f069c3f2f165c58) 0x214f278bd2695417cd2da6e8705054bb985d5581d800ec71b97cba018c8fa646 0x7fd78d4774149f634cbece30e2509a38f1b6a1bc8ffc8bf536493c03e211640);
  OD (C 0x25d15c1345241bf03c8769243c37167f42ce41128b21a6aab5b3b1b66f6072fe 0x2b4226a7190619cfac0d450aad17c767b90455d7ba69ce8ebc8cd55910f9f2ea 0x12071e2ead20bc0de864e2d4877043bbdfad6ef158ba2cdb6f14bdf623001fe9 (-0x6b1691fee20ccbb86ab139dbf77ac3c84b524ef919c47a4fac3f4d2075fde9c) 0x1d8de72bf42039a4e5c44e5e9bb57cd13e889553bca4c35378a623b23617857a (-0x146a756bf370f75e86affaee0d4cdc298a6964629bbb61d5ee2e5e125aac6401));
  OA 6 (C 0x6e039a1d53777a412d604a6d378ff1ee90b8183ca5283d446dd60676119f84b 0x49d940192b5e2a117e9cef83fbbc45dc2b04d000bf05334dcd041b6dc225095 0x1d8b77f752db75bc959919cde9bc0329cfd595ced17aa18730cc101e35937b55 (-0x2ade9c265a7f753f85719811597b14ed31a526346ebff33e9f3688ffa36768) 0xfa1b3137a1dd1161d47b92161c48098ca247fa535bf7008ea40aea04875c9d 0x57d9cbc4bf7e48e36eb4fa2df244f5851f5f8ec5c3cf484ce63061ce7b7278f);
  OD (C 0x2c52102203997f74e21ebef4f9855ebbbbf3b059c77108b8043265086ec26628 0x120594c3b6e22eca87faf5c779ea2ad32aa91b623f987e62e46d8de053b5bdb9 0x1d3e0b10c6a5d607982a3049006d04eea3082a95adc732c6d5118e5ed50464dd 0x34cc32ae4e140e5c10d0599e0075d862faa2c5c371a05a115466663b0856c8f3 0x2897813b967f0b523191fed97ab78a73b31227e39d95ca8fe657165ff07f983b (-0xc4743abeb6bbaa74cdd93f49359b9f17fb54852a4fd2eebcf5dc21547e16c9e));
  OD (C 0x2847b34ec409bb674c4f794642c7479de7c66ec8c03d3afa08db4c01e63dbbd3 0xb55afffa3a184784eda117fe127772ac8eb7fc80b2b1ff6b92c88dc51071bf2 0x226f678b820b3a66a2cc5f8df541876e7a6d5d57a616a8a5f3236746ffcbe395 0x1c8be1b81f8d833c916426fd7b8d2845bcfbe1074f94a58a6493f738946ee46d 0x2187302d625ab2e2b97bded77c05bb4ea0de70a7bda8529e9377537b0d4631d3 0x590ef6a65ef37b8b84d63ee9b503782b244e0ab93c4ddfc96bc9e02d8d49555);
  OD (C 0x1b64503bd5be338a30fcb0cb5dd64671f7647943cd8f022db465ece83872b15a 0x26596c96b9732b23cfecd4044415c58946da45bc07ef13b8f921e002e766bfba 0x2a39ba5eb41f1e46b5bd997d9fb2d7d6005f4459e75daaaca3c4b5ac492c5af 0x1f04d37b32d7dcf2cfc192815f7384905f21c49ca0c4db060dff9a95a0fc3bc8 0xf81454008db59c99e2baa965f43e92725c78e5cc11e0128419e5cf2d6222eca (-0xf4a9a9b316d6dd205cbaee937d8e0773e04f83748ed36ef1354c64e6e7547cc));
  OD (C 0x29514d3c66824724322040ef0867a2ae8830e5113d6f9d21a4029b6bfd25772a 0xef27b3f10ccad5f02f3215ece65554e7b2a805ddb2c0867e58e5a068b9d0df 0x26b528beebef0a2af8efc15a007727c7906b42beccd2a0acd3410404ba83db35 (-0x56aa817da16d3e2df63615453c3429e34062a5501927edafe36fd19c4c5a0600) 0x23470aa8ed1a0290203fb2995edfcf47b0bcad0240d2a20d23743c03cbbfcd67 0x1ff20de2200aba0e69cb276cc0781db75aaff5e7c19b98f3a2559e1a1dcbe0a6);
  OD (C 0x2c0c61f2de57353fcb7f39ae0ab2c4c16b87319d2417e42e87b33801ebf422ca 0x171e749fcc57007266655774f79c816b5ac63c3343e56790f7bb287472199b25 0x197c6737e8d97c61f04f32629fc73601b8819eae540e0303e4f67e7b4d84633d 0x4669a806d71f817869f76274bbd38424bdf50feb410d26ef35768d4abaaf0897 0x281842b203f657174515f8269b3401c9ae630245819f09d41810ba0782bf7df7 (-0x14318cb54742a9f9e4452dbd779e3824d338e848162b12dcd2991f2020fa8be2));
  OA 7 (C 0x31d9a0059068b1696e2855410d88c3e5a102dee7c5773fced851c8451883faf 0x2261ddeadbe533abd75d94672da9f7edb9c1632d7a0d85bfe2e6450411defbae 0x1c48c30dd1c4d5ae1b878bbcb2d7a4693ed7d1429606681e3048ad749c34da2b (-0x11bacb4ee12fbe1145de68435635ac4743b5b09c85576f6193d3baff865378b) 0x335a318f967acc66b55c90761464c56b7e8bf8787a98f211e12c4863c37b79 (-0xb9a4d5da01816cf4fadd6c11d12ffc5f8e24812e6912f43577a0e745e1a8f9));
  OD (C 0xe45e87b05b2269ba9eb8f94db1c0d4a2435c52d7e78bc8dc6576ed6446055fa 0x44d36b9808774401a32ccb15eb38483d00a05a426d8ea9f7f1ed5f0879c96d1 0x16e793b324ce5e40a1396dc2d0117d97ba689518d9e16a1409fca89318250e19 (-0x3899d3d64e055ff1ba1bcfb3c88eb5f828de1596cec828b76e2f86c589152cb0) 0x435b6a5566c1b0907fb05b2db0aa76977521a52bb669764edb961924cd5c5d1 0x8df4b1dbe3741b102f51894845db71e1224dc530b8108a7a225be3ebbe71202);
  OD (C 0x1e2943570ad703b637ed3989112178037dea1b3f99b525f55c4947ec5f2a5b5c 0x2268740005ef5c390b08c1c59b74943240eac64ffbe6ae8fd48089ae6411e97c 0x1b582b8814e838c9be533131c69330540bbfc423a76c63362a08763d0e573487 0x1b6785648df0850e32fcd92271864513a7dc0dd720ce95d2201f5abd111b91c3 0x12cc6f050eb7f50fbe7c57bc6079baa428cf350e2e1a110db39ba7ec5f0f6f7e (-0x12c3b170748e8feb2c3ff63737317bd403976c1fcc5f538a4ebbdb0a5caff04c));
  OD (C 0x177230c4b1e01d9a815f74df0f390acbccafe71a60c1beb77f298aeee2a5569a 0x619836a9d71686fc9e153203338410543e012933ec30a116df96b3ba206485e 0x2d0990aee01abf8a3139d6c5bec1f45cbbef92a89d2c032e08def61ea3db4b8d (-0x2ee5fc5cb2352d4c72e488267b3b395d6d0a5d3f425f273cef2a2d75c1b5ae1c) 0xb5c16a45723c7866755030e47b81cbedad6df452f048b3e9ffaa3b374d2ab42 0xdb72cd3617716ccec15a19301f0f7adb63af45c629ebfaff2cb4afe5c1c9c48);
  OA 3 (C 0x11809c317d49e88030998418f48d50957db24277af9971e48882db60455850ee 0xeb8125301f747a037cdeea6489fcb30e331cf160f83c807de0515371f0c6281 0x223e28982a45973d2d5fdf1ef41502c4e85b0c8f54ea999d7355b0405e823666 0x662b1421c3523bd1f6c7ce482148f07b265de3e027b9ec665e1b64653658c5d 0x6548cbda6a1f9224c9b1eb00f77583f11768d1e1d01e1e9c096877553ada564 (-0x31e11be4e1dd9a55d4333e6a0a5053f6cc7d47392e4e842ff63e07fbf65b81b));
  OD (C 0x15bc91ce76532356c9069b9d241ff98aabf7bbc273934733bccb91ecc95f500d 0x2c93636de30e35e6a40072c725bdeae94f407537dd58214b5d2ecf3535384246 0xf0751af657d0ea75701a5e286f5c91730521ee54d298713e97cbe4896d3032d 0x1154d260d8908fbcbad81c97bc7f4efb1491b2f2cc846d1c2dff70b28774f65f 0x9c37d2816bcec8a384ebc88249fa53ad41010b5a1ef5385da3d400b5f96e817 (-0xd69380b31b87b63399821bbf6ce59def293615644fc6af9da016f0644301ecc));
  OD (C 0x22ddee6aa3d487d19122c25e9c02dd175bbd0ede00f2d0c809727c493a61e2a 0xa3d4983e692885e902467bc45f477837bd24ec57cd0c95088eda27df35678bf 0x10c01a65b0f910476d1de7fc3ee98f5cd92eae5fecdc05906299236bf203c7d2 (-0x79d404fa1403e9e8c747c5f578b9b29698e911e3ec3c356b9195098d23d37418) 0x191f3f0cdcf60991bbb6e1c9756383bee929c117b742c8def9b25033051a1f 0x18bd6105d6f97f694e6dd0afdb05bdd2cab81716fc1c7e05ee8b618f9598721);
  OD (C 0xd3ddaf67dc486c4f4bdf6f55dab14986d79ad6d20a4dc2e9870d75bb4957d37 0x24f4d82cb09b554afadf9106897f92c924b9321565b4f4c32ca57de2cefbad76 0x2bf728f7e4264fc5ed5a3af80b9f06041c201f5b5846d8737efeeab8afa91241 0x2aacb37c54be746f6fdb6aa8fbe37ca94324dc38799c8b045ebed94d0bb5dff 0x39f93f06c31790236902caf12985707fd8301308ed34cf99b0ecc360e47e0bb (-0x74f8824d40d9690331415fbf182ee700818012382891f72d8a8aebfad5d567c));
  OD (C 0xbba0dfca1d05b6f7c9b10dc8031903c6cb0b0265a2f5553092d307c10bfe65f 0xd43f5d3b09202c52ced19907a13531b4445e27d6f41b31887bc461669c2eb83 0x11755ea99a8c384e279c59f8f35f214471f3633f9741366ce33e6e585cb0c19d (-0x3f5c94990ad862ab6f19b3b40cf9142c2b4bc8cad17e4a72e5d904e4f538c8a2) 0x2d77cacd45dd7b15d3b0cbf2d66aebbed8173cf263fd04a5cb1494350bf499e 0x5bdb39b3c9d3e4e955022b8f841ffd69be1753c7866b7f37ccdd8ff5f6799b9);
  OD (C 0x2abf7e3ebdf4d35285e41a6234121f962a8382259b28136a42d14f377d60e1ab 0x28e54ab84ee8662e8fc7347b6e1b67dd829770d0b98e1441da1be47d7337f615 0x2608cecd6770358db56e47283a11de7e593904e2652e2b0d5ff6ed895d87675a 0x13ef794796a94c75da8080fc052013b6ff2ab8a010114d3cd05c5db510bdbdc5 0x25c32f31ebb259e2b34410e1e83e5f38e3ac9f73f374d3a3fe1b9fa9055fc2f2 (-0x1868638cae36633078e204ca6c78368f81a78f4776877b524a2cfbd5f2c98c1b));
  OD (C 0x1e658818827a3ea7092f30d3ea6fcf00dd2c4709b3ebe6b02f80377e16760c0d 0xa1d00f4f864f76d84f52f197bdbeb11e3666b55bad06a55055a8d9015ce5079 0x1ab30a11989e36ea86c426e7d6eadbf1ced7083e2e7df7f79985b83bb85f1a9e (-0x37e69091a73f14b1c7451c6c28e460ef9ddb9da06dcfed0d80c8a72a8a40cd41) 0x1317daa63c4250c8a78d4216a185f52ce8a9323862338b67dbaf2370cb20ceca 0x1355e2f47fb5101e616a309aa78e66b288f97dcc8857b78ecb65345b74b83b6c);
  OD (C 0x1c614d4f7b4945aad1d9a545bc48ef7b3dc682596e9d7dc3ad697b3bbf0acc94 0x112d3bfb0b87112a3251219caf5d4f56a659080058417ed14112d9d70254d294 0x2dbf20f38f81af11d9411e2b95f0d6b4aaa72c8450310b1da7dcb21a4c2ae477 0x18f9ce597147459170b84be45b3f2e2f283a475c35e14e2ca3b5c4281044d67b 0x10a4d77bb81906e2e7a79a4fcfd35ac01f29cbb5047cce328e3ebbe30e684aa6 (-0x4247689c3f8f129bfc25e62af4298d00e216c042cfaacf9e8d42dd9b27ba447));
  OD (C 0x1bdd6ec7778e99748e2ff080d119883f5bc938d98fcfb58a31817b7693745e9e 0x176c28ce12eff2812136296ca0a9ef867d44ebaa79c20fa7a54ddaeb955e8637 0x1119b187f3a9565d3e9b0afbb92f034349fe15cbffce2406c83a52f8b496b97b 0x226499bbd659a3a2ae62483b7f7c3d0982286aeacc66537dcf871ae4beab222c 0x100b927878814a0cf2ce3556bc41d976e1fcc2698cd7ab8b26c7d1d25f586f33 (-0x398b15bad8c8c4a96459ef333d8c9914b2ddf42714720fd2e44f9dd9d018b14));
  OA 2 (C 0x17127b9b213ebcb93fd0b5b7418ef12c6084c240212cb8843ceb2f07b12d9ea9 0x96f2d2ff53eb6d86192bd67d342f189da0ce6322dd9e2293f166ef756268d13 0x2e05eab6cc1b678f94b2c037b2e7e5fc10789c5f992b7ae5a4abc7e354d836d4 (-0x7a20927f760983454ba499076454a2c20b781a13a7a3a25883b7f87580dfc93) 0xb001614cf752615b48cf62a9bb4c3daac108170634dcd67331fec0b62838071 0x6ab56457b145e20f55c106e084f3b0573fcb85e5282c48b740306744771c263);
  OD (C 0x8e7975e05925b3ea9202938762244f3012e2660dd5040c8e0ab52444467be1a 0x2e83851ce1b9cf5156ac102c79cb4dd10234b5d215cb6d96a69678750723daf4 0x7c387a2603a35b7904933b485e073416a9992d4c5d4af7d5afa38c0427a7462 0xb6b74e7fc6555d133eaa831fe37f85cf93bf9c23e335a7ae820f04702e10b03 0x1a378994e319b7cca0703e56a78f505cb185b101226df67d6f1e077581a0b26 (-0x6d2b3602c1515eb3a927782e3f9cb3e9cb02cf539f17ef18a901355c575a570));
  OD (C 0x14c0d266abc2aaef0f845aae2a267c37b7d1d56a53a430a3316a13d20a60a4ca 0x16deb46cf9f66baaf72cb58442d1fca4ac9a8a330f06d08b52d1076b697adf9c 0x1a5310850cc431808b6eefd5009b8200b35e8dc9cd3d2da69ed27755c302f168 (-0x7f77715506bef43c71392fd4634d43cd3c15d3cdd547b053f4425cc514aebcb8) 0x8e671f33332f5962854bf70e77e4591dab961fabe53f62ed7b1f234e7b9c720 0xa23cc09801763b5417df236829241a7d4836645a043ebbbf0346f3a0ca6402a);
  OD (C 0xfc6e0c32524153bafbf9bfc1cb554fbdf67ad99995aa1799720cd6c01ea7642 0x24045052a49b65b2984ca57d8c88f10037c8494f8a0b71e79f856310b71b431b 0x2d4c43e298cc72a66a59ce8e1f7290d62b976cf55c207b6aae74a3005893102f (-0xf429a2d11bfb20ff611ebfa57d1862209648454db6332ed1b71e73628fd8ff0) 0x524c4cf9dcf8138c7b44c48471ae7260307fed5e8e88678e6e4641ff6391847 (-0x449446fe8b50b37062596d20ddd41f60a7a7f13593e508e2b21a1ec1bfe3183));
  OD (C 0x20cfba8b50667d6d9d76db6573641a436186c023da874cd0ec8a4fe2a91f6258 0x2af44c343f53d28dd9e8fd050b12cb93c2c1009ae3ba775a57b75bd1cc573e15 0x19b423ee87d6ee2224ad13fa4245cd3dbb779c385fb90fe71dd20d9a83a5f843 (-0x12fdf8bf9be92ad5f41111eca0b3153d31c5fdf90c2c133c6c73f4ec035b2d6d) 0x163f536b95f4d6246c07a212849faddaca246955193dc1653137d5639d23bce3 (-0x4b42ebe9b9e297f69c5bc3b79ac989e1ac23b58ae18cdcef95d5f46f58dd38e));
  OD (C 0x6ebf8a821fe1b5bfe9f61b89a8d6a0dd0750ed492610a121d7c25dce77b1db3 0x1f3ebbaa2c90e2d01de929e1d3d47da297988cf316439680b941456552addc09 0x3f3b0f350a87cadd4ac76d1ada53b65302b4c40379b37a658b743d07ec2f0e5 (-0x6b07b6a9b7d679b29586f884db30f207e440334619c2f23fcecf34344ea9df3f) 0xfd7490c002dcf3d22a414d489f73b53ae3a363d15595724414220af858185a 0x1acc25118acbca67e0464536cbfbab4cca456393454b87d28b51ce4df0722e4);
  OD (C 0x1af1f4741583610e598125e8d5f1f36292d4c6078fb6b14d8b50c61d2ce2760 0x1d891d0e4359b9efa618da9c6e415b6c769f0515e5dca1f3890c3bc6f2b7bfa0 0x199e3284a28a810d1498a3d247f99867c503379ab7ff2f668cec2d33648999dd (-0x3c3f29ac89ba4b7b03fe7d33386dc38f148cb3fd9ea401fb7bd5db148453fcb5) 0xf00dccd5c30932d6881a4d8b6a07ae1e3d2bd7f55d1dba77ff23760016042 0xf3abf655e9ea973cde9d46037a9dd372e2df59fcaa359981372dd2c3f1e72);
  OD (C 0x1317abf2a5faaa4861d9cb31e302174f1564337023cefaa59691280200b73e5c 0x7495133b79fd515458e2a764a93bad587c38c7f5014334addd75a21f37684c0 0x52c964922e22481d4b3b1642a62bd3af95aefd4a2df98d72a02036dfbafe0eb (-0x21ddaeacb80e444bc99de7731efe76b0df5f0bb6a33c94455bb96e3e844de198) 0x78860b38431fd4e1733906f1e45137db4d438636986829d3ea815c27af43270 0x8c736eb74134283a425f3f91467983664a568b215f9a7ed3ffd540d3361a088);
  OD (C 0x28a8e8dbf1f98fd07530f8e35d10076ac1abc4624565ea14a1285954d7b666b6 0x12b59d32ecf84b916653ff07a49a18f12eb583488637a02b00ab4234a3f125fa 0x2ab0fb652e251da95e21a75e668b6e63386559a2133e64500b9799ac8fa6f226 0x5674db9c282671899f782cc1c68fc399976160fc47399816f12b6cf0b188ebc 0x2229c79b7f687c8c87a26ab0e9738f7b81b0cc31b6d4256eb15814ee91f763c6 (-0x9990de7200e63bc2f988581cd8a3d547d6508e563d240047acb3848ab7011cb));
  OD (C 0x1b6364b35bcaf93c6279c80dd44010bb900f49ffa91d8c15e23160be305aef65 0x12f8de5db1bc74e4ae9ef112750a7c629032d18bcba6c15c278e29ddb923f7c7 0x1c02f1d543d24addd79b5296439c8e9508d92eba4b4de150c0ea0654e4b2a38a 0x1a9f962b7e4becd2c522b3944f5a1b12dfb7c1df8691f75cbc89406da5943df0 0xf803a9fb918c52c4fb350831a53d4d945d5b8b871def87f510b7ab5ed9e0bf2 (-0x2610609068550a59b14d2e7a7ca65c70fe3bbd7cf9d1399cfbc96ac4fbf167));
  OA 3 (C 0x4ab5ade2182339405a62ed688de5d661362656a4df86b1b46a6494ac263384c 0x1aa5e8a3646cee67435e735683fdb92991752f3bfafbfa2589d621d3d0edf01d 0x20933b14507deb12ee05785cee57956f9c3b81a0b04c1c7b5b367c9030e57326 0x7623935ff17b93c4ef74bffa1442b47f4c2dda014ec3dc4544a1df8a64abaa 0x73572b04f7b7bb308e80dc0451033f6fcc21f71700ef8134a595a1679dae65 (-0xbd9b9d9fbbe007e6b1fa1f715d99d312c103fe3290b84bc2f4ff9c7b329a08));
  OD (C 0x288d2a7f6a7792e708f861ac09a822b63dcfd6e21ddaf97849e9673d0df26350 0x24cefa42b6c233ad1252dc51ad2a4820b33c14dde46871c408c055220890107b 0x2bb8a888c2edbfff010eb4e366b65d50003106f7eef102521b1212ab14aa0b4a 0xa924e9cfb13ae36469154ac3e56a86854d505430ee2c82a409f9f0aaf75bd73 0x21fb3869c23b3376074573c07f4a43b31c7362b0071a197ae6994a81a0d18edd (-0x883a579bacbbf5c4f4289869a4a8836f8b882e482f342f01ea992cd37ac03b0));
  OD (C 0x1af4a4d2f3b19dd6fd8d198865fa15131d602fc5befea127daa13991488be26 0x219df53936cf09701ddb827238e98886ca290d2dec62895f440da9dd3865a473 0x1bd44bcf990df332ea9c4c8214b9771affcb02b47ff7a2e43c37e0ac84a33193 (-0x50f3019490e3c069cb48ae21de719aec331acf97b9e16916236af27d2922a395) 0xf03db898bc0195783b7eb943bf660032210681875e0135216b51979ef276d 0x1c71a7fec06ec9851fcf96e4fdf05a76c82772a8941c9faffa063684891e95);
  OD (C 0x6d95a81ab5c0effa412c87b69d4a096093ab86640a40907c397dd24e33c4bae 0x1305060a428466e9d109eb9650b4f2961d0d43bf044eb2da385a48d4f317619d 0x116c0047c61a447ff55a35a9b70910f4ed83db07ff3a97e8d4def352ecb36785 (-0x3e2e9e240181e61fbad653a5a6e327463b13270f96d0cf7c48a19fc27a9f5121) 0xf828449cf4535603589343884f52a706633bf0bb3bcfe6af82eec407ffbeb7 0x210e63aa59a47eb7ea42c0f9c814e208a846c3d1ad37d80d02d66bf36cb84c4)].
Definition cert_g1_3 : list (op Z) := [
  OA 2 (C 0xc968f1ff947e0b0ae4ae54e9d49d767cfd3413ccad38110c858f686aeacbba5 0x2976b4ffc83be02c0d12b72addf5315515ec9c237b573409285c9ff04db29b77 0xea0aeb8e2d544dc08715cc64a3d84b8ba3849eb6e560deb67bd0f1af0254a5f (-0x304ea470396c53c2d545ccb2fb38fa169d651c31b979b12b263637f45b7153b) 0x346480ab83a0cb60b42151fccbafe356e0937262079806b9638252d31732c83 (-0x5d69e974c897d4edb53da24185755c1765518de3aed9bd5b71280e20433d66a));
  OD (C 0x92d7a7ea13295ffb39f06f8918ec7b14549ac93a148d21d05c40b7b1d4677c0 0x107a4783ebfd8cbe730a6ccca66eeca5af9eacea969a44583763d04fc113321f 0x19ae5c5f953116c1890062a0df7f11e923e1e20b7103920b7885c6dcc441531b (-0x6508b4f0c91ef153d33d4968510b8d5b591ccc7dd0eea5e8d7d2549bd0561e75) 0x1bd95e090a829476ac49d972cffcc0c23c8690e1d342497ce7565184c81aef5 0x4bd19e76ff33d4d88d16b77e21a25a9356df17837f4924de39c7d0c976b3a4a);
  OD (C 0x14bbd39e00706f30102c044a5319fd6610d47fd37fecd0a0e43adeae86de6aab 0x2075b0be136710c7ba5971bec3468b84c81b92e085aeac9c7f6509853dca4782 0x1faa1e05e35ba5d8c186e817f9fcf2382f82c4279b3d1f2b040e5a56a1ce070d 0x52c986753a74076a91b22d18f4e7aa2934d6d3abf1b3dcee2ca5ef039f97239 0x8e229a1fc7ad21eb8493fc25f84690213da3cc0849abcc89c09c941e723823f (-0x6d8fbda4477f348e7bdccb1de8060dca605d6c86825e91772ab09c0130d74ef));
  OD (C 0x2bd14b9a9bf6f826403a81474f6a3bebf2ab4d943f89f2302fde326986c7d903 0x1f592530f82fa77569cb46f9bcfb27a94b8299b25241e2d46ef6f664c499d2e6 0x1658811721f8e2c3738e2785fde0a8290fbcf3149c5078b58a9957686c56bbdc (-0x7f9e16522d85bb4957fa9c76d61671fb1a025de52b8a5b5cf6ba842fa2b9352) 0x27acf982ab9a2d1313bb7603e44164f51eeb5313452e7e8c12a6486bf8449e69 0x101a5fa037b17ee3a228ce9ccb95716a7f0a20f9f2857ec46881a82dba61b3d);
  OD (C 0x757fb3998139684197442dd7a05ba45dd94fbb59b9c7587465390654dba4f16 0x1e682074ca6b2d0f73198c005cf8114f2a69f71e4805c7837fbf6afc9fa520d0 0x1da3e7020286f1c54ee8157b442bc990dfdf3563397e4086f0da507f57ca650d (-0x3623d7eaef38d54c9a217bcdb3f9d519417074818d56abb8f821b86a7a1eab04) 0x11d4baf5795f836c6a7e34165e64f5da25167645c8895cb9936bab0ee433a78 0x24935d5c3226d1ec5068396cda2e846b9f5f4d2910fea104ad0d49c310c2ad);
  OD (C 0x1f78fd5712554ae5a637f617610cef7c6a03179e0aeef8757b461e583af95ce8 0x2041f4ac5d84d79187abc6ffc86ecee0491824ebcb9dd436b932e50f3d3eed86 0x238d9b1b0224294b1b03863171648a6a8121105404befe83de578feb639cc9b7 (-0x12c372bc4d9509878c4ef6edcbb351abc2868f3a447501194e4f868970cea110) 0x1478075a5ed3febca52af51c022778f14722e8f494ba93d951da7445546de916 (-0x1342a1699ac44639d6bb60e6ec1b67730cffafd677cf85bd7bcf7d2bca290ac));
  OD (C 0x1c77bc86b96cd44874b1edcd77b5bce7662eec8961d4c2c52ef64cd16181ad9a 0xae95c8a1ce1e7ce32cd3bfb89f07e4a7ff2ff8ecf1add628108af80caed9fe1 0x7358ba41a3df0815531e430f1fdb3c365aa1521b6f8d29aafd08042018a66df (-0x16ad943191fc0e3252209f2c85d1b15dbef7cff1e30a7e99466e1a9a777bfdc0) 0x10bf3244ae096709f150b91a4d9e3f7036a36b14c6ae4941782fae2f576b2c11 0xc8eafc5472e856781f9299af13ab3d9b8ddd6b419fea30649369f573fec72f4);
  OD (C 0x1af8ce729d496c267c42976e2a0b4ff2b5623318d259112425d17a84d8b169ad 0x10a75d96d73fa476c198817689d861258523e3990d3abe823cde5c48b8a525b4 0x947c2b928bb7c8d2272af98a98f79c53acdc5ec0821ffbc517b2d52d232d15d 0xa7b62f2ac35214fccdd1c5ab8082674422334f2a8eb774d9091592855ed845 0xf087f0fc35158d86ec55120c0ad58fcc5a7ac221f41c5ef1fa1efad0bb90875 (-0x333541f2420ccd16b0f73583afb4762e293028cbfb1fe6c46192885ec7a3415));
  OD (C 0x23a3d8896d80e55cd31e517a34b13cc50c3010e1d8b43be623c0775da3629a69 0x4efba5190d503c744ce6ed084731ec3383cba238e13c263b33f0c78fde03d87 0x2aaf6e79c327302d26dae45dbb13059641472439061256060ecf7986e0e62e11 (-0x38632cc51d6b1c083d00a472e494c65f6aeb4605d05dbb80de1303417085e6a) 0x1a3f9ba5c2c00499b30fae066f795ba8496beedadb9ca09955e2228264ce21ce 0x8a132e988e8e7f4d9dd9b64757d5dd1dedcd87b0de73c620b5054093fdc1241);
  OA 6 (C 0x83bef4458fc4b3a21f8685bbd5be48564cbc4ec4f01921ff9d43584e64cbffe 0x27a0fd1af96cb96eb691efadb5a22d36c5e2d60358538a91400dff20dfd68ac6 0x2e9f03b221403664e9b814e9b0a3f86a31e0889465892bef50bcbde799fc624a 0x651f4dee4de373a7038079c6ba2d3d06a44a93ac9f8ad37b5045607f0d38f2f 0x166ad0f8fa0427f06c607dfc4e99295133ed104d82c05b6160c1472154467f8 (-0x5e73150731fc9ba62875f5b4920f1526fb5c4dde76d20a207594537277fb5bb));
  OD (C 0x212ff59a9040536918e5b5123bf7df74c64e55eecc4962f8e37e765321d438c7 0x16aba5c2ee7c4bd20c4c23ac40879d534ba86c214101898d9a713a80532c1bf9 0x284c08aa4b3f4a43b9e90f78e2b528900c670308632de494322d8f4545140394 (-0x2169845faf5787df9585298849d5c8ac6eca140362edd506ec4d921b9d0f88a0) 0x16c291bd77f48d798822748a002ce094c726b18c7f95f19def7a2bb86ad52374 0xba14ff9ac851d5d934b3c2fc95a02c1c444c8f07ef1c0158dc1ed52d16dbb1b);
  OD (C 0xf97d1b97ad4ac953ef17d0ebc3fbfc7e0477013f79fd85a517e482ebfb92881 0x206fe336d18553c3789a9d37d8a9e66fe8c6452ee2e77fc30cfc6549774b5d13 0x18ffd0f2f302fb2a35bb258a3fca46303c1361e7f624ae5494a91af79a2d8078 (-0x5e47a61bcc6fba18dafce13c50115caaabe5f137aee508bad7c40030cb8f0bd) 0x5064357313a5a2f89e2adb74fb0cb5fe412efb753535fd1b2ef77b55038b224 (-0x325a3a816ccd7b5614fd0b7abbe054535ddd52489702c092a025bab02c3c7aa));
  OD (C 0x25520d53a85dadc7facdd8961750d2dea1fccf3bc062d340cc45ca936885fc5f 0x1bf8f284a359e0588526d5d65dbcbfd91bb91a9db0f3fc18d50c6ada6cf79904 0x3dabe32f19ce0a7c92bfd85f4e3168c9212ffd6aafa3ab7dc2498b6a0c4cc58 (-0x1aab06ad52c8000f6ce9bd2b4107e506639b9d9ef42ba4ed2e59057574d44afd) 0x1cc83b48bff24e7b9641dd1229f5ede62f1e1f6b14a49d97c81c4dff3d6f76b1 0x37173fa4ef3c73f82210279426c41d4655a500888c74dece86d6a621913fdb7);
  OA 3 (C 0x2e398591dfa1a71b40c5ee16dd330ce521876f08f43a34d92b29fc765627d7f 0x1a77dfb39f93644c0aa05d21d7ffb7f56f1a2e568fb88dbb5897631f8d5472c8 0x251e9b06b67ed72af3580fc027229f93fcf4b05989d0c41d5de2cb075f74b9e9 (-0x4075e41d7a8da14fb31157cc3ebb5dcd0f547cfa0e1a6c160223350dfa42ef) 0x2c2794fb3ac7593bf62470a87bd9eef1bbd5eef274f0d09f5eccb68f635014 0x16fd42b04d08d64e6e238909ce1c61bd333bd94c31cfcce7dc800b031debe5);
  OD (C 0x21ed326a3d7cbd4d723a45044799ba102db5b1aefe8c1e2a9f36b9235572d612 0x173b7c988e1feae45d7700918f1eb493a9af3356b38e5dd6d5947bfb8f9a6114 0xbf0a002915cc0e273c0c773acf84efbe5656cdec94572b99664678dcb844437 0x89dd6a5adb4ae84325b9e43e12ac21d51d0d65799530a1149ea44aad5bd15dc 0x17c9051f36eb72325ed16db5101492334fbb25c7e8b081551fa691ca2e656860 0x244c40f0bcfb5d4b261c4d0aaa26ef08ae22f991961a3c66913185e8380a738);
  OD (C 0x45db853818fdc70795c86b9cede38871dec14c3d1d55a9eb0aa79631032e862 0x26d6d93c950997145bc8ce16ffd2bdcc9da21bc56da194d06c40136f81f596b5 0xf785a2ea0542add27f7512359ca13e45240a9306c2dbdc58ba63bc1e304824d (-0x1f4e676a08638e6a247a3cbc29ee18f12239dcc14b6b42453118d778e16e52cc) 0x64d84e29542fbf3347ad9356998586af5b4f5552f41016587ca3f56d5045a1 (-0x1687a09ceca5b1261c641e275a1a08da1b2e0d610152e2bf01ebef1fb1753aa));
  OD (C 0x25a88106a601d5850b1a022cf599ef00137cac2233f8b3ae09d1284a3de58e3a 0x26e46424b1ebcda798af9904698bd7bddf50de5e2c95b265c3642cf5089a801d 0x23bdf12ea1227fe8bc7397b3dca6aaf67c4bbb1faaa86b35f7dae8de1155f2ba (-0x45708845bd7e9c6b515f7fb9381f929de465168b9b7f385fe368b008265d8241) 0x1d4e2e57b964fdb914916e1d224aed277f098842204d476b3619e34ef51c05fb (-0xa89eced8fdb7d7285e98ee59710483b07a368b4bfb2bba04e3f96a2f71431));
  OD (C 0x13f11f1b9830ea19f85c6ad90460d9272979a00a17b1b0d64a77fe15de3c6df3 0x1347b45bff9d2007d323d68ecde640bf93e2c377ff6d08cc3f98fca46f90e1be 0x1d315f007e59f6f90ffd5150c91d9ff36b0a79760bae47e828e2cb4dc8523ebe (-0x405066a0901a2eadad19dbb3025253b337f5c0f5bf695cc8d7ac518542a324c9) 0x837c7903b44e6bbf85cdfb7ebd370cb3051b59306944d1f0ec41bf5ead3ac47 0x814fc0feb910c12a2e7ad2f8e8640cb572b278e25f8e880a05eb24be209e323);
  OD (C 0xaca92e3faf469b6261227de32e8e3f124288c49f300f3d44a1030c394ed1298 0x22240c51068d545b0e89a2198f8ab60e5c00519f12419cf4b9cb1ca8a148755b 0x92196642e0a62cabafd48005f9bb112c20745690bdd48afcbc72b4d4a42a2ec (-0xa064bbc55a0d78f5e7adba17b506c0e64fd9d866e7f6269c238073174ca1934) 0x2680cc0ffb3a32580596d257ca260ff6c52fb0b3864acba7fe435317ee223cf (-0x3505ce8949cc8c77e6f0eb91b809b0636f2aa00364a4e4bc83f5bfa09a1110e));
  OA 3 (C 0xd789c5de4e0715c1255ac567798f53eb464eb8f52b7ef8923cd9b20f56e4ecc 0x2dcf5a6d4ae0b3b2ec2b71d77b679cf3164f2d1477e4207afd393132281f970 0x5f8e234bbfaea48d9459c66b687d7063e2da30e5992d2fc6c9f1fee4b274eed (-0x2e4272c85112ccbc0f8a74118c871e3b68cb70791fca6514414f37ea2cc6958) 0x3c002f0e53bb64f45a4d66324c0ca7683c3da4d01d292d5d6b567ac8facb904 0x8b4fbce1cecdc55f23df424552f44af14c58a5d4e1177dc92f0e388a36c46bd);
  OD (C 0x19a5ab946a1f10e7618062141bd5c86e5bce73e872cca2d015633cf6f33bf3f3 0x21398393ea990ad5b1f742e1cf20f5fbd93a5e4f64269e1efeef3e22452cf38b 0xe8c3029b4565f22f91e5b0abb1ff3bd3b9f6171378f6631a3f4928436d80f8c 0x5d27c83c000ad94d44752b7fb6d927d640a0ce0d29622a60c3e8e2d3a9066a2 0xd97bc341469bd4179dd2d1b135b9f1a85b8f001a9b3be7fa75e97886b0a02d2 (-0x10175ef351a2d6d4ddee8c13353275741117d303813e15443d8410708f8ac516));
  OD (C 0x14ad2f1c612e62b9278758e38a860c9d42263cc7fe26d2bef045bef4aaf03d57 0x1389a1e2e9fb8e68570f9f21efdbe840b19b3c0b93f75fc11ddb34a3d79525bc 0x2c5f2f7fe8992085bc47791be12a18a7e11b574a1bf0769582edde6c40b314b5 (-0x38008eed80de15008020cc819d7deb3e58d20bc8226cdea9fb7af799616d3c25) 0x8d5a1ef18605e33a510aa4a9595a402406946c0d9c7776bfc0a17f4522706c9 0x5d91cd5f1d85fe0f418a01ffbe6457a3c9997fe377e2a9eac4577094d9f8b28);
  OD (C 0x2788816394c4d74575a332d396e7cc4778249075226963b2d18b532000113e0c 0x2ac3c4fff29e638bc422c26b058ccbab266d2b0c2d4b3e9243746ee5d8dd400b 0x204ccf474cc929be759525db3a67a8662e0b68074f9b9634513ffbd2c1eb7807 0x30d5801f0e7d68291cc553b00fb696332e6cc953bbf991d133ef66e21c2196f8 0x204bd8fe6f25a5cb46673d74c3fdd8f19d15ac259e7159f1d878d76267ef050b (-0x12f9a36ff02c2c5c3c7c5e107282d129f5ca957dcdcdf12d7ac88d0324343a10));
  OD (C 0x302ad7d40982853cc80d039dc1c41e90210583fe530c34ed2eb629c5d6ac70a5 0x2f7add5511db248a8f99e9e108d8b127b855d123e5b7ce950beeeca477c21510 0x1f6852b2020bbdb2a10e2e26f4484346eba986753f321d72b8c5f309b52f9e8b (-0x31135062a34c8d78343828be0a456da6b569885f6b6a24a8116b2b34617dd2f3) 0x2ff1a5717874f4583085eecd2aa93a26bf25406b04b4f525371bb9da8c72ceb5 (-0x4b17ef488fd801929a2d367ada7962b04baefcc9dfdcb9f714d7c253b54f05d));
  OD (C 0x56e1236874abca11f14edfc8afe616271c227d6168e59c49dffd31c328b6063 0x544851a5e687e4dfabcb26458a1a3912a0eb9a724319dd3bcfc9ed0dfa5a06e 0x23a1e70ae926c5f92fa56efa90d16969ab71edb840320a724f995f9072cb3d72 (-0x84b5151ed157d76a2c420597bcf7d58a330433dbe0e959b5e34a9b83214c6792) 0x9bfa413e7530feccab844e9c419ddf23474a6385d1a95843c05854aadf57ed 0x4bc8fd5e65680d057c87371f13e36c2fe578d12318712058f7d217f840e5c8f);
  OD (C 0x2b1444187c93e610a12176acc197dddbc977066b64d918680b3f9be4ace0ecdc 0x90d1257d8839cd58218ddee887322d443d74d2a2b45adbaf7a2f3a991ca2201 0x1daa4d1fbf6be66880afbfa398576fae1f87af6c2e04d31c6aeb68b1eaf62154 0x3db88bffb5cbd363f08083e675107c40a2b140432cc26dffee0a4adc705052bc 0x2659895991d89b6470c2ac6c341e1cb2230fd84c2bb8a3c0c8b99c0b807661b5 (-0x35e38541d818e790b2c2651298853548e6b97931086a76d66ddfb85c3ce3f16));
  OD (C 0x1cb3d33abb1ef32f971e8bf00fe970bf51a940ae1b2953114372b311e828219a 0x2b96faa66d97b72ad58332b0b2a504fdc49a81254fb719b3c96a4a8f718e4d31 0xe5e297a6eb56d678e575ae7f5fc38fe1c1abe356338111f7839e093a6bba786 0x1e1c9e6a189f986aa6e06fd83299cee63f6f888d74a20d130f2381a7d2ccd50b 0x11062f69fec8c37537ad8aa0a388d9ff56198f54b9990c757548061ec5b71987 (-0x147c5d35fc64f1eada06209ebf41b2f86049d0be51609093496fb1f2cafca376));
  OA 2 (C 0xae3488e24b725956e4f6dfee23650ac6e0b0b1f9c73f14e339bd1b6aec92689 0xf2c8fba0e122b4a23255ca126290190bc329b4b1c3e5912c0c109af92d8974f 0x2f8a73eb7a00fb76926b109bd3a8276013443b75ee45fe37ca5416ec1ad598f1 (-0x823b68437d417dcbd29de637921b722477740b6d16390264df52f261c59703c) 0x2731e993a3a856c7c34961dd19f3ee28aa9d9af1e91fa76be10c453f4ff0097 0x664b199bf4ddde1a50dee69345111170195bdcf5437a46bd4c0706d2bc7042d);
  OD (C 0x5fe489e3d7fffba4a848d1daa8a10744ac891dd35152d6c15fd4619e5619b57 0x2d0ccd1e76dfca3f1667f731979439953f7a3bbfe99bc5a2c2f017e4490567ad 0xe95a86ab43ff267505e7cb38e2b1b503de13e14a8969613d8cd889974905099 (-0x27f9a6212dbd61ff7e08c544378b04210e9e551313d6c4d4e0985da73c7b683) 0xbe0520b227ae72dd530d3e3fe953c55377efd0d943c834fa0cadb325045f8a (-0x3b33ac100cfd8be1c908ff6a37e183d681ca97a7b0cd80f9b10d130ed688ea4));
  OD (C 0x178dd10db238d3be05a57ca784a7e228234890e2fa835f7401aa2e4151b0c021 0xf4c556230accb23ac7cd9f95716b20ae92d5e9d413aa920f93bac78c9a632b0 0xe7795adfa2716622da1763a220ffd0b0adc6b6cecc74ff67a9103bf7a1ce902 (-0x6f9e8656ba89b9b21023562103b9638c501f86055ebb7e7e41fd1892fe769cef) 0xb76eb8584a42d07ccd261f5b7e950d96c139c5c7b829a61ba0d1b22b5b50b91 0xe7b32a965883b2687b1b309a38b409714c3d423c0b0af095ab36e18631b85ee);
  OD (C 0xc3f593b3903a7abbf05ceecebf9637cdee1ed4d44ef773666530256bbba702d 0x9282a1fed1bcd5fdc578e0db50c215c564f74724204065fb3d34466fe3673db 0x1b00a0377f99a93e3e1e79d59c2352d5dae904638e12ede66a6dd6a796b07ae8 (-0x72f8d95dd98b1dac9ea46f2d61d46f463cecf5d8f558135500e6b0e16f27354) 0x31985fb23191faabf7265477109c58cc7bf100bc603eb707b529c372e2a5ae2 0x18de634bf8b735ca40e081a99889024798c8599d592286d1534f7eb5887f3c1);
  OD (C 0x7c9471c8b27e03a22a436b68fd470f3a2b9118787462d257df7c9c73ace85fe 0x29aeb1a6be61a23471516d7e78a22d71344037863bf05ae887f5d8294259afdd 0x24cc3f3b8fbbe2bf938f62ef163f4c12073eefaa863df0811efd576d94ac4679 0x37dc40bd70519fbdd711ad9716922270dfe9930122d02a100ba2c10ac519783 0x140b7e10c6b485028a9a817a8a15462f4f649739ee9b4ff280b6783a1d84087 (-0x53bbcf398aad2b1c72016ce322c1c9062139f450fe0b77c84a29dac7aae5a3b));
  OD (C 0x2fc6a06f0c710d881a43fe7c81b46ec1777d72c93cb671bd482168911495c9fd 0x26812319701f48a00df48f0f1a70f1416f851df3636616b8143a7fa387221b16 0x52c7c35c35f8b045235bb4cdd9d673274843edaf8187f917e0ac15a12bbeef0 (-0x230cfbfb585d013c129a10aaec8964ea849c21bc9110cba79c027a441cfa09c7) 0x2f2af433b391296f93baf7b0ffdc05d94c8761854c3aaf649e975abb370a457f 0x32333a941f7e7eef88d31753c25af58dc33abf7ccfb7d34141fecca5b69b4ae);
  OD (C 0x1906273b175143e7faa7c5b3a4303f26f6ad23b2f45c8eff3f5a0dcf579f8312 0x84273982680a8a60c358c54a0e279eb6d290a4c3e38ecd869c71ed741c46118 0x1eb07e6a62b529b6febb0e74718cacea5f12840f5a670410117796339bb43890 (-0x568f96172c9e7c3a9179a6e6bd88fa95a3fe9bd31f8b1bd5312b8eea58244eb4) 0xcf0b45eee882fd5da49ccef3c0c82c5f300cb51ffd8a8c94be66e646ced7a00 0xfa3d7bafe367bd29ecd1f3a113a943ca67f4e7f906e8d055b78a006810a24c4);
  OA 8 (C 0x14e8291770648a9b26db1e8b3c8b67428b709fa4e2a009b63db1803994c5f147 0x2830a958a16c545d58fafccce6169323cb4dca17b5feb6a730d5e89903d0dca6 0x20fb1ed14c3cee755ce18cb792f9aae7e4a3bda6ddb951c523267f40fef2c493 0x10209d1f254680589cd9c8fcfa9874f073fa9d411159b0996066b834e013718f 0x9084fb7afbebf5310ae6d7e3d7086ad5ae3e8a3955af3c3c7ace42f03e56411 (-0xdcb87d84ce1409585613c125d47fb1cb845b7da595f044c357cd8c11e7662d3));
  OD (C 0x176ee09abdcb8466f50ff813f4cd4ab58e6a2069fb5aab9dd6dba39fb3acd6e6 0x1c48e2586e618204080c6ac0f76ff504494d5faf5266f89aadce5e4acb25290f 0x10d4c3274a6d1324fdca85feef8a92c08626eec35773125546a4efa525442a33 (-0x4431aff025a78ce0874fbb1381e9797c3dd2e0d846dcbe4b5fde124bd09156f8) 0xb58e0fd855558ca99dc021b5ff54280cf6f0cca4d0a872529f3d424af7589ef 0x5c3d8c8778460f1ffd8de2876cd43ff6bb8a7bdf0556974b34532613eeb95fc);
  OD (C 0x13947a7d6fecb66456a505a393d3e4b944ee64f33d7366a3a54e7a05b1f2b6b9 0x23db02d44ac5e149c26032e4af24c154483bdde95bd3344cce46479cf8570be2 0x390435f44569529af5a73ddc519cab7a481b39489200e1638e9d666b443c9cb (-0x23f9fadc1e4f07be6504f196ec45bd3fe2737fc95bcd04fc9551f52038c1a02b) 0x7ec1e11414b61aa3559b96ad8aace86b47d9ad0abebd90e45677ba47042e347 (-0x3103153f750b0dd8de0f1856e6355673a8a9e82b4850ca1eef541c550b7143f));
  OD (C 0xf1949f9ea4d285cd74f25dc9cc3a0946dfa174d4f864db9754aa6127b71080c 0x2fed939fab10101d9b45a741e0a1795e890e957a93b11b680231bdf4ce9e0c2f 0x2e15c30375a3068a2dfc8d337ca332fa5112019c64552bd63b3cdcdb5e6a6409 (-0x4d7a0f4ba0f1da272f54a353674b86fc9492802765271d8a2b511e1ecb5a365c) 0x4b603550bccc68c267da9e9b2e628b59db7d4863afc68f5d3dbaa730b0178fb (-0x3c44a6dae272d96dd96318d887996d6bef396bbf85c4bcd26d377a4a12e9310));
  OA 3 (C 0x4210ab2b1b0a92f3b319963ee4db021e23fc5619e889407658792ee20b77c6e 0x3db5da38ad12b3da324af4a92d6ee8c96d9247e4a41d24b365845712dc7122 0xcfc13e55e8323e693ec3099b5f3a90e11c2d097fda5c0f3d7e804e1f61bd49d (-0x210069997a11ef0e3df540197329606612bb06a7465700787b3621a11cb8541) 0x5a31623651a20f87326cf0c3130a307ba5bf96ab8753e24f6fb07d0bc22866 0x411a545b16c1e861ebab2114a91a579cd7be20d433241c93f800b9a35c66d90);
  OD (C 0x2bc6ac7170b4450ef9c928dd5f36ff6ed6bbf210ceaa47e650d320e7b1598886 0x17c94ffe7186923ff541982be4d91ce8f37cf52769418263ac352cd99ad9fe93 0x12d328fa89986dd877fbb2cd196696a5cd2842c34703f0b3722b89502d5f2034 0x177d1cddff26be0e8c231a346c9fa185212bba823efbc6fd6c8ea4652cf386b0 0x2799bf949431587cbce4b827ddeff1fd872ae5bf8b2075241a0d119c83dca2cb (-0x154cabfcf5728cfe87c5bb032bb971a5edcec2a992d74dcaca3af952cac449d1));
  OD (C 0xa19a0d34088177bd5e39bed6cb88a7b4bfbdf75d6bba4e08145cbd6c4f4c594 0xacde98eed13ffe34c9ad9bd8247e77ddbd0b1a25bd2078a6bb594d5daef1fb9 0x260b7749d8d07b616f15f2a417fecc2940576f4915ec9eadcd55af9e072ab7f4 (-0x1b37b485582e125f542716588002d73b3e49b2724214131b8708434a5d36838d) 0x21ba8f4ffe7897c4a6ac800658478d2d04c8d3231985731a6d9b2d23a4b2e47 0x2b5a4ebcfa3d179e33761a4a67eea52cfbc5b54c8b766261f9a76204781b120);
  OD (C 0x6069e8395bbe44247dfc6e78011ce1472d7a56f55d65b85032bfaec13ef46f6 0x20e2dc7c563347253e062c3f0d668b287130d3ccf03ca2375f53a3df95104ceb 0x19788d08859e23994a5c971d26d784cbcf5fcfd8e9f5d6de2d7920cde97430cd 0x23cf0bd85cfa632c616e39093833885578e546a4cd689c6d5da7ce8a240adbb 0xc017207239443151154e24e4474d67d75add60a5bceb4e58e757d8918f1f41 (-0x2bfeaeb01cc4bde88b1b9d05bf836406dbd3b6c92398399a807d4bb55c1394b));
  OD (C 0x66718e4349d7ef4a6a343e43512a54934bbe39132b0a818c3a994b7b09407d7 0x17344dc3e8a1c062a1d329316ece0d0edf6492f6bfe5065ba54bfa22aa5e6947 0x1d2b4c6612a2bd7052cbdafe99190e20cf095018a70c2e5da83e55c575df1199 (-0x3c4e6ee64d0d7d6f2c12050f93d45d4db5178aea3a5cd71bb280c8a73b0fbf03) 0xd8de775995e78954ee8e19011469fab823c919566f24b27b2d2e78e85e5aec 0x147f0225f36945f202751d971a689bc82434cc4bb3beaaba2bdf1eb2b6ee7fa);
  OD (C 0x45c8a3961e8f0e435228fa47122046c65da6b8c7d7560874bdff2587a22b637 0x19edd8309df001c16f150781c6e73dd982e4b5f042f7d071c474e74578582c3b 0x304ece8337a5599cb57b86586f955adb20991143ba745f65aaa824cd5bf0d1ba (-0x1c1f40c73a320692651abbdc2dc0fb9892d45b35a0c8a625951262f398e7d283) 0x64a1d20cea58af03ed48465662cd5e89eae377607f2124d4d7bca354061ab8 (-0x3ede4a89aeebccf298b6407bf278396faaaa754e6e1b6b3691956c43ba17c9));
  OD (C 0xc7e154dc4b16a261c115a4720334b11c29503d6c97344058d56d2f2c714c0bd 0x1036620989d636538b9e5ceba6d9c25044ca5b55f303ea1ae7a7cfc200ed640d 0x2142aae3749f85f9c8da5cfaca3ab6e21123da9aa6264a0c438b6d89e93c0ee9 (-0x10bce918061e65762b172be2ca60c8296e14f3f80caebbf9f066bb78587de221) 0x3399893961704cf884f2b13363e840435f4ee604db71d6b612366682bec63ca 0x28225883e6310ac47037a0d73c972e4e9086eef18184479ca8dc499eb9f8995);
  OD (C 0x1cac9af5abc0a0f764dcf49b7452ff6159b33956e76e33cff16715978e5ea8b1 0x6edce2d32b654a72ad239a72fdd3cda8e899c603966ec32b23a055d9241cef7 0x59a51c2267a0511abcd3b86c02103cc33e8f7474142d562027e30f2043c8c76 0x171f2d938499e8a0c3efcbbdf4e6901b41d0a97bce9fde0d7cbdf08f12e50991 0x10fd9ffa5b00cb76499c372365ee4420efd2006ee9c8cab422e9c78d52e49a30 0x580398013d22e898c8137b7872144bed277627e83d1f4518ca494112ac33ff1);
  OD (C 0x52fa6ef767e98a70bbc4e3612edfae84087c75b467329f6c25921e167164b7c 0xb2b4c5efd2bcd2ab72a93a5131c0852a2d4f40997cfa2e5ab566067392c4258 0x2c704b5c9d744d41261566f1bf21658b4d622d645834764b508dd1377c28b197 (-0x1c6826b389477672fd39fd787ac1e8c50c9e7a800429b44ce8bcaeb92d97fc5) 0x8e48c04c2a90a9fb7dae13bd5a39d7449e0276cc5dfb165d3dccb67ad8dae6 (-0x745500af9ac0afba6631e28745afb4cf3d0a6dbbce45011ff0b9b4d0ff942f));
  OA 5 (C 0x2fb8ab79386b6eeeed21f511ba2fd2e4ad5082c7450cb53b1cd95e79aa10fd77 0x4a497fc907aff8c5dd3d3f1b702182a61a736df65ef0614b4c63663e235606d 0xd036c3b2ca7c7370f2ad7720aaa91f19b4bd67fb3f41ade7b434a1add6d7451 (-0x7793a43187d52fae3fb17bbd18af8e2af90732f37fe83f018ded193ac689f16) 0x2f0f6942c784c371b1eb37e64bb4cfe1e745f4bcdf7fa871c3f23fb43179c245 0x66f8eb636ea86a29ac1497cfcb9f19c61f891cd865dd93096ccc5c208e86e83);
  OD (C 0xadc8e12601996e2c755bad097f6814f539072314d2ae99e4c9f90b4498f2035 0x21585cb28c3d9c1039e25bfbd12cdd1fd3f8ab1d21a6d23a802bbbc6da5af373 0x2f25c5cfa5a686d23fd3e48115c86ce5f99b91cef0a59778651764893583c382 0x4815b767962615cd30c134f097722ba3e3c663ad19b1c68cc74d9740850bab9 0x2701870b7739fe8096c331d52783a3db59b15969f2df19ac04fcd6cb37dd9f4 (-0x67134d4dcf3148048691d2ca4991a39f950360221c40af5dab415833118bbe7));
  OD (C 0x167c6c75c9e42c5bb3aea341a5548b08ace9566752844c3ddd4e16ecef903540 0x249fa95f47630a8e2d5306772d7c59ed47721d06f29a64179fd5c7ae65475800 0x69f4b5814337bdeab8df628fd20d7f744c54dca398716c0ad4f4c9b30a0f64 (-0x191d8794a7557730ab6d646bb67ff74f0b04f92819c7f7a03bd70b89ae5d15ad) 0xa72d057ae745f9826fc48eb679fa3321d3cdd2911e44bbf8616f9ea16158b16 (-0x185fe6e438c75736ecea6c77162940f1bdeb376225f2a3cae37759be1db5aaa))].
Definition cert_g1_4 : list (op Z) := [
  OD (C 0xf2ee9db8e046082458146ea32f66575233b4994d330045d4cb133925d6a6b71 0x2da360428821313386882834dd7e1e0d67490eb8ef733315e358014649f0f892 0x27f2807aa2e5ef7dec69badf45f259e7d3b13ff1871b36eacb8691398da88cb8 (-0x52e4729d648c536cc8ce9dc177917aba7f63b521fb9bf9da9096540612759c88) 0x4c38b82186f2f450e6ceabbbb4d831d041405cabc73250b0b6b1b4d595ed1b9 (-0x2d40f8c73f1d1a73424831e58641dc4f260ba938a71416ca0dee8a2e72e3802));
  OD (C 0x5a8f4d37d8eb541efcb77e6181e4f248249c6759702f2475885090c4564ba63 0x75163bc8eeb42b923b587c540a3e857a972c26de1cfade18e2afa9235833c47 0x2692e779f371aafaa868fd0350c7641124435478ec6aaede44a49aaa24a712d5 (-0x77c77546fd64c87e2057eaf47d1d54dd2d715581cdb26b6b427bc0887068cea4) 0xa978e732466d99107853515d2cb352e416ab8ba16d42aecf3243c7fd323b32 0x47b6451d244113a6e7327e37f4ac045132d16042724dde9f1ce736c3d063eec);
  OD (C 0x23fc3c8f08fbfe2080971ce9fe84fa723d7337c06754e2f670a8b1e250f92652 0xa0f21b241ce27f8352aa8b66b4095c8fdc6a5a2c7422911e1d2e19ae2905c8b 0x233a2022203324909a2617df5d59c6728720f9934dda470a3bd486a34204a1dc 0x360c8702993a4e47039695146daca30641f6c472711661129b89044fc8cbc817 0x1ac26fa822fc08cd6f10aaca24d818b19425d3925490421de57bb08761f142fd (-0x209d4f7eac702ed1f8aea12027dd8997c329636bad39d79bd6df3fada04c23f));
  OD (C 0x30afd603513c24f4be7266e6282d428a5dce081b15a639cb129c481c87278b7 0x11458c13b5180ff556912c12aeabf00dccbc9b337a06496757e54407d1840ff8 0x759e3dd9fe40068e691bc054cce47793e21060c6f6190938a7d281a772ba2ff (-0x1d7b93090f62d09047ead9d187bf090212bc3e249642bb8b9bd6db54383c485) 0x30fbd3768a5ffee76602297bfaebcb18a235b745af875ac4c134dd51651da5 (-0x741ac401f9db3b890558d01ca8b258f578c5bbeaf0fa25112024f870e2ed0a));
  OD (C 0x2417eb968d130bb822fb6b7beb383ed80bec427d534cb70a6b7a496cb9426d68 0x136bdd546af9e6e255c003910ec60c72abc7ec014470d919df4b21369fd096ee 0x1586abe3d2c0ba0c9b777759982a89a60a4943f1a15a8f3af38b1e6fb6c0e044 (-0x787137ba2079dbe8549e7c9cabebb245d7af1437e0b3855adc2bd5323d6bff0) 0x1aebaba86efa9e8125268f57524953c1f735a6d7b428626034dfa79e60124a8e (-0x19a7570f80e5eef71adcebd95c4ca1f53f3ae00e73f4cb333c3396d4af9eeb5));
  OD (C 0x302a302818138997c8be01e551d2cbfff27286a199dc25c08d52c1ea4c075d68 0x282d1720080eaa34f30ca68243bb735f01a3b86be0d7cc7b741b72d2dddd83a1 0x26b6827fd2903a1d6e3e7ba29d75afca3ad5cebe6272bc3d2c9dc72457d183ea 0x13777bbe78307c194e64b2610a0ebb8978e62159b4a0546184950c123ad79eec 0x2ff057aa0f7f30ba795a481194d26ae43ecd29a55e8678da7f6bf4eda30fe6a5 (-0x14a84ca37d5e9418cee4996dfd242cfcbd8e78c22aad28d628ba1cee65c6e7ea));
  OA 8 (C 0x102623b93866898439038764c7ff8d3e8e903178a35b296b2fae9f78e42d2345 0x59b9f8ca6aa4c262a9b254bc2af00f8733e78bcfd8071916fa35c6ff17a418a 0x2f443750b12292373ad108b394ded69c4aa82c1c8d16a0cfec48588f649043e4 0x1ce64b166e668281419010d3ce0e08ed085a6e5a58630c3479173e54f2277c2 0x5639dc7553f22edc267873f763c7fc66827ff4f90a2422a63c9fbfebf47323e 0xb892ec34c25bee753ac40084898c6aee91f3b97dbc05de267a64ef8aaf0a5f3);
  OD (C 0x205c0bca38980b47a2436bc5da10c6178a88905d2765d1ac14ebbc595487c76 0x1db1b35ad07205067a2ce1b56376646ecc7597d7d716880c8efbdd6663ae5a8 0x25ed63f3d46f907425cab45374926f967025a209e27620855f3201b7f3b75ccd 0x200526a6b21729aea0864a4c114bfb4eb8bc6c353343e2b8160c18ab447bedc 0x15a3882c476e92b4e940709d6c51782d685f4dafdc8c458c8e8e8bdcbd2918 0x2824beba7d7a72624f0220f45b848160fda64f2924e66c4b9187f49072f42d);
  OD (C 0x190606ffac1d3df77055315017e98bb3bc01783e168585a8312515a47ebba56b 0x45f7c7c952cf266fd4fb0f600862c4b1643e8b60a59edd4fd0357fe346ffebd 0x29ace61ced3b75a523b406d5af3c5fa322e2eb5502ae305deee582f3cc7ea6c2 0x2702d7a360ff0899b132872a6982f80ea889f25f86f54d7a55494f156440e772 0xcf093092f6abc2b47d5b7f761ba7188e0124bfdf0601670cdc3770717534ff4 (-0x14d35ee1bb791640e531209bdb22802346fca9be96f693596faf423970d47fa));
  OD (C 0x25b1a10f4ea70c015c776da7560f21a85e2e8b12f1dfcf03468c1a4753b67fc5 0x1a04a00e3e12197ad3e6d5f23df90af38151e959f58c1b94e4e8a9905d365bcf 0xb470252c3fd9ea69b3b4cccc4bfbc6db8b4e6f5ffc5aacfef9b5012a670123d 0x3fbd2b31d52a14a26d1a1736244531fb45d3b237088a1f3aab9c7c59c9337cbf 0x1d5c63d675b36068589315f23bbdb32ed3397d6c61a9d1667475d01112ea9130 (-0x10dc296fce1bdf21e4978cace7f83e1563b7aa601619e288d4bf9fde8655b3df));
  OD (C 0x20b3ece35604c182f8f3319987e5cf0975b9a090f7ed01488504691e8fd0e94c 0x181a3afd01e8fe476c4c4ddf17ca4deb9daa562813e5f649ccfdd1338d036399 0x256d53c3756d64aa53d3666c1fd1d0aebc700e905598944aec592b32029cfc2d (-0x1ab94d1cc07348b149f7393af4d70dbc9067c7f3207435f978175fe369afe43d) 0x1619af53e8410b5b731214f607fd01caa48b0891eda37800cf27653b6e7efa5f 0x14b67b82fca99b8993605e415f9b2f4abbfb893fe63c3fca726e69bb96a1272);
  OD (C 0xa07f327e6097bec6459586323b19db120c3f1a612b2cdd9ea50c4740b1c02a5 0x2eff22e946914f87c674e0370d3bd7d9bc576abaddebcc0ae839476334bb3f52 0x2b3dd2ec1833110dd4ee4245165299869acd2ed8ccc8088deee9f5fdad700dbc (-0x147f6862fc708b18bf5faf88308c6bd5fd72a04d76c008ffbda60504a0f3c3a7) 0x2144e4355cfbf53c5fb35d09bc6fca40596ef7abe6561f62484534fe1ea0003 (-0x4bee58d1d4125359ff53342090bcdd1872db56ad2b5cb7c165dd69d71e84faa));
  OD (C 0xce296003ccaeb3bdff8bfcee603a151c8c5d3b1221190524bfa913ce6529524 0x7624321afb0bb28ecdee0bab8051e556787fd809a2dee76237bf06c301136fc 0xf660bd7448297dc3344d95721a7afbc083489f14bdfc186eab3ed95ada8c0a8 (-0x71e5c11dc3f7bcdebe55294dff04a34be1a43fde03aa5c8bfb4789660a71a8b4) 0x36e4d34d3cf02d8783c1cb6a8d2efcdcaf9185eb787ff13703bc2d5d38f0510 0xa8c2bc1c5bf1103cf8d9cecbdf5d87cd1c93d07bf5da89fabaec569dc01c0ac);
  OA 7 (C 0x2c73645cda71c0db369b8ed2c9922898f7cbf7c4d3dd42867d1b5d7ad52913c5 0x2f1c2624862e0fb86a7a2667ecdf41b8c89ba7ba8b9d66ab3d52945d2c7f0e09 0x1da2632ad6450ea65c4f47db13da7f82f87660695d8d1a0fbbb17697624871 (-0x15b0e54569955672cf3261edfe3cdc2ed67e4e0bf6138b00336442d75561d5f) 0x28d4a4fe48c9d1b970a0cae37df918ee6d2b21e3047b1f19c937aeb3c1370a83 (-0x247da473275c76042bbf49a45d2853da249d15458b08721393313cb82643ff16));
  OD (C 0x2f019fc0ab126e0ac86377dbab3c550229838191f995c595bca6cca76724b4ce 0x2a78aed5394ae93a99e55fd39316a26036c912fa1ffcaf3ed0726b21cc3bdc33 0xbdcc037a1331b384370593d08ca0483f0bdcd13d8daaade13ef0e0ff5b5f73c (-0x895c7b1962ff4d172effa5f786f1af7ed1595b38fdb05f4dc1339a0368bb5fb1) 0x2da918a944db12c22f841b3055fb0e30da23170f0a37445d038a391ea783da09 0x48177e93fcbcd1d9efc14ad2a07e9e6ef0b468f1d57510569cbe5492a43a0c1);
  OD (C 0x1ac734e7fc54e2c3d52913be6a2df328cb394ee41ef9f29fea4de82709c2c2e4 0x189576ae69aaa94052cdf380a69eab114d90baa56f2c04a936b2ae306d7e099e 0x111bb5abb0593635bc2cc489fd89e212e2e8d6f5bc0b0e72b9ed89f50fbfd7ba (-0x62b29df18203e086f757977a91fcfe3d73f5415c40c10aefd37f34419ab3610d) 0xed16792b3c36faf611af4f29597dd7856f5ab31b4ff4ac17276aa945c7e7494 0x9e5f636c4443d414384daad4a1350b1483348ca2c25254efa1442a9a57bc152);
  OA 2 (C 0x21d3c47dd51ff38b54395131e7ffa7da31eb9db2885ed46b4bf81d34453f3ffd 0x983f2b525ce0aae75a07e070847f6843cfd3562a225d45971f2a2306f24b814 0x559ca480fba8d6d4294806dfd0d713a44a9292a7b07efc2373d9003333ed1d2 (-0xc00b9db5a87e6d7709f9880eb3ee891c9c4428965e7c58a0cdc0f6dad713bfb) 0x17a56a86fd8a2bee66111a4a04608edff9e4e2216a2bd46402261f127fc251e1 0xa888277aed142c49cab2a647eb379d5ae2dbcc71e98d1ee33ea66c148f8627a);
  OD (C 0x149214e5dbe70587ff0f61a06c13db757c70cd62c486461412008aa7823f3827 0x239f687e09fc28cfc738d70c46896dad875f7677411a24c06982ee577c8a6875 0xf9e1107c1c43b42fea838e47aaa7fb85b6bc5e8943e8b6f7cf4494ff34470a6 (-0x110687ba00df19d37e89a30594ed7a2aff168174f0319b7bfa1c2418fa6ddac) 0x8be8818a34dcd0b17e01c317813b7048f9bc0cfbd80182d6b390eb58388b20c (-0xb1909ab0a3c1c3816664ae4832694d7e862bc0b859a2c92a501b2082bb5e049));
  OD (C 0x9a3bef7682411722160861e27007b8de5185ce265fc29c789be5762218e0ebb 0x93ddad36db6297a79e214ee846448257223ae14b8d574936679e93ea683b2e7 0x1462b8cbdb04487db832b0feccf8b65a7a106f693145518039a1a8a1500f81ed (-0x4872646e1aef575a5fbc93121f659bbd8daf2eab7b1f289d83e7e5a8a7a6f261) 0x1eb92f5d2577e285d4d681539647e1db926ed18eaf98e7188d885c91e0604f8 0x5414e2701f951faa36de95775bdae69a8dbdc87cb81c33a9440364cdf96e621);
  OD (C 0x270d5efb825ba55c430b5c5a71f84c4912dba0405ba82bd967d0a3ccf6c61128 0xf88f2d91d925a137efeacfdf718d69dd6239f4ec5ffa6a57ed9bd7dda5a9780 0x2720aacdf911ec3c5cce0bd8d8e706c740141ad353521cff144afa22281c80b1 0x1b9b9141684d1fdc218c5ca932b427d42a5a604ba8b66969500ad39e953225db 0x1f83e278aa33c3bb37cafc6aac0b7b53688386bed0dac9d6fe4d19b527fad07e (-0x514275aeed18525bc6d8e7f7d4d56e95734a5ee5d3e7e6540045250a78a6b4a));
  OD (C 0xb67feda786f34823e5494c47b5dd492f2ee290609486aebc3b49759186e788d 0x1a7807f093f433b07c2587b317e1808ad4c8c7537fe6ef0d5631e297808a194a 0x588c6d236dba2dfcfa4e046666ef4b4af2dd0b57c55e1b9cee2d153070b3388 0x37be1570086cd2ef0b9648a328e6b378491e40aa85302489173b145cf0d4a36 0x2b042850ebca0a21a9d394efff3ca42f94513cd37870ee7d880236321ccb329 (-0x293c289fa6addcd31f3d8bd7252316564b5d7b8ba8a3483f65070078dc24d2d));
  OD (C 0x193770189d0dbe6a612ba84820ef1ed37947dd0c8c4332af9c6a172a7997ca40 0x1e9f5de95bab992268457936f942db48de97ae749085fb2f0aaa3d3012bf9712 0x987833ce0dfa2473e92d2449ff7ae00a4b965999b62a346a44189c3831c650e (-0x25aa50d1cd747d751d6ecfa0315749f89e723098970a999571ee028af6d6ec74) 0xd23df40b2b3c08e88d01d4abae16c954b8b16b5007ffb0e90a692da30ec8bd6 (-0x22a18506c6a7dd494e6b5f8666541579f226c0d82034e1d043e834a1bd103ba));
  OD (C 0x80c05268f8439af1466ff81e031732a16f3efd1d1553e89f9c335eaaf82d87e 0xcf9db373ffe533ad649b0ea4652864a0211dcb02ba679c320bbbad926dd74ff 0x114e3a333904e126174271493c62824ee686b26424e7017d272387e81aa95f62 (-0x36f70585d1b49a4c2df9c741e72dc7fcb757b21724fb076b265a2857460ce3dc) 0x1568e374add4b6b166d84e3b7c4e99cbd096fa9400a8c8fc7e7044147257a97 0x2ef349480829d29bcfe5c0954e01b63640163512af93306ffb46edfa237bcc6);
  OA 6 (C 0x1d864616b4b564813d6cc8233c382512c191b01f0c0ad208b655ff3f3f797086 0xa15ad12af7887426bba8374245f71ac604c1a66ea37ffdb3689d53f5299b67e 0x1b434b42743d6006abc3c64642de761cb46343fdaa31d4789c94a1aeb5b8b869 0x11c1b390e62cc4810c93f92fc093cfda1cd747a72eaf69d06990d7379e264de6 0x120367c4ffd596c6d6b73a67b11fe6bf4c752e65693e6c5c7cf240e179dae588 0x1c39810d67caa8195c6ddda6af86923697cc1d6512658354839e5f674f343ed);
  OD (C 0x325be9a5a6497ecfa16e0e98f971efe43f21d158001aaaa735746664b692a93 0x1607cd9fb589de6211b080a2e214326d872020c368ff8536183db116124cbdc5 0x2b59f58c0e2fccb01436f8168e78677f8ce2cad4f4fb45f47224fb595bbcddad (-0x2c2285e5d00fb735e6d54e5f8a8cbd02e855a198311efaf9cb360a73b7301da) 0x3467fdcc4cf003ebdc59138873413930a29472157f86c7bffd007b600fa118 (-0xc6e72026a73f3f22b6cc5ab34b718c1d3f1eba1a941433d5b7dee3058aa8cd));
  OA 0 (C 0x28f23c488fcbf49f452eaf5da5e3526da766fc36d8cbb0ae7afe545eba5a661a 0xdac510091c9eff0449b51bfa1690fd99436b815ef19dd66b4d8703a9f3cb0ee 0x2024795e7aaa5a125c75639e0a1274fa5b9b449ffa8efce94817b62afd92b7b (-0x12a40f7020c3a3961aac5a7e129fc5fb6fe66e977fe1109ac7f91564d413c85b) 0x22a56efcc89977f8d1aba2eeaa984fe1047cdc89990d55f55cfa76454d2a8c90 0x7124de6f1ca4ae6dff6d91e38430cb7cbcbbc7e40dbeea6652dbf980a70fae2);
  OD (C 0x461c85d4404909e4658638684f3a126d899dbfda76618b721cc90c5744de3c6 0x2a25319d3d3d7ee94034aa7804d92f548dba8393aaa7dbd19e861ff9b8fdcc28 0x35ccf6194ebb61073670039d052add84387d5b81ac3c1dc9d9dc6d550881ff1 (-0xb39e7deeeec69ebdb7e9f6520d31ab34f377273e06c718eaba535bf98b21438) 0x6594519a84e9d9d6d62e75431bcf7e12c49c783293c86dc303f34ee56507e0 (-0x29405404b329382110b7d599a9baef36c37840dca355c4575cd3817c38ef978));
  OD (C 0x19b4e8b6a36851d8511d22be57d260e7cfe283c3a3094053baddfbe0f7202f51 0x3031a40ab54e1c1c5ff54e0705c7a502b39edf14e57645a368e6e2a4a9e156a0 0x15c4ec09301f5693ada9bbb2c70c89f363a5cb8f417ac86dea022809c769f110 (-0x6a8aeffc693876dfac080efadce6ba64e2acdde9f162af3ad28eb822688556d2) 0xda7e81ee3d917ed3249827827a5489b4497b640b1901952d7a9aeac59380647 (-0x33690ab8a1977fa7d0213cb7f3ffb7b06d83553fea654ddc407dcc114d907bf));
  OD (C 0x29653b3ac75cfbb0d11343246f2b263d6937bf4674f55d0b8c2769f3cb743697 0x4feb4a93be9782c6a56ec4a695a6016bf5065cd0bd72980d8cf68e537773c98 0x1b15ad594c2559b0337e9e3a439e2f6ba3c1332b538b6e0ccdf315746b4415fc (-0x6abf25401dddeab284e332e90ef07d529bb9334f38f1b89fb725c2a0cb962be0) 0x23691b2b24927e216d1e588dd226d00980d174f3af9db65b42e748f08a261b7f 0x24f40ec552920006f53eeebd68cc0dd014a58856b6e4f4fc8abce66529dd84f4);
  OD (C 0x1f32f77d3ff5368c1f4d7788afbc139230e99f499126bfc54d2bab562e4ab7f9 0x2c51e0ca099b8cb2f352082fbc170f77c081eb7aab4b4c7084d059a045c21118 0x19747befa6c67e80c909df36f08ce5d67edc9e4706e8b1f4498e50dcdb6ce388 0x216093995e7cdc734863e9a69e66b57590568a374784c3dc77d568e66edfb2c8 0x141d57c8fe2aa9387d482a91a98625539faf178f83cb883d7b4f758c91a95b4f (-0x195a7d46605eadee6e8e731f1d218beea731c1d5b7ebd6c9074be89bd2a8f7dc));
  OD (C 0x1a9016f2fd92266d1b45e5291954ee7f74026f5df250054cb00f67ed6498b903 0x10f02458a41e73b23f791e2074131df0ce5481e665fce4bf2b7c9130f4d56e0f 0xed6f67408de843fae0c671cdf648faf9bb860e9c172ea1a61bcc812d95e1a91 (-0x5dd38bc44b9423465919187db9ef1648daad797f2dbb61f90da818a308d249f0) 0xe94a68c3768970529c081dc36ffa57208000f26756f722be719f9eb549a08e6 0xf07ba600480f91dc90207aeed6eaf22abd099547cea9c85d8804efcecb16cee);
  OD (C 0x2a7a9e54993146826c03a7a93aae455b03ee0e76fdf4a9a8510dc185e27c1271 0x2972bfa80733ceb211cae0d289f0ec08e1e0d27c3c59cb12d13802a8970d74d3 0x2b1ea9b33a92324764ebf5fec8280b709aaea0120a85357113a755c31f80f687 0x8445d07fe9736483979c2e81ebfbda690b69fa37ee57ff8a23d5ae7f9a51f29 0x2549e21d39a7a4b7757307a23230687b31a5f805c77029f90ffb20ea88a2cb90 (-0x1583eeae3020e6f53f5ad3f16b4a2655cd8dfa20cecddc84f8a4429fd7af5b84));
  OD (C 0x181a2d613cd3f685fa23b1d98976dbbb097a35c89a1e34da91c77bfdb2169257 0x1b608fe9b836b39900a5710a5965da758b636ad78d494d47a735b931d468ed29 0x10bf64850a62898679f2824a7b90107efc8b76997f6af918147c534c2e16afe0 (-0x3f8cce33756c9cd95784bcfc8e6dec466bd42adbb4ad0a2f89ac88e1195a62bf) 0xc0125a58aa3e98dc25e3298432fd0955b473e09ca60af1d6dd2359c8e4e002e 0x7021f26c89506685deb242db72caf5b2670157fbb0aba608c67de7acf7c6829);
  OD (C 0x1ba94e48c3c1e41fb6b62301c386e31de78d663f8180b14c244e2a9e70c91e81 0x25a11e40595d57f566666de94a54259c0770333c03669be6fc8f5dfb68c6e61f 0x24ba3cb2fc20dea7f17268fc41a7ed72883bcb15a57c4fe23e92085749c3405c (-0x1b519fabd8a3f98e31b2fc02fd0160e6115071b7b7cffff83e945830a9526bf5) 0xfcfc29222b760b812223c1a01cc5b0bc677af6dda098a5b59bd20a6075c66f0 (-0x5dc3a5b843de11d7c1c7283b32a3a2ecb735bab3528dc83b6c8448debbb973e));
  OA 5 (C 0x2b1682c05585c385a1195fca02c91b14a04f4fb38c66c8dbda3415a3d122e61b 0x1957d1d72aaffc4e3aaf3c303f1fc034132bdddce7b0fa6e64847f553c5c6a43 0x273af2b68b7e5b13c6e361642c1e976587da221fab60b77fdfcb822abe023935 (-0x1e4edabc899b9cc956684d4a887aca9ac3dd1c9eb46e49c0edb29fdaaad7d022) 0x265d8896ce189d6870fedfcf54b30520009c630c7067764f064368f123c82082 0xaf090759af73e600cd09bb54de82db2dfa12c5dfc8615bcf7318420c73671c5);
  OD (C 0x3f90020ef50ef013183acfa6cbdc41fdddf6464616279bd987de482ab6d8116 0x2369e35d5c270744da58137803ee3e7cf0cc89337037d881befef33f82a5117b 0x12cf959d3b957b7e198f5587bac121b295da0fb51f2bbf6dd73fe6844ae396d9 (-0x216030b0bbecff26dd83a07343d3e21859e67917d6ea0c2bf7984365376a6e09) 0x537d3d6afe98a36ae5a2ca5c20070d7cc133b64bd46378180d7658539dbe85 (-0xd3a49419a0cf2ff250db1ed92ae92f7d9ed7a16496041143a2cc632f161932));
  OD (C 0x17b2670480f64263c86f40787394ef11bada6e427a6dbdbe8a5b0ca3379c68b6 0x23c18eba6151f4e9b1c2f9705eefe769a625ec9a6c69f00c4b35b4dde503bc8a 0x20082deb8f4f410ffe4a69d3b7f324334a2f2e737f24a37fd9f06621c96f0b0f (-0x3b5342b243ea9447ce33a08af3d7ff2fd7953ad3c37e6d5be1ecddae7a5ba6c9) 0xb9aa4a87484b1a4a8be739cc07fd49061a3f0e0acffa53033528002ae2150fc (-0x2aee3db39a289efa1580db627eb15e3b73b4f138ee9703236dc6b6f59935de));
  OD (C 0x1a10f99b8eb7335dee5cb3987e197b0b1136a3d9613347b91933c8d60b79b440 0x2297fc78778165fb6a8ba896f3282ee16dcf2daa402cb8b6e9c030d7f1b32140 0x2834589f49378448e2d4e25f14355a72e50d05f744843bb19c2dcf14326b4b9 (-0x2cc0429c73f6d11500a6f133811413a19e8264e4eb32270bd4d1eaba75d9d8f4) 0xe0a67c9431cd626174ea67da8d09f91cce9fc93dc09d9c25f363f63a09082f4 0xa04980c7036fc80bbd0717e6bc0b0c73c988a8bc9ca472eed00f4f1c398b88);
  OD (C 0x2821929916f7c0550a8820159d9527079e75b13e35f50fe129f7ccd13491b04e 0x1556f8dceed248e05894ca1e4f99b1ccf0c3653766fa49e360969e92c3e772bf 0x80c8397d076ec9be466d96e5017af27a6770625471de15b16f2c70f4df27122 (-0x46059ed7d0598d87d937fc606f13999028bc38ac02db197c0ec2e95adac9689c) 0x2147d51a210a8045fab12dd1aa576a6e0a0cd1033331e3f8acda189e257097d3 0xafdd01bcd9330c78683e3ece71c792d69e6a4535eab70fd15fa921590ca6c75);
  OD (C 0x1e788763e3d00861e0832d4422ff8a914a4dbee19f44e4386bd0b086a8c7f4eb 0x1e3ead2c7b79a92e682437a59a9961999fe55dd88744cfae9251cf6f475ad4c5 0x1b1dc2ef09bcf64f995047d58e2f5f45080a32b0ffc8b7020ca864a5ba29362e (-0x1218456b59dbf1cc91714fe1a8d6cf78e0fa940b91a3fc946e8b5c7ddbd13bb1) 0x132fbfb8605a7443335ff9448a53c38a3a8003e08be5fb79320c6776abdae1da (-0x59b755eccfa8b7e38442aad96dd60724c4eb015a9ecfd7fd8d283d9d9b62f9e));
  OD (C 0x21a2df2ae32c3a9f4c046b313ec2175095e15bbad62945e1e40558c55e2b6ab7 0x28aec05c699b88cd1143b0c53dfec48eba748c6939c088d8a1950ac70d526499 0x284056a4543e077e23d0bc8064e750f6cef7a6977fdcde96485a0646579618a1 (-0x1303528697969b83107caecd08d284a4068a1279c308c00c27fc2476d9cc2e41) 0x1761400608d495fbc21d26004fe5c69ac2132dea791c9e117f2ae8506e4a58e2 (-0x7414eb98d1df8df60c1d2b7dfc26261d761a4d708d2ce3766d0102f1989ff4d));
  OA 3 (C 0x239de6e23a3f1b64a53707d9a2d7b0267e8e3f7c73df0333c481549bd6e694d8 0x2b2597eea9c80226ce889e52a83c842f6299f3200bc5a733c6e2673e847cd5c8 0x2d160dffc7261e7e45d208d31d8fd74d9b494a87a44e873e74b5bcdf89348bef (-0xc758337148cbd110c9eddbfcb17a7c1ca41f75a03c7efd8f34f71273814104d) 0x1a36db0473a35af1345a2e795208afe56857f4597e8409784d9a5cbbfec8251a (-0x1d04e27262ddc508a2ca65aff60a9053bc6df9267bc17c976d0351d86a46a08));
  OD (C 0x978ed0826091a030ff17d66de9b007728f79c70e79dcf6c1bec95a922760822 0xf333a97addfd9fb6d2ba72b2e66a7a0ba01b0f58fec937e9ed106aa8ce23290 0x1b79cde0b51c2b45e797ea69ac7dd7060be1cc6e1b7d6e53b94a8e72a842770c (-0x61c2ad78681451e062c65e6fca1d6b74fd701380c3e76b9d79c87dd003b99e9c) 0x1daa99fa3ee0a485a838cd8ea75a842c87d91fde6f424be2e89a020239ba87c 0x5786af0d8e57fa3503058372ed8bd65b587b2dd8ea888837c0d7548b581c863);
  OD (C 0x24fba357ab49d6fcd8778a36d82f44d33f0028512356b6880a935c20f529a9d3 0x202bf3d8c2ac39257332a2414ecae2469085d63ae4efc71caef3c2cd9c3d269a 0x16e04263eb0be6ff45910d989940fb44d2be0817c8dacfe8b43a31d40f6098a3 0x1bac43afe16230aac7ca79770f15129e1e525be07e5a2f1baa76d4446e07caf8 0x1c438bf79ff6f1a28841c584d1d6a260a7c133a40800a73c6f50af7431ad41d9 (-0xcf86941d40a749f31de4740c1c23155c20ca96febf46cb1c90b6fc2dc23252b));
  OD (C 0xdbd316a4401ffdabeed844c21edd205758e37604aa6cb722f6e478b9c87bec6 0x2b0ec7887fc1225063a5198eb488b0507fab700c24091849bfbd9cb1ec7c78b8 0x201a2d9664f17f5275faa5064559b6aaa073547a58b38964936576596075ad47 (-0x332cdde91a3339a893fde3293501aed82e2f04d89538a9a2ed1eb9c97cf927f8) 0x3e69311d284d6d27610a8b694c6e8de0e598f4025b1dd4241cf6077c1262708 (-0x31736ebe3f4d26686e9c24a7f4a55a0d6bd8d183c412df14c3f0c4f9cfe60f2));
  OD (C 0x1a7cc0a22457ed9f6ed2e7f7677bc3bb4dab9fd2e9600347f1c6ceaab678e1da 0xcabb240622be31c7b7505ae0faf1126a92cacaabe59f194551bb9c879b70ab9 0x25318a5e0969348d53d92ab584218acce87cfdd866f19c76382d0fcb7d242f9a (-0x4fcadad0adb4aa06ee1428bac77cfe5585e53fea0ca5f6aa0e72caff3cc3e98c) 0xe7f73b318fffb68702fbfaa68d68e79cfa34b19284beca28226954cf74a342d 0x10a1e3a7dc07a0d25c9c069e21206a0e0d3617619d471e88c33ef0d907175713);
  OD (C 0x193a759517edbed75ed67b286cfa075921211c5b7157414902a0405ea5c5223e 0x10dafbfaf5bd887e3f7cf44d738f30101688ee8eba257217b1a525e6e069e84d 0x26cc819e573beac98df0bfbb13774dc0c1457c88cf6979de5f60548b1e70d7d4 0x1cd3e25994b150ce97e858da5e9634baeeb56f2a47bcc07be07997d527e978d3 0xd27058e206de578c3480ecc75bda7401d4906384b579fed07b752049f1adb13 (-0x22e80045fbfaf9e64965d3daa8af5fc41dd2f61636865ed463f7a7d49ae278a));
  OD (C 0x84b78757f6e8106f1cde2351e2091db3deffe64e57ed8c649a30741d7ea3265 0x22d96b2f9add1a8ec8b32626fc10e7a3b8d4c196936ef04dbd3709b5658c1f04 0x1202dc6c01d34df8469b08a9b2d52d8046606a907e653efc414088e75c77dc75 (-0x44fd2b9318093015f97be99427d00f1787d70febbaeeacc5ae26207480f93b5) 0x16bfb87390c116eb5ea12b5a9ca12ed145b3eda6af595b233a05279ca00036d (-0x31595e694b6545b34753d384e04301f5ac6a4e82997116614ead8ad0b7d81a4));
  OD (C 0x1a8a0e134bd5ff3e292d9749903cae80ca856aaa9adc2132c56695f8e0d3e73b 0x2fd6d4601ae405eefa88464fad63088920e32833c8471212007f94a5f297435c 0x65d08a4c884be78f2c4d3c2612ff52341f483fb33aa9568e260c07218efa690 (-0x3788d05ff217f53524dcc3bbd51ce44da284b6776b2a52c65caf9f4a1e0612ae) 0xe8e074d03539e08c6b8f25e984f10a7781929b71a5b9b8c7a602d9a56fa2ea3 (-0x71fbce9a1c7f9c991af4d21c59104025f6f6acb14102080370f6d5e16beeccb));
  OD (C 0x18e86a6c6e4bac950a2edac3e8876d71ff0ef4cf7d311592965d5aa119abb421 0x1f90c25db2c905f777942d34dc791b92f7e17dac93132473ed3c708864b82c38 0x198a9760f0ef7e569f54c8883748014c65bb2c054de019e030f011b1efd6b22e (-0x8753eff5d1490404d20543dcd9c42932ded5685c19b9178169578aa0cb030d70) 0xcd20548793bc73dbc4280ac21f07273e90252063a2da611a234e20ad3b780a7 0x860540d649c38b0dacb2c5dbe135977f8f4019b3dadc7a76a1cec5d527f10ea)].
Definition cert_g1_5 : list (op Z) := [
  OA 8 (C 0xcf4f94d02614edc9b543e00054524fe04c4243337b70747c8675366462965cc 0x6fc22b6633eae8f195c9a42821729ee1fa2516eff25337c9e2e833a8b262e2c 0x67e35e93a93225421fdcf94f5090b805ac1c2c06a85889acccdeed52537ad9c 0x3c134b3266ad2a795241a70bd9f4c81dbc5462d879d33aac6ba20a059094c2d 0x3781efb6895a56797940a64f2fb26f2c7f8284abb9551b90255432ce1249e90 0x694da3790c98ed84bb55d4a83c76b0fb845123c3e9e30c5528eb03a217c4f0a);
  OD (C 0x1425f8c8e67d7b1124e9ebc9e66698196ba235bfda0b288b7c1f8036626a2733 0x6a6a5051dce21a40735a5b127b55ed97f1ae5f4fcfab5757f5365535e94c19a 0xeea0262b8ba2e0f77665763182dd6a0902ac2048c46ba0e841f22d2f21821b2 0x261d917295aab6bebea94c035be145134eaed26f3702303fbcefeb3992142c8 0x8639039a8f0ecd6e3d083b68c6cd64b1684193d7884589f30ab8007688c7791 0x239849153ae5e4cdfc2cbbdf155dbe3c0c77b68050af1053a8c7b617ce35f8);
  OA 0 (C 0xeef78f971f44ce0fe195bbfdb78d6e742b0c3b689021fd08c3c9b98345c92c0 0xfe81e9a0cacb714900982cfca269aab8c7c44680058bda8edb2e21c8d8f48bd 0x2bad79f057001c3d7c457392bf57fae841771f25bb544382a2628d77aa54c1f1 (-0x20d7f2be08fa10d5b2f0cc07e0fb3388092709bf0d703b71fcb49d38a865c70) 0x49c0f4ee1f0b6a672bbf6f5d59551ea798a8ef7c9e3e72dcf5d74c235c58118 (-0x2db4de9be52411cd7a00d02a0eee1e1abf7e620115a3d51464418d71d497285));
  OD (C 0x16ef2108d833d4701e0af8711ce3d35fc07ef08a3b05501f1182dbf79f977622 0x226d4e0581b9718d91b595954a58199853afe57ecdd4c1e48bc61c2b787e5535 0x20af01c7f492f1fe2037bb56f0ef303f54289cd00e646bea7050db3c9bd936d3 0x19b6c3ccefdd425cd73e53546a7788c476c60f759b6beff3884aa9c9cea9a7cf 0xade79aad2b3c2d30f4e9a6080bcd59b2fb8c55d27a1bec8b9933087169f9203 (-0x8c6f770835d2e56d5b374681f6c59abc2cbc306f93b93d5d0b1a7e54e1d93ac));
  OD (C 0x14a235b5fc6daf089defaf9bbe6928f0e9f0a5b93b91587108754895235a79c 0xa70da3cef51fa31931ecf87af96ba99cc88b7d2713a92598c8506ad368fb6ca 0xb5f74263d7ed669178e74fdd2acfb04673927d922270dd47de6fd8d7c55ad1b (-0x47bbf84eae7196cc0e977bad1ef5258683fa5025c766b73ebd94ccdd5ba63ba5) 0x8cc43a9d20c5d85b20a9b60b634741f8966942e99c031c798e9028bc44944 0xa3a3520f2ac19217d2216598869b74a7418ee5adb84eaa5b067cead075c68a);
  OD (C 0x28cb70d401b09f03851f69929421b11ef94dec3cbf2ef77770d2bcaa44945047 0x2919c5c2691daf1e7ee5f13d7bff024cf706feac5832310e0e1746437ad84ad4 0x2460cafcf310eb8801acf49d496d7a16d6886296175636e20deaff0a53ed735c 0xc6ab4635c7dbbaf15a7d6edcff18b6cc53bf3db142e6c5127aea89d117899c2 0x2263e74b896a251f67cb873616cda64b30d5f60571283f5747278ee40b4c8aef (-0x19d8b3b080614ce6851eab5c9df8ad3016baa7b481e4d646261e16e5dedc015b));
  OD (C 0x2126fa8f847daadc2709260cb3dee099a1d1fd49306040c1b76f4b0a9027312f 0x17fe84d62eb1d9c38df900361f80f362d5cb8e041046323dcfbd07fbe17f6305 0x2460d44b307807b4339e612a28ba84f8e9f6165a55b7655863edeb6df3a9f36b (-0x36e1639fbf06782ca5b94e94b8956b520e9a57b8b023c6b2b92b8d05168551d8) 0x16b6420470114338bdf0c3acc6c1feb0f8eb4d0f2ce82e2717259e8bf01e2c6c 0xbb82365e0fb9f0c8af71e33e65060fd0a708ee042838d6b30610a79017bf3f6);
  OD (C 0x26ad428a8400c1cb8b07b2c320bdf0f5f5d93a089343f18fa67a79548deeac40 0xd29f363743a1d8997641b1e82e5c21be6b3c4b96dd1f51a3063cf7878a911da 0x441de269537447c7488548e0f1b796e08262cde18670006387946ea3e7b1f11 0x1675719bf97b670191fe143ba16afe7639357ca8653abb8aa0c933a49acee9a3 0x1ee981c23b45646ada41923d16fbada1cc8fea696e3566dc4bf4ad9e09592504 0x8a7f43d704eb78cbf5d1bed887e047b6a8fe68f73542f6af79abf5a2be8939c);
  OD (C 0x89a7db63fca591270c1c55a7cedf93c79d8c43e5fd88a95f19e7292edf64174 0xdf67cbe10c0489b01eb02c8a282ad6145862e65cef46bd8a5937d8700a26482 0x986c2200d1d44d6fdc26c64226dc62b7230e8b428f8fa7f6aae3f04597be8e3 (-0x93a9e9f3fbbdfd965307f8b5b68b3c777911363d065057cfe898b03ddfcf65c) 0x1879386b3bd346f7c1cd9b3c235d7cab9e5b41b09340ff2121848c11746cdd6 (-0x245d3729a8b699394fd02809bf8f2b0368e6059333e1e368f4a10bdebbf54c));
  OD (C 0x1b8d4128276311e63be72aa0cbb2fb6184b35491b7ad67c37199ee802160adac 0x6ed86257a405e5135f0ebf02aabf701daa584b8643732d76f61ee6985561eaf 0x140beecaad91306343cceb4544b7af5c01a5bd90a6d83aada7d1b380493e76e2 (-0x13d1d5103dab3ccc0f62cbf9e6041ef516910f94fdc94497cb78b1e532282dc) 0xfafc1315a39ff18e6214a4d79d698187c2bb13a2077ec5ff3e8ffb9fa6277bb 0x4015fd8babb366307865d2f7ec12b84f220d2a43fb0d159d228f8ff7b3dba89);
  OD (C 0xba5e9d9e493416baa3201ff9b5e3a6716bc30255bc77a8e9d780acff00ace28 0x16012da67fa3d4ec4c1e6828de277d793d3b3c67ec4d0055d13d96c737ef6257 0x5267d4abeac7c58ac0f10d6a1fe361e738567bd80666baad20f6a68fb5e9914 0x6acda69f48b53383229470b6c3d3c0a15b8ea403fae9d368df4e21b869240db 0x2cdc216a0619baa07343a7effaf55d121863e7259fd7c115395048eab43fe9d (-0x3a108a6281fbd413e36985b8089aee55e8f57319a220acb913e077843f09f1a));
  OA 8 (C 0x7982f241a32f8f3140c6be8af776e60cb980deb70728331dc20ea5668b94c91 0x2261e08532a57a4013dda6887a38b43777608ce57e9d2231c5524b0883f5d536 0x1f693ec128ece9b75ec0bfd383d54bb71012db8208b87b1fff43b55e01c70fe7 0x3b3826f6d61a85387ac49fc7fbb09fe8936929db1c633095bfe7b9a8f2cd9ea 0x1311d503449ece8e94b1711c0c291c3bf8856ef88aeed58e084d9fca1e6ace8 (-0x1f149442e78d6ad2f7f4e32d6d70f4c436214a39e087332006bd3e0570c6566));
  OD (C 0xd14cd04acc48f4a626bb0c82df2546bd40a1546a4ffe1904838ac0cc536923b 0x2c43c96c6bd0769ad86fa2fdc62dbdca28144c224274f4f9e5edc97de5de4a84 0x19124b4bd2a07e5da19660350efabc0909cd591e5e01064d3a00b8661332fcfb (-0x384dc23f911f3f59014d756f7d8ec32ae7fe0d208de7bcb9e9838eb113fa3dbe) 0x3893f0603a9a0a46f2ba54cd1ff70024017f0d753a505d06bcef4b7073dc68f (-0x2abe24af83e1ee414b1516d0d2de6037a79fb1b9481699d9221c0cfd182dd44));
  OD (C 0x273af01c7aa03b6e4a2ae61cfb9a196bda353157867c93b0b9df700eafa3add6 0x2d4a1d5915b2b1c196e15cf74d6bb616c78ba688fee2fbe210f49c3697b752ee 0x1d7b4d5a8a006373378876cd09f01c6ebd28206690afb75aeb9239525d4c3ca2 (-0x50d1c33252c0eafa4ca6c4383326b0a9569deaad219f2738929dd7f8f79cb714) 0x1fcd98e92189186501f1c4a506cdf568ab9064baa58c404512bd5797384740a2 (-0xd4a9e31d120acc219ae3387010dd12ffca8e5bf914ffccb6fe0c495d0cd27f));
  OD (C 0x1940c70277b0c4aca1a529f282621a1e486ea7402a1bbb362074a5a7441325a2 0x6ab75f7775e83da6f0edcab1833537e21b9b7c17cd362939f85268002cfaacf 0x15b00381eae23ce94cb03eb1387638639ce7e5fb1efd56d7282ff20307ec6ea (-0x60637720f160bebac72fc959bb2a6a498ca35ae31ac676164d3c1f5d0a62ed1c) 0xd2d9cd2c6e9a1f01695ce54210138ea30f1a554cf7416ba25bae1302c00efdf 0x14274d59d7600e21ff41b03bd7b90c768d22fee87421a75e0b444fc980d0cd5e);
  OA 3 (C 0x24afb0ce047e091dee450f85cfee6b2d8d92baa9cebc5bfe845827d61a919ff7 0x2c0df97cfc57efb8f8346c55cd1a2349d8773be3aa468353b5d86ffd42bdc29b 0x2b0b40ff5e7d6bd1eee938f2cc170dacf6bd24f940d224ef645cb62963392306 0xcf3cacf62015514fdfffd267c70bb512edb5ee0d3881af1622fdf28bc29dd1c 0x1bcfeda295ad8feed79b036e68c5c6f5bbba6757595eb6cd3dc3243bea79b9d2 (-0x1c577ee840343ff512e7a761e536558e5995ab8e66ca0acdc1a875522c10201c));
  OD (C 0xdf52e762496fa7d1623bcbf6342c29e4d3d07114e786b29bc67a27b29855d17 0x1bffa020d073729f7a2dc8943eae9a71a7a263bf1ae9868e97ab444839cdbe92 0x3013744dfb99c845ba793176c523064942cb498d32271bba0c980071839eced1 (-0x5f7cdec3dc66995e25a3e88dd2cd2f5e4f7379f65d5195fed94cf79efcebd551) 0x4069e81302e43d25daebd51007a11f8aa1a06ba64ae428d0c20c18cc56d89ef 0x4a18e2c88edcf3ac7f7c903d9326ab0d11fc3d26a12233af13a50c20d08ec48);
  OD (C 0x46d94197ac63f443bf5d56b89e8ad376348aac3e73812ba564286c93f7e7fdb 0x19892eb8ad191d0fe33338abb5ed107916339044de9d57baf445f792dd3d4d66 0x3e6bb53a1faa48e1b6c42cbb26ca1ec6c45adfd20f6541d83cc5a0fc85e3258 (-0x27ccc5ba43710bdfdc9756d3478d50f0078cd724daa2f1ea8b3a6aaf7356c71a) 0x67ba1420915a85cd36b978dc29084397df2c1c9068cfa6b2ad59573e827a39 0x39b020d46a599f1f27962249048f653008c718bd9da475b9e1d35423adf22d);
  OD (C 0x2f128bfd1313733b144c62297118130b0b860ebb7a749a260cca1fadc49d4a08 0xc1bb5ed85dd4ebd7113e4621383c918eff3486fcde41e5c9b58ab4c988131f2 0x2da06ffe6ee91cc896de98b108242d22b9e41732392533a23743a426933fee5a (-0x20d5cf1bd899d8291d9a9caf9ec563fa1e4417fe898be865e88534acfb0c3a34) 0x2dc9fefbcf3fec24ba7a2ed136d33f469fb47adc9dc49c739a4bd6098b9b896e 0xd0fc053d23a100b9bc04a3c539237185173125f24e8f2f3ffcbbc49256024a2);
  OA 2 (C 0x20bc02fd10f7820ed44a85c13377a36f36cfe2ef817658ac56b522e94ad77680 0x2f8fb053a5374a54f0fb396eabb7c23d6b9397225ce4ea475f8d1fef28146510 0x1c33efe0a6b31d91b86254a547130bec90575eddaa8bbcdd695b7bc66c5c2967 (-0x32d0fca6122107cb9bd726522972661e2644f271bf3cdf86457e6050bea9e41) 0x16249e9896b1703b8b96093cb6d53753d89420c7897565d49db6cc2125aa2982 (-0x17fb671a802231b73a3f548aa86be397bcea197f2e4756e2c3f76c1c8610abb7));
  OD (C 0x25bcc5f50aeda3288d964b633677a125d81beca89f9d9f0b9e6d8dae7b3aeaaf 0xbab293c8aecd035a75d828242a26fda80154d114c5c0b7a38f0b1ef418e8f2d 0x1160d5b9280fb8693ac1aa8cd3b5fad21bdd9c466c75856c32f8140f6d42497c (-0x603f836d2a2720332a01b3b7cd7005fac041b2ab7a8caa4a9e3ca05c63f44162) 0x1d6dc2d249fa1ad9fcde297cd9c09bffc9d95334bde4b799170f3814e002fd0c 0x1bfd7d5ff423e046b4ad88767c6c7019b51a8fde29bfefbd2856df22eaa37166);
  OD (C 0x8c47adb37d932755efd1f77486e63d7d467c197fe4c80ec201876905037e47e 0x77cfcc2167bd9c74b38b59c1ccf03a7d8bbe13643a25c6148d943a2756ba8b0 0xaa42a5d30d5cb4ab1ba09540684bd92f25f46ebefe12418ba8bfa704683375b (-0x224cdd7e06959dc8f5bef1c14e57be502e36d5da01cd18407aebe67b992b87d) 0x196a61852dc53e9baaf99ab9d9e6f66a8d151b5991c022550f11410c2f2b636 0xc1e424f59124ab7e7ded54e506f6fbf298485e65938c008b3aa3b606d79159);
  OD (C 0x2df6f16ad800f5ff58541fddf596a5c1ff20b5d5d7db45df6dc6143bf7c52a24 0x2fa7957d17e6e537fa8b71605ce06ef7ed0861a3e996622a718b86509cbc51ce 0x19cc9a3a7c907f43515393f49bd85efdf9c9f187d480cd73ef2d719e85a24a06 0x10bd24e6b113116af5e6ad2b4ff6f9ca7f290a31708a6ba3a1b54323695cd4a8 0x2ba8bed9f5e322fa24eeb181baf4f8c84c5a997a68eee9d89a781f14f16ae80e (-0x2626d98da97977950210f2c247bd29490d9833740a3ffd3d9bfb01636a31261f));
  OD (C 0x28ea76f31335ea3eafbfefe7182c7f4e151c526461531cef5d32ee803f8d2018 0x2700ab6ff852565f824fc4ef6309e68073d42f934c5f96b2b3d2a7f49793541a 0x1e1ffeb9ac7ca3214ab8bf13f72f62545a9e3a443b43baa10e398036704c9ba8 (-0x6128aa389524184643e71db8c68756252820a473f64dc34dbd7cebe942132074) 0x229849ba2bc949a9cc932b4a66dec6b033d8824bdb1655290c081ea393f0fe26 0x750bcb2eb58cac9f7978ad2b8fd0d13771f70314a6b94c21fdb10e2fee7943e);
  OD (C 0x288df21b8b7974ca2f2a0cf10edc53a18223c0fdb8e3f6f012f53fda3c45f13a 0x283f2b0a7690e1764a8c69bdcbe7d2eea857c49f659b6bb35194d2d0f69de818 0x13a104166979684b0b54795e196baac42ec9f1383dc3f2610bc4ccc21b360e3a (-0x2bd035ff818845583cfe7c7c360c9e3bf53af3a465b130f4ce8f3bbe8bead7d4) 0x21fc86f6daa793d47d61e659e947fb6c2f16ebd22f84746c755f39136f78d468 (-0x10aea6c1c2673aed939e54008515cdf19a29867baebd15cd3b3c6e9d359f422));
  OD (C 0xe2ac8cf0503525561d4b4b8b16f0a0666cd8ce5f00a98ad2de89c196c88afdb 0x244daf18aa5c82d78c0a0cd91ff727cf6bcd1260e7eef3c79ed275eb7fbfbdbd 0x297cc7667f4188e152af9772a2de0c8d2e55acc836cfeb92de60c52b24c207c1 (-0x58ecbc53d5df501dbfeb3803bd7e75657dcd58b99ee7ce8f4a6334e9fd60325c) 0x425c5cd65746ef54136569354e675348422c63ecd6af211bf7bd0301e8f3334 0x127890704c6bccc8e35aa3a28359696f0deeef3fe69ceaf41efe2af2f058532);
  OA 5 (C 0x38e231852a3434dc07dd324c6e04199c62dde65c8a496dadf859dd5728af1fb 0x44ddad20419384a76385655ac7f6229ded90237f4a4eb5aa3553f68afdab545 0xe49354ca46b667987aced83c7b81e758768bca809e2e434f0edecc0f4b6be58 (-0x26740a444a7853499d72b1011c058a2bd722877c77a75de4288ec43073c10b5) 0x42dd8d4587e3f4dc62addb9452c333b686b8b3a5c7900a2ecb6491771cf8e2 0x259d52a1ffc0f4f5cf26fbf21902aff0b723d5e6ec8518e37d75384c9566f79);
  OD (C 0xf6a4f273b950b0266bb87cf4a7675d4597f3708378d3814bdff7a19f443351f 0x1daa51cb5e705962c688e7cb522f94388d73b2f3bc80fd07762b5b8e4cf1fa91 0xe649891472ec91fc9fa247665cf4cb4409d8eeafbab9076b73861f7be3b8076 0x7f4022b6447de20c12f27fc716db03688eddd23a96f3a20c92d9283a53456d3 0x4e919ef6231ffd488e1000536bf15ba6562217b4bcb905dd7addd116e69612a (-0x8142e9c54b4b1b16968cb6667711417230f8168bdf31ab255df57a9d30361ee));
  OD (C 0x28c00213973d82cb24fb2061a7197252c01aaf52581cab360c45c9d9c626856a 0x7a33a76d31d91ec7401a4c80690358dac3038f54d882239ca92e0002eafd9b1 0xd238c580d92cdf71183470e4ce2f90b89ec58fbd8cbfbf3837cde37200c2c5e (-0x1e50fef82599b272e09bc78bfad275a8012513f3661b0bbe169c6400335d4f7d) 0x2250a37240bfe4b090c35063c89e78239dba839a2706d14bc4b5f967f0a85ae7 0x128c9834709cb6223e1e713204150156aaf85d435015783ef34eb52e4986f6b4);
  OD (C 0x146592bfe682ece3d48248a0c33c3fd09fdbc6f56930623a250b7aee47a4eef9 0x1d22924cdba3c864acf768d1af7e0b34b8b854c151f93d9fefc7ef2bcbb85eb3 0x16bb9bf16deab8c7d5e1baf6f7b9061d872d775975dfb8c4f94e4389ff5087e 0x775a53ab2cb4920501ba7732204c9c9c09718f9b42134777dcb28ac745898ff 0x898da12a1204ee0f38e9fef7bf65761260df5b5b2a2ae1aa952e564be286104 (-0x90f9d993975a741f9004e9ce29a275c2cbc49e13acfc6f4e77d3089bda980c2));
  OD (C 0x293670c7adfb18e1add4a3f4c2bdb72371f1343ef86f92947548a2e0c174ade7 0x2dd1be5d1b59cd3bb709b6c08740e189e36db227b77acd2d8332aacebda00273 0x2ee92caa8e01e65606cce9d5201c2ec8eea0870efa9a5d193c4b8f2fc3618659 (-0x32341d5f54e7ba4e44a83a09b5d68d62f055e0d9d3f6bac053178575db4d3ab1) 0x23193b26583904b2536733ae36f2d46a456143dc1f947df0a9203a2275cc70a8 (-0xe3585d86eb5e4bc038e0dfa2339baa562caebd1d4856d622f143f75952cf5b1));
  OA 8 (C 0x72c12830bd082e0dad804f3de72eba176f4a0cf86f38acdaaa5cc75cdf2b46e 0x2c3aa0f563951c5830b85ec4ee6a0fe54da0dbc4ba9bd4600f792cdc0d5cd86b 0x2529c399d2747680ac2008621b65b794f957b3a807036a5328936f29b7ab93d0 (-0x8c086e4f2d0c4af922b1125c30cecb3af41fd9f0f15094781282cd13def74) 0x1101fde61cdfd7314dc6e0bfc9fded971f0d8dd20fcaacf4b1c0125ad442d86 0x3c56aa9669045586728b13b61cdb7592a57fe5fc47f19da23058db167fa801);
  OD (C 0xf3de17fe1fd024ea26ea892062d7b7b87dacf42dec66a2ea7160b01826fe463 0x1e764ed335610e1b81b8ec8bfca1f380a6a9bef0db56c5da6178cd510a1dce59 0x27442d99d1443ccf188b18e8242df9d4d25062b6a337201e2bc4258725ea96d5 (-0x61dcde70d937b457b285fafba83237d1e112f5252853fac4aa564b9fa0b3dbdd) 0x4ccf48b33a479cc7921becf977b612c103fb510622f0c82d320df783f626d16 0x4560980ac4455fb202cd8b2da102dcb7c2f5eaea3cca0dffaee8ba282fcafa7);
  OA 0 (C 0x17605fd26c5e866723be1f5ce757ab9f2245950d4b06a8bd3f12f3e1e4e68829 0x11d182c0742c0f62e89f5edfac3b8dfe87efd61d532e2886284444493cb15c36 0x1c6139691fc6bd205f9b0d47de59e00b76ab499bc5409cb1c1ba46b52f2dc391 (-0xeb719b0457f411a91bfea95cc347c8a63909ae356d3496935438e59d451cf13) 0xb4ad99a5c3b98e854a6c48038851c585f030e4106864144169e07ce9ff3d077 0x61b967f12b6e53611228633c6862b96abd3168c04da53333295e37f534d37a3);
  OD (C 0x273021a2296aee1d39768189b1051434b15d423a98cb38ec49d5e97dad435ace 0x1832571a4b21339e3d16ce6e509175be7412fe2d76ef3af75f6bd1ed2970e6d1 0xaabec6cd4ad90e62c04f31082933bf55adb8c9915d6a9b0210fc24a1306e9c6 0x1a480e812e6024f6d1ac5b26a66577d14add7e20bfa2d2b5efbb01056929bf50 0x1fbc15dfb5ff464777cd1497aacb007842777dcb5d50a5669b93a773de73b4c1 (-0x52a46a68c5dcb24e6c22783e6bc11c11f4713ba85750f4ac381e11c9bee0fe7));
  OD (C 0x240abf878ffcafcd1c936a1d668c4b9210f7c3f73ef5a4f62bd5925182f34617 0x2901ca12016e191cbb113955fc113efcf6e253316d0910150491dafd176424b8 0x14462fe5de8da467b6f17fe337a973a936384cd1e0f9de1252adb0f1d8aec92e (-0x1466585cf9800077ddea912aa9eb05d335efd573c3d107a5de3ff907eebf1eb9) 0x1ad809168fe8e4679914bae5e4e235291d7097e2fa544b7475e943c0d35a9e11 (-0xc852feb20e82acf3b295f0800ec9c04c4895352a2cf8248223f343bf62bd423));
  OD (C 0x22b67915c02d345abcdf4ab250c21047b4a072502b391aa3cbf6e0480453f0e 0x2f90893deedf7b01a4569000a9eb036ef24cfa349f43d22997637f4be3092d10 0x1f05cd915b4363610328283ff71e3e5754487329bafe6a3ab7ddc8b5090252a1 (-0x666df0cbba7c8e61465def1c9770ca8765f3ee429b22b114347198aa6a309688) 0x18e682f33ecd0740a0d890b57e61d72e5181a366e5d2e39864014a9136b19c (-0x4b436135c6b72dcd9e6d95b6b8f52f9e6dbd82c6a95b0c223f99b2a7dd35e9));
  OD (C 0x18209d4738ccdd095d0af05ca53336a11ad0552e9497bf7240437b1afb7af20c 0x128455990f2842f5a874c6fc292bba9828acc816d694c93769503685de899f9e 0x2951606f5421bbfa765fc59c402f761df6cf08e92663cf3e303dff2d1ea56f0d (-0x6d51d785b44667b4a5a49ae742d0e9c02de4eb888572dbaf9a436c8159f394d8) 0xc079005cfe5163ce9c9d0d7438a2a270bc0e3b9589e41ea2ef5b87584e0f39e 0xe7b92b0245a0f36f242c39596a6d16c8495fe2cc75e0cc6469734259825ac06);
  OD (C 0xc6d5cc2c25578cbfb5a6057c0e876fb6ba0cdd4d7b40f8ac5384d186d7d815d 0x1879d4ae8476d7a93bdc3d35ad324b270b30d4b024b085b15445a8656291b924 0x3fe5822c30073c560deefd1534648ee493f43e0a17f4274e470d21ee7efa48f (-0x8fd802ca8e87654e29b86f7266c32b81d72cf07016de60edd694a39f30516) 0x330fc47e09cd617fe8243e65bd653e3248af74c6bc98ae4e5a0f6bc273bb1cf (-0x187c0c81b8d4235e7f03649fa0eb8bf27ab140465dd418d571db264bb22e366));
  OD (C 0xd6ee858e4f024ed74c8811fd6729d56d27e475eeb92e59c4a5ef09258999379 0x1503c5c3bab2ad9a7659c58e0b5d47706da22d5f4f02016b573314efecdf3cde 0x213fbded10afe2950b98f21b6326584f6e02c52a43440e3e32ac45f83619b46a (-0x22ebea56b03d8dd5069bf31258e74d876d66bb0f3f340fd34a5fd18287bbeaee) 0x3ba9de6feec90de0511bc4051a65b719bba5d8f3da543b6c8daa0fb73ca391d 0xf5f6aee28a752bccc96a6c7985fe5adf834551448e86e3d5f79898a247737b);
  OD (C 0x265094859027fa50fbb51792d7192618522c54336e097694028e70157d7b1135 0x2efd507363a18a35bff82efd86a1f9074078ca632f672ffb00300e8f31f4aa02 0x115a52aa35ea5a154faea72c1f974826dbdecd8cbfc53e423e293c73195a95bc 0x1945d6ca435ecc9b4fe47d538504128669832e0b57ca1e8f295d44f57f9dc2e8 0x1e560d939e0cc773045fc64182dfc293cf6bdb8cab4b6a46c74ee65476e1166d (-0x1490d95a7c064321b6a15d9fc49b90085f192be28379210f89ba7a45aa89a996));
  OD (C 0x1d88921a8368d4ee73ad10a0355afff796ca74747fd1dbaa1e09ee1ab0d11aa4 0x1b9c88df8b874fdc2c069273d21783ffb76d9463e965a3d38f9da8be95e598fc 0xb41edc1793af6ace00e4c566d275851708fad5d900b8e3a9ca0bb360774a6d5 (-0x73b3e28d5f1c37fda248e48b6767f3b3885a13371f814349c5dfcb0ba640fd74) 0x12063563e78abe11b88c576951367524ce9c4ea574fd73a9f0021d73789a9b70 0xbd38f07236a11f07032d66aab4bdf01e0f553487749b3aaa1945f311ae76601);
  OD (C 0x2fc5d77504ec52cf143ce624bae3fb43552c8dca9a53fce0ac0f5427037d71fc 0x3b345240dfaf2e495b06985dce9d91a087a34d961dc2b19c568ea32f307f3d7 0x3c75b15909a1702abdfe3fec2b1a09c56638c9ea5e7c602653f488cec1cb06f (-0x190963be74863e4ca83f42c0353a450c2e96d2698c68e1348d73ccb3489d8a68) 0x2f296760a067bb91e1ce7c52cda64cce2f396c318238bf2402e69c6c836e2037 0x179af6eb4c9b93be5bbba45e08e54910d27c63e43729e48be6060d7e221f7498);
  OD (C 0x2d1706a6e9bd484093e09ae8129e36c07ffee3204614e19f14e3d278f506b016 0x17c14b0650460217297d8b8ffced936a39f0584a8d1826cdc675e951abb52771 0x2959a52d8393fcd0e4a9c9d33e4dacb74fda1188a25bf24dabc62b8a11ad6b23 0x631674bd349da8e091db87aa93cb1250ebc100af62ea1844d7da74bd899ba17 0x2a036bba21becf50f3b98de9396e7558be475723c3122c069bbf34b0ca3ba593 (-0x12afb7baba372ef04b37cad867ba2b1323cbea5d05b0b1a38466864cc9d32dc2));
  OD (C 0x12d801024879727ba748aff9d9291f7516d0094dd6f7909288c155942730bf72 0xd2317bb54363264efbde99123aa1bc386b46959cdcaa65a9c8914e4ad7d19de 0x2ce36f6306145225fcc1219f63615198772aea7fcb27458589108cf641c6a726 (-0x2c7a3488519189094998dbec2bedc09016f33bd1cb935e7d6817c57ef1bb151) 0x75677541f4fe225e4b9f85a233222ac6d96c72d767ca7c12d66c1e76cde5bdc 0x42277769e78efa730e361eba7aae64c0dfe14bb20c23992f8f725677b13aaeb);
  OD (C 0x2cff03b756b0e5c41f60a6b9b91b97d9ad0540d758f3ced0cff3628b0a83e3b2 0x299ba585017381eeac5b8ef6766e3343499483e8b9f4a1c2e6efa1ce10bd7430 0x19c0f6ec951a6c225088c535efa5b425612da5c38aa594036c27d48e1aec29a3 0x48c72f8b15bb4a7fef42348543a20951bfdf07804bc336d28c9f7e0eebb37c54 0x29d6b89b497181c82e6736b378e42faa103814501c4ba4cc263838acf4fa0d68 (-0x1a791d08698e56964cb85cb52b68418de75460ef75282cc64661fdc43daee04b));
  OD (C 0x22673e958c1e673562ac71786bb884d96c2b41982757d275a1ecec69c9f934dd 0xa723e583d74e082bad60221a00efd94323c962a4265037068e575b90fb49fbd 0x154ad75605b6f1ad3d5523e83041f703ec27c39f18b41cbecf70dff81e78090a (-0x46b505f059390b5491099b419922221148ab4ca3ee201ea73a5d87ac4f5844de) 0x18755a4620fc1bf8ffbaf88418b9a3a6eb4320a89899b76917e6fcc45a2f31f4 0x1627644861bb3da5a96d4f8d8065b5afa18fd0e0090c777295facd832a860f96);
  OD (C 0x8d5d1c800dc32d43d15055167e25801cff3b7122659e23da1334715fd3dc2ae 0x106cb30e9e71e72cc8a056e9b8ee9ca315d71741d515595b590e65f1449e39cc 0x1ed9dc2fb1d104bfe204b4ae85b3fc56cfdef309409ce818f046b16f2731e39e 0x1028ad6d6899545dcbcb13b7fe6332b78b8fe8e15565ef200b29b512683459b 0x19cf4c5ddd63906d7e4ea60cd8112ecf0660b830cbbe828e5027aec823cea12 (-0x1176d0e87c005250b0176138493e8b652ade2aabe1b6200d087441cf1343d56));
  OD (C 0x896c414dd3e0803d8a35dabc672c9541deb64be0a2485bf8436607ccf393d57 0xe970d5d08a9435126d46d51638ee45addcc4db8e6542237c42681f2fcebc9e9 0x19d52f07ee259199b35fb87a2c35df5a890a1a45f15f52d170d8def106996da0 (-0x5c5cc0006d8cb24e3b57ed4301c9466fda6ca0273980ce4ccd4215e36469554) 0x18640b99b4977d4decd4db10af90119680b6e4a80e1060ef07585bc30a1c170 0x535b3b9cb2a8d0e085f896c9a3521fbb469c9dd188c1803c015ea98c628c61);
  OD (C 0x233dc8e6ea4b1280f9a1c57aaa14e3ac2719189926e064ca6e9b21e0e7c431dc 0x2a5c5ef456a1e90378cef7455d22318b635627d5de9b75f9ead7c60dbc51d5dc 0x15f15886aeae8ce16c4edbca1f9dde6b6590cd0234923fb05adb01848ba06e60 0x186dc4a146c04f7395e531349c2d78baebb62b4f6a271300442cffd1fe17834b 0x19aa1d7e068bda42c5adae6e2e2586f120c20ce0a4e6996f34859a263ab6828e (-0x14395c9895565fb5a51c1d8c14273e27a4aecf4286dda77de37d2908608c578c))].
Definition cert_g1_6 : list (op Z) := [
  OD (C 0x18e1ff19fec26b66704e65d395fb336b13e9fa00bcc14443000c2432f3fde11a 0x1f63a436ebb4f2a562c6ca2b9459114f3cc46aa7c896a464345704a7cba2675 0xb04418ceb8c32f347e3133c0ea784bd1dfd6b7b8c2dab3c3ff55a1f4a494dad (-0x58adbf2b6d82ea7430cfe6e7b50667e1bc3ad57e9dffd4b0e896cfc339f226d0) 0xccb6a753dd81b1d0df48815183be80ca760f7d6b15434bd637300f0d54db751 0x14c5deffc912e3d17239e8e334ee0c6a0e0557a38bb53d78a8626e3f159b39cf);
  OD (C 0xa2f22ba685419e652fa540833d16692ee881ca6b7180a3cb871b33ac1590ed7 0x772c1302bff692776c87b4a3b72c345b0cbf8ab935091d9e2aafe2ece76979d 0x2ec1b20435b44ef6fc56760168aaaea2939e443f9353c5e004b0b08e9d8ce3d1 0x465f8c203b6f84a4dbe921276aa4c6fad873f300a5e21b2cd4e63d1fca837fd 0x224acd8f3a02e3144e05ec0272d63b24ede5ebf5d33ca5fcd739d7c59b028a6 (-0x12795a8132a3a022adb36fd0de27a8bc32600e882e7aec07fb0fcd88003b83a));
  OD (C 0x4776eff38681dea6005b3ec653f20cdee4dc51a9f9812180656918e93c907f3 0x1f5924777cb78c9acadb1cea2d9dd575ed748aa26e25677b62b0d38a5587019b 0x264c174bcdd4eeb41e62c8d447ed008051cce36eb4093017963abb39ba096117 0x5312759e12062408d8a752f18deee0f340f27b4640a71073fa3e83d81c5b03d 0x6989cbac0d9e15e0d041f8b78255dd4c4d280fe65145e72c0558559d301b8c (-0x234b943886a3d87ac4b0e24bff450e2e1a8451f439a7bcc6977d7675c7b4dee));
  OD (C 0xe879c89382024ec9abe14a5fdb25aff73930d02f94c161586564731042e6240 0x1b290f9fbc1f2b07794fae4c3f28b182411e08dea36e11b70e7adc0ef77900cf 0x28a772b7b03b9751c98a94820aa9fe243cdb0a4d2f3a1ddb0b8354d3a09ba7c1 (-0x25ecaa339dc4a618ba16522bd8ce0f53e54c26ee171256af12c59cd5bdab851d) 0x45cd1f13bc7d1003d4720e754ab2ecac0d9b25aef8354a47607300ee55785ad 0x141e4f6b071efa5052b179b863263358432f6edd0e3459697771a3d417e2098);
  OD (C 0x923a1c39eb534e5e21c8fdd5e64aed15a8a134b3d3106c008e74f5159082cb7 0x463d92f82a67532c9286a0793b3708efc6d19c0cbe4c2cde3a53c9814675cf 0x91f8d97572d154eb52240240ef3de5cf90fdd81526466dc38da3fbc3bd99c2d (-0x1e605d23bac2984ed8dcb7de95c817d2d11ae627a57ef0ff1dea588ef0eb5ca3) 0x1b9dbc0c1c450178645908b97a9a66aa7838cecd3d9068d3a40a6f3acd0137c 0x513e0576c903c9a2ad16676cfb8f229a299662e3d27da9071f591e660c49f5e);
  OD (C 0x1998226536e8378b4aa78829ae2a70367ecfeeef92b0832b00db592053517623 0x2a202ea6d300915fbd7f14494e7a70fd36e5b697ee30ec985602e856e97887d2 0x314dcadff9b95c896cae3a28cded48c42baa7a4f5c1d46615fcbde763819027 0x9a5567dea766bb2fd2dc5aa4455dab4f8b67fdbb9687d1d9224f96aca88effd 0xd8966f7d6b532015056621fb50b6af9298ebb4bb072e1f4ecaeff274ab2685f (-0x162291816cb6370a9cbd929ef01c532c982cf93db8da0296d9d2aef987265fdb));
  OD (C 0x913318719a23f5d74dbeac8e020ccf7333f4cb0b4c955e4a7d0aed61714adc4 0xffc78613994e4e749fc497e46ccbf14fb14d056bc783d970c01930d9601c790 0xbb9d95eed44d08466bc38cad32b1c475d7ce55a98e9edb3c879569359cc934d (-0x6cdb70f15175ecdbeffb4f9287d3821bafff9ee715a72aae3e9c2ae82b6b7a4c) 0x1b3abd1697d05130bae97c3785e6c1dc983c58fa382633999e3a92162e0a044 0x4e6e78ddee1f9e6431dbb87f0be243d20968cc1a450176b2037c5a86011c84c);
  OD (C 0x71a0606656bd5d073d6dcf93c85e95ae6f6ab25db7ef1191f9cced853323de2 0x11d8e8417c7b60d24eee117dabf250b7877b0fbc590859b8345a8be8d34e35ec 0x1bd8a9685a7019760f8a1a922af42e9a207ec7ebbd57bec3033207af2075cfe4 (-0xc66c624e218e308b5fc6c37cc5e183532ebbfbdc370ef76e6ff213276a6a094) 0x10accfe9c8091c59bacc9b7b8686354f6b7ee1a8d307d33c83edd58787af1c8 (-0x45eb2ce306138c8cd0982701de593b4db85e5eb6e4587c0cd7ef23475190cf));
  OD (C 0x17b3c8d7a71d652e4a2a6a32036c7530294747b9837130cdead0a329e484a557 0x184097963a0a9b55651325224318253adf1962c8efbaa64dd096b6d411958000 0x199b075faa5a426210531970dde5b3132da855fad93915852685402426fc84b7 0x7881415ab266832963d848ad22a4f2c51814d14fdafe80aa58740456d638178 0xb9bff39914c79dced9fa617bd1bd9c3f22201b2e15604beeced3b04ebc782ff (-0x3231dd9cfb531d13110100e9a02bcdace45178f320937e11db94d38bd95e6e1));
  OD (C 0x19d0d0fed800dfed752986167c5f873013011269a177cac9331e51bd73d4e5ab 0x1445028b80c702b04a6dd07717c91b1a958549f4f2183300a71421f853a14ac 0x2a083c981a781106b64de60dad47dbea03c7c2d3084adc058e54f604acccb97 (-0x924bf1cdeec83f3da893cd11ba630dcdac880744000e898fda076e9dc20b14a) 0xdc59e93d94cb57a5cde278c4dc2dd2c761fb65ba36e4598d3c34fa2f8040a8b 0xc431953fbd364c3903424154bcae653d9a3bdd08347556fe8e8e131a66843c2);
  OD (C 0x266d8a1ede905128be4166cf5d7be87904123f456a04533ce315af2d4fa6bffc 0x16c372d654908a9ae463a429149fd61b49e61926c29d6b83d6c2945ebebf69f5 0xbd73965d13c74f86c48cf10239fafde44a4c6cd431c0f50e55bfd943ac76190 0x4129da8cab34b8d49363c399c80930eba4366ff9bcf3afdf589f4cad9b97ea8 0x1e83fa81ac3246de2cbd7815b72299c205801c2933a82182c865be85d85e62a5 (-0x1112088b916a8db10fba26a0ef8df872652f4c0215bce3895eb308910eb07d65));
  OD (C 0x1df8fcb700d2697efcbecd3051bea54b885fc00fd54077df3637bb19f7608fbb 0x1 0x30644e72e131a029b85045b68181585d97816a916871ca8d3c208c16d87cfd45 (-0x1174c2d810add357f88f2f234a2e6ded699216772abaae0e690e216cfe82cc1d) 0x129071a71e364ad24dfecdfb9c1fe926e6e824c588b6e40930dc980c43aecae2 0xe195dd29d438e2f206b5489f160ec2e13f1ad06b0555943682ac6d8446711e1)].
Definition cert_g1 : list (op Z) := cert_g1_0 ++ cert_g1_1 ++ cert_g1_2 ++ cert_g1_3 ++ cert_g1_4 ++ cert_g1_5 ++ cert_g1_6.

Lemma cert_g1_ok : run Z dbl1 add1 cert_g1 (1%N, (1, 2)) [(1%N, (1, 2))] = Some (Z.to_N (Order - 1), (1, P - 2)).
Proof. vm_cast_no_check (@eq_refl (option (entry Z)) (Some (Z.to_N (Order - 1), (1, P - 2)))). Qed.
