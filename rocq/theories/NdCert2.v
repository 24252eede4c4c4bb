(** Certificate that the final exponentiation does not take the value of the Miller loop to one.
    The numbers are hints: whatever they are, the checker of NdCheck accepts only what is so. *)
Require Import ZArith NArith List Bool Verif.FqModel Verif.CurveModel Verif.HexNum Verif.PolyCheck Verif.NdCheck Verif.NdCert1.
Import ListNotations.
Open Scope num_scope.

Definition fi : poly := [0xadc0ff7056a604affda164e60a17e5e7489c87d4f028e907038bc303aeb574f; 0x171bd45b73ee016af9f6688b56d0d3c0887bd7d056d95d312d8836837c502923; 0x18747454a1dd56909c6d284e80bf68abc7eff4f1fc041bf946113258d6d3fef0; 0x1d2d5894715f83c7a4283dfd65a512dfd74fb7b52693e49fbef42d806c1cba2d; 0x20d711dbbe867d4e5acfbbe53e620a5296248d0d6c2f475a91f764498a86e5c2; 0x22490afa7f439d2b98fc0704c5a6a5121397ad6ae3f07ffef6ca20ed8f6f7282; 0x113491667ede76fb5173b860d0ac360c026c3ba2352f1327109322ffb7064b04; 0x24004f51ace7b9f046f04ae8930db72f71994852d42eb0bfc88a9e5d181d5289; 0x2d61e25fd47643965ab8f27302f7c8ffcae2a74a90fb12d73f2edb478c222bb; 0x274ed8de957211d0b20b83f00bd5543ab0fcc3029a13d3d6861127ca36d7a7ea; 0xa0c5387c6ecc1abfcd1d506c0c1bc357d48e8bf3c3e1c7526c3070de84bc836; 0x1e4d8589dfe415159d67f5ca24ca98a03519bd6c93709641c53da7ac7d6a229a].
Definition fc : poly := [0x2b4c7adee8ccb4910784605ab2f1517dbb74c0988d21f4825341c23c9cac4b49; 0x1290c5476e4069abd36bf816cc13b73f1135af9fbf885004dca01ddf2c968322; 0x8c2c5183b82f9034991d34bbd62a03e53afe4a22bf64d0b3a3e546ecf7f849; 0x19b8c342f7722134f9b4a092e8692317915aed41e5ae95a3f579ec61fcedc97c; 0x20d74170a0193a2d9b79b2185f7b0cdaf417b8eed9b53936eba8cc196b1229cd; 0x2348359884ffab66501ec777eab2a3ec2d7f5f04fef19f827bccc3234f64ee0b; 0x25fba65d7ea3f916ca272ea98a0df992be255e4fb966ce81e0ad5bd6ae4a7091; 0xf1dd514153e90d8dcee6c0c2ea0bddf95456c4d87896c3552d7e58dff8db088; 0x2441b62fb39c633c1eab766c42a408677a6c33e1b4078aa4189e884ae3e8486f; 0x8ae4f527cf3a8cb41b684f937a7bf1ee7a5a348b5e4828e9695b6005f2f4e08; 0xf5528ee79f8c462bd40d5229378128a0845b9afc453d091ecf6546e546f0ba6; 0x1aa224a365241883dd5c39324685394f852280c585536bfbf06130197c5a4839].
Definition t0 : poly := [0x561e5258297f081e1d447e2dfa3b47f08d57428be5066bf4b2347d6dd09ca8b; 0x232232b4c6e7e497ed19a6b9c81ea0266fd685d4eadadb54733e52574498d72c; 0x217f7065e4dc3de3778c70f264083ad17dfe93df05fcfad3b0e485365949747c; 0xb8091e145ccb466a398161b4d5dc0cbbbbadef1ef1a77af8895091d48d4ff3d; 0x234dc681f62b69f65a243e71eb6adb21922ae0598f57dfa3ccf96acb467196e3; 0x2060cb33984aa59489837eee23875a5e42b61417e0e50113450177b88e701d22; 0x1132d579c618455acbcc98db78ae364339b5e9562d840954b41ff3594cfae96d; 0x2e9e84a394b559d6fcb559f828ec765f53491c5870a000ad9d09a16e7a4c072f; 0x25f859bd5ddbca9fe179fec716acb8467685b4393a66dab00a2d02fd31cfdc7b; 0x29a82872013c598581dd2ad1b3926617bdfdda8d744a4e0e493912a6938cad0b; 0x2ab2734432155e4e6e9bfa03d06b01bde9db309df4e8c010d4e67c1fff810f96; 0x2025680eda9512e9a14b5afbe5fd346a92b5f0abbd717604648b1797a43a84d3].
Definition t1 : poly := [0x189b110429230fe9e455650a52db73078a975ccf7eee4f648c9f1b9533c0448b; 0x216dece3c85991922ee43c29f897378c4b8fa322bec48e15b0988a70d8f29bfd; 0x157d0d685aec2f4ce0a36c248ae0baabcba381af73ff5c4360da4a5d1ad35dcd; 0x8e982bf4932258cda2993a29a4f792648760f75f2670021da7daa511ec108ca; 0x13e500c0ecf2972d8a9062dbb6e5aab33877b16be66a4d7b488143f9de92c6da; 0xe242fd8758174573e6cbce59c61e7808ea3f2524183036f4141cabfc35e8ce5; 0x1f3178f91b195aceec83acdb08d3221a5dcb813b3aedc138880098bd8b8213da; 0x2d846e96c31286e24ddddc6029f07165be64293c6cd4d902e473f87a4e3afd7a; 0x2313829468039200977984bdbb9b62b14f29780bd60d550c724e0e3d9805166; 0x29ed721ad6ccbca9ad96f1719d4fefeff19fcab9c0a80228504742368aea0e69; 0x145bc28e03c0f30a7094c700941fea97af99a26b22f0c54c89b412485b759bdb; 0xeaf1a43a5d2b418e242f55579a17824dc9822a59cab9e05ed8720d1fd47eed5].
Definition t2 : poly := [0x561e5258297f081e1d447e2dfa3b47f08d57428be5066bf4b2347d6dd09ca8b; 0x1e5b7144acb2b45013e86258573c9108000f3107f94782cb53cf57285caa329; 0x1669a47b6450f9af481f0560d342b320c7ef7c21f30457c3d42b9490015fe6aa; 0x24e3bc919b64ebc314b82f9b34239791dbc68b9f795752ddb38b82f98fa7fe0a; 0x24db1af66cb8d7ee0b87c4834adb0c52d0a435439ff7839340e53da0978cb1ba; 0x2b7a92f67945aeb489fab0b14f63fb0850bf8ed6f546dad4b3ae10ddc1860cb9; 0x1132d579c618455acbcc98db78ae364339b5e9562d840954b41ff3594cfae96d; 0x233a57351f8c3cf114582d3daf2a63e84c939cb46fa9d3ffbc9219871f980ce3; 0xbf41bde17d56cef36c7184bf57f1db07b75a4cd13b92423d545e1508488dd95; 0x6bc2600dff546a436731ae4cdeef245d9839003f4277c7ef2e7797044f0503c; 0x2a2d4a43ba702e9ad8399ca117b983379180d332a760c60b63a9c94ef6b51886; 0x110febf1d4014d675107dc2fb49db7acebe4501f73918bcd616ab74b4df0dcc].
Definition g : poly := [0xaad9a7973447c85fc2092b223c4bdd86273d9d244da82633ffbcbf3b3926077; 0x2dfc9add086d8cc82ff3d1eab6216128f0354fadcb71d95dc631937c9de98d4f; 0x14f93c90eb18f1e8af1065b14b7c07d46d43d88fd49e12144bf445c05f2f491a; 0x28594ad3faff5d19d23653b812374c1bcd45f1c83d570dfef1980b040e8c2253; 0x1a1610651704e65b1086dd843a2f491ffa59d8f23759ad0e48a0df93828b37b6; 0x27400df486b68ba34cd945e089a0beb2447ecffd685cc74b8fe9a4a64ad119f7; 0x75ab44c97d1eee94c2e5f2da100c8b91b72528b541572329a4bd8b15fffcac6; 0x1e06f68ec21e6b71593534d0f4d63776b07860cffc55b9d069c8048aad2dc026; 0x283ab2523808f078790aeeb5cb1b85d8b15e8f84a1d9fd4d5ff98bfc6420f102; 0xbdc2cc4d585d4797d0a84779bc0a069e1352c3622c0e05d09ac1d4996d80aa9; 0x3212a0434bd6d7e2d30ebd5043c6da0a30c782fe6e4a035e71ed1d2b7efed2e; 0x1ea5a9b287822fe17e5223d72cb1dc02d34dce7958ce53f666b0e885c52c7681].
Lemma fi_ok : eqm (pmul fB fi) [0x1] ([Nil; Nil; Nil; Nil; Nil; Nil; 0x5482f2b14d73e668862c6740789656d6ae9d58b2ddae27b785a3b070a4e6fde836; 0x34e54a38839de14981b48ff6358f76b43b4edab04ae431380a3999ba2b96334a08; 0x345546aa937f2ca78e769c538ab29915fa45291afcdd07e49ad1d08c1a76c47ab2; 0x168af4168cc8e0d3b789f1607172001992f1aaf1dcd12202f38d9398de9f143b25; 0x1438cdbeb01a967f4ece64cefae2cd75c6c5d20052e5945d69f21ba5dbd9e21b3a; 0x664e023e8e9ea0cdc667963f1132b666c97fbd0f7b681ae47b3b1822fc3e27037], [0x1f0e460cc84087c58cecb51bc476de07089864e42e6d4f9a6144b36e1d5d1b5d382; 0x13016fd92b2e6a8e54abcb578a2b1f4101e602599f4962f20ae5a242a5412138d7c; 0x12ef358ba917e7b8eccd2ef6b916f783a6127b1ecad710c060e4bff6f9f3888c6ba; 0x788ffe47c37ac2834c3b43d3452d3d0ec298c2bac020182bb259a24955ffea2765; 0x6cf0efcb997cf9c6032ade68bef0be4fe787bb70f8d88cf14167d1d024c020efc7; 0x19d321bd3e1b118b8f143de19c6ae4ac1245c1501eeddfacb6047d759fa6f77ab2]) = true.
Proof. vm_compute. reflexivity. Qed.
Lemma fc_ok : eqm fc (plin fB sgs) ([], [Nil; 0x1dd3892b72f1367de4e44d9fb56da11e864bbaf1a8e97a885f806e37abe67a24; Nil; 0x16ab8b2fe9bf7ef4be9ba5239918354606267d4f82c334e946a69fb4db8f33ca; Nil; 0xd1c18da5c31f4c368317e3e96ceb4716a020b8c69802b0ac053c8f389180f3b; Nil; 0x2146795ecbf30f50db61d9aa52e09a7e023bfe43e0e85e57e948a688d8ef4cbe; Nil; 0x27b5ff20643df75e7699c0bd49d9993eafdbc748b28d47fea58ad616794daf3e; Nil; 0x15c229cf7c0d87a5daf40c843afc1f0e125ee9cbe31e5e914bbf5bfd5c22b50d]) = true.
Proof. vm_compute. reflexivity. Qed.
Lemma t0_ok : eqm t0 (pmul fc fi) ([0x12d5e5573ea6fd79c75065556aa48274830c4ffc138c3e8cd5a714dafe83b63bf36; 0x10531989e9397cfa1d62564ffd544cb59d4a6d2b66881387ba9ea1f68430e2edf3d; 0xd1b9779ebacacc0384318164d9056c2cbd1f5f1bd9aaa5497d13b8e3ce92b41fc9; 0x7d13ea79473fa03ef2393f8c23dc201fb4cc86fda35d91f0b32955b904035f4ff1; 0x77ff40f6115be918a00b92968fc49eeb77855dd9b9a497f51b1de9d2116edf6b32; 0x18980f8d3821b82330f85645e078ed92ffcc2437ea9b175e4ffa44695e92d690b9], [Nil; Nil; Nil; Nil; Nil; Nil; 0x3429c8bbe94115f4526085296dcc663e7b8b8468b4bdaaa1025c0c1545b44b5dc3; 0x2d7849b64c789f972e631d9ebc62d02e080ade9f83b4daad5cde493a7c65153dba; 0x24d05abfa1b5259c9450dbbcbb00710d31ea85d3438e073f7038399fb665fa5444; 0x1733ec104678bc39378e1e6e88cfe61cf2e572d26083974ddd4c9151fc55c426ee; 0x1599ab7ca81dfb3d04088fc03bf93204642930adb483b22ae27a448c9dbbc04865; 0x60a47d2190e833b5c190894a13bdcfef70f0756abc1c71ae69af00de9452dfbec]) = true.
Proof. vm_compute. reflexivity. Qed.
Lemma t1_ok : eqm t1 (plin t0 phis) ([], [0x6; 0x35b836afd50666b538849d085f2c0d5a35e294988187be077ee82ef743618df3; 0x1baa67f26823d4a2b9438944de948371a36414adfb8eb70fe7c46b0654c37c2f; 0x1d03d58a66f83926fb2d127a6fcb4cb8fcda8ade51d469efb7bb6ad4fb744626; 0x2b3e7aee33eb9823c916c3e158c857fc1aa2bde2b9aa924602b85b1591a9e963; 0x283adab7575c5849c2984d42d7810a64f70e44927f0967b7f50c9d8aca923380; 0x1132d579c618455acbcc98db78ae364339b5e9562d840954b41ff3594cfae96c; 0x2c96bf62815b27fc7dc8fe349019939af24b79f35493e73c91085b7d7324f25c; 0x195d5ecbacf5619e734b853e98847feee6ff30888d276031baa1afaa722d3a7e; 0xedd8080ea7f92092f71ba52fed547977559d1010e378167ba8a329ea628a214; 0x23934b47aae3da857d4cb1d368921def11cf433a0f5897e3679b49d967a97c89; 0x1ab46545f81d8505a229a1af72b151701f21a679db1f169edaaa21792b2cd562]) = true.
Proof. vm_compute. reflexivity. Qed.
Lemma t2_ok : eqm t2 (plin t1 phis) ([], [0xc; 0x33ea93edee3113ba3345fab63d006d75f8ee75e027109f0fb9f0d6e9770d32e4; 0x1036857b0f05df731117a699e1e00419bb174522d8d9d3ac9d5ddf6f92ab7143; 0x1b5f2c498524a97dfce63d1928f5721a210fda1a64fb825204380b98737f8fa7; 0x176f7ddc61e00230216c40746989cce55297111efe60c90e0560982d9614082d; 0x1203c130d4e28b09973bcee721cd26830bbcdb01df072d3bce0061cfb60205de; 0x1f3178f91b195aceec83acdb08d3221a5dcb813b3aedc138880098bd8b8213d9; 0x2ae0a2a4861762ca2558bbee8438d74a4208190dd0a1fa8d985f41c9fba088ab; 0xaac4c47e3e66f70ff7805c3e203a5b84c54c0c5a6f4521057ee69526f0a5873; 0xe88f5ee2d7466944e0a2a4775d58d068dee2d35a94f83a8c35312c5477ff4d4; 0x13c05088eae0e1ee9a37c42846e9f014143c376c3c291e0d995e2df80c22f506; 0xbf2b5de242cb1e951145fc5dca907d84958bd078c0ee15393e5a194ca4971ba]) = true.
Proof. vm_compute. reflexivity. Qed.
Lemma g_ok : eqm g (pmul t2 t0) ([0x1e7e3b7efe3529eb186df8e1f451a5c0865aea4bf0b04ef4fbc611cdb9e1a272036; 0x15b5e9eaeeffff74cd99bcd81f5beb69bf5352ad98fa4be9345f5e861d75d94cbe2; 0x12fce4f51a103a593029a672ae9195ae55aacd4c7b04e9e68837b97884341ec47a4; 0xd658147b33e9e29648effcb9c9c95dbd54d0044a99967fd62e9ff004b6fb60ba60; 0x25d2f1a705616146de2021756028f48c002a2763d0dd36d1cb9c65b1380c9bcae8; 0x1f7a2383973ef62932bad02d808f975e25dc5f11e58a3b49899d2b7a2920ba7a43], [Nil; Nil; Nil; Nil; Nil; Nil; 0x53c759189ed6f0fbc5ffa9207ee28799aef80ef39952e2615c0748e57bb19727a8; 0x3c503a23c77f4c39b0a757bcb6a085c3ec568cb1e523a4408b583f1c255ba3ccab; 0x357f29563e8413ba764bd2de71a05d4000530010b672e9bc627884aa72cef9d4ba; 0x2652a35a2e32010056cf0762822916a10b6e87ac0fcd55177b8fbbd289be6ee987; 0x8ab0dbfb70ad9bf2f6d192252ed4c831407ea89c257bdbf01bca3d229b00ff2ff; 0x7ab8faa03cfa76781470c5751c20f4d7f9f9e31edef82b5b53a22b467df3da307]) = true.
Proof. vm_compute. reflexivity. Qed.
Definition prog : list ins := [
ISq 0%nat [0x10480790d6f9dbcf74aaa53d56466c9a33b3389fa7e62494d43d30d0c61d1ca7; 0x9c770d0dbc66b6e913d450af809948e18085e80de0fc7c730356b4e49384c9e; 0xb7873a757acafba45b5ec68a3a92658dbd6f772e38458d898ed120c15b3644c; 0x460e06fde861a4ca8046dab6cb8936d03482bfdfb87d2609af1e5be08f57510; 0x87201776f136d5b6b29637925651777d5c6dc04e7d849caf8ab5e9b9b29a2cb; 0x29cd51a026115e15480cd685883ae222c53d0c6bb40d1cc6f47d53c753fa4411; 0x4154d4e027c2fdbd1d9d0d859226dbc7429d3d26f2e82533ca272a1e8e5c24b; 0x22b33f0df73f1e130d79e3eedc1455045f959df84d0741f0f6a92643aaef7ba6; 0x260c4831d421e60e3971f77f8147146a3545a52bc23a0658190abab89f963f75; 0x21249ec026244346af3dbc842b00fcefcb95fbcf8afc84fdc6d454f781a8d6fb; 0x1311a144a74f82ee5d078cf441eba71593d01357bcf2d03c627150f9b986bc2d; 0x503cfb1c76d2129d1d4c3831acf00fa1057cec21ac6b308845aa6ed8f2261] ([0x141bfee2ca219578e79f1ac79124dfa5724df4125e0d05afcc17d4a94b96005790e; 0x154a88177bd15a97c38db8c791390f11025e92223596d55cab6577624cc2347fd84; 0x79121c905fb2fd431d625af91298fb4a5e0eb7bc8698a039eb413ff4c58a0cf361; 0x33fc3d25c5449f5aeae84f4bd0ae715ae3f5e052f83466ebfaff725ce6eaf9307e; 0x8f2e9a766cfe095d9114ec58f6729d5665a9087d1a1c677a1278b1056189984d4f; 0xa2566e0e35d3051012785be263d73da5348740f4462b54584dc4ad1fc66c8ed99], [Nil; Nil; Nil; Nil; Nil; Nil; 0x385fa350aa43d18606df2b847a70785c4d942f912dc78b2cff5d4aff006ea01f22; 0x3a6468e34b9cdac838bdff4e89a4eff412c19dd5d6f13c448c6d96bb48f49923ee; 0x165f813a33fee5199f1a266a0d35743363b19f6e926645ff8ed19c80dde37e40db; 0xad33cde809708e321fc89e240e13a00d5dfa651fc5ae880c5d35032493ce3dfb9; 0x19e0910d1b27cb9f2d3f2e5516d04a7fe23991a6c173fb4615c3b7c8d9a5674918; 0x2ddaad0ee2b97047d466f861e2f465a84768851ae04e960a92db1180445b14ebb]);
IMul 1%nat 0%nat [0x1f746f461d6aeb669cbccb5a42ff11d2ecc586f3c3bf4118173653c2e0be75c; 0x220a1c95fc90efac392acc66b90480ebc366742436463b3d88eacc8a0feee8c0; 0x22eaff70da474fba713827bdb139f8703a9a698911fc0a74865055b1e334f07f; 0x2e5068d2e0b821970d77ff33fd9871190504236202f8b3de5dfb35c083221eda; 0x1c0791a798089e439edbad6ea64b88655951e8956c6f30e7fad35aae567ad300; 0x19140a99e523d065240189dc17eb0a19e8c0ee7d359b9c1ad8051f0fa3330730; 0x2f2acde799d05fca8ab631a39eab31f21cd18882565adb2ef18fdfc39f5aa3d2; 0xfba8595c67f87878c6d0c3aa537b8d4b6d5d812d93e5a91096d96291afc7577; 0x1af767ff1b8123396d15965b0010a862755e507b1c2904c0487ddc9c0c6440a7; 0x1b195790ca2255d66c6b27c9c67628bd6c2069bfcf88b16e155406bb8d0e5bf5; 0x29bcef921cf322d5c767cbcf5933d71fcc25e1390ce325e226260819a49fd7f5; 0x10b5cadc3daab8c3b11fc9ce5090f2974b3d3d17da51233210100cdc6a114b43] ([0x13f9773c84ff6e2346e4c3b1ab7439d45a4915fc2645c4aa60c870ab5d697d06eb5; 0xd7ac954d699ef4c642608b5b451b7f54810295c36b8336c2086c1eccc1e6144ca1; 0x9a2c6512cbf461c42c3232a97919befef17fb27c1c71032cd4709541334dbb5d3b; 0x5fcb051f014c4a299fbe2db520e8743a9f72fa12d5bcaf22e8d860b66fde83b795; 0x1ce737e2054ab61a5988ab6a99acd4a380e95706dfa1585adae2353bd3cb75abb9; 0x10f753007b17bfb2a7d105714be301e6d4ea85fea355977e4493eceb4b314320f1], [Nil; Nil; Nil; Nil; Nil; Nil; 0x36e6088ead032b0d6773723c130cfb40a47141b0a107a1abbd6b2fd7279967338a; 0x25af71bc731304b57cfaa37c3123788584545d3d2b82d1744f3f32246bdb948a5d; 0x1b28b2575ace336324c191779ff71205e5f7c2a73c9bb0b0417d24bccf4c0ccbff; 0x119e700edd34e49444e7f5afb3afb6492fe95ee5480a229f2f3ef85e8a43133bd2; 0x6e38ce060b9b0df828bb2931e04c397f9c85768e74895574c7780e47c0d48fae8; 0x436fd996c40d1deb6aa948cecfa25aae309c82960817049ffa42a47e7d4cc0870]);
IMul 0%nat 1%nat [0x20a98b2cd92b7e95d1e04d486883bd02c071e18cee990d71de4d2905acb7bad9; 0x260f009225abf34c05baa76cfcdd373f08627285e86db5ac92f40f3af590ceb1; 0x18b5bf0049e027b3428f8a70d5be24a7ccc0899d11f4b077e290c1a70688a9a0; 0x117575a6610d179de459f545823d433963966e1b529d7ade9f4401dd77edf717; 0x2bd9e4907cc2d539b847763e5afb495286ebc8181be2ac91046d13e150ddf76a; 0x1b6fe17773f80659d07bc0d3a30de7b10df16ec5d82ab87d15972f91a5015f1e; 0x13daedc787ec14f3e2852b33213d48b81c474af64797cc5081b5ba7f24c273aa; 0x17c66ecdabc501686a3c543be2f7920b88a608e04b283f8260c9a18fcf0c005d; 0x1cdbaa35a2a5c5039c11319880478c658e508327610adbb52942780d8c9136c3; 0xe7460eddca78b9551521c53cab295424106dd99bcb64d6a08050a55a8ec0ba1; 0xa8fd90a8bb42ef4398311e8f6eaef55fd1cba2fe8ccbf360d921980959996fc; 0x22545f001d102ee5465a2d458ce6e71ffa0edb15a7c622f8adc62b40acb18fff] ([0x1d229e71a8064e89a9e00f801787019f04b7f200a294140b7d6e55a34609d3ed9f1; 0x1572ddf108e1814e47240194275b3c01494d9006bc5eb870536614d92193a50cf1f; 0xc461d31fca3a17c30cf17ea97f20aa16d7b7430d440af235c650e0eac3dbb1af47; 0x4ad3f904e1a659bdb870e0d578cbe514820239d28e115eea0d2aad928ed6a42879; 0x1c182836e1aff0116487c5c18eb8ebfc13b875a64aba09c57023aa46c08c8037ca; 0x18a14d4423a5491dee8ef00f2ed347d05499de8d2c8fdb6b5a3b8898b60d95d7c2], [Nil; Nil; Nil; Nil; Nil; Nil; 0x4ee47025cf5c31d0c08cda6e72728347aff3270764b0cf3cfdbadfbfdf6f898d71; 0x3acf847869fc7a89d0521bfe587e9123dedab67a2cb9d78d54f9a6b803e85bd1af; 0x22936799af48fe5ca79ab04a67d6f51c88d230ecc8e5da5aaafb5c8e709036a2b9; 0xec2a17d818da149ceb62c1356a4c6fb5aabfcd00b3c49c8eee9514ee7932659d4; 0x6c1402b0bef2e1bcfa4ba02d3aefeb06b0cd682be2e0cbe2e4bb27cc9f0f2cfac; 0x612557449d6ab0cc254c19999d5a0c4081d4cc60084e53eea23d09eb3176cad52]);
IMul 0%nat 2%nat [0xe1421b69d1717861f21af34ad54e5e1213fb88aa3220d9ddd2e2c38924fec61; 0x5f068d68eb93c3f6ac32c0c5ea558073c0a97375e51e68b9df5c2a0c37abbca; 0x1586c34b8269206217f97437f47cdca52e2bd431740e80b53cbcb2994ba67688; 0x9863fc1065636fda82283b3f456eaa19967ce0addf12928e686eb7dfde7b91e; 0x28423f08b528010d817aa3f6c7e9d12f7157f01ed9d260613df326dc26b9c99; 0x2597fad7f458561f1ca2e52a3739f8a1403cf8fb84537094f2f71d4fb2c36b3e; 0x1897e2fbc39a60b11d25365ae624f2e414ef44391f821694628eb7e74a3cf459; 0x1ee4e8a0656ca5343c44067ac0e3936b3a10f4bf4fdf49ee49bb4db1a8313f48; 0x1dc669d584f5220e21f852e0d4779567043e5d0ec0409ce46ae56d5cd50d20c2; 0x29e3dc6891a7c52ddcc3fa88304b4599d868481466476cedf9e0b8dc13af8128; 0x27721fd71250bec80e50d1432d2dd0139514cacaa1ae0072ea60d5837c2c193d; 0xaeaf4b302bbe680ff7dab5c4a681e55cdc6461bfbb56982a1e502400e4995ed] ([0x15cef7a8bb0dd53a05269eda3234b7b0f2d20a6a7ba6208b6d74f4ed26725a6b5e6; 0x109cea3505c298843b664e8d5d0c78ca203c42720aebdb0a0e1b8560c7b20fb815f; 0xbbe16c10979127e782d7628e04200b49649a50a97749f18000d33f49c3a58f70f8; 0x679a6de7ee64f3b3a54f43f153abe00144e0c13206609a727b9668273bf7fedf21; 0x1c0c2c82d491fad5086f7be30a308d5985841c2b68aa3a7133756fdb8a6e00bc48; 0x1018be0dae6353a43c7a14bb1bd5afa3a64ed47da079437f32b23146192524ea8c], [Nil; Nil; Nil; Nil; Nil; Nil; 0x3b7e78e3f33ca50b092f1755350fffbb04152e803df1ef2efb23609ee87af8fa5d; 0x2ddc5735d250f72c9183700d791fc978dce19e2dc6acea2f3c7026ad693a6ca0bd; 0x20c8efe43d65ccac76b3962e52656071410cc01df453b94d9dc22aa9c78ccb5b29; 0x12f1ad18211d5e6031484bf5e1d7a1beacf74e784666aac9ad4835a863190b628a; 0x6a384994750812ca56b525b02596504c1eb2bb8e887e3e9456419075ee71723bf; 0x40e049383eee16451347ea3a693b81246b7382f8406cca3599b8ef86beeb3a2fc]);
ISq 4%nat [0x10480790d6f9dbcf74aaa53d56466c9a33b3389fa7e62494d43d30d0c61d1ca7; 0x9c770d0dbc66b6e913d450af809948e18085e80de0fc7c730356b4e49384c9e; 0xb7873a757acafba45b5ec68a3a92658dbd6f772e38458d898ed120c15b3644c; 0x460e06fde861a4ca8046dab6cb8936d03482bfdfb87d2609af1e5be08f57510; 0x87201776f136d5b6b29637925651777d5c6dc04e7d849caf8ab5e9b9b29a2cb; 0x29cd51a026115e15480cd685883ae222c53d0c6bb40d1cc6f47d53c753fa4411; 0x4154d4e027c2fdbd1d9d0d859226dbc7429d3d26f2e82533ca272a1e8e5c24b; 0x22b33f0df73f1e130d79e3eedc1455045f959df84d0741f0f6a92643aaef7ba6; 0x260c4831d421e60e3971f77f8147146a3545a52bc23a0658190abab89f963f75; 0x21249ec026244346af3dbc842b00fcefcb95fbcf8afc84fdc6d454f781a8d6fb; 0x1311a144a74f82ee5d078cf441eba71593d01357bcf2d03c627150f9b986bc2d; 0x503cfb1c76d2129d1d4c3831acf00fa1057cec21ac6b308845aa6ed8f2261] ([0x141bfee2ca219578e79f1ac79124dfa5724df4125e0d05afcc17d4a94b96005790e; 0x154a88177bd15a97c38db8c791390f11025e92223596d55cab6577624cc2347fd84; 0x79121c905fb2fd431d625af91298fb4a5e0eb7bc8698a039eb413ff4c58a0cf361; 0x33fc3d25c5449f5aeae84f4bd0ae715ae3f5e052f83466ebfaff725ce6eaf9307e; 0x8f2e9a766cfe095d9114ec58f6729d5665a9087d1a1c677a1278b1056189984d4f; 0xa2566e0e35d3051012785be263d73da5348740f4462b54584dc4ad1fc66c8ed99], [Nil; Nil; Nil; Nil; Nil; Nil; 0x385fa350aa43d18606df2b847a70785c4d942f912dc78b2cff5d4aff006ea01f22; 0x3a6468e34b9cdac838bdff4e89a4eff412c19dd5d6f13c448c6d96bb48f49923ee; 0x165f813a33fee5199f1a266a0d35743363b19f6e926645ff8ed19c80dde37e40db; 0xad33cde809708e321fc89e240e13a00d5dfa651fc5ae880c5d35032493ce3dfb9; 0x19e0910d1b27cb9f2d3f2e5516d04a7fe23991a6c173fb4615c3b7c8d9a5674918; 0x2ddaad0ee2b97047d466f861e2f465a84768851ae04e960a92db1180445b14ebb]);
ISq 0%nat [0xea5e0fb07334ff93a2f01da091825d4d1cb49a68528ecc66cc8035aab5b4ee9; 0x1c8a3834f9e7d61da7f8551071da3e80a20172e74675ab98aebef5ca8303d434; 0x2d13c17fac3471a1ef5ad900d7edda13732823f30dc7673a3d802565e61c179f; 0x31dce793109eaa53787b6289e2298f1607527948277d935f6275dbc228555c8; 0xb144a0f87047312bf14ed7f8f312f76545c4f073066a1194f964469c1475638; 0x2a3561f455cf139a2f3576efcd9183b05ecaa2c6adcc816c21717fdf0a31c75d; 0x2464950133576141633bb57406081ba9b0620579f350e2d464867014336383d; 0xc73559bbad01780c7175825ca0c595c52aa87bc931b6457132bc8fe51c3b9f5; 0x4e1af736d3693d7615c4449cb8cd0edf5386827b9ba7d43a1c0bed58c51a581; 0xf5764ebdf5a701c408cacae5e9ee4d3ceff070db7fd1f02a1c2bf1ed2da390b; 0x14f5cf6a992ff4711fb71b36d365ce2d5487b86d9029c79444751c35999c6b28; 0x197f70ffcd3b28e5e35b584289e9f0ad2f48e9ea544e0a57ee675b3de9ece797] ([0x14c49f024e2fd724bbf53eb59de89e1e7dbe625c141d7f0c9e7b6d5140bf1c0551e; 0xb27ed74dcf13dcd4529e44fa51966a45e07986d423a89e2221c0926704098d1da0; 0x49f0f3f0678a9d95e6c399f764a6f55aa16068ad04d96da5d69d30dfa0adfbcb0d; 0x1de23c5a8cfacf25bbd7569bbd755f7d268022bba82557a3e333dc5e81e98dab84; 0x19cf1f38aefe1ee993e41ed4beec32135e51cc19707095a9af9188ba8fc0742fc4; 0x1952c0c45c80cd8d2ee43c75918d6b675d925f279b2c38016aed66ace438ad6e4d], [Nil; Nil; Nil; Nil; Nil; Nil; 0x3827c73bff5fde74dfad51dd388e720b0a3e463c3a74cd493cbe6bdeb638354c9b; 0x1efdfce2f71a6c50bf55b14f47eb1f342238c434d657a79733b1bffdf8f2ff747d; 0xe0581da979c72e42046429bb9bbcb38a0e99fa1b2f5e39a0d319ece9689d84158; 0x6d52d76cee6b6fc6d17afc9d3a43b7c3b855b7b95f1665fbdb2672525a502c187; 0x604a763ea7359aa755f24563c8f2b6f890033e53913a18b0decd28af3d03f8acf; 0x5c7e7f553cecb5dbf0125930f8bd2c177a9cda9cd48818f4ffb797676cbaa66b3]);
ISq 0%nat [0x19095aeed2d4d367ace393f497154b851f2355601b72b5fc4ac001035bb46c9b; 0x23791c9f6b0e2bc7b8e815bd11fd313c1f3ace6cd4a2b42e619fe0104a142e76; 0x189c915e2e47b46c2451f707ff14439ec053eb7c3ff9557810f391fa31c409ea; 0x26ab5e9d807721fd81ddf42c321f4375ae1a07772fec3879b6d62fe3fe5cb14d; 0xa147ee9af333b6a5a3a701d324f07c2ccff66460d64840e0fea79c7cee1a0dd; 0x25c0090ea0617ff89a204196a657ddf7599c606a574071aba7fed5742eff606; 0x1113c7f13d3124aecb48ef43cee2da7380ac32edf623cf8991147e95282214ea; 0x1a837135ae085112afd2bb9d23fd9f2d4dcd6009cdf9c34e410e170b17d4c5ef; 0x2addb598ba166ba470c591d9f717109a474cdfbf466ec1ebcbbb1cdb2f76eec2; 0x2f6bae7a2a01063c0437b86e8c6b5b8d28c26f4d3158962770ebc94b424e3fb0; 0xf45562ce941fa93b2536f77065729523ef3d28129e708e0271a08cdafb0f9c3; 0x2915a2298e29c30f87c549e9a86b7ecd20dc9a3ef800480e3d1779899037dac3] ([0x9e88f5f4aac97f8a7567adbf05a024c64acff7912db4ec77db382966bd2aa596c4; 0x7fa63b21b3a1a9fca123fa01733c159b58e0d3ec3f3a819d9ea2b921cbebadd30e; 0x9f414749c33deb668e612006192dbe5012b0b6617eaac20413cc55d6253311f46a; 0x8fdab2334fd459c8a42ca2788411895051aa738d85eab560b3e40d1a7fa4237263; 0x5ed2217fead52b3280e8a77e70becd345403db52361c1ed7f80de5b0d83ff51486; 0x50a568fff9f9449e8cf8af2b098f6d3773fb8f534d288af2bbf68b6a1c257c05c], [Nil; Nil; Nil; Nil; Nil; Nil; 0x1bf86be6760380069723e1f0ddea4f3a30f308283862f8f4607ccd49faf0d06124; 0x167bc13074ede46cefb1373322a4659214b442735fc23dc6016b29d66a98434827; 0x1b06c3745c83d218052274df92ff49379f9195b358ece018a2a42ad8bef145f4cc; 0x18c6a3c20e2889827b0e9a7dfcd2f6885350a6a985bf8261da41fb02d749d3325c; 0x10dda49e315c0b33f2f36a295ce421a5a8da934f1849684a9b3665d7e5e90c9d28; 0x174090fbb616f33dbf268d5886564831eba56d1df9ff3bb9d346a5a35fca274f9]);
ISq 0%nat [0x1d3307ac205a862e09fbdb273c98245a00387f8db7aeb2792cd02307b446cc64; 0x1067dc24a41adea7e6d565f98bd6b294b01c1b5808049acf8f797200f37f9b05; 0x289ac1446d958b7206ca64ea65f98d31a9114f02d33d457372576a217c076308; 0x2ae1a493dd498b6057dabf0b5623a8ff856d1dd800ebf8c29184cc9097f1f8e2; 0x90b892fdad75544113284699557ba761a02ebe53d663c99fa13aa71c52e37d5; 0x402fb31f3c5ef1fc2c0947598dd005dd71a7e7ff49eac70a41da8c7b239dfe2; 0x1d67ed8e07f613baa3c72683fbbd5c854793a1c6c543671393ce2f4d2111e851; 0x1d749625621d03f91e3dbb1e944f103ab84ac2f63c48741fadec97a456dde3d6; 0x2533298f884c26c7b03ecfc1017b7c500f6d2a34955598c7305c41a682270af8; 0x128f3534283f2114dbf5cbd8e476478889f21e156b74112d208bda3e67b3659e; 0x97def49c775e9c73d82fd2899858a6fdc0e0775dc8d95623b7f5b60391bca50; 0x1e9b724dc6e46267dd5ffeaaac30606ef8e270bfe110318a24febcc4c1e955f8] ([0x2e4721642a9ee8b980a5b13af67415ba8ca0b67f0d9811cc16840002eb7d43ba5ed; 0x272efe9a9501bcc587748ca331f074f3050020f71f81442d48efcfa6fa11f58448b; 0x212b9cb826094d454fb477c3791ee997d0fec02fb5a900dac08ffde458c8130218a; 0xb4ee0e24f86c6be97750ffb79a17b40326f1c44d552488b4b743ca8a3535a198d0; 0xea570ad661fe4cf23448ccaa45e18b471ad049a8f7c8860e58ad61a43de8e23065; 0x29564d4a896c572a88a6501086c85b5f9599000c04b1b15d70aef17d5422c1dc06], [Nil; Nil; Nil; Nil; Nil; Nil; 0x7cd20d25ef50af7658d0c25493a37eef1e78bdd07c9567f44d578d06fdea3ae41c; 0x69073740f9fbc0e85779e5626104d56813cb8eb590e22a29847f09a61c71962ca6; 0x59a02c91c8f3a7cc8817b61b2269078304f05e8bf2812264b3687afc54eeb70967; 0x2020fee52534f84604514ec652ccb16c36bf6d60665240644f90399745581879ea; 0x290890ceef2f43176aab466ea6cb594c9f26ba6ae9ecac1c32217b02d33ac1e47e; 0x9e1b65c592ba1fd7a7eb6c49a90e36455b6fe2f44e7292c8815f30cec3a061794]);
IMul 0%nat 8%nat [0x1750fb45f14deb1c3f5e173474a9deb48a24faed538618ac4320bdfba06eed17; 0x1e1c3d694b4d186408c16644e0aeba9191655f238e044105367e147d0daecac7; 0x594bf3ed820a3894cba3bfc26d91067a00e5c389e0b2890b8d574c23cb6389a; 0x3af87625468708d8fde2e10c791a5763f8d297bdaa8c48ff6b0e523a4d0571f; 0x9a8761d01351069f1ec5ec9220db51ffb2a0e8576665fd6b4a23fa8f9d551b7; 0x19fce187da3ce9a5fbfec971e71df26b9bdd1d1545eefb578b72f1cee24afd85; 0x2f98e239ad4be5d2912aa0f2932394fd793e1b5503dda2836279863cdd93eb4; 0x1087d60e4efb89ed9f4393b1d6dd40f391184d9971739a653f1474f93ce132aa; 0x1fb5a2f61c1442a43b0a359af0c9583b370e428277ad346d351d39a380ef0385; 0x43b4417f4c505ce818c52580856960e412a52979021989f5f7c8bba3796136a; 0x104540bc52d85689ecc98ea820f33636dc7a73cc79fa5fa34bff421c12dc3993; 0x18a62f32671530bf8cf95928c2899bae7a631ae7584c0db4be45cb8aece76112] ([0x15876071a90b9ddc892a4c68fffebc4f2ed16d52ca413973c3f8319f29b5ee1247f; 0x154950fd726bf46058b2013e572642ca7d58ef2bd3b0b4848d0c66656f4642ee682; 0x99be83ca489e48c0f6d3801390a1f4a8fe8b23513f196744c9ad6f75095660b06d; 0x49e10a260664cc4288d83933f146e31d3e1aa47bce0b98250ffb72c792acc37409; 0x892745557251127ca2d0a2ad342df726a73be277286e677f085895b846a1303b75; 0x1172016bbe3ca3dc506fbfb2250d2407748b28b68d84dae0e37afb8c1b856936f8], [Nil; Nil; Nil; Nil; Nil; Nil; 0x3b27bf65e558917fe081603e329e7648743b688ca54ef6c3321485da4267a03ee6; 0x3a6edb84cd370cb17750f6a7cbc2389dfa48d09ddca1cc7edd120b4d4fe0cdc906; 0x1bef25b891b3e95f8e501869b6b82a3e34d09990425df0e93f33e48c03f54717c9; 0xe44971d280a81d83d1e2c828568e996d8a81c5b332cc04ef858405ce20545cfc4; 0x188cbdfd23db39aa780c1c8fbb5056daae3e805d96a507e8290b3bb620b0214978; 0x48f03c33230c5661243205a56f45fa699572f303297e1de9db118a7d55bdf2c81]);
ISq 0%nat [0x17daaf6e7decb00cc772493bd54272771e91d04a90d9b8e113f26c9a4e2afbd6; 0x1f33cf50fafb5e6253074d23f09feff85da084481ba2ac6e8a29d6ace2ae38be; 0x25ca4502655b6a1866cfd6638fd1b36e4908f52d22dd36a33a19d54ecf95fab9; 0x469f777a5f0977a122941d008e69af759d790c494f0aa40fb4a471b40a160a9; 0xf6c24f10a73f22051864a3e666e463521f392a1d1e9f940528367f3735c9825; 0x21a0d4843114f030cf5e42513d5a75999da883315e8de735dc8cba6070475cc1; 0x2e5677a5f7bcb208265ec7d322ca0f9c81600a21e1296cf376fd228bf322d708; 0x2d8ae3a4f28e3a5d6b5ef7909ef98d0906882371df1df8b1ebe88d9dc2ed041; 0x236ce46d480e8ccabb8b58fca4a5356d9d4d1847982b48252bf6c6bc918632f3; 0x5afb2e381975315a7c48d687518597544c2917398c95e2547051aa4c6e018e5; 0x12a6c23b952f5434a08538cb2b313fe98e296f0fa11a497cba122122ddfed10; 0xc44736b7a05ca0751473ab1da248cec65f385fd21201c3f11ff659525954e13] ([0xf3289ed5b6abdbc3b8f9b50ad737d7fb601ac7131bbbcc8478fa4eeeaca15fc7af; 0xd9423d5d40f63f151a25068971f280668a5fe3a4b5b404fe1b2119abca7fd09944; 0x4018f6b5ddc7027243763d0be26fdc914ed437132d9274944099873cc904d28734; 0x6f6189a58aa7a6882ca26a003b4d30ceeb881371ce62efcf2f317d331bc3e168b1; 0x5909202e34498e068c9e9c67192549fb6ddd4b457eb34daae2cb0bb05228cd8321; 0x628d67895912f7b404779b5a5a55cfc2cb67d3db73800e7350c067d99998921ab], [Nil; Nil; Nil; Nil; Nil; Nil; 0x2930c7d5a72c5b2c423edb58cfa61757606c4770f63ed48107d03d84b1a14da8d5; 0x249021ae1b37337a2ac800739cdacb50296af76f4f65eb4d02db89871f340ddf3f; 0xb2ee4942194ab35a248c3257d90c0cea0a950a08b3d530c0d6406dc63f8428e6c; 0x136060499552d6273bc02e721ccd6b4d7464778610b18ace7b13ff2f3ac68e9a41; 0xfb6ef26aaa531c444e89e894897fb0e975a82a8c7171d2f42b06a89e5f7266d3f; 0x19e0ec98bdb75db48dc389f683e5491647094e568efa57aa30e065aaceb9e0773]);
ISq 0%nat [0x133e9f1b830db355e74c6f2b93a06ec525a2123b30fae176e57e859e3af5f1b5; 0xca909d6b96fc620b15d94024c5ba8ca852aef93af2c876bde60b31355f84659; 0x1c1c9c84406f5d12eb0ca8245998c142069b7d5ce6cfe27bd32e9712ad98981a; 0x7bdd08fc4c939d7896ec99552cfeeeb72131d88ab39f3554b83d5efed248627; 0x25023891892c003ea5ae424d9a54278bd2ce40f1419ead54bf23115de0f63919; 0x7f4c97112e6696a3c3434deec9fac284438ec0a547650172d2c7ca7cb74e282; 0x2c97a5d10d07ae107bb33d3bdf3d95f3a77068dc430e979c7ad7937b15e36bbf; 0xc4e784836e8233318c3c3e8315bdb9a41ca394ac7ef11f19fdc07ba3f825a31; 0xc24c032b4491b0ef56edb62baa441f581f481ee603bed9aa8d90d664f19f7ab; 0x2bdfe875bbc771a769a8d382dc966fc26e79c3c6012ead7dfd4a8d86e360170c; 0xe980339e6b72f16f1d4b21f1ef63fd455a610593f4d9445b39cd9285ee419ea; 0x4375fee554360da0902b64a65ad5b382578b864fb4497b1d03bae56072d3c4e] ([0x32a99ba936897e21526d6ef03b743f443d9bd53a584fe59a578bcfdfc767682eef; 0x81e5aef2290368a376451444ac9bab81467c2279e21c0e5bf8cdf0f436ef9bcb03; 0x29d4b7a0cc2cd1e4d7b115d32a203550c31ff5376c66a233c85cdb6edce589f56c; 0xb0bfd90c6ffd14e6f44ac387632ccf0dd1a0b5fb5fb0bb9d0a4b3f3bd156a5ee1; 0x206e290ea038e5539f2779160eeabcb4538968efcf516beb2596042b45b2e99f3a; 0xa00721ccab98bc3a27fa6781ac63e98274c89f5d58dea5bc97437854463ea31bc], [Nil; Nil; Nil; Nil; Nil; Nil; 0xa5a07534dec3e25c0300ebe55f18384057fa80fd157c8aa4a7b253c7a42f3f83e; 0x1728fe5d6324740853aa2b53472872da745694f7fd21271d3190a610dda3987281; 0x8c6996a3f36999341605053fa34d43536e79bd14b62adb1c00b81beee334fb8b2; 0x29d972e0eb9dbdcf0e93472df99896eb26437aa866b30ab2c35131a1e0f53c0c8; 0x69fb8c4398abe3707518d09d80488f763cdc0b9377e61217c231eb59251e0f6e9; 0x29e5cd706136ebdde6a58353946a5266c656d565a30d940b310377726cc430c44]);
ISq 0%nat [0x13b8318759bbebf6f24266cc0cb2d4415f8a317ac41510ce5e8f744f2d8309be; 0x1f4a8ed7e3545a399996c8176d7cc8265f04b2ae0a1e844f0865dee0d51a2d8b; 0x1c282dcae892092d1ac70929bae5a3038ba16233f954594f631ca702553aeb71; 0xe3eae54125245f4aac3632c13d0caaac0b2b0abbcf4a1c61d754fe11e232ca0; 0x16777fae1d590f1f04a12fb5d28031206da9a7445ecd443617f1154aa51b1568; 0x24c4e65794121573f1242ba944f568fbef20ed1f1841906e2ea4e717d7883269; 0x1c2ba82aa75337d1f549107decf20533e659acd8e640e9f8c23c0b09701c626a; 0x8346e23c5657df87c98a701f148fe479013829766e60ec03bb4357258eda1b7; 0x1e08ebac5a9619dde41ee41f9cd0c5e1a015d9f33b39908467ddc1cdb10d576d; 0x11d636be93bc1a5a6300409aa6d2067b8ebce7b7497ed4e86e7e206574a7ff3c; 0x216488e18befe5d5b3945ffc1596f47312d54c30972bc54c6378f0a976deaf7a; 0x1bfee12e6214b3322cd2277730ba502a4f9bd30ddbd4fd354143b1c1f6790ffb] ([0x13af52b2b58ceda3a37a4b3352ac1ebec08a37120e01b249ae4b08212697f31fc25; 0xc5d770e5f148b4b260c62db5be1755fdbe979220a31b85f2478ce68ab1e491196b; 0x59baf2e2071a3fc413637bbc6f75734b6909c1df50288ad60685901ccbac0a3a0e; 0x2e0ffe8f462b226040b7bb3c616459924ea4c0ce0032782a099bf0a52370b4d2c6; 0x131b50f85b99088b650d8393e1aab3c59316b203ce52203d203bbd8cafcba3befa; 0xbc8cc8cfa632ba8d8a4c9d5ccc206de873b3e311ffc9a8e9a2709bf7247c1ae01], [Nil; Nil; Nil; Nil; Nil; Nil; 0x35b24b75bfd27e82da5a62148087f1de882f5374130fda4dd489bbae73f6d19125; 0x227ea7fcf0e8494c44e297cd2cfc8b5a41c18dd54719d89cb1d4ae1b85ee485b4d; 0x103ef91f766d743df267c3c1ccb558274a80e0b6f425b54db6d30771ffd0676aa6; 0x9a285389f60c87a7171b67d6fe69a2cc75b86a6e3f44bf32e60f846a4ce46b780; 0x498a3e4ae6dfe2bc633fb0ffda621314708d2ce51aac006630cb6614b3ae40440; 0x3012ccb2aa8c04ea1620ed56fc4f657b66327651c1756de1394a5c4fab1ff347b]);
ISq 0%nat [0x15b04a73a8cf7e2cc488f6c168a221b945f7a188f5b0ef7aac518117eb5c122a; 0x2099fc5246d288aeb5a5657a89c5d4972671f39b9e73bb105aef5f45451c4bdb; 0x217053fb97c7e913cf6d8572474dc7b489be1b139884c4744d22e74b5109d491; 0x1f534514bc362b63ba654f25f23a17efde99f5f89515fd62c15f22db2ad09c18; 0x152c07c7e96d4efce5b4ed7f10f65fb8fae5a7cc99d15d0c6d9663ae4051ad7f; 0x217234be44a2a0c2ecbf7c5d26b474b99dfcb13706832f15c5997cf75451b511; 0x16e529fd34781a1bcd2d4edabe46d51e11fe4efbb3f3b8e8962b10a38588c386; 0x2090cf1a6a98e5b4dc0925fb38edbb121b42c610c5a8f56405f0b635eb36cdc3; 0x10bb6ed2cbdebcf52990e4b6242153c90f83c16dfea8e46002020b121a6da997; 0x4e029acf03acb5c1a2e5f12f7968eafc3abf50a5b3fd51200ca858ab2f704c; 0x144093b8afe2d6833c989f6b18997bcfe07c41d7b5ff3eadb34f531bd38850d0; 0x2b515dd9a985bd6263703ef14135bf01162bc10e89abc2f51a004c50baa951fe] ([0x17930046fb6b04d28388abb037b68bcce3aba378adda0195c27861d8b29dd24fe82; 0x17de939febc5a760ff2615e5d7659c71dfec584c82d0ddf0ae9377d1d35a02993b1; 0x11f375862f303e2cf82af80fbb625185d63569e446096e7ffee552fd83ccc7b455a; 0x101126ea13209b837d580267b00f8af1b3e931791fff99ff8b02fa5be0c156156ca; 0x7f2955a649e89e636671f79d97f3bab1cf1d4893ffb85d722387ddd159d6ab2df0; 0x14dd3cd5c8bea06f6e818fcf089199f98ec44d153182db2985c68a4d7dcf93dc93], [Nil; Nil; Nil; Nil; Nil; Nil; 0x40c62cc53230544a128609e14f001411ef8c1d666f5bba2a125819096ec7dfc1cc; 0x413a182ac8f376680e000da3f98662201d0179e2ac54f9abd8bf1a393d1f808065; 0x317bc7ae6425698354c0c4c3565e9e91d3b694cd166d258140f7a1eb30faf45e53; 0x2c8a2deb524aa4ccfede80744cecad9aec9064a56f915c65a9dd3c7dd0c03e27b4; 0x17559976123e157f5c426cbd0c596b0af9045031f4505a108b8a6936d82b6a28bd; 0x53fedf95b21467b27e8c4398d24c95e34340033f13316fb8589832db3f0c4c0e2]);
ISq 0%nat [0x2abd5ac83727df268e67a47e635a8d3231aa3d4834e73b17c64a3bd7fd7729d3; 0xd8f8868226845f55e3040220c047d3c323116e95d863c3c2b9579cc71b01b25; 0x2658a05949dd938d717531fd1a9054df29eee8079e61ba0764b016bba056299a; 0x24b0ae167e882e1191dc6c19231505ccef73577c9d7bb62af44d6d0b1acbc0af; 0x139b6bad93c2bef7bce2e0ce05d97d84492bc384481e531e8254a3b7744b9e1a; 0x219bf99eca84dc877c4d28af689e0a202ff94a91c6754efa75be29296ebda6c1; 0xc41ff504790f7a6eccfe782922d5df344697ef2b9c65bdbe815cf09205e39c7; 0x1f1be9bbddf16d9fed5cd39d25380da21133c482f89e447e401afa29922c7942; 0x16016b7921d8deaf5451962f204a31d6130ba0d718827187082c2b7e3141b596; 0x2862b8a7c63d56ac5cbf4fe703488aa3dd0ec48ced6db21c0e990c6a4d58be0e; 0x297544beeae3c10f46b04dace3dedfdce154f2a9e870c1abbfeb762e9d2300de; 0x1d013746a9b4f5c7e67c403d7829a8fd6b9f003b2da0daa11148469e52713b84] ([0x1d33c0c15e9cf6222289636557cedb9252d3789ba1480c3ea6fd340f000152c6b69; 0xdb01d0eff8308edf8b80602ab251a270cb15a1561c20e26e9543fd6b45f6cc0cf3; 0x57ad1a911e813aa26396403fbe4ef2195f6e049f0297e51a050a457fdab327de61; 0xed2cf9a64d6a6001a7a1849f8ced566ecc009d8716e12e6dad76b214d15e5b3a43; 0xfa8a5e8f57616e654de34dbdbca8f2b6317420caa549b28eb9c5b62b07a5e5c7c1; 0x1587bb401fff62097712749d09ed87b78e73c533f204517ec6d2342fec86dec055], [Nil; Nil; Nil; Nil; Nil; Nil; 0x4fdc376b50cc3d01c5bfc4b7471b965e6eae4ad39ef12b2f5d5471f724917e0d8b; 0x26f1f36f0ec9f0d7571989e6f7bcd47f5d995288384665b0879c1c0510d0eca3bc; 0x10f5b747ccd1ba94ac8caedf4515c9b62287351e289957515ddc85ef45554df119; 0x2901c8d785003e19eb4c56972131424312ee5c4700053dc40bcba8995e70025024; 0x2b250907193d9cd5a94e2651db0134f842e8945d24d36807e78073a8eff518c5a9; 0x5649522ae8431b06a3e15ddf0f876d8a4e17ae821b4fc494928c45139be4a6bae]);
IMul 0%nat 10%nat [0x1749072c010a638a8d8a3a2076e30652ccc58689ba4c9c36e152a8b95a802c73; 0xdb7f30e11d46529dacf9a07af093672804afee461a571238d836ac6a4b0dd25; 0x2b31998e2117532dfca798bd67fb5e24efa2b346359f8ab8227006414734ac63; 0x6b2872772fbfc7456db8c6dd52104c3595fb7e772e0ba4b921ca4c15d09b114; 0x1e94001d39565b6969323e025854b346e3c8c1e6e79ec410d3efdc25c85fcc3a; 0x18a2f94047de7a7c914db54947856da37d16cb64da282be721cbe3283978e402; 0x1d3142221f8de29c6374ac2f676dd85d937250016dd4029904a51a148dab216a; 0x91acdd76e317e56960bb7ae7aba682ac3c76c047065cc847733b2fc147be41f; 0x19b81ab03349b2990ccf47a8f3ef7697e905b2daf75227e3709b702f720d1b74; 0xd6222064a68e57b6d397761ac5577b1d3ed4c2e15b852e6094ba4ca81a384e2; 0xa81d7c2c8201c0c95c1f6805617b6336148681f97c5d03b9df1731a5920a147; 0x6fbc4e1589ed7055abdc0504bc4988700055b9aee03fe90082d22410451d076] ([0x28ad69f575de5951b743e1aeeac9707d66d8e2598a07d895940a66750211cfc4648; 0x23d148539b39732e82069228a1949f6293b96ba16b9c62dd13edc9917dc91d62750; 0x1b2083412e69d46bf54c31601794d75892af0282f99acd829a823ed903f20b444e3; 0xe7b9193cd78b66c31987968372adf0efc5914c27cb78caf95c968949921b72645f; 0x4e6baefd957718e88521f957d8aceddd942584de44c1560908a922edd3d6e545cb; 0x23fedc5fbe358fc0c604c4a1c14b06dd93fbecbefead457724a46db03020e4edc4], [Nil; Nil; Nil; Nil; Nil; Nil; 0x6dcf5959fb7534dd581b772fb0e3337ebb7e46078ef890c2cc554120f18432de7c; 0x60d4d5352f6bda4c010c116ae8602b9c7c98cf35b4fa929f731a2f9666ea5c865d; 0x49eea545af58ef30c9e9e6f2d07487ca48e2e1d3517fe76c7255d608135b69df42; 0x28dab6373074c1e9c751aa16a15fc9136df57806c8977bf82c605596597eceb7f2; 0xfc88edb1bb28b5c0c531334ca598f0eab227a1f2d8b4f4784e9c08ee26b19417b; 0x88f2872999bcd1636c59e44c768e370a2a30900a49422a40fe2dee341dbc9670d]);
ISq 0%nat [0xbcd2686c5af605f800b3f8a07c298789610d85ca57774c557d4d71cdbb513c4; 0x19e62a6b968ba4544799f05e07e8ea0df6346fd3bc3e3756eb6e41417c429cc0; 0x2ba4e950c5f882dd819896abe5b70933adc04a40da88780f851886b913d7d593; 0x15eec108e778c4c54fd043c44c57bcc7c3465d106c297cb98e5ebbd476c3ceb9; 0x1b1ae9d583dd424017e947e6b7b022eddc3e525b8814de368a5016dab4074beb; 0x62395d264a50d94c2bbea2c8e70670495f66624b14e2a37dc4c30ae6554e4ab; 0x11e9b3cb2a559af9df28a3ee0d89a5d6b3aba29dc9304c9527dd082f445c6a2d; 0x1e0f40188f1aae893f7be70be4dde1fe9ce2aaf21ba3721697fceaf0c52503c4; 0x8c054133108c97316c3f2132bf8d84be591b8ee782ee0045bf51286aef123da; 0x2101e5bb558a4b967f98881b0b980484ad1b29a70cd41915ec0cb6a651910aea; 0x91fb76fcd219718984583244a3a8bc801ef39f334923385c3eaacfd722fa8b9; 0x10622a2bf22e97009e7e16c634506a80485bbe968aecd5049866034994f14388] ([0x805396332d547b29e7879ba928b14ef9ddceb22c1491d1692d616089a402315301; 0x62814dbd0e04cf3f12907e40aa33b08771b912751c24b58b41a6bf30d5e8eb5f3e; 0x36f90045ea4069a276208d64a3b88a4e21428d47ec1f450c208766387deed0942a; 0x1fe3d04ec15c4c2115f26b7506ed258b8ac2ada0e1fc3067179faea51db09363cd; 0x11dc21e017371e547b09230c8de4c4ef22df36e75ed31fe0436249bcfe3d907462; 0x850a0040b19b44b1b9faa71958b7ab7d29077a2cf4123c7060bd78b4e5ecbaf91], [Nil; Nil; Nil; Nil; Nil; Nil; 0x16f489f50d6b32b0985eb6873ff6aa4626bde6684418a77cb9c96d7e8c997023cd; 0x11b2e674b5b32916cb21ed0dd848a591c2f98e9ea657c87dccb0e8107a0fd9c9e2; 0xa8f85f80e667d4580e6c3242ae4756c54a6f208078171dc06bc7b16f3a33bbd80; 0x6611aa756d5536d4f9d036154f497ef9b4ce3db5b707ece3a66464b57377e4ef4; 0x41c5307afb547fc60947a472b02afea7ad6723483a60905cc935d6dfc29909acf; 0x233d00ef614ccefdb1235565359cfcf127d967f19554b4fd6b7bda0b3ade6c69a]);
ISq 0%nat [0x1a784305cb6e7864017030e5bd5ec99b3c5e7e01550b6b4a4ce2dc56cce65cd7; 0x1c77b345f6ab8b969b80eaebbf1f5a7b51ec6a7a0e38012258ff915949cac5bd; 0x17e839ee3f92d48843f13a247b056e47f1f050b8fd9806812619317d9dba548b; 0x2a3ca01b4184f34b8988a4deaa5e5c1952b5f26523233efba288d5876f0cbabd; 0x28b4ea00f6849c7d1e44c0c0927446e763bb4e7bd041677e52e14e0e8dc3c5c8; 0x2603ea1e49ab72c24d6d6399444b1a68552d2fb33d9f00c26ce4e7836e88a474; 0x1d40ce29a17b67e4e6cd53006be295b80bc891e646c8da2c04ca8adaa0030af1; 0x2e6bc2c33fbb87efa2f9f266a59ca3a1c9dfb06476a1e6c956f8a8daf7921382; 0x27bb01f5e40efa0c4fcd07bb09680b58c91cf4b7d018eabffa6098dc7adfc352; 0x1dc956f301ddc43ca92bfd98804fce5137cd0e24af821f99569eaad7c18f7726; 0x29400db2c2b67a8a62da51dac9f7ad95ae8f4cc5d5484455a9781e8a931cff1e; 0x13bf32db553837e19344e27eb7560ec86bf1e71f30f861c5c048550d4a0d3eee] ([0x1265aa251679150ac0c3066ea9647089022ed70c217c36098d3e93a17e568422e33; 0x89ad23ba7ff38a42d70aa0172ae6f15f24751edc670dd512031f5ec42c255a97a7; 0x9d6952b7a95bf8e35c58063797c9971b681c907caccc2f023762c3c5f7383ce905; 0x35534f5c5ccefc68691fbfe31954fdee0d5fc60abe583496998dbfa8a9c5b6050f; 0x30d1ff84a0695e005942dfcad363fdd66c110a9e467fc22567d8c632cf967b9aa5; 0xb0f6cf8cd53b027677bfd0871b2b191ea24cfbcaaa8ebd59cbc23bf98da538cea], [Nil; Nil; Nil; Nil; Nil; Nil; 0x321e47b8ec44fd4b0257d099ef296685cf4f67e0106558b415d0c5ea9d60bcf388; 0x189e77cd0c470145fc6e834d72058f43518d2e42b7a46c902dc36e27d4ad0c8c1e; 0x1b3938dfd81bba3d4ff527c50218ead59dc1a007643adb4b0e81241a74e07e292f; 0xa2d7159e24d24b4bea1f0dfaa9b70a7adccae3f2cd73c73bed473e14a5e41b79e; 0x968fc0c2da249fb8e4c0845830fd30b98555da743a5791a2d8d3541f6e2766f17; 0x2f8b07bab9d250c5a2ee9004f302d798af056403b7aa843f87efde5ef7acc1168]);
IMul 0%nat 17%nat [0xa6fcef1ba9a3db48969ecbc8caad8bbf6bb58b974bdaa7662f66521b397abad; 0x1417ca9568e6f44d925832482be1b6d112fa4c2b6e1809737f9e515c5cea4df; 0xc78aef91e3b53f876aae291ecd3747bb32720c9323774e40cdcec5ef8aa4b0c; 0x1c8311c4eb847451c81e41b313b51713fca733deecd4285bf9d792328ac47a46; 0x172c95ab23f341d935a9c3edbdfc150531f0ab3bc6b86373c48771fcd79dcb30; 0x2e6e7703e93a0bc7becf6bcb2a14a686cd3261d2aac0ff18a8a9eba654e21739; 0x1eeb7b7a216b6904dd888bdbf0e2e42b3d042efeecb69c1d9c3ed723716cdcb7; 0xeea584c5b077ed738f8884b6af52b5363117ec7a704e7edefd412082d5f1c09; 0xf69869e38c94a5489a90498b0468b0488367c85a4bafa33f210f4bbb03ac6d4; 0x1f0b7777c46de313dcc98b5335e50af9c0e496cc8d6769a929419a0c3bd0723a; 0x1b67850f67ea8f29b5575b2b8140005460c5b7b450b8e42b33a178e55139a1ef; 0x767fc2988afcca60f2e09b53d9fcc7214d6dfbe98ae0efbe14b42856b3f29a7] ([0x232c3fba425109ea3806db4497f1baedcd5df315ace3f9c945cb70e7ee99c4aaa6c; 0x16d55ee147d39b53c4263fa36728fcdeb8dcd1e6e0ecbfa71a19db78e2ab57cf707; 0xcb5b9181f67eabcf654a08838719f0c95d8ad26a28c88ce6d219fff5918642ab44; 0xcce6e9516b20223ada525ddffe642a6ceff055ef5db75623cb6b7a2f0b6374981b; 0x6b52db71c83d0aa563fb6661384298e058b2499f55e426c1ed413d36a77c4b2c0e; 0x1aa11bb08a24d883ffaf6bbd2b9aa72dc730347b99b60b1384593166d8d2dd8abf], [Nil; Nil; Nil; Nil; Nil; Nil; 0x6094abc9e3e351f6b48ad4a9d2ea000eb0bfefc51ae320f8fc39b04a7876c86ed6; 0x3fa402923f3a739708fcbc30595da01aadb4d5a7222f70dbde7ffd06e05f0996bb; 0x24ff9fdca402677c9e08b6a3eafd64da497f7ef2d2c1f734ca244a70978d09e9cb; 0x2503ed4ed39464c0e7a8b0e1dc3f5b66fb4d711e9ba0fd125720ecee5ac7f97cc8; 0x146bdfb7abc93100f0fc4377a0c24743341950f07edaedf621edb324cb7b4bbd2c; 0x6d83439693f0fd7d9beff2e69fc6c3f1c85b174498b526e39f4bbf01598e2e166]);
ISq 0%nat [0x3063c0c19c3229119276309d9bb957d1dd4dfd3a0e681ea8ddd6d6af4e397739; 0x460a5224cc881ca10c9e2c07a43dd627ffc9fd81e5423f854c8982fceacd1f2; 0x2482ef33b48ab6c34cd2721e543c19b2878a999448eff176fb053ee6d518f588; 0x130d171c3ed36460a839701c5b56d0e082287d64aefe68ab130c8a8f65ccc5e6; 0x26da3623ea9daf33978ac7f5545a8c9d6f1af8176eef2bd6200a470c510eb57e; 0x2d3eaa4d661b6dde6254023da5efaa1688f47cd0c9e4cb16b621fba8eb493e5b; 0x221f2453c5b05c11687c00df09f31a404df4b5765524195c7e326732bf5a4fec; 0x292ee944e0c720db0045798397e934c672403797e82024de09a79699bfce3976; 0x291a861f1b5d181ff27cc3e1ed420aa242a70cbeb8ebb6611fee882b11509a68; 0x8e492c48854ae8436c8d7e4b640af164b7514a59a66a085f2ec3966abd00b60; 0x2963c32e902b31c81b3a86396ca9250c127372fd5bdc5ad939b71aec8126b2d2; 0x29616e99e96010cff6d12fb990338a5d931b015b22de93ec5c1a2130c54c5b76] ([0x11660a551a278ac03c2881cfeaa0d8719fe7afea00af30f6afbc48afb742a2d615e; 0x10a983cfffa30ab5d6d591bce6983f03b2a62f3082dcb664041ff808f8f4860fd80; 0xb64fa50724c4d0d0f0317bf140d0b6e6423cf0d8256abaed6c89a37a9a58764623; 0x532e3ce4ba890cf17ed84a3d0064f842036da6282ba3402ab995f8e883d125a302; 0x1df3285683a05655d85b351a3725cf575696ecd493608e72597646304b790bc78a; 0xea2ed6b4b912bb36051523149ed4ba5ac938f70123d002403781ba0565eb96b17], [Nil; Nil; Nil; Nil; Nil; Nil; 0x2fd98fefe216586707a1947c5a2710f71e0bd8723e70728a1d4fbc714b1dbccf66; 0x2dfaa3d2098590e568f3d3fff7bcc738cfb6dcacc3c7786cd9ac826151f5736f26; 0x205b9289f09cdf365ec43b05fa84826a8a5b7ae3745dc26b964b7380747d6333b2; 0xffc21fc5b29c3e687622047ff36f70ebfcaaf6f23124ee9b59fa6f015a00b0870; 0x6aa6e03b6423e8689f300470b795cbb674f29eaec0a8d89ce256735d48ce236f1; 0x3aec8642b23ed170793efd8f9b2d93ecba6f67796fc5a066dfb83a45a8ce312e0]);
ISq 0%nat [0xc51474f6bbc08f0e5f77e13a4f244066b66c97692f028d2349d776a429744f4; 0x81266db24c50bd3b2cc086dc0261e48c7d88f4d124eb55735be821f7f4ab8c6; 0x2a5631d3717d7e45181e308b7a873b77ecc98ae3dc22eec192217321fd52efba; 0x194cecf6c428893bb93bd182e6a6f66ec1df2a614030466c83f67192390ad20; 0x369395663331005a476d146689b96e3a288b604c644de8e757fb8a6f011fca6; 0x1402a4b2fc32e2a347510b1e8e36103f2eea997db4c33c44b4b9a0981779c761; 0x2eeb2a5880a0c058b7b5a1fd4032f0936bacba061b3c166c118584c02a328755; 0x2167f8bef72bc6dcfedd99a0c8fd208b39a0fe2c130c3d5517f8376fe4566d13; 0xe44fbf8579f37a9a6377879534eed158136bb5912a47907cbbc6a2f71ce49e0; 0xe57a95b5158e648cf4c1a3019ebc301031075154e608ac1fccb561173997d42; 0x13bd1cbebbfe3144f8f98843bf37f5be646cf6b7dbd6380e954cbf810d05d499; 0x97f5e6ef5e3dc6ce98804b685e953f324a7db48f030fc707f32d77f12ab773] ([0x382e0b1276e292ea0aeb9f513d8d556bb2c86fd2f74c3353e29c7e7aff3261918ed; 0x23b36d9643f851da334f4a7c133dcbaabb2ae15196c5b89041aabd830edd75c75fe; 0x1665a9a54e025d019ec30cb1f583d29a5afb93f450c1d34606473cb130514a55312; 0x1e0739f7a231feabc01a11d7fc1de12f067d535bc06d7e8ed00b6eb0be612603c44; 0x1071b33cbac6401d26ebd368fc6293e6544d2982af5d3df0358eefad48f9d507fc6; 0x2d9a76bdcf8838511651e58abfe0dca77987fbf890a788f18ec10f36d0d8464bd5], [Nil; Nil; Nil; Nil; Nil; Nil; 0x984e9f6d2dd8ec6b21b5e6cc7bffb804b187e4f014e471011037b5905df0d9b52d; 0x62bd0d2cbb705b11a2cd0a543b494269553323e897be72f912fdabbb418bd1a687; 0x3f53d4e4aa79ddcae002f1f945c66dc50d766f015fa7d2d8f7b42610b05cfd9b60; 0x538f4a5224805cce349bfcfe008e925dc83108a7ecd3375a8790e82d4af2546676; 0x2f977e087907e7d1bc14caf43b11e2317ff2f6fcc036330c421db88dc967021894; 0xb285df73985a79836421d25c2dad67e1ecb685aa9310ad926991ff0932e9d52b7]);
ISq 0%nat [0x2317d201f344c0ccb40ca9a676203d332511c025b02a9a11e6ff66d4f5ace4c7; 0x1493058e9256054fef7b032bb6fd047524f951aee6b75c46dac600b3d6e6b978; 0x306d9a52bbf2036179dce282b488c2677e7440bfcfe4a71ad0eb8ced838f4f4; 0x2b34d32fd4a8cb78082ac5b9efc94e44c0136eae78f3ffaab5f1dc8ae6409aa7; 0x1415d1d4a3962129ffe6643e4911c89bddbe052f8a8ad3295a288836661d8b0; 0x17c67d9a28fd228aaa09ca155e388f3adf3e580fc36dace1fed93727dfb1ef03; 0xcd309b3ece7491972db5fafc2e33cdc23392aa45b4369ef497c9eb586d467f1; 0x17ad4cbc88055b8f3cad9b7576d53c44ef4fc36ffd70576defad38be0c3e9b85; 0x740b57176d8701634e47cf1e2d5255e94b6b8931c6074bfc3f96871c0e3b0aa; 0x222584ec363b2d852f497bbdd83d792fbe724ca88e02328bf68a42c39e48666e; 0x1db61deba4b4d8149b69d64dd20c83c01c158caaf0a8c1c212f9ae6f20ef05e7; 0x2f6af6ea1e37b02208f2ab965904b6d75f7027a703faef7a3fc568bd88680c01] ([0x83d46dc793a744e9162f5040ec3c334a6f913bac0edb66717b82da4f2399167a2b; 0x5f6298ba069ef2b7db464ddbdef3be853bfaa0d2e41f3ace8ae129943885510f44; 0x45501f4cb718b2e2b97b059afa275dfda0752e66496975aa3abf0231e544ca99da; 0x17355007b34c0ddcedbd0cd9a33e74f1e6c7899edd829acb588ccc3d6733eac7ed; 0x13ff1606afec47f1afa52a0183758fc20954f2703f4745c0e9dd71c7d522b98668; 0xbc092ba96ba1324c8721beab0eb6c731b342e67f6c11cbd743544136793de256d], [Nil; Nil; Nil; Nil; Nil; Nil; 0x17bb23c5db6818fb15e26072a4e2cc9c128bee8fd51aa1ed5c9704d588d2f26993; 0x1158d6f947f44a101635699e41a6820803e57dcfadf52878e0611a98143c62ed99; 0xcf112343d692f4e27349267dc50c87f4f2e9591a93558172ea58b00f7ff187082; 0x540291625ed9e937278963bea225a5b0b271f2fcb0da7ae7f3fa7f4902aab0ba6; 0x4a49af94e2e9c1f5e35a8863b5d1d4371fafb5b9186ce60fdd7fd14e6329cc9d0; 0x2e3f053bf023adc58bbab9a75bfe0dedd5b1049f18e5e81f2ad5844364e708b37]);
ISq 0%nat [0x20e6c6779a3fadb3d5db760b00f431e163656a1b2bd467d87f84b82e2760986; 0xf29aa93442f33fcf7bff0ddecdfb11d341f00308d613f9e52ae70a060513f70; 0xcd26bcfa903f3138ca38abb953bd3c07fa5e262a3817e312e638a63afef72bc; 0x23ed2bdb42e9707f3535686d415df0540de3756ea6dd72b6dd700973cf1154d3; 0x10d1d54aa188f45eea2c2239d87e58a36c6e1c147a3b6ff5c05730b72ad58b55; 0xe18aa34a3d7273c67e9d7d73318a582a9783166a721502314dc3561c17bee64; 0x2a6cbabdb25f69c3f4ee4f7309c6664bb09032a9626140542e8310f9dda7b872; 0x91af5349a9ba45a27e4f37bd95c07dea05a3852fe7613977575c28bd72e7a53; 0xda164189599b0355a461b232548b666106e2732949122f76b5febfa06c7e22e; 0x29c964a5528819b3d7bc72f27c8b4e54bf53c8722e5b4a00988be81521f05103; 0xcfefd3f5a1eae8ea0e1426726c0dd053e46f1c9a7d3a204fe8b494c2c3928b2; 0x283c73d224127b781ed9607056c8b8fdf86de7c7facd516e39fc98d66b048991] ([0x1f3ff93144b322d8b92162484a0bd0241415ff5c70656f633b3804ba134f3206625; 0x15d5a2aa360289d36209ad8e96f72623b890480d7ac23ec85e0103ba0949bd46de0; 0x216421762b055f5b806455016f7d36034aad8194d6b56191273c879f0f79c3782aa; 0x161ab3d3519ddee7517385fe8c94fd29fb987ec3b72a0e4100d668158119927573b; 0x12ac260ef7191079d52fbfd30cee3a816a156162dde6282fa0813a369fdfefe2597; 0x147b4c94615924634a970b2f6f594a1704393d77459154a0e47669baa76423958e], [Nil; Nil; Nil; Nil; Nil; Nil; 0x54a5acf0428db8a56c06e1b7ea7f14a3e73a2142ba88c93b70c68b17ba67bec2f1; 0x3aed1a5d57f7023bcf3059c01f4da9b1d3739d52640ede68c1ffb9910fd338a65d; 0x5a4d28aa2b0584b132111cd8280f7cc077db02730311b972ee7422649151ff0408; 0x3b5cfafebd7c4c78ea433f3e9965e20a833a13ccdeabf2ee10c94e302c55676e61; 0x333afade91b84de4e96e60218c79d026313d103e8f0b14c8f849b9f595ce8d282f; 0x5050c6e5b7c92fe5c7778589c3cdc4e7694652cfadf488994a4578cdd0cebc079]);
IMul 0%nat 20%nat [0x2c71792703f292cf57aebd44b603d24f2c17c1392baf4b1a1a9203c26bb20c3a; 0x27aa8e932f5739db6d4c8d127f4e8c01803475a23646ee1472d92cedfcddeb09; 0x11158a706fd22b5d6295b89cda83cf4d1ba9abd1a571aa8f7fae34bb24a92a13; 0xce34a7230614030bd97cb00faa57525b858a7aae1dc32837c59db702ff8c70e; 0x253324375698730daaf2c708dffb96c1f0b3e2eea7472234436bbf0bf173dd2c; 0x26fe4a6b17a8842e8d31ed76dd5e07de7207df88e5169ff07c6467cea5a15c7b; 0x2bed4326abddd755a11e9dfbe1aac83f2ae4664f3604098cb18dd130613c7b39; 0xfde6261897baf1a238192080fbfc4f713e4aae0df10157ff2e907d739e33dd8; 0x24a70e878215d082ce9be2af2224cab74d4801f155682f441f85aed1e4fda1ca; 0xcace9be4da0304d61ac24e52bde415c9809a632114774e9958ca151cbd1cdd1; 0x1e14ac9287f3e5f3786b2ee66101dbcac24dfd5a6da6bf09a1d4b70df38272fc; 0x1af03223697efa8072e33204e9018024b7df516190831ab93c8000fa8d08b203] ([0x18c48272ff31a226120e8447e879eed9469a1c47b98d404d296f6cafb846f9db5de; 0x1c5995f5254296126c82439beaba3f4c50cc2801981b7b91e06ca86303a381f01c9; 0x1434a3941f5d3ee6cf62ed4fdc5e599e1f334efd85b739d313d616a5433ebb0a671; 0x108f2ea515bf7f183cda443c050738e64ad732f0d1dd5efc95cbd23c8a4d5447a62; 0x705752b4bc4a6fd227804d56f5b1e04ba9e76c430346ba756397e060b80d822558; 0x1eca5dcca86466cf063ca89e9c51c749fe8fbc25e1ab7af61c8f84a6d5a457d10a], [Nil; Nil; Nil; Nil; Nil; Nil; 0x4481b225eba8ead73f7aa1df2abb8b6b11867e5bd963fdef31071fd77b15be16c2; 0x4d653a1e83b97d8435c41f808a870553744ff24d644d5aced3b36870a2969c860a; 0x37ee207bc82d72a744b1091f8eb942a0dfcb345d3528c6ac521ddc26ebe141e92c; 0x2e1c6685815f7f33b516c36996427e2135c28ccf51a9c596823da25a62a6a47b1a; 0x14beba56ae4f34265ba4dc24955707fb9e8edf4a7c21f352499be405a77057ef35; 0x75cf8ea1b1ffc2e1a41caae3a49818a3bd48ca3a78a44eca14e067357f76b6620]);
ISq 0%nat [0x484257173340ce37c2ff5e447c4268380d79d847a4c8fb30d50ff8fe44642d6; 0x288c0828b3fd734693eaeb9f8c90b74ed9a1079cc838ed47d0721453dc794e6b; 0x11f89d2fcd6fb6d63d700e25839bce2645e72f671b65a3edee3444f1f14239ac; 0xffe1eff572c5102617bc563dd7bd455f0d430dbd24c38cd0028663b1f8c6b47; 0x1442727548f57c4c177a795ca0c47cdeb142913117dfb2f6ed79fe3b5594beb6; 0x49a955ca43b883887fe8c362581751ad1fe5a8e2a194658fd28180c96c74193; 0x1ae1d4abfdaf72c17c0d6ed7be1755006d7d668d66d5154abee5623bde4cbc9d; 0x12e3cab40df577f6b85c11a0da607556f01965b149685fc6ad42cfbf4448ce26; 0x581d9f00275d574f23dfe3a0dd89fa4c0885303b80de1ff8143019b2614f08; 0x2101a0305d99a6b292e2ba14748eb251c8f76de1e64833977aaa2bb027f300f7; 0x170d1d9e0b1014217b779ee5774bb3b010215fb91b17e5d2e221d6ac8eb39996; 0x15f5995f4e5cfc85cadc2533b3618994ecf086fdb8aedf54136309e2b08155fa] ([0x1bdb188265992d5b783efea92daff1d7458e9dd55d4859847010524a1f7cfe3ed64; 0x173769d30f1f43fc8ee72ce56dee803ba23dbecded551ffe9622d2568f11c3ef495; 0xeddb6fc3b16f3a767182a05fdc1780de4183070b15d1d3584286cb05bda4cfb175; 0xecc10c7fc5d12427ba9687cce54e7771bf658983fb715e966db9e2ce6cc66b297b; 0x810a3086ad4f415c8ccf5c335cbd1132728d83866a65bea6b15e5501943a7c2977; 0x1b94bdc17332cabe4ce5185c57796231e7af9f634a2aedd5692917f37da7c4f3e9], [Nil; Nil; Nil; Nil; Nil; Nil; 0x4d3b9a7d9bd8879d188ec25822edb00b68d782a6335167afff1f283addf9644397; 0x40109792d03ea64a78f4306b804147a818c2074889a1cc31966759feb40371b54e; 0x2a6fb22580be5188a5ef1c7a2313dbb0d05fcd0959a7b31512bbec63c7788354de; 0x29fb80d56d9666e10625bfbf1e52f4c35f614ff18a0fd3ba46c8ce16aed6c55c7f; 0x186c09eaa27848e90cb362be4ea2dbbe1e49381e5c7f7ce2599252671786dd9771; 0x70b7af50d379b714e4199f75891107cb85ffa2fd9a58a03a64ba29433d80178be]);
ISq 0%nat [0x22edf3d260b4452c3737f0878291c3430e220bc79ebe77303a96e0ba591035f3; 0x5c199c9ad52e8c050840620c098980faa0c8d4a72e4b95a127a7a73b6666a9a; 0x178f869b7eb3dbc278852a80d07446d50e3125c5d19ea70ad99a1e6c785f0c18; 0x1076377f28caa0a983dc17401bee80b8d44cff36ed37b3c6f3b2280d4d771cf4; 0x28efbac816d142ae39302cfcb145acfe51691df9ada90823e9fe610706fd152d; 0x1180c08538efe4fd402ddc93b2a39317fca25371ad3b9ba25245239237545634; 0x100dfa4b7367d815ddbe24b7a49a808fcf854c939756c1fc022b3fe6d45a456; 0xe4c57ee6fa72957e57563e0b05538af7945f42b60c3ad14553bfaa3b7efa737; 0xcf65397a4f2925b629b888d974dae0dbd09432128904683fe842b4d598a7db5; 0x22f226ee7f639fcbd045d50057ca24052f24ec57976efd84dc7f3adfc0d103e3; 0x220ec6b3ee87d827b2284c567c49f07dd7cba0ba05fcfadd079db566c53d4241; 0xa1aa5ae1c6bf758f4a75340c25d4bbcfa12b8ec42daab34c2141ed8f8cca5c3] ([0x104d16436a9bdddf67c44fe747104a3676be9ff76025a94effeb880858f063d7b1f; 0xd0c56a044422a55a597922e7b318eabe7da4fd3fbe6c7059781b4b6c2375d3a802; 0xfb33b98cb2b80f03e0c9e243ecc7cfdbe7990059a3b1cf7ec02158f77f54823a15; 0x8b9df92c1c0935d8d215282b7465f4fe768b1e823b90b859e15e9b63e798a5ab04; 0x4b1a9fcc548431d17318f9bab76b822412ea4ff3f00c860f40248aed9b8660a1c5; 0xd8c14082e539d8371d81fdc45766abad7c5f537ca0d4de98a02a28c0c1d2fea44], [Nil; Nil; Nil; Nil; Nil; Nil; 0x2c9327d3aa695f0ba6ceb918628edef8e009ccf215f815624c0ab6f6ecb211f207; 0x23eadf2edd45c6c83ff720bb54e5e4446ea909dbe0f8943f8e1afdfecb4269462d; 0x2a4f002e6be5d1e9f7ff6b4d6e3782cdbf26181dffd9a1d272b7b28a4ec167f07f; 0x1823f97bdb364a89f5c150898d5e912680226dfc6a80011addb8e1ee3be41141e9; 0xdb2d89e807e0c357886de8cfeb4814a42aa72fefa09399fec6c44e681f63fed96; 0x35bef8c5b26a99ba0d48e7b7bf61ba3d3cf5e8f222e1780a04d07d940de015a49]);
ISq 0%nat [0x5ae2219c40e1feb3248ac45708071da9ea493d44523b22f222c8377d59e19fd; 0x12c3bfa28b47933a71ef3817d890e5bc20718a43fd28fcef46c8ad0d745f7b70; 0x63b2cfff334297ee30fc20050098624aaacab45c0a49c32240ad1e00870b7ce; 0x1de19de2ede2ed3da09ab5f943b60b369d24a7389e39502de9b5b8a640aa34be; 0x6b89e1a2d630cdb7c97f58444280823a102d74c343377687991d71d922443be; 0x12f6b8eadbf5b8f7bbbba13671d107975db31a70ef64816158ea07c87d318b98; 0x1a1eeaab3c2bd010a698050a067a84b20897c8e97a05cf84b7ba46296cbbebd; 0x9100e5bd6076d3306e11779de90e748aff1fd5d9428dfbdf34d81c6c15341c3; 0x2d66d05392d35ec79c9326411c4f72c87d63d6b37556d073b81cf4da7aff3bab; 0x144b974630eb3ee6c8d7d686ce6d8d301ea0e2c7c1cbd0739d350cb984fc2895; 0x1ffeac5645766aad92898e236983744481eb8a6b04f16eb8477c6710f9892cc5; 0x135ee37a97f9138efbccf253171949a2cf5fae40994ce885326c1960c5067d90] ([0x13a608db516980aa24b8e8d2d100c5d01b50b5a9ae4b4b97fdd8358fbc79a8d5f34; 0x15b7d019291ebd736fc6732192befad765d2816d9cde7f7ec99a130a24cacf3fd78; 0xfc7bf827ae8ca248614ea0e07b9a850bc97b46bbd4d7b2c764a0fda94b3462961c; 0x622bbb2ac12f932cadef2566f89da6b9d0d7b961abd27031d54bc1732bf81a1352; 0x1664aebe8a66a7aee13caab6e0d5621a41acbd85ae10606c52fc5d96dc6778bc8e; 0xc60c92c8570a329e54eba79cf06363f01099a4ca42efeadcbaacb4de62e863f44], [Nil; Nil; Nil; Nil; Nil; Nil; 0x3563fccdbc59d214db82d839995d31d67f47b1f65526272979b4aa01b05cb7eb33; 0x3b0d5e4766623b33dea45563e2ddc84e4021057478e145af8ba2d83c2cf073c7d5; 0x2b5f7bdb84472c0df6203385cc805cd4a00028c83cadac5bd495ace71ef627d784; 0x1166b001ded953cc63b3ebccae884bc9a79313c4062f80e0d09d6bd01ff05b6d03; 0x4a59b076450975300c1fc130fcf8d70c26ba9977fce70543b7bdd434987aa2de7; 0x31d3e2b5af40c40fc05af90279dc31605e9924fa740b230c4ea6dc7ff1515d9cc]);
IMul 0%nat 26%nat [0x1926613c3a49c7c3ec908b83c5da1e35237e8c931ef834f10eb222616cc1dd21; 0x29cba7e6073771228accd81acc23a68ff58f38bae3be206718a516c329b4c7fb; 0x115ac9ba0fc9d2f95dedaeb4179d7b60e664121a015482841fdaabfb5fa146a2; 0xff786f47cd810124492b98465a264f1372378619eceadebbb028305ad977c5; 0x26b326057b28b615fea221ea5d78ff56dd011b5663f70170f3972e3c060fc419; 0x2d73935910c1e41733044ad1a6b74c4b830f4cdb34ac7efd9afe37ed20347aa1; 0x29c2f55f3f96b46ea3c447221c6997e05a282bde77b43af14ed8e740484454c6; 0xf4ec49dd0d365d262216c04e0303a445b1de4fe1541c320705f6a8bcae42077; 0x2175345be0453889dff47d06bb86319acae32c3b45eb086a1d5d6be076c86b47; 0xc5d909d52cdd026785660909491c7b086e019d6b52f3511824bad74f1d66606; 0x134803eb0b5dd7945d6c5aae6bf9eb9959fb0ef0b77bcd21be537265a8a40e9; 0x1510afe01a6ebea49bbc926cc0947e5b7f43085ceb60800976edab74e22a90f5] ([0x1533892b5dedc9dbacf69db726abdd459c9c522e31b5156460902485471d77ed112; 0x15a20b1d40fe67c23d2ec73b3dd3ec5c793bfa5e7da205ec69246a8f687e0b03f3c; 0x8d6e35c4462474dd9ac0691b5c8570755d67d2be2a51513bd33cc65d715ed6ebf4; 0x95eaca62bfcd0ae039a21988f88ab1d72acf741b17c1ca0749f5b21976c0f7516a; 0x61d60f73635bd79e52470355d5aa3cb4c1aa2d74963ddc5acfe8be4cdcc8fa5327; 0x109ea88b6e915c1d2ba3cd5dbf868ae220ff909657a351d32d4099bdfba584c2a6], [Nil; Nil; Nil; Nil; Nil; Nil; 0x39fa9219fef40ecdcb794122f1a558e3567de0ab78ddf6c2db6ad315dfc650ac93; 0x3adcd344d35687f221b5db1cced39de6d4f3c4321caafa65e09e72d5489c125e49; 0x1913dbc8b4f879415ff8c021639b30383a563126c672c952ffc69b91c426ae84bf; 0x1a67e7f8926397cda22439d8179b215e964d305781a3d3bfda9b36e0acf4a70ac8; 0x11fac6b7a7a992be4e8bfb47d6f9a4d8253af64005727125a9b99515a202d6ac1e; 0x42d41cb7a0dfd629da7d3c5e490c7ed6f2ddfd1a70ad393fa8a3309f37e0f48a3]);
ISq 0%nat [0x98c008f835af42ec26cc38c2489d9212ce3e036cb7fc71f0dd5d7af85cd2445; 0x2402bed4ec251f7132a4db4fd4f48312beb827a1ac2738f6a8cadd485baa0241; 0x25340a7dd30d2e311e30de33de2646452bfe0e391709865763c8777566453620; 0x29646186cf3160dae151c875481ac59d2736f98d590f15828d5ad84cfd76a554; 0x1f4623b705d8c4e8718c22a2672036109dc5f819bebfa4fa73a3bef6e26d72f3; 0xa84231dbb2825a8328558f184b76c98fa0694ad6f9bfca3e7424fdc00439143; 0x258335d292b7d78b1a86824f87d01995079f1fb975777a9f815eaa6bed4f62d1; 0x788551b99c3488f633d4ec6dca9c110f2ff1da54d450335516f70088fe65599; 0x2addd2d879e34ede28ac25dbe1e7ce7c23868c4a7516b59bef891236bc1f1494; 0x1cb62abb1ec0fb4d31988b7cc308f80e22cd3bd5b5a1d4db54bf05f739fd7316; 0x297e3e7ffe7ea1769546824551b79383c7ccde640b3a1717a91cdc05f399facb; 0x265369d7c9a042097da5172cd6f35bb6e8f5d1efa56a71487e493593ac51fb5a] ([0x9a9ab64b63ee61b8bbd1fbbb3ac9c9ddbef269e1e57e556878cf279154d448bd80; 0xd31c828e39a8a31d014d20a38b97d0cd412c03c42f16422b8723ebde67ebbc2b9d; 0x5a6a6946d5f1bcf76f63a1c152e30508f88d6ec32c5673872c5aa26e9cfcfefca7; 0x1f0fbef5e65a2dff09d8b40e25b37ce28637db3cc9abcc41f9d89f3447d4051cde; 0x4bf01b5af09fc5eb24c7819b06c85531ce58393fc32e490a19f810631b42492d3f; 0x10eb2b9ac1e780f26716fda0b46d3689d0ce6865039316d4dca26e1fb1a2837ec5], [Nil; Nil; Nil; Nil; Nil; Nil; 0x1cb80580307ad169005456f89b7a658ffa2536209173ea3ab0f2412b7fb1ace4d6; 0x2554283787905f495d48d2975480c3ac16194fd2c5624df7fe083d52477a76ae95; 0x10eb913aa8b6d1c0b6564f8544706e7518beb006fb0013924b2e0d91e3e82c4b1d; 0x71e5428a8a64848bba86311eed7dd48c5e99a21859cd3b6e246b446654c3b7196; 0xe62b85f92e8cff2fcbde0b72317550bdc4f5bd0faf4d33ef2f0349b2bd3b42d2e; 0x4591adb21739db8e901f7844495892d1ca9b4d1fdbd36606497825af4dae03996]);
ISq 0%nat [0x103b6c165b182854536f36c208fac418e42520afd9ff4948fe9541671fd7a924; 0x2c1dc98e6429bdd8c91e48d77d6cdea9e7e59fac6ad875c601337b68fea5cac7; 0x1560b514b2a469772fdc54286d428825d25bd089549a84d2bd30f8ff52042fff; 0x247d2112a88248a2a9eb70dee71b8847562a1591beab9ce9056f5dd04c56629; 0x203703b5810a1a346fa81f54df4447dcd86126a04952896d7f170b3a4e003c38; 0x29acb86b4f9e915cc91ea203e0306311b3fbd4e86e3a997c455bad5ecc8d3a88; 0x2f143fb2e8e70e458fe07543e1a01664bd0963a454fc535d427b6dee6de9a98e; 0x1e81bc79eb5a9ff7796f9dfa97fa95701d4ba1a909da5f81338d47f63757f401; 0x23e7a56ce2dea3b1bfee837a8f1efbd93c4062348e9d66977c5defcce50e7d9a; 0x96c9578d8e6aeb373b27b452d398b6771aad26da2f37539f88f65f04e7a0cc3; 0x96344d6f7883221afca3ccf3077b991abf23947776e3a896bd0b148e9d606; 0xfa5795c08f23a7c3c037e13aca6da02dbd8e11b27423a3dfb675bed11684914] ([0x2a1637e1b686b4d52962c0387c985633416a29ee46034dc26a4ab23fd742ee9e717; 0x2e284b31955a45a25301b0dc7fc55714c15b4f6784766fea692371663cf5d5a7abf; 0x21304fb34fda0aba5066e4893996d3183717ca45a3ec7db938276ec37806577b2f0; 0x1a2d69ae654c6fac17344c649538f745fd90241c373d129b45418849e019a665bc3; 0xd7930f9b16a25bbd82f50982046924e9f438e1e1f06e2ecfcb6752cb7fa09e42b2; 0x270453175583cf2207364dd2fc1a63932731faadb2d0b980ab08ec2abfbda76d08], [Nil; Nil; Nil; Nil; Nil; Nil; 0x73705d8f64764b6da27ea4aab44359d9c9c38ca1834cded830e2d3feba8f94a798; 0x7d1b837c7c05b15bf91d9f8c541b2cb913149e05d2956bbd8035312cb30ee2fee1; 0x5b1f2dc7819dcd17c789e6df47e6c2e8d8526dd487ca6fe3e1b7970ff1eb2c06d7; 0x47977d94aae499f232f1fdc3a6d63e52f9829e5f12e156c6656659307553659331; 0x266c69c303f7a3b7d28c4397953c914622d9bff328015753e73ec7fd428dec89f9; 0x9860d6bf2152ec422ed744858b1de086632a3f5dae559735ca5b223cea05cd39a]);
ISq 0%nat [0x2cbfcd7cdd61250fc1694456a0b8dea0a3c345f83a72b34bfabdc21e55f9b7f8; 0x2267fce83a9740ce237a7ed69d5d05ede0014c8517f3497d75ea520c45ed1f3; 0x54bd3fef01fe5ba05cd88f57d527dee6251e68ba7c8fd4f7c35ab19c714bfb; 0x22616b8c23fbac373b9e8a4e07f5a9754d29d775c0c3c29fb704c640d371bae3; 0x13e0ffeb7d7319ae75dc7a1bd3031a10c29684a11190aa0a1f771cc6cf660a23; 0x241af49a4c317c89b2ffcbb04b6c7cadbd98f48c28966715d5d1d7ea386db8c3; 0x1de2d8095ad18fa00a9321c3f0832e688685b3156de3527d0b3a0fd79b7c932; 0x67e65d888854ff237515895368cee3ea3a55ece487d8feaefd10b0cf681c54b; 0xe630dd30efc5df238a9c76af685f6d276a3b9987bec8b74d75f8d804d22bcf5; 0x2e586114763a26501e8d6d0da71a548d56c01864c4ea1d1a173f2c49218ce551; 0x140e96eeec3033c7beb420213ff00d94ebf74efd65e34245f21e4d048829cf20; 0x9b83ade3958e72bb5f4c44e7ed04420e8b996212c90179c25c6d008c618b59d] ([0xb4dc85078313a408af27466cb924e86e5642a93df9f5547274d849009f253ca2a8; 0xb51a7b1c4c22102c37ca2b43252a133fcab516781d94eacdca4b0b51e4670bd9bd; 0x45261af63203adb95bff125d378b083d711f9d9fcf83d7f2777897bc27797a03ec; 0x1b0ba3ad129d1765dbf06d0b922513ea41d992e4314e53baef00d74dadad60d43f; 0x320638664c7576f9d0e4d11931e5b55f097fae1cb7c5086d0d304b30165a56b018; 0xde63a18ee97c1e3c2636806ec68bbb4df79a974d8d5f769bef46ba6882be93de3], [Nil; Nil; Nil; Nil; Nil; Nil; 0x215043504199292e7d7a27cb2116b10b23aecf596bdbdc99a89492ae20705e3c3b; 0x20e8bd483a1e9da44b708b34e515e5d630e269f4c09acb1bf13a71206acd80f8cf; 0xdd8c29a4fe87786e5f90d4fa719ac11d56b4aa6f5c4e7b640898b6f4270044e01; 0x6956f901a83e6aabd21c24e5d62d370469ff2ba2fa0d131581f2081e81bf6defb; 0x9fa6650375787ef9cdd2e065bee40d70785e40ade1408c48e71bbcaa21f386884; 0x3b086e6938434911a5e27194d2666c3065d53562d3a250ad3f24cf15756f0ffb3]);
ISq 0%nat [0xf86544a31cbeb8f4c632a5938c148b424c469acfb65b59eb6a4d6c5066b5a94; 0x112009c2f4c5830a59f1b4d2b6df39f03dac1c0b2c4f9f3ea053ef85dc5724cb; 0x20ff232a9bdfc9b99a7305b1833794ea63354f169cf878cc95c3a07443616564; 0x21f8284d3da5c1ab4d2bd87ff7d1b92f46c5e9bd92629573228c82b49874aa0c; 0x13cdb2b28690bca484fc7e911cff1f8d7f8af18cbe73640ace9537aa99485cb4; 0xdc8f94dcbcd6f711a44e26439158674f6bb5599563c2fcb70a73b4a6be26120; 0x9fd42e7387a8f209cec8d08b81ac1adfc5fa0005b6b386f526a1fd5af1adada; 0x2a1d13c3cc3cf4aac58a8790c3ea10a3fb7c0847ea7a2a15a1e7c31035d5b07; 0x25f64af1cbc56a1b5c054b75d76bc6a6eb41bfc7cf0cab2ec5e4f0756c7f1823; 0xcfd5117dd50d208637453a06b4619318834ef7270c1012f55664490fd0d12cd; 0x240327e8b41ef565949d5b4553073caf961a0b7f96cb76769993bbceeddcf17c; 0xfb7ccb1be2959d74c9743612d7899bfe4ee983a1be2f6b1babc26b0c07c6bf2] ([0x16feb1a5d9a564129f204d56273cd7f7e3fb45b007f6a1c4388a10d318fb01c0b80; 0x11b361f19b4f4b054eb2256883f7ea8436f5012f7bc4e84404115c02cb435e65e09; 0xbbc15e854050511f1ff7be0191dfbf8aa8afba9f489f872a9e5dfa1892ad8ca933; 0x3cbb8a4968974c59af1684a7a407ebdc408f3a21b1b22f01bcd28b50b0a150a4b6; 0x1598985d0a5b8f8981e90f5b62de24abb656c95aab996babd0241d0999542d4c41; 0xa859610057f4398c9d5930cafaa6e8bde534a3d067f76a687d64f3bed3464efe8], [Nil; Nil; Nil; Nil; Nil; Nil; 0x3e0c3f7b1958fff9881ad2fbc1c9117ec5aaccbc37b6f9225cb3fccd0ede0a6e17; 0x302cc07226527e6fa5998da3ba879919b451458aa8fca959c74b0b72c32ed6d1af; 0x20ed7e38d2deb202cf5c94037aaeeb4a5dca94d592a4212c5b018ebceb85eeaae4; 0xb458fd09fa94abc1e9c93ad1173d20b636ff7bd6af38a1c955deef3ad8cfd8767; 0x4755d1bb0501c72b49ff15c41cca1a073954c8aaf1ecdaf3c708a12a4684003ad; 0x28f61bbeaf2ae80d3762f26905f4f68b71b2c91db2a241444d9547d32f12e0604]);
ISq 0%nat [0x2a36831f390c038a006757bf173b4a69bcddf032bcd0f8bd74c72340de31781e; 0x13e8ff1ee8ae1ffe9245c78af7d7812636d09c3c05bab7e9e232ee60a814257c; 0x12717ab1192512d0e794c131680d91fb856bc80a8dc292601d613399395913b8; 0x1ca3840aad598ce5e771f7d8dbe54ad97c9321b0e6b507146d943b7ee65a2f11; 0x4d2bc5e63324ec8d90209a62022f0283d8593037336b5e56d1cba0842b729c1; 0x1fc07425de04ffc57311c4a7030bf514363b6af48fcf6c3dca96e043b4d74db8; 0xe1e54d77ff230d753ef44ff8cf7d86dc4f15148e9b2325abdc64500867f89d9; 0xdc793c49921c25a40e80e65ea286416eea4b122aad68e7d479b2bbd369b1e41; 0xef768605b2df3c20a5e295c5bc7a54f6c095917b596296d414406081652c923; 0x1b742c196155a8b1771941611b4b482a200cbdee81c787710652d4f41a3bbeeb; 0x18d965178627cf4be72232ca7c61876e3e0f5a4816a1d5a6372778cf94f4749; 0x2ad029f3f77611c39f1918cbc13915c8a32a69fedb1c045f1a103db956a00f89] ([0x187efbd8a6c612f3b1a1300c68f79126b0d24b2b767c0c462aaade9572e1f80716e; 0x11f59b46846d8f087bc381e6b9d40fa537efddac66f90a1a3c656eb50e1cbe697c4; 0xe3020becc1e30dad43a23f7adb0df9528720f7698ad6565507638506ab0a3492bf; 0x94702977fd24a99af0362b1a40113ada45958ec6bbc8cc41be402e60ac2339f263; 0x2ed378f00bee4f6d8c71ccf3cfb3e8fa1ac7867b6df3cc50a4778a00f8c95c3aa1; 0x9974fa9a8a79defa3cd1ea391448158f9ddf6a5d16e6b56d069ebf4b8433e98e4], [Nil; Nil; Nil; Nil; Nil; Nil; 0x4289cc6ac04d537b39ebc5ad812ff2155d5db197076b2217a98eac7b788191ad07; 0x3135f96513ee32a20cc4ef86704409d04e83ea354ba559322d5dd10fa2fd45b325; 0x26d4838410ed426a9110954609842c28b11632cd7ea439de45f005e2ff94b24a17; 0x19613238309d60fa9fc3190333e59d91a1a82c10675fa1a499ddcec182d0c75a65; 0x915a2ce107d9c9f0de5e36aacbc949484858348b50b9b881585bcc4070417414d; 0x29c9651a9430113d25dd6ff612ebf852fddaebb4463af67219bfb095098192e55]);
IMul 0%nat 29%nat [0x22949e99dda4844c12dd8f19b710988c9b4e58b2879f0d11ea849963f0244f3a; 0x2f535dbf6bb32fded69824c75c3932287cfcfa27b97b8481d22bb4381228d507; 0x2911ca164ac8c156afdd4d6cecdc5f52f6728ef1a61bbf9017410b4313c6cd57; 0x980398c6917b59d802af3f7c104cc5eba2d0bd6c3f30110e59d1a934dac0211; 0x239dd3f56e857f4290556c56d8e3f9fa77b9d4d7cd03799b07e01e68b842aae0; 0x12c9fe79e76550ee3de6dd98b52bd705e7b0678a4c26abfe739353d51055afd1; 0x1f03bb80d7b16146aaa8f9ba1b912538be10ad3484726dfeb54cdb2ff284432d; 0x304ddaefc95badf0265c095f32ac820d498bf7393099d3e9b682a4e62ac602f; 0xc28c15b30c12f6021c182ac8f8c662ad74e13eb21ac0663665a7625fcafbe6a; 0x268f3d53bbed4731fd1bad5cc8f925a5f2009eb0ddea7bf51c4775190215987b; 0x203b3edcb964f8534390e9dd831c82a0fd9e8ddb7c38201d8e4f3b66ea90aad8; 0x21d723f87f1557fd5c163f9cdffa274e9027c80e6315ef8beb9c25c7717acbd6] ([0x11e5da056f6b6357ed779c323d3c32e407f3b313c3deaa5bf2e8d71b0818ab96fe4; 0x1181499f1715222733af56c4bbb77dedd155b608638c7d878678f4e42eafff867d1; 0xd6e21296c1f0174ea8501545c403e638bd6583134b0071a6019758d545921cda25; 0x55f7bf39ab9e1c1566b3b852c165a12d47c60beb1013e57c7badb86d3e43c1bf16; 0xc77a4e95f550f618c09a1889820a455dfef371a76cd454833480d6b3773067b854; 0x105f80ac1cdde96d1e792f829799dd6e517c36a40652ee3766806f1fdd5db72bf0], [Nil; Nil; Nil; Nil; Nil; Nil; 0x3168995f9c037c3015358579c1478687c15ba591de9fbb052d389d43ef3d27c28d; 0x30477fe5b5d6d7ce0fdf9551a91df9e29f17228c76001cb7640f2b2967569edb3e; 0x252b8e597770c1c4519244a1b4b10efd3ad6c10aa6a87b3942972184753199a27c; 0x100a9fbe4d0c0ec861eea3b9f19fa7e05800c3d9bae6e6d0c378f7122bc701a6de; 0x228d213e440d0edf49c26c6e704564e6c7a2e82e9a2e130129bb20e5ad7eba7de0; 0x439cffe8471c38ea77185689d85635236491e2652b18bae7dcc726c8f33697011]);
ISq 0%nat [0x2866f903ac5f154aa9f745db602ba539ad426c0f0de957e26dfd36835f6c3e6d; 0x1ebb5ef22acd2ad2d14dba6aafbda7166a1c5670853b7be0c8c7f217cfecd504; 0x2edb810139e0b1311965d7042d66d59274b854c51ce834fde0c2b9aa05296a5d; 0x2fd3afd5c45e79a58a2197f76d716d9c9820014bde95569237018e3b37125966; 0xb3f97093a6c949c9639c3d2e257147e06e5eb557d5529587bc8f6a8685fec8c; 0xfdea89c266837a6064cbce76c2e0957d99fab8330e90f4d7e224bc463c1d07d; 0x2901424f3d9228e1b947c6c10fef20c5eaed94161c2cc585550eecab4c97b445; 0x1f96d8212b955bcd0cf26d62a12faa29a4702eae498e62c481e51b801a4e5977; 0x28905c3591d53c08b0d39787f6a4654e104c4bd4bec083ede18bb4e387b9a88b; 0x2976214e7c1c71c1eecfb54e1e2aa7bf46e532f2075ed85ef8c24e52bdeb30ba; 0x21356dd7373f38bb6f5ca283aaeaf32378383901c3447c0734e2425b6c3cf7e7; 0x13d21feca4c0e52511e2c8b8b3b5bcdfaf7f323ce85c1970e7a23e321ee50d2f] ([0x15f35e10ae1a09970127229ce98c9dc15db2dd73cc94ae371ec994ba9e85b28a679; 0x1b6d5d668700ad7e2db1049e2314b8fb2abe306261e6ba3e57b86827c21c42e450c; 0x1d4660fe0287957ab987e409610be3cbb139cad0b446e04cc5d8acdaa8ef0d13cc2; 0x12bd4e47b063d0748308f8d40a8ee493b31f1698c358b082fa6f4d0215187e1559c; 0xa0343ebdffe36a48dcd03e4cede86b3c141d993edfca42fcb5d95968078b08cae7; 0x14f2fc940e9e363737bc7e4229850f24fac1cabe9caccad271e154a8d205e90bdd], [Nil; Nil; Nil; Nil; Nil; Nil; 0x3d4b4606bf738dc2052af3c2a8e4a81b0b3172176f17e8529fbe68c34793fec066; 0x4aebad01b489582b2189ad7c0bf669d793670918ad6a9881bd8fe974f26c013b53; 0x4f2fb7feb960c79b336ae7acf42b91cec67bcc90242d37356d45e973d31ba2ee6b; 0x33f112a4d2736265a80466228b1712ce3fd09a75332078a02015261a1932387382; 0x1c715aaf286e4546df710c9deb02bbe18e7c5f4779c0e7fb0c4614e3e0fb921ad6; 0x584207a54d9082234f879228933ace1edbc236c672be3a22c66d74a37433c33a7]);
ISq 0%nat [0x3009f9c3fe8ea0ca6db55c0245b42cabb732c2d21313b46889de7986e99f7a67; 0x2587efc84fbb813099ac0991af869d75f5c7f1d6f02c2cb431dd9dae8b57b82f; 0x49363ab1b0a4fa7566770239dacda3fd81a73dea3b2301e4dc0c422ae4950bc; 0x1db1aab036cb8d49478f328afb80e2913775c86a30a75275440023960c164179; 0x2f1eb831330207b5b46c04883e58645a818953fae69b6c658ab673aa4dcd78cd; 0x28929b93fa804caec2fa45c1a730fe77a1405e7ab128122cbb7debc2ce9ab3aa; 0x1a81eaa4f3d9abca5de62ba72802ff97218eb5e430bf6b31c42335d15d4cb16f; 0x7abb1ddbf4c500c024982858328367b97bdb74c9400897897cba386ec18d9b1; 0xbbe35591efd72a45b953d1846c7f312d574f693586b993501eba9d1e0567e74; 0x2397951b00fad88c83caca05355515d54a5b0d4853f79c34b6505e26881b6730; 0x28f7366bbc0c968ecc31b16583ad0a6854707460ef0f4dec2d10e6e3696b17af; 0x14833e863dbdf1662a93b37dff9749f12a8dc6b323f254868bffe8bb897ce4c3] ([0x2f198dd187bc4f234494c9c983b9de492addd1506db1d6c38bc1053f7b18bf8cb38; 0x248a5a0e916f7fb0c2342b61598bacfc7ec885873f4b0ec6aaa5f120c3da4fa5d0d; 0x17dab28cf4fb64ebd8739116eab1be344d0914147af7f40d1e0b7f03f8838a14044; 0xcdb38c75512a45dde202f83695bdc693c2bd03bb4964dc3f5450d675d1556992a3; 0x60bd9fe9a3878de89fa02acf66bccfccd55d0e3c7e675e8bff02345cec334d0e9e; 0x2e63f351bab4b92480791f584a49872f42d57f24f9e78e7eedb0f3d088b0bba5bc], [Nil; Nil; Nil; Nil; Nil; Nil; 0x8091747f48f4d10e6a0df772b61b5a2432ddfd7793e2b654ec4ea65224f3f9abf7; 0x642053f26e5ed58e64ee61f8fae50896bf0f21cffeec6698eca0a72d9929c6dd91; 0x428cd0d2ef2899277616dc745e481654017ab6299e9329cb04faa45fd60a833f38; 0x259da5a36fe5019e75d984f5b7447faedde02773cbd0be41a2c502b723b08b967e; 0x13cf7116b6e6ffc1a4be23e9031b382ccddb6db6c6994bfc16812c84ec64608482; 0xb6187e3cbed1f0f9eaf9f14e7ede676a2891dd03a27fa4181785d7729ed9ab283]);
ISq 0%nat [0x1a7c31c5bef69eb3b5ad870314de20cc03d1b17556471f98f229dee97dbe17f6; 0x2fb1be42634bfd705ee9a54381f6083d8bef04d150b503bbcf8600dd06e86cf7; 0x157a8be582d50d184602f48945761b1e5ccaf5fe4a489efd7096f2c4b49cdaa; 0x11ea288cdf4c2632cd80753ba5c9eb7f304d6d85d14e043d406b43c43abe97da; 0x28e237ab71d631ff89e64928c4a2fa597346821f58e5a398b77864e4e2ba0dfb; 0x16ee37fcee363291a58bf0b230606ca8dee6373072a0ed5d50b9591441d9aa16; 0x16fd1660e5dfde78d5d34f86b4796b1e578ab996e07f62a1cc0f2185292e671f; 0x2a8855c1c62b4d0999ea07c83716d50e0fb8236a197f5cac02ecdc618399893; 0x1c34b5748bc787e50fd70f4a2e892198949d3652678755a73291b04a024a5133; 0x1b4749d5f11005a9ca7d35604fcaa70f000feb2dba18d858147673f87d3002a5; 0x9a4b303a12916b3366ed5d6e7723638c9f2313692093d1ba980c48acf9403c1; 0x1447248634e14adf3e457164ba052eb5f89eb70f716855f7094025e7abd3890e] ([0x159a1b8a611ce98b7ea965b759cf6ee0a8102fa9abf7556a2201bb741416dbcee7d; 0x1c5181367e594b0065e04bf1b74177a71dc0c94db5d807bbd512f0af3592ed067cb; 0x1af03c8ebd82aa029c0f03b8371ea062c967fbac7f8c4ec7009992bc9fdabd449c9; 0xf8760a84d04d3dc098a102b429355b7c1d2f817139399bb447bd0345c78ddbc280; 0x4f8166c2e1edaae52f1623a4d192667a7d495a00de9e2875364b3d9e99036a1621; 0x1044e12714f22dbada95e25e893f772b4f00ce6b085ca86d469d9924fa58fbdb24], [Nil; Nil; Nil; Nil; Nil; Nil; 0x3ba1d38ceb4cb95976456c264670a3821c9e5d3a159dba9952533380e050d245fe; 0x4d822e81eb6a6bc64e8646c8d23e9398f8111036b9789f2a65d0c07ef0719a6af9; 0x4a673f6a6f9a11d7efce48cfaf54073c54bd422aad102ed8db04c1e349af5636ec; 0x2c42d81f34adc2efa5880174e1ce8a8c5e50da1445b341c0ab221248a3db5e93e3; 0xfb361aba5170f55f342a36c6e2fb4d15f99a4c3d239f04431c6529192a49c525d; 0x46dffe52855e1595455c5f34273912e90704a219959adaa50229f61b639bd0344]);
IMul 0%nat 34%nat [0x2424fb03bf56d5d489ef1e7a02376aae473bdf7b6974497598f9aeecbb9672a1; 0x14dda9b1b624917916847486d6b1903b637a1dd5117dafcf55c4e5942b986e52; 0xe3a56c019fde80fe3fa6a4bf838027f6260441ef9de43587e606485f86d5ed7; 0x1b13ac36cb4d21fc7dff115eebc2a9c143b7dab2e2cd0fb020c085b6030121e7; 0x219d4f1080f982a6ba4bcfe945f11768c342a21a1c1b3bb7db36198909703229; 0x2df4824a0ef60d7e00301eb72b8f158fb7b429f468b4cd4cbc081408c719656e; 0x30092476c5824bd83868c86634682dd616d7875a8946ea4caf19469dacc0ae0; 0x18e7274c7be560ec4990c1dee2cf9eb4317175e9b8a1699a783ed832b4068b7d; 0x27a1863defecf0ec7d3c3c921b099c7a43abf62a372136f6fa1bf083a1378c17; 0x2012024b3d48f53beddd8925aee1f5780590fa2c39fbc32b2be04ab78a394bdc; 0x53570c57d201cb9850438f7c67c428f05459b8d73431c3786087c7b0764e642; 0x3a8f2a15217398c187ab11bfaae6dd3dca88156deb13e2df55f983e450f0ee9] ([0x15d2a7699bbb75e92944a9bce234c7c1ff969845bb03f66b1534caf60097839e7d9; 0x14525c0b6058a97edca0f2e7fef4add0a5a5a0bb746f35588159009a1f0520ffda6; 0xd2a399718e04ba9fcd24ed399bef52593ffc5ccd9394b9487cf66116472381f4b5; 0x9811c536cff316dc7677cd23696c4e3eb2e0b1d2f4757afa2a7b95950830b2a6c6; 0x3fb082cefe68eaae218e750ce48fd0cf39e316538da4c2ddfe806b48c1ca7315bb; 0x143515c4f839500d6232397eec7777226176ebf5a98e01010e449ddb2d5edf7322], [Nil; Nil; Nil; Nil; Nil; Nil; 0x3c48d4b48f4effe5e8ca8e37c97e2c3b0667da3911c1c992d95e2aabd3ff69f43d; 0x37ecff3ab49b08138ee387d515979324d138f5456409a983d72613b69b903c5167; 0x2560f82c5d923a7a6fee25a13e35ec66c551cc5d1e41bc66efd8178dd63f2845e5; 0x1b4e7a22d5c9cccad19ae241e1d3b8b60ea279faecfb0f9453587f247be3fb3076; 0xc713dcd6fdd02c1a84d56969a5e3c6d278ebe6a5fb74b1b7f6975e022c578f338; 0x526a9ab38cac6b3a6f8c0f6547e2a3d524aba46fad06ccf46f821187dc1ac2b30]);
ISq 0%nat [0x10d2bde314d973bdf363d6f1c38d0a7d9536fccc933188c1cf5da78048dee22c; 0x1ae3fb1fc4e658b7e1832112e4843995600676a433885c995424fe6c1edf3052; 0x40e8f3f58ff00df35b4d52e933096f304ba669706a1fae463f1132d67b429ed; 0x4a8ecac4af826e5fa3008325909d9190812ab8a9f3311b0066e3da77abae5e1; 0x1982678470ca0a10e4fc9b61d633d31ebb426e6728c9419ca104e8c550a7c523; 0x126d6cf9f1dada516a7813b8de9d17ac1565d83f390410d67e8ab0236183ed22; 0x1092867e651054ebd92173cbc332fe8b4bc350327d7341b1d28c876775ec18e3; 0x298389f289ceb1ecd66227dcf164707b23f2391b89ada9cbc26f6c15406b489; 0x2c5857388e99905c240ea211139cef1a1e86d37e869f9bdda6269386e8f60b6d; 0x2517866ec22d7a4f0fe3c59225f436fad1654937ae3125d152f32380080279db; 0x117aa9ad70788445fd5c2183bfb765c075dd1de97ec2f459450dbb6050a4047b; 0x129e3d9471f587708014ef87efbec7a0829cdf150d8c406f1818b317369a1d84] ([0xefad4a8e37911cc138ee20bed588497e49efcaf5ea0e498f886473897d09c71481; 0x742caa70f7a2140fc72731dc27891668875f4f7f6b6b214b00c971a9155f045cbe; 0x3be775b8d530ef62b68c1314352c68784d48a2d497f74407bf5e084e82f66be167; 0x17795ffe2fc3cb3a4046f5d98f6152c3c88eda5370aa5f66123fdf251814f2a781; 0x18b1d82c29044dbebe843c74cd420ecc87ee7474abc4661ee453c14a45c42ac60e; 0x123ea086d7041ae28856b52c042c747ff6985d90307e4a541c20c407d1832f0388], [Nil; Nil; Nil; Nil; Nil; Nil; 0x2a325ad790b924fbfff04d88d4146634b7ae0b430308333cae8e7a30bcd34de32c; 0x15ce06074c2e82b8efba481ff9c0a34e67801229b111f3ee6644cc0d001b2d82ad; 0xc0e6b4d4e0e24bc76cbd3acad82f77215d59b98c591326976544b78606877c5f8; 0x59606fb22fb4d9a0e4e63ee10f689442b31ea1a357d2d5a6f7da3d3aac628b635; 0x5ec830f6723fab33d70a5afc30cfbe5bf53323c5695ea40f2e2fd7331ae4ddb17; 0x48ba73a4eb7c19bb2ad96dcbe57eb7d6b0d3d4824e26201199e0eb5de7f3ed54e]);
ISq 0%nat [0xdc6ba0a15145c9089d1ddd2277a607035cd6ee3b9be0def9769bb33c7e3f090; 0xd5100d4e7e917de8107a0540bc715bb6d1fd7de017f8e4658b1ef38e7bf6f05; 0x266fb291a57e10e642487cf3fb2dc10c0342da67aff7868a0631bc7f26cb85de; 0x1e5f9ffee4bb2757a3833cff7cc187f59c2e64a691c28396deee9eb98ede9eea; 0x1db6c309502d03412248bb5b2980b3eb82cfdbab168ee0e51ea60f5371e7bcad; 0xfc852912a1cced4f5439d1ba64a6c93d5e2bb9a50f6a405772b1d442f8f3069; 0x4dd8526bcf06b0e772bd88851d2b6169205932a38415d6f3e8bd218a3ab1cac; 0x14a6c35f887bba1226d3f1b82eb3c84fc8a361695ff26372fde3103e9a70d04b; 0x24658e9948ca4db0374e593caa613fda03b49c0b5c02d412035f6cefc1e94e31; 0xcbebf4a822fc432d0d5ccc5f5fc8ade28cd305cc86f9360d220fbeffa1a626c; 0x114853f84cd507f5711354be78bb09056c176142e86057831bf8929a16cc2728; 0x1b3a5f59e4676a4023b9bb7b78c5589ab3cc335b1874e8990540af54d2a2cde2] ([0x1836400fd64b9ba6b50f3be2f0ab193871c0ea63ac722a4baa25a8101ebd3c6afc6; 0x1792576d407289ebea4b2d6593250a83ae2464b1006729511b332146f0befb9e547; 0xe2c35928f2b0e6c010ee7957b1630bd390fc22859351a7997d742ddcfbfb9b99e0; 0x61ba640c9dbe75259b7504a1799f85a47feef3dd985ec97f227b87489a8c1fa552; 0x3fe03bad1ee91cb47f45709602210844ce3a397995551b4a39e83d0b110427fc06; 0x1a4bcb5c73503b4b301953fe601784f152354698c6e5f3e95a112575ac5780a53d], [Nil; Nil; Nil; Nil; Nil; Nil; 0x412d97174efbc8f4b4ef52ef6c33560d32bc2cd6a2a2514c98876b2c654789ef19; 0x3f66de7785722d92e6a008474c97d06a5de5b9a680317efef8cd5c84936500d36d; 0x26d647f92550bf3e2fc15e6c8a3fb8bf9db79c7d867a0bd8d3518a4e13d91c0b7e; 0x1188ca6f0b8e32d46180d3b0b3d9dff0b60b9bc0dfad99f36749ca615b8849d6a4; 0xc150be4ca87ac5ea25e4bb54d4e1e5f5f7c905b79c8ca08638531e8683d7a5968; 0x60d67c371dcda1a6a3398c8e3155e13470ec0dba0c43be24669373792fa7fe5c4]);
IMul 0%nat 39%nat [0x2f647654ded7190fe4dce98605f63a8874617073bd4242497f6960f35da273ce; 0x2d4325abbdc0f6479761787096ca823a90ad77a5720a0dd7281379c71f6421e3; 0x1b1e3b962b7609949b56602279d36f238a4e141767539afb074796b5262c5e33; 0xbce9be7b40c37090b446c29db1a7418dd1f04fefef462f53c3d3aa11682dc4; 0x19687f2d0e115540e3c040e00e81ed10d368ac3b84898e0af83091c5ccde1075; 0x29784a0a961700c2c43711ea74a475a838f62de0bf51ecd6bd6b16bdcad2343b; 0x2d46b9b032fd5cf83541f4b66f29ff99bd0d0f82a7c1454ac9042782b04729fa; 0xf7bea2eedbe3c9f85aac73e19b0482354a6fa43abe522c798b599aa6c64bd3c; 0x2dff3b2512c48488bb07b1c77ccd35bc208a6b5f6bcbc64df16e77c16964f732; 0x2bc5d617b4ff47016f613291f6a9c856c54389c9f8129356d2ddc69845f990ea; 0x6c71940f70d7c15799435b2b63f3fff6eca900b9c35c5cd2885964db5e3e16c; 0x642a93a8a9b68e1313d301e5b38a2f025ad2ea6610eacc63d73c3b1fcf138ad] ([0x14a21f9046591a97f54b5f0a16feff7a3678bc8089b2399f187270df75ddc1f6a8e; 0x14981122dd872ce81a84e04885fbd9ed218d0e44588bb5f7848253cb75feb232840; 0x781b332868eee52b1fb4d0d6dd42233976dc5f5d3ae438ac7ee1f35c5da1d60d2c; 0x664dcd7aad3873f3abe1b199c735aa317531560e5864abdfdc0ad999a4ada3f438; 0x7c359df4b5bb4aa63aaa6dbb6cdc2830c6c5aecf6d344257e411a7afef4f2b42af; 0xc0dd667eb4e73feb52e6ea0c92ea0a44723fab04a1890afe72f097fd281dbc185], [Nil; Nil; Nil; Nil; Nil; Nil; 0x38db46c42721abd2092cd49366be7bbda8f59ca2f686121b9781cfb947af5cd4a6; 0x3879d127cd896428426250ca9efb3c6782ea376fc67f0e92a8983afc62bc13fcf8; 0x15bbbfa5d0740be34b75cd3222c87f71e4b3f8e7d9d8725de485d3726e768d9aa3; 0x12ee496b88c11d4a3ab138c892171af99db48178a609bcce83ae05ce84bf174c04; 0x1649487b8a55e3871c19d7b76bcfea2034baecae33880883d9115c0fafa536db47; 0x344c4d332ee085818845889c2f77db70da084f956d4cd5be70a7605b7e35e1eb4]);
ISq 0%nat [0x87f2b65a5b952d48165c3547115340b7dbba1ca004602e75641fbc307e19fc9; 0x1e845c5becb96bdba14c2fc4e88d3f20ea21c646e0c340c383832a0e378dc4ce; 0x214d039cc35fdc2f0b58f63a4ef3c170c64d104039420e3120047d36618233b5; 0x2d8571b391978f634664dd749aec517ccc084b9537d8c13c745c92dbd7e3e3f0; 0x1e07ab4ea7c17f7528ca7d4785dba71d06d0f2406e8b1b55387afe21a022e386; 0xb187cce03c5ea03dc83d87b61d26875d905ff2d9436300e106d0575c5e54eb2; 0x2fa42febc62fc1079afbf2d458b25e7dc2afd85e259ff2869e49217607fff428; 0x25db9e71eca8ad6304a64b6be0f9351eacc022b39fba847f0fb866d0245a239; 0xf97d1b368f1481d35ee805fffba145a6d141024793ff1124fa0801164d4d1d3; 0x2a83b57d4019e0bf74d8b3b31c41d8b3b63d6348209516959865b7024aeb665f; 0x2514455dad1750ab2c1be684bba54f891ee67f0f09709189715e4723a2bdabf3; 0x2ce93e5028984e453e5ee3b231d074b887e43ae6ff90fbbf0f38d622a54c9b77] ([0x171a57f67c43614f53ba7929d187c8726eb164095f1d7f778ccbc23f13f77fc7697; 0xbe8970355b52ae40251b9080df7e5be7997818f9564344c830721b63d7c68fa10a; 0x7dedab0582bf48993e2f69cb19e0faaeafdc1998daa7446bf3fc7009ea86402430; 0x33661de25f76ddea647c342e57e64cd48f7cf8f9440cb50a8800beac285256791e; 0x22e2fdf1140cd18649be6d613d6cbcf956aaf732a7b76b7819113ecb65424b2eb7; 0x1f4a28ec7b75fffdf3d102c002f0156a992d20ebe72462a9037b3a50f463f39440], [Nil; Nil; Nil; Nil; Nil; Nil; 0x3fd971f808c512e61037a37fc138d19290b4f9372af52915caae3ff4a355ae891c; 0x22cba30a4f207093b1ed8998ed4ebcbd852bf8187fd525810a6a4a0330a86e6f97; 0x1883606bd3d35802f43d0f10026fadf60f2e8b71b4826cd8d3936963a365ef8626; 0xbae15ccfa3c5e4f7c6ae8098c2f20b8f3129896f7ccc5538b42e4f9c8cef045a9; 0x85ae139e81bba9a3d314b7371df8a0e70c75f51f4dc2d4568d2d4f38bae821758; 0x7a40938a367a910daecdd3fc0f982692e206f0bf1ab08169e7e41fb527f5fdde3]);
ISq 0%nat [0xfbf06321824c8e063c640449caf97d5d5fe8ffc893148de183e925fd7cafb15; 0x16d7f8c41be7a3e4814fa28e9c2a2eaa28e8dbcaed77ada0886cf5c5ac973e63; 0x1606b52d9b0272f0ea4d0093e58dd470547671db66667dafdc50cfdcf9870385; 0x3229181283a1166a859cf1b2591613785e7b0ade0f33f02f7ca88108f633eb8; 0x1162b5de74de891288618469c491a85f318673795531eaa61574bb1e81ef3203; 0x114c20b1ef9f0d498934428246268943022cfd62c952a46e2f07014b96a16e60; 0xf903d2157cc6e1bc912096d65db8683b1fe3afffb59148f595506d5c805decd; 0x29949a21c944effda42d510be6e087c08ce502326e59c2a0e9c4ee044eca562b; 0x202d9a032eb3ca22696ce8cc27d9e6956030f10c9b6b4ce1fc2f7a74b9048f00; 0x26e44f1a30964df9e801cdc4c15907612d2efbbee3836c139749f6d705218b27; 0x239c6ce9d7d577fff0e3765ffb48694a02c0a36c432b5b66ba622352346d338e; 0x2b6c45e308898353b9db94d1e1ca0cc41616668ae3fd1eac16afbabc7623d8dc] ([0x1cc1f0e88ccefab2dd1a64049b21de350c719ffe20f32f5f338cb4e86e5eb397f64; 0x25d4cc366052059f7d548e832a5939b018cd556eaa135afdbdac2bdb70c6e7bd965; 0x2a4976600f4ae1284453174fbfacd6f783b84ac3a94bdee12a94c699b599f5f78d3; 0x1bf30f8305bc8c05dc7ba212320b62ad0b5c5eebce760af134c7c5037347b500f20; 0x110e25179d0aa9a8e6b0e26108548df28445a839c5d52bb4d7e193b147310d07ca8; 0x25dac6fa2a9bd229ceee320daeefce6cf1b9438c0d6d3a14be37e01e888cd3858c], [Nil; Nil; Nil; Nil; Nil; Nil; 0x506d6b87c10aff0bc2751976d7cc41bab7ebbfbc1dcfd6f43ceab9bc0b10c6541b; 0x67422f69c7ba836a24f93d2a1364c81aeed6fbbd648c898e009e62da55a07aab89; 0x729ce2e28c064c93de1792f51044fd82762abd74fecb44c58761ccac9ada768db2; 0x4cb85b88700f78abc6c7e17458dc22db8003461a2736d4922f987f622e491badab; 0x2f3b1b385d9ebe22986df821519c062a086fce7fffbce96f3b23e1c1168f7bb47a; 0x91555f01953b5a382da8dd7cc00d0390e857567a4e622946a61f9b35a289cfce8]);
ISq 0%nat [0x12f425e760e0b9208f0b2a683fa6bfb4e4c1e62901cdb6e3dd7ffa89322b5800; 0x221cfb6636fa2812b0e95842c6325590043d62f9e1dddb55e734f53296aa22a1; 0x2b108b3f171234114dfe7cb4b341177727b08f68ac84944a88a215bd5a45da25; 0x27c6c76cfbcb2ad83c6721ca4c35bf9934f0b5b616f584d2988e2b55f37adb59; 0xd2dd054b90025f16cd3e204e7e09536cb8f971c613fb9e700807893f8f520af; 0x11ad99e1ee347f2d41e9d2d00b9dffa3b4777ca3da5c3bf389469fa2e835c5ed; 0x15ced9d418d0281949322873d3a64e901f4ff56b330a0dc21f382a8633ff28d7; 0x2eade37622b3c95b43f8da7898021ba47f7b35db5ef88b946da0033a4bff2baf; 0x1fb18fc60c0a28e928146b743287ed58b323448a868ed416171c3b4911506436; 0x1fadbda68f5b354000ad9d373d4604064c44e22cc5da8b2e02c46cf5e28572bd; 0x19db5af2707cd0b6a4ab61463c49560a8827063d07affe01381082fd9b885276; 0x11a5ae72c67974dfafc63135c1e4894bedfad3f4fd9bdb602495400eb3054fcc] ([0x39f2702c05019fe5a78666efb3d388afd0bf0e631a7c3d1454fd791f44cd4b28603; 0x2bdf29c02dfdb77e66a5edaa1dcfc07c9e356496038967ece4dc0a7b4945f172075; 0x24e6510a6d6168f604a41305cfed9c71c8c5ec2a6a4218f8ad235de8bb2b78d687c; 0x19c4297a45537e64d1785be62dc1b918a49c3e1f7201bf102e556c37cae028b1021; 0x10e19c4db22b1de64cd4b4e099fcb2ecd5145553eeba5c6c7fdaa6fd13df501886c; 0x2cff326579149685f5074804de2557b9350f378ec67bfebdbbb9e306ba5535e8e5], [Nil; Nil; Nil; Nil; Nil; Nil; 0x9a9b8c145fb3266f7af6b0166b0c57ed1bda1e5d79526e9fd92dafd595d47f6423; 0x758002120cfcdcc2b084c56c06907bb15c5671be648cbf8e38e56dc48ec397a113; 0x633175711debb77cd0f4c386c5058ceedb132bd3fb43b2aa14ae419a55b05a55df; 0x467778a875a482416c8f6ea231c0714fb258f797f85fc124f39b0888dd910b4ae5; 0x2f448af14f4f6a938c95dfbfb8e35e781ff66318c4d00754cff092e58d2319c386; 0xa75c2cc196e10caf9524b7a36ea8eb2cd05c8a748db266ec0d91a1a634171e9c0]);
ISq 0%nat [0x2d79f853b4674fc2724eb1791bd75b6a1f84c7077074dae3a75e99c000c70283; 0xaa04ea02d85459e198795a87b6c8af1a8e065ef088891e103faa11d9c72db20; 0x24892311e9a35574653ff7872522526f60f7ba3a0d55e10b50effdbe2bbf8859; 0x1a36c831e53625287751bcda866ad57227325291e18e89e54ded167074732927; 0x6f7e916d2ecbeee2c0754d2cd3f89445a386643053d1c801f9746f82e4f372e; 0x1c2ce856870ef86818970d7870da1ab30e254870fd3b9a8be4425eef6ffeffcd; 0x1233787f682aef07340f633a0bcf509df3e941fc0668522365ed855232249bd7; 0x22c95a2f61027d6820b06939f7f6fc698fc8fffff4e549a30656c7bb7a7e1a6a; 0x18fd9794a32b4decaef964b060c9be7d6f8f82ec030a893fec5bf7fe12a522ed; 0x2060fef1b610f6848fc15a2022a1568e81b90171d07a44045ccfecca0f0c5c31; 0x2fb68e4bed6c6eedc8170b25ad5a72b32c1b6aa1c192ec0c30106e0e89f42f8b; 0x1f767e8743e555f2ea9730716558739e08035d0885ac3b85da0c3ab5ac0578e9] ([0x23a19b913f26b2337f9743c3de7a4a2bb9de5ea503a13dcb6bc245b952dda14e92f; 0x17a74160b653937a80f70f3fac8fc407cae2a948967e712882173fcf655378cc480; 0x1016f58d03e49b56ca5096119ede86a0ca83a48afea2204f9a0ff1239b092908eb2; 0x923bcf2b8471e78480627eba837d6bdab9f36deed096cebeb06f380ea236e7191f; 0x4a83d3623eeb33b466da078849a04cb1a60097df014e845c7501c80d8e936a8199; 0x21f615994fcf782f3e7d12be293f9f8cd221fbfe26dff523fa0115e54afd7b3e73], [Nil; Nil; Nil; Nil; Nil; Nil; 0x612329b8831545f738a44c2871f424aef3ebdfff141e4e1d8474360435a58ec142; 0x41521903b0835a73fc343666d72ee63c06f7ae46ddd9dcf276799f212cab1645e4; 0x2d5de292a48c7f4708f869375b438466f829287aa0ab33312f226e67706d4f9430; 0x1ae97083353f679225c73c8ea6f0d7d86525d8fb58234f4d9c6248606f9f996dc7; 0xf3b0f1645304dba6f1500c8b330094d53e307879039d2b488c48973acfc531440; 0x8533d1bb1691808dd907f312f976696b53dfe4ae009a3394fae53e0c5b50194bf]);
IMul 0%nat 44%nat [0x1a2158eba49ab6d9dc7641135b5fd26461827175507452f511295bbbc4625527; 0xb0d00c21750dca56d4be278da0e421857d566ce45fcfcb36b93edf780d9c3bf; 0x23156ca32d3ea935ce53dfa35de96f461589658409d9269eb2147a725193ad77; 0x1f00da013f5fa317ccb8e756ae2d73df9b439d5c0b90a161af4a6e55fb01177; 0x112d96ec355a6b1c9cfadbadb18a4240119e8d26881d6aacee4b0bee883b4d0; 0x9c305f33b8d63aa7b81ff5abaf13ebd3c6f5b7db8ffae9a7b08c03c1dca2076; 0x108ce944f68ef573d2238ae3b269244b32198e5d4fa23acd57893e389883175b; 0x22455137a6ae4b5fd800215a871859564093aa7b75c4bf53ed9156746b3c45c5; 0xbf83539291675a204c661cc7a0067a811512794efc19af908df086fa5627eae; 0x997ccec66520ad3593efb81c9cfe91de2930a28fd61683c3c6a9748ebcb6344; 0x157db2fcbcf94569f7a0e8321f4bfadf5d287eb3acbe39c66d81a2411a343bb1; 0x2b210580ebd7b2ba0b2b83363fa2817f29a5c1c497c4321276eba487d69c096a] ([0x23ed238fd91feea0680015ace6b277901b8f9b7a41d575cd2d2d49f085d9ffefda0; 0x173e1ef1ea023e1418d4f5f1fa7c70364ee7467230ca04c15a07efcf4638537a074; 0xe209379e723103e32f4d7e61d29297eb76aa4ea59cd6fbe5cd3a8d4faf9bbc809e; 0xdeb0901fcb8ca256f174213e8990fcf9d15092b45ddc46c13de92a070106cc39aa; 0x92ffe0df4c9ab82b3a27ab4f15aebc2e4ce528e1c658636b7c256ff07a470112e7; 0x19a1a51ceed1fcb1f79d233b17395b794157c6213ce740b3f97358d0aa124de281], [Nil; Nil; Nil; Nil; Nil; Nil; 0x617815112f1777b5248bd3bb64432fbeceeb8f7dbd577d36bfea7c88e22d180b6a; 0x40436888a6ace7b8f817e1a990f54ce808fceef667cc870b9831e356ed108a566d; 0x28308a6eedd21e4c29e056da5c5b085d20ce213ea64bfdb4045774b94863ac42d7; 0x27204145448027bec193d2c947718f11d02f64426f80d005c8cb61fafcbc272f88; 0x1a9a63a2cef1d91834c0009a24cb9cd663b1cbafcd75e3be841f72fd519efbda10; 0x6733989b2427135d49d349a7d0037853fd608bb1a14557f745c071c5efb188520]);
ISq 0%nat [0x2a829e9e4dd44ef35b4fb67856f86d4a9486b61df9a9a2896692e3005e301f9d; 0x1b54c12097fe62af1b35559eff8f4c06c07cb75d7c06e2f107ad58855299cff; 0x276e5ffd10823033c89ded995d83fddc209f9baec475044b89feccfc41eb3e8d; 0x12137830bd84cbec92e3e8ab585949597a1d64f4582449556995748a0ceee677; 0x1e22fda071aeab8fa37b7ee3538de44ea24916047e0e02f9d6b9c55b3abdcc26; 0xb945bad84a74bf3c55f098df2ae6624494518415ff89de952b870387f882ca6; 0x1dc8c8b2230e63cf7cb90baae2892958987fa6fc491c66d9a1532959bbd61c01; 0x10706e7f354d2eec67edb4bbf2f9b7d0a15da14a6c6f88e6e15ca6b9dc0b3a90; 0x24a0a474cad49a5b8e064977ee829a6de803bba63607b35a6469f7787e650d0a; 0x17b5459840475acf3a0c89eaaa4a8e51d76dfbf11690ee4fce784a4144f6ca8e; 0x5997929e8a2d6d0807af523ce95dd2a55759da15e41ce8c7a6fb2fe5302bb75; 0x19a24ba4bf390dca73b9af2b049f13c553a18098666102ceda1e2ddf7658873a] ([0x1bf5ca860e058afebe575ee0257aa8f8c37b24004eb5322209fc107a5768b375546; 0xc9de094cf0c51cb2444f3db78e8beeff6525546eb1cb06eff0b05a1b73ee56c6ab; 0xa681e765e65e2ba42ba863d6e81c1a235b7172009134dadc165f61db9be3e03510; 0xe7b7f74c259a70ca36192ae60e9a884c9eb03e9a016c14bc87c6bdd813e8976ad5; 0xed18f376dca1cc1d85dab00b651a8b6d7ee2d2271f47064033259075d7ea2e07c1; 0x14aa6c67cdabb5f8ad9c0d3387545064ce049be26b5c1a0f2f85a4c23d481add24], [Nil; Nil; Nil; Nil; Nil; Nil; 0x4ab9be8774f0c38a08acab9b61bdcca5e033d233f1690878f0311c5870ea900e44; 0x22fd2e5a94d605dbaa30d7a51d03ac99eb7cf99afef7b85479d63c9de172457cac; 0x1c4261888c5ddb6ee60fa7b51bb1486b9cc77ea346ddf22e8fe9331dfc845791fe; 0x26df7e034e7f6a48d12467ec6254501f1f6a5d45bf225fd3d7a843baf34bf51cfa; 0x27f430681f1878cf36f38745494444d57db28f39b9150411223d1c40caaa04e86d; 0x4dbcf3cb032bf00d6aadcb4d52c8bdadbab4b9f5b6d5c39ebedf5fb53ff39f824]);
ISq 0%nat [0x15a546710510b741f7eead284f26254e950e00ab5fc2a4182c574c42946d7f7d; 0x16328624e8f612ff957acf676b2c85b878232ae2816c7db5fde4c2ba2e96dc8e; 0x14ce6eab13d482a4295450b640047e924ec6b3ed6a598c293f88b262adb7d591; 0x2d7fe929943844a6f595d22069dd2c47f3c252bebf1b9cf5a4174544c7199dc8; 0x1a6f1325f24e73e6b8e02d4bb813d2df2450e8f903bfaa280279c15a65c39949; 0x268d6fc79cc923c4a443d140278d64cd4ddb754403bdf0001c2016c71fc3920a; 0x235cadf671a4d8c189b8209388026cbc04f94a206a0df2cd104566de94b099cd; 0x1ac490cc697770b1852fccb8ee90f987105def54df5317c270087aa88b8a9b5d; 0x69def762abc28bdb38ac1783a035942510c88bd2affad4a33d070d7346461b7; 0x5d05bd6cb797b7b29a6b69021b0ed732b2d2fe9eca8c9c6a9e5bf890157ecf; 0x19eea2dd8350f2386d4638782e8af1e0fb98c1e715bce6851f121d5c11860d8e; 0x14c64979af219c731a252362ff05d6ff728c05a7e41f1aaa015f386826176cc4] ([0xf84a570cf5d839ccc9249dedf9b4ada5d41356a86bff95ccf125b71d7b56c88a96; 0x123a13bb1ee67dca9a0d14aaa3162a918ab143b0c4f59132829b1afab5617443c94; 0xb0839d2b1a55bef933195bbe2fa8eddf2138ec48017293dca89ce7f365e966bb06; 0x3e790b8360886996558359be362b4e3bd2e587148149527be4eccf0190e8615984; 0x62212c94eed582d2362796f66178d33a56d1d622430e42011ccf238c4e64db15a2; 0x169e6795e312368131942230e44a5254d8b440be9ed29e3510f6cf7bea6dd11464], [Nil; Nil; Nil; Nil; Nil; Nil; 0x2af247eb0b495a107ebcc0a44c98ea6c4252b9356edc26205e184caaaab58580bc; 0x321d56463440a2a8f1345983d327a807b3959b6d43e0f3d0f12c7014888a4c86cb; 0x1f1b2f5f63f43e7ba895a5ae6b87becf858b6f331fd8b772487370363311c3499f; 0xc438133f0dc0e85e249d694633a9970eeca0f4201fae281ab87aa3f825d93a7c1; 0x11bf410043fc054c14c647266f59ee6f24cb6a300238ddb1de3eba4ae51972b660; 0x5949febdd5234c799db1fd1a4a00c9e19fd50a4d30c0605f3046f859f9f246e1e]);
ISq 0%nat [0xc613693164bdb41601ffa443c854f7bb0fc5b301d7b1667ab7e5bcbd6b3dbbc; 0x19d872fa36a31c12188c1009dce28f8711904108f17bd5c21e58278630be6f2b; 0x1cd1e14c51a05ea43a59fed2d1493ebd295633db5cff79119fb247cda9bd4865; 0x23d9a3f016ada76c45d1cabb476860b943782d94e324c74b1e6ef7327e0e6f58; 0x24a5cabd66d8615efe8a0dfa53b2f8a987c267ea265d79f21493f6a5aff2631c; 0x11c3b5016496c733dc1fbb01a41afbc817d8fecad022cd5a655673b541c0f114; 0x177af1ef8c3ed01d499a45f9698b002d35e85a5188efcc1a612318af8aeb6581; 0x2c7ec9eca56bd4b1c244f3ecf47d9171993b06ea2299b42b5b3af21c3138ca23; 0x278de9b4f848a5d1f441004e483728ee7e7903e72d85e339aa58b824108795ea; 0x1de73ec654404960d8a0d111e61ea081aec288ae2c9e80652fcf3ecbb60113a8; 0x1369fe98cd188a2b2663827350a4082361cb4f9be94d5f3bba219d5fd5d86cff; 0x17c27edc6ee3887f6bd19ea779223b8f6d096a45373728503f24369ad1b0ccc1] ([0xd318d4285ebd38bd09525ed66ea6d29145d3133e8a3c3130e4fe2559777e5e6773; 0x484d1bf60c89a11288261a0a6c394c1495879b4c8f2ba929f2759c8d076d9a6331; 0x6f6c13f7001fdc190b5a0b7fc9df7ba528846d8113677734d24414ea4e4583a223; 0x9728d91249957aa0a87fec36bacb2541088d54d71a077611f61febf459cbe1087c; 0x4a4a92c03e5d0eea96935fdd92a3833a0064bb5bfc716fad55c5788edf497f7e61; 0x12906ae59f42b6223c237916bac7c72ece95472584e634e3120792a58f1c5040d0], [Nil; Nil; Nil; Nil; Nil; Nil; 0x253aec2463c544db9c28b6f63299f9b4da83cd8bcc70b817ec52ecca4531219f65; 0xe7cc8246b4f8dcd94a4f6e15beecbd68efc6e683f1b4cc1059cb15cecbdf3df69; 0x14826d785a284d65be7861b4ccad439c452999f3903972d5d081f591b9a4e7225f; 0x1aa3d424ae377dbf063a193ee65799f8eaca014ebf5ef493974ddd4672c719a108; 0xe18b6dddef45ebe87602b761492cdc24b4fe86e23ca89deba18be3905d5d05e75; 0x4b56a152356de3964d5b0948d64d3bd622ce89cc4be82e67d8b639b986052e2b1]);
ISq 0%nat [0x16484dd0c090c94c79f8fcfa64fa01f1f22e4088a44b9b4e446bd27a952e4934; 0x287d35319f1269391592ec1dcce0db7884bc4019b1d55e85759c4534f5912c61; 0xfe96c998f6a4585326fb61a011ada9f58a11558d219516091ee9c85db362a95; 0x34eaecea83b3c1754a635ce369d2e7b78dd511361338b4748d52fadfdadaa1; 0xb7295f72af80a7130f9f67df6804fbb6226b2041e79f837d449cfe27fe3239b; 0x779e4b05e6c2bc11d4f25be2e32f5a09354d6756df185868fd3a224af5e6158; 0x1c3b8a250cc903ccfcbce080fe7217e69bb70b45be2f0ae1798f408821bedb75; 0x88ea886f8c8471f6e748987185e8d07fc2ada185fba8e7ab38ef917d12da058; 0x2cee1e13244d609abe83f3a6c0a7e2606b51f0d13bdefa779885ffb1c1dd3590; 0x1c4bce458068ffd9f2ee22999a14979ec854ea3b2028bf709c13e25d6f14e840; 0x24679f1069e3efe21314d3c889472225692b3287aca8e5e155786c01cbc2fedb; 0x2b968705e363f49df16cd8517f5641d6d123d5ecbf1847655f242c5f900bb05f] ([0x25c76549f0b1a8bded6cea0ded29eeb2750f4ea6cb690902d453ae2088910d3816a; 0x1a22647a40e31871607aea7c56f15ee41744802a01df3978256f67cd4977373638f; 0x10b39a461592dc6da0849e132e416cc04b72bf1d0af527cac3a8ff11998b57903ae; 0x9e694fb5887cf16ed1aebca61b7f70b5a8f077debd5e582e9b0fabea73294e7705; 0x6a90133f990f560a94af4193cfb5e783b59010cd1f257e7f9dc5b00ec33f216ec6; 0x221fccbc462143bb6005d997e0656b64885c4fe80dd554c2975a8bd6c45d217aa8], [Nil; Nil; Nil; Nil; Nil; Nil; 0x670132d4640baae951f0351ee3e1b0706d347a4a602f2385585fb6e4f6722f59e7; 0x4827b7f27ba17c348972c7801e1cb2fa70384bbd5c1005a74abc3353ba608a56ba; 0x2f5e4a94abe9c5e03b4373709378ea21ec3edb781d0bd9c515c1316552e16024b8; 0x1d61b8c267a1186059fc4a22cf94bf909fe09e4fd112b45db6dd9caa74a7c7eeb2; 0x147d028777044cf4b7153815071fbd55e97a7a7d74e115de74a0288d512bddf869; 0x86553ba3e225ee0556e8996f5f6f418f42db7907f52183855947db783c9d7d52d]);
ISq 0%nat [0x12f478bd82c0c6a1772cc89c9c94e4229f32571c1d215a2badde9f688b950be2; 0x243bf7cc08f131ea44947d90acfa4cd702c9b6a7676f4aa3cd5193fa62eec314; 0x14e2dd84faceb96c84d0021cf4670f3653d787a61efc4f9d321d4d8e9930fdea; 0xb596bc4c3ae9a0f491d3a8ffbd506e449cac3396a0dec8c3406c0e8493f8a30; 0x76760a3039c362ae875504672e0210a9bece2380320344ae2e3b149583256d3; 0xed6744bdbef21cd818610003ef22794e6ec92bd77faa2ce1d7fe97925d3dfa6; 0x2c22a21cfa3a23e5fc20e3cfdfbd44b03355f9c2b7c4fff0d46e1ab17eedac27; 0xc7d5de7df0f80973667ab38ee40c0c04285a4cc756f429d00fba48f9420048a; 0x13fd36f0510b9d8b583e36fe27985742277c276ceb3143f9e241e83ca458a9e0; 0x179bdb0b6c93b310e5223e0b3ae0cd2fbf212087c6cb185397abc38c6039f79c; 0x2e56c6eb6786053e0d9a8245b80c757150cda56fc6bb4d88d3e5c0f40478c062; 0x2745307b8ff0a3410f3a3460fbd1a9423bd06f217809a6a31f5b3c5def7fe235] ([0x26a0a4395fe5f46e790b5caf5ee302d0d1661a3a5db39f03e858e1345176f4f8374; 0x2dd33fb1f689f9b271d54a07922a307527b45223367427dd5f189eb478169d43afc; 0x1dd53af2bbf085d44de30e55061a3d4d76eb80ccd426509803d46ca447e25ef9773; 0x193e3b1869a389907733e969c8a0393924987a326ebf1029c8e805e5d6e38baa256; 0x104ca19c3ce435bf9190f5e0944f3cb8a7446a027e030ca75da3e862fab842615c0; 0x2524b26e9bb9c2ff2ff919f56ab0559f4bcdbabb8a08f45834d86482a2227c17be], [Nil; Nil; Nil; Nil; Nil; Nil; 0x67f7057e4f38e4877bfa8b3460afc2659b7cade490cff95099d2550208fc347f36; 0x79a6a0a9c92b704dda4a539616911009d997a7dbb24582de2bb3b9926914720952; 0x50057f9e0a39400a9c3559a40e1df83e42bbb19d2dc405d3a0f000df935769cacb; 0x441b72073931443042f708be69f7e26b6a9bd464ba5071eeb696d397e2ca34f75a; 0x2d2c3ca355adadc8fdc8f095e083f728829085f43b972d973cb382a558dfbd484e; 0x8b1d86c56a9e3d40aa7a6572c049aa27dbe971ccfdeafb380d995ba3b76d60d33]);
IMul 0%nat 47%nat [0x2493706d4ea5052947af042e7efae8126dcd349f6854b884ea277ba9080a384d; 0xa3d95d9dfd879205cf8f80ddae58a804391649b72e93912966c4c9840795ffa; 0x102a38a0e1638ea99df20c7c219175589dcae867ae7022c49cb356e76e80689; 0x1f9b3046b1e6a7037d5a965198df8f34f0d86f8ad007613de764e4b2b6ef1f0c; 0xf70e3a57a2a820d1363346400bbf143c6f54fc6c31328cad7ac606f34047133; 0xf2243b287bfc40aebe1d950d59bbd73750b28c95b7cb2f1ecf241d809ae5885; 0x2e48366954d3c6380f92e8f68ea5268992386cd7f01dc988f77165fbf02f670b; 0x301e0adc0c22be79ce8fd6686872c69ee9ab3b774849fca3cf39463b121b35f7; 0x2cad48b29a465057b842741a6c243bb09d954d11d6ec6b6edf81b1fc2d542e1f; 0x14e60017dd038f385112f26286c38008505c5ad540c33991dfbc33046de54077; 0x228ad11777c9fd5be867bfc32615a410ace6386e92443eb26984be6ce59ba04d; 0x720f9ddbc1a78332b8386e2952e04c526fafa85168d0fd102ff5e890e6ef064] ([0x1b403bfabd9c513a5d9c502aef8c7949f2b4bf397b7a73231c6dabd355df70fc17d; 0x16e12456b1de784cf82db6fa42bea783ba1b6843552f489f749258e0cc81a593a58; 0x1061e725af660ec0239e3f6a0a0abf4b33edc9a91330f0cef4c2be1cc919c7d48a9; 0x112266aa39f6429793e63131adbd1e787ddcb6a19a450a8cff6efc221a6114cc8f4; 0xbcd0e94f4fdef1adda57f722603cb70f19330729cf24acb74ab0b2b30620036ef0; 0x1d7e5c4984087a5f3141d78f8658140a092fd2760b781a60f5692f2f016b90a78c], [Nil; Nil; Nil; Nil; Nil; Nil; 0x4a92acea6d04c1b3dbff13ebee80d8ec29b4c255b6ededaf121992874492035ec8; 0x3ea71e84899f9c2cc26655cfab691f1772273ea559edbeaab8535323e56c06b739; 0x2d9ebf347b61bdfab2e36f5245e947ddba2ec6e08157a48793616e533c2aa52615; 0x2f64197d393f5a331a673678d1a806f1c79d1768c7df4fde6339f27f74a0c55030; 0x21272949f81f462b9b0671c75eeb176cbc4a157523631486cd5d37bfb4a0744b2d; 0x72c02da3eb14dcac8717ad71125c4c102020bf9a4517350f054ab95a623f2e692]);
ISq 0%nat [0x26c7e404d54846bf495e000bd0b527f00fd0187ff750fcbdefb0d7dc4bdacf23; 0xf31116b69bbeedd589eb781280a0b49ce556ddbd626df1dd30a55a945611c58; 0x110c999a81b0e5206e7e32c925c8f5d4360cd0bf70eda775b615f0df7036101c; 0x2dd325c6e576331d790f8ae230c9032d172165b2fece04d4d7644762c58ff632; 0x1231329b6a7d36580a717f4aa7857ce5f0d3ca5caf5f5032b7cf6173b2fede0f; 0x2d32619465cd839de854cef493cdd4a88f2ddd0eb10b0ebc932fb29b81c8c518; 0x86256c9e3047fefa6e9cc86ef13ca224cf2ae0f9f4aa0d709dae42bf43b20be; 0x270bbedade62109350146ca3c0e8067026740994696e6cc24a39bf047632e44b; 0x13de791e58bd9e56b8551edb1f383bb381db294340ca631ceab3bdb9210cad1e; 0x10673a2fda3614653a399e5effc112ac6e7f87f34bf9f25d93e801763e40f20; 0x1f81efcce8138d4a3999219499f7e6b4d21bc1ca64ccbacc1097194fe01cbb2d; 0x127f7e846256a2f81cca602f69fca17a5375540b3f3b24588b0784109e9b4444] ([0x22086e1d1f2672eb0683106d86fa8450bccb6244a74c2f41fea3c1bc37669496204; 0x13119f0e440f14d3637b0cdb06d8505a9e8bc8602246e30213c858ea304a3c5ea00; 0xea931d854ec52fe3fec3d3004452c41d7a53c911fcd4a96e6ae455344b1745f520; 0x6c214e041874a5f6e5f0d7e05adf5546141767d000a3184b0d7d2e32e1958919be; 0x370713152053cc9f1d23acb42b0977e9bdfe9d81f62282dd20160d05ea9ee8376e; 0x269c74d41e5e2967b4b9c42b93b212e6572b16837bb00ddfbe4155713200c73b4e], [Nil; Nil; Nil; Nil; Nil; Nil; 0x5c12dfd4863da46c944fd2fc3fcf11ff513c501dc6e9e732fef514643af1bb5af2; 0x35a7e848da766b054ef4e1f3ed2c3b6d12b390382e039d63f3f00d75a648f54d3f; 0x2a12926e8a22005b2bd21cb77b74df7f71a9f2859b4d58d7583f725402322360cd; 0x14ff1048104196e13f5ebd43693a7d52e134deac125ceafd7d344c19a3a320568e; 0xc6648a646d8292f012ec3ab3e12af63f4a1eb3bb86fe88459b3302801382cd5fc; 0x910c9b1c3a2981dabc131e64f9b6e74fb760b4b0ad2fb528ef2cc8806cbf69b6a]);
ISq 0%nat [0x20d5a0877f08f79080eb22e66236a6b66d4c0080a2f7774c1cbe75c982bcec15; 0x209344ece2dff51025209e27f931545ab2f59aaafe45a8a3f5bacb7dd6f67fc4; 0x200b1970a6f6729d0890cabb30ae29bffa06fe5639ef579ed1d7aac2e504e376; 0x53ffb2168811edef473cf5d581383d1a2ff80ae8e786b90a918a8d4405df2e6; 0x65b5ce5f7f72e87c420832f66f5877e7fcda18a483a422e92785e138f85ca1f; 0xc41714a1674cab12662e5e519311c5fcd2affe4ff0bd82ad06bea6cff53fbca; 0x1ed8b111e96d757526c38ab0f6f8e61c93aba8eb3ef8abacb776b532d513c5b6; 0x2c3295a8f1e833ee4f5096d6e6ade568a53b21ddc4b2632b66414e45a274bca5; 0x24e5ab519aff55436d747266f510e100c90fafefdc941e9eac2c10c78b53bad9; 0x2b25200dd07936e7587b848635b8109fc8c7da264fb9616da896b90c02ca9392; 0x2c2c7649485adfe1a43f9851da8386de5f9fc5dbc7d563a269d14180f52f14cd; 0x2cae430b4ffb885622130521b1dc32b24295dd0526b44a7ad9df0cc1f33f84b8] ([0x1695abfbcf17e5d479dbd09205650d7c0c9cf112e1e81b649cf03840b39e91d7fe4; 0x86f0a8e31e9d12aebc9b70f50f28c4103e9616c533f6657c5560518bc423edf49c; 0x9a6439dc3347b091284230fc16c98cc35e8e9b5ce83cbb8b7bd879d80c0a5e14b0; 0xac3e678240f0dd14f16b4213591b7472e34a66732241305e63c3e4001c65e3fd1e; 0x3a3a0e0fb9093669e203890850ca587f39fe34a1a043264d241779fd0f1f7feb63; 0x1227c4fa23cb7745a1ec0f68457201c91af75b04c89100da99695480d8d66b1f5a], [Nil; Nil; Nil; Nil; Nil; Nil; 0x3de00c60605fec8a6ec4659d0fd88f897b14845289e573d72ec6d8af5948553abe; 0x18df68d4afce30df379d1c8fb60b80a44c6bc85e5f2b17d6f400cd2e498c9c266f; 0x1bb35aeae0f7c2bad835bf1165914fcfeaa55d1e8663e1fdfd7324c84955f6ec04; 0x1e8604f70da054af36c017460f729f652c5003fecb177da2e797991ef89644e58a; 0xb4de2d9fa4891e7b91d670eb941389f5103dd91e6cc7f2888c4de255066c279d7; 0x49a8a6f210a7e81b4a34b9ea5ff81ab6da69e691ca4ff58d483f11f210068b522]);
ISq 0%nat [0x155392445eb3a79631ee50a73b17d0758abcf750bdac74b08463e257b1ae59e; 0x25bb2ce30b7b63d632ca76190214b50d7e231c7405adeae42ab82c90a5f55140; 0x1ff7be6b45868279b2bb6bef97031c014393ef17ded26253400f9d3459ea7923; 0x13eb961ae6fc3560674532ae45763fb3ca406f84e9751db2a80d74b1a2c4f8ac; 0x2dfb7900e906fe084959d0a0c22588da957e8f2f46b0de5f0081f0feebc02aae; 0xa57ba84792ffad16d72d2691672791d3a3cde6af02d1ba231371a30fccf3dc2; 0x1122768c481745738e0a696d4c66b389694321929bc07a4765e9451fff70495d; 0x93874bc50fcd9cda1db76e404b8c6bb958d3e3b8c412c917079b2eed096c5f; 0x200992e0fd4a9f5db1117bf02074551b660babde0d3d9b51487d0fdb02f02394; 0x227e012c34761b9c21234e3089ff12088b7822cef2f3e6a6b9aecd1a6d581747; 0xbc9bf63c4d77ab7fdf7a743e7c52f917e0ceac2b4b70bcd3068921bb62b094e; 0x29484c3693ce8fffba85525df023bb9b4445473726ec780d7e87757dc1482f2] ([0x4723b33a55b40309b4f5597e1e4981338d5e35bf43fb9869e479a9977e29f0589a7; 0x38081d09cdda7b5d1199f40876179c30701a6777e78e1da90c3c6bb7828e9a73dc8; 0x2dd6a3ce798bd4191d9230e5dec92e5c30dc09b566a0c2e41494424b025afbf0c47; 0x20840759795d1188cdce860fd8ac397a7778dd3c5a7d48104e11745ff33249778f4; 0x12941554a6ddc7cf19e8658eb91dc6609b0382f5db338b3fd27ee774d3cca9997fa; 0x410a5b7bc354aa0fbdc3fdc17f142ec9f54e3e67c91e7bbd73be67bebfd5521ae6], [Nil; Nil; Nil; Nil; Nil; Nil; 0xbe18c5242eb6c97fb804fbacf0969127b70c20e29746383420d87a9a3ecd66e231; 0x963e0dfb396ff90b81d9d6fc75baf587ae81869e24ab286574cc371ff849974a61; 0x7b36f81880aec0ebed9acea8dd8dc1ac1e1e30fab7a2c5ebe2073c8384b2681d41; 0x58ce673118b621339c1f254dcdfed8e5ace8a8907cfb9509bfeb13534af68b2767; 0x34cd3e8be2835fb42016fc2c1c09c273d3e5cd47e626d974073d3d6cc676d47ada; 0xf227f2664d09b9098d3ea6b61dfbccf7b5546d0872c4f3218f0af0888bd869ddc]);
ISq 0%nat [0x1ddbead470b4798ea6258f85c45388a383a290e60fb7553fe8c3786c37759f8; 0x3bf4676db4760a9bfcd1509cc6073446fc3c789a8551d38a6727b3616588bfe; 0x2cd5d9e9db2220489cb5768bf3eed801d841f048dbd1a1aa8125f046700f08d4; 0x1981cb2c141e9b25d87d54efa2ba019724f2afd5e2de68d5f89c1cd9c150f050; 0x1542a59b06c3b3612ffd2d29572e1cf93423c551c4090f44329a8dc0fd94addf; 0x2af63523faf774b555fa72317123b4ef60cadf3625f06b6c618b14d198e32a6d; 0x160788ea501aa17efbc88cc0188cd5116c28b1cea6c2c431675c843e4a8fb645; 0x6463b90dff5177a614f1158e519039900bd81d296851617177c0482847c548; 0x1a39d1b485cfd3c992a2d97bfa94899df0d6958c7b60b010d8a4b5fa9be1b0d0; 0x2fb8426897cea9f963c465ae84f98815fa80c712b58c2ee640a3c028e1f02fc4; 0x869720d3246ab476e652477790db18e6843ebb9cd683930fe73e4897a8cd8f6; 0x1e0e93b358caa407b9939513ef06463a525e4da2f358190e8f694600c7d05423] ([0x10cfde81a1661b3d014529bc645806fa0e3dee6e59d5a52f000c2a50447861d8056; 0x924a7d395ec2bad893d633ce670cd6efd479256ede8c7159619ca162f503115d56; 0x397d3542c30acc603d78b14c959cc80bad12bc666aef9ac0789ac969165f7775c6; 0x124d3396ecdb3e7085c9b781465ccbf25a1917be7321a466c2d478868ee5b6ab24; 0xaa9e3ede36692b8c8ca854a70bd28d5d998cd751217a6f467640456c89653cf06; 0xeeb3dc845317eef8ad37dcbcb7fe7609476eafb2b0c91c395aeead892a023fc8b], [Nil; Nil; Nil; Nil; Nil; Nil; 0x2e7d2a2681d40cf6975f84eafcbf56e74f5089539c6c0f875c4075e8273771b601; 0x19f178bf997c60aaa4d1758c3ca48930ab461914d56415a3b306a3394b4cf84454; 0xad9e3f0ce169cbb843975b0a686864d02d6a033a97e100571fce336d20d7302d4; 0x3fef2e9359d7192aedd045128d1fd2d5d92e1f588439585f3e67e1273757c7f3a; 0x2dbfc938258113dbda068123bed282c63e115130f07a9882eef0c7acba21f8eda; 0x3bee760092b6c6e212e5c8156fe444b3b3a60751ad9cc1dc19f2cf60b623bb631]);
IMul 0%nat 53%nat [0x2f5a3e8c3b56eaa0339f60596ee47ae1f8abdeea794fca8d63e23cfd91b68e; 0x536ff1f6c6b53e638a63a2d3ee77745601baad8ec1dc3740ac662ec291c21e3; 0x27f6dcda3a500e0ced989e712819c8d7a68ec30161a6126c7e5e81c8a44a2037; 0x8a2c0293a28ca6ce6ce0aa81a60624fed94df78c6b59f0552c5b76782f49412; 0xb9671a135dc2d0d29b7df616a9b47c5688591058e549f04cd8ee49acf703de8; 0x1cd1a8eb67f25d83e3d2f8f288d252529505ebad690c400db233ac12da04a429; 0x12d0ccf424a3ab5c7a278a48c332679b12b0cb520cb9f32a5e77ef6af261a764; 0xee3c8ad5cfe511cf5cb7346ba315693ad5772bc8dfff3fef8f6203e4b60be46; 0x2f80e476f5cf179f7d7b431e101681a5bce4e5fac1f3ef9fbb70338e285e13e9; 0x4ee91baea736d4d8ecc5fd0c442c8c86f1cd93ecc93d9240bded1c60ccf8f3c; 0xa02ed2496012b1ec44f8607a454915686bffac72b1c58f4c3bc2e07b99715d4; 0x14dae679e866b29cf1f6c48c034f307f4d8038fe108da24a8117502e3413809f] ([0x1ad6bdc3ee55d8f86a4dc20b7a10398f8f163e9903fa9a5cf587d98e37be4883b9a; 0x1cde0b161059c2601383c6fb484c689ba0de1f381a3df7205d0864b79037a67c475; 0x1191e23e74675ba1e80ea95cee91b0435a36a89b8181551bc308495e3fedbd4283b; 0xd0ea55158ee146ced70c03a9d688535d515bf40c80de42a3df8b71cf0a534d65ce; 0x57cbcd7f25db5b3d09ce43b9d5fc1996003c02d4d6211d51f68beec29a65993d90; 0x19b5a7a3e3e6da66f0ba0ecd030b8c5794a47db102dde341547744caaa0d3092cd], [Nil; Nil; Nil; Nil; Nil; Nil; 0x4a2d59a76c82c32245cd3e09a69c7fe2edf66c2267e37c19973e9b5ebc5595d94d; 0x4edb6ebfb16fe4c8d905f663ad239b033d52f8e477ace50fbb24f73fa9b807db27; 0x313a3d27acf6bd1388d041f2964db7c4996db8344970eb9de943732472c84d856e; 0x25206a5a177efca9b16750fae0143d5b9b550abb1c565df2d2323edb872ba0357c; 0x1090d4f006e39608760b3bc5baacc811ac558985d524557bf80090771e09c8e3b2; 0x660dd496c58d194de1825ed86153fb13f36f6407ac0290a760bc83668561b6f24]);
ISq 0%nat [0x5888141b59774b40bbb6d0172da2cb709b57e42bf8472fa0c9e5efa6e2c8a6b; 0xf9624f6970c4464b8095763c1e13627dde020c047fd25773275fae47eb0825a; 0x2ad04caec3c9c67ca3224d02a059dc866af8e86a843c40c6ae7439f2095dae6b; 0xc2d3296dfab5d902bf7865f6f8c3fec3b7e12c10756f83e29d80caf1566e329; 0xbab12903b16e61a7ddae00dd6b8f4f563de548dcfd1f2b20999fcd02e774599; 0x18def8252708b98e4220b4c32a795004d7de5d110d9bb788f1995e81d5f52bfa; 0x598d0e1a86920cc7330aef929b125f1135de433d40710a8b66bb6b8537e3926; 0x263898aeccb9fe5d854386061095bd49da9fd97c40429c0c46f7cf07e6695886; 0x1b77fa9b3a65f88cb3ff3c53cb5048625d2b8636ecbf9a81e3c2db6fd1331860; 0x2b7fd8e2cdb1dded8f4b99f4273a88c255219d7d04967f3c5aabd2c5d110391f; 0x103292093bb2a7f84c65a471e7f5e12950542782288399be7c7a6d3cf83e4b22; 0xac2fe744c79208bb4b2fca30f4d2309e061ad4ff30bf25533c819a4b11f42eb] ([0xd4d46e5d4c977046a49e451810f02338146ec9ff4e193d3bbb8b2b6400dce5a795; 0x11a9a4e7a72d2b4b16e789854b1f7d4aafa3e6fc130162f77b28859f6811ba594ea; 0x378c992eb4461e6620301a70888acd5aad5a77e889aebd1ec3b8f3e20bc02a7c92; 0x435442541eb03e973381c56d366453c241cedd3e1bbcb83dafe574f34313adc7f9; 0x4e0ae516e320c9688074fd5f2a6258c6bac39b7a5da1ddb7d6189013655fb835c2; 0xa340b992c2a7ff80597de046447ef0114df310ca9a22bd64480d89d85c794565e], [Nil; Nil; Nil; Nil; Nil; Nil; 0x2441b3f099c40da7a7ba0f3cb91f2c689ec74fdb7552e068c9c6f339c068ad71b8; 0x307c0788d8bb90341af8abd64698423fdcf129941ba28760004c1e7d18a843d004; 0xa5b14aaf20eef51835130d57fdd8bd798adadd739124b49831fa9c621d44b06b4; 0xc3d4612c9b871b880e3ca14b2252f1e40a861431a628ef2f6a7c67937f1595b95; 0xeb760445b3bfa1e14233a2531596ffde6e75fa4892fd9a5ae58ec589a4a1c421b; 0x27a1005e25b51bbdd4b6b369d50d46aebacb8b6b46204cccea8d98a715ebcbfb3]);
ISq 0%nat [0x2712eb41a7d766e4744fc177e609d5a4d446d067fbb51b911cb5df842ce8c0a8; 0x8a60d4c30d600d317e3da3d10d4066163ff30f02e7ff358f1c42c2a374ee3ba; 0x209b632a94c000b6891cca3a70622374435d529554f02b194ffcc885edc520fe; 0xa97603dc8b7357bf172ad723a68adfba78abc486e16ab5a53813bda2bb4ecc4; 0x169cd162abddecbe629b967b705a98dc8830da48ac33263971f374cdc746377b; 0x2108e118332f6041a9e2fac062ccc57da317788970dcb448304c458d9ae8047; 0x90cee4f86faf35cde65f5b73e456da1b9796389c5fbc3c585b052431b1c3017; 0x19a41dc3f62c83219cacbe6b05b0f49172395b88b80f024ee2bd6de0c6a785bb; 0x1537072b7468525ef8196779e8ba6c6cdd41b6c146d32809701ec2e1a6ed4915; 0xdf76b3baae98afa79a25df4f93f32cfe6025db5eee49575d67bb90a265d5404; 0x24427c5c47d2bf5c01e7a7fed2df9917cf12ae328dfc243d5cef52cc2be2458; 0x3f4adb0a7f560139a0d62929178ef6ba51a0fe206d4ed83916ce5963b6108fb] ([0x1d0ecd4572d140bf8d7952c06e30a8ef4e1c4b9407ea5547a86d09661ff66d40881; 0x109a08220c0dd11872431826a8f67ece65f3f34504bebc1e69b982cb3f14316be4a; 0xad03af8a3da297a5b30d2f8ce02eab1f4a121a769d2f286005bee62455461255ec; 0x41890c628d2a02e69a6602b8c26260c5ab69864118219ca074b7152edde4de9fba; 0x2d5b74aa9f8bf334ee63c7eb8c7d71ba07bbaee327bc95600565ce998f849653e4; 0x18ace300def60401f350f392c7c52d80fd9eeea62e65524052168ca4a4a4147dcf], [Nil; Nil; Nil; Nil; Nil; Nil; 0x4e5b839cab8bc0370e148b8c6fe5510c9b2b59bb9dd28d5d8451fbf234dc6ff206; 0x2d504b3152c357399bf4c502ed6730e4c4270fd8c4d68a7993944eb9e20bedbcb9; 0x1e46e5e5b497323ea52962188ef74f64d42af38f6359db8d4daae512a99bee45a4; 0xc88c4b0e8c514adc93d5b64614e946bc71fb3135499de422621d8b59468249b2a; 0x9ae471e29400631e85eb1d3c147813036f44878c856b4412a57d863ab3e23d782; 0x5f222bbc58024cd6a93a0ebb9630c0f61314d3078c976f129b8a43b349c7033f3]);
IMul 0%nat 58%nat [0x1b96aed9834a2fd693752e6532ce0c42fd9c7120d0931f2be6f6163750caa589; 0x2ce56d4919fd1b0838200c2ec87cd2bde7fff7f9493b4d8dd3d801556510bc29; 0x19e31e990a051e7b12e6c5ec717a72b76dd7bbfc02ad42ed834a794e6906a366; 0x4549fee2e7fe85e460360ed9e3c5f904ae073474a02c64f9c7db50f1cdb2158; 0xa639ea11d06270de518397c95f426bc4833088273b2a77780241ec1b82dc4a6; 0x227dd8321cdda2074355f7bdaedb8ccf3d81012cc1dbd3452c413f314ac95999; 0x3993c6fe29b67241130c3b1237c0b9b480d8ff0056b78c3db340718bd5970fc; 0x28144a1951d661dadf52c069caa605cb957b291ea7e2921c5cb6e113acb635d4; 0x1702a2b24ed080ea1b3028e36248b69434f95640a1218fef6efb9e96b1a52045; 0x4576060aa995f180eb416295d43c4d634d35d760de583243bc8e28acbf1aa6b; 0x27412797376806c92a687cba6f2a00f428ba247843b53b39f5d593002016adce; 0x1d85574fda437e3470ecb514ab421bcd8d56445f38b69f5099a35ee9439e99ea] ([0xabf5ee84cf09c387de4a03590a6338eaf20d2693e9f4d633ee0e0d15eb1d5058db; 0x7df7787ef6b47de53c3bd11d386eba6314705a2412ed207762e5a4c0d145eff7f9; 0x49b35526107e9e04d1d5eb512ac7ea6ed4d518ccaae6b9716b82c6e817e2fde486; 0x1bd07a5bbc037f3c52e357ecf100be079216cbc0c21831a6446b8ae280b9ac0b66; 0x1a66f4e2a49a0cedbffb1948abb4afbd4c71725c2fffe1bfc6eb9884a29ac8a093; 0x80af0a039dbb8f7131b53bae48d035f476d0351499a6f14551cb8395f19e7087b], [Nil; Nil; Nil; Nil; Nil; Nil; 0x1dd5d6220112a3fa3c5ddb55aef8c8b3560b3de31493cba5fff7ad36e27b678270; 0x1638033f3225954cf94d8f4da3a803557962130905f62801e4462430ef7addd50b; 0xd662b74cb1de9bdda0680ba0d068d31251aafaae4c6a3233e46e61a89a36b46a6; 0x6039e6295ac3fc0a831e313f05224585bee018a51b8de5b0ca51ce5b0f648175a; 0x56784ea7de649a9efb7155ccb9354dacfbc00754edf5813baf3fa1b7e6ab5eab0; 0x2401d076984780d36e767937d9347e22111185f9a1e3015f381cd9165d2a1b65d]);
ISq 0%nat [0xde289c0b9c75da963f36421f34b53b2a6d9d74e7d621fff0593b6b314f85393; 0x5be0f62aa83de30cb8910b0a48680a4ce690415fbf086c7599a7bc91ccfa057; 0x7bf6918e3d08218ee6d968a14983431176af23f03a40fe9c59082ef2f336e5a; 0x2685b47f2692813d4b869b7839790fc6747e43a0b81a1621c7fe4b238d83efb8; 0x11d938d99e504b72fe6fc14d4886fb9932525f30580c06ea2dc22c1afea2a74f; 0x2f73daccf6a042435b9b05766bfa8917f2653657b72cafdb4436332389eeefda; 0x9c3b02e4df81d1b7319fe6ac8e65a2da9032fc99041c0701f62050ea99b9401; 0x22d9ff249fe2d603357c26316db81b3c22196c4a0e159b2ead31aea292eabd15; 0x11c259a84bf6c6c1d26c1e4c60197296a0bb9af7c52a762dbf66e2fad285f6ce; 0x29aabe41e55fa10603922e383a3a716a7ac58b9e4e2e6e088468ecb8c55d4b6; 0x91e114d64c45cdfea353406614766c0751a40814ccfea2d1b8442745ca1d05e; 0x9542009198ec1390f8baaad6d1863cef1275370479acb51426c60269172befc] ([0x2282813fe6e58e7cc49a583bb31a444a1a88d2a1f388f7bf0296a31cc79a1fdc2ba; 0xe3a7a1c14e1ec8f7367fcaa4d06bca022174a48423266207e438c17fcd5919f357; 0xeaa7bfcc944e49fc4a37c22ba89d92b132cef5110b1403a53e5ba2eab6d945178f; 0x136542ec37fb9c9b4f63046c6bcd9124078d45dcb165ed92bce57c55e6a92aa7e1c; 0x7cdbb294504015aec26e761672128380990c752eb0bb4c882f0daa33bb60d9899f; 0x174f3804792f8ea79e4b688dc6d0882a2bd7519c76fcda5953bb81b6ebb6f64d78], [Nil; Nil; Nil; Nil; Nil; Nil; 0x5dc8b43c961385a3b74a2483a14dcb2c1cbae2f1ccc64ef39ea19420183acbc7cd; 0x271fd4889a696011724215cc6327541e689377878119436b6e2b53cc79d832ca55; 0x281d8bb17d6e9fdfe925d7a8c8615c1e91f73fb5157792d4bf1fc55af33aac1b7c; 0x353d4eefde4478e97edbc70d9bd7f4f0c47fc83048bc4c2424a9a10e459d2ee752; 0x1619d5aca4cd638493d00884f476b465caf167ec22b16f1ddee64d419c53ca3a05; 0x5b55be82f9a7835ebd4f1715893621e27f61e0fc3960bb9b03d4711d5fd93b954]);
ISq 0%nat [0x2a328903b316e585e2ad653f235f480167119d45149359042291320419d02c62; 0xaf231d2c03e9c531fb78efb58edcce47ea2866e5f077218bde455f73b259c71; 0x64842416f99a1c84b240ef636240a39ba60fd1d648880c58f7035bc65de5285; 0xb5c417bdb6e197426b17fa13788de32950a4cf72d8245015c0788b82f5f6624; 0x2d075e14f10ed4e4e289d4d9c7301ec59b2dd806fecacb3c9b10ce94c39d8779; 0x18a22202ac754c54c46e4cc6fa0ae9b5756171e57c31d5240098e7563ad8f8a9; 0x1863d83d700c65f28daf21384324ba21432d726f7decd756cc8483d7078424db; 0x21e8865f9c7b7233824b04d229fdbea95d40a8810e8a78fb841c4e2eeb90516d; 0x1f7358815b68170b58b475c044149dbaaf53e55c57cb5b4de93dcfeadc4d9213; 0x6f83a2c96c17da7e57a333a3f06bb9e5bd3a794097d34567dd36817a92f9db1; 0x26edbce90f480763236a2563bd8d5d4c478147f258ff5d585e74383f1820ac6d; 0x1dd56d6fec7f07c67973096d19dc27802d6a06449d4a67bef50e8c5855c039bf] ([0x928a6ec94b92814da688c7c96bf67e816e681d666bc7e797856837a297e48fae7d; 0x43014395a8b69d957ab9f964618a3fcd09a0bb8ffd7cf0bf09fd4d17490cf5dc55; 0x228e59ce1cfa7af5a7b9528905c13357c0abef7bf85934807a860750d5fceb29d6; 0x24a2bcaece0cf7a62e27562f2cb86ac0f6012d3a254907a23cf1552b0e7b413a28; 0x149d9640cfbad685c89e4547d9a12fa5a49054a848d0d02220a0f5e18291e32745; 0x5da832a039dbd15228e88a72e031062d4eb6e9c0c82b4f012f562766e2a273955], [Nil; Nil; Nil; Nil; Nil; Nil; 0x19e2f0f5e58b4e8c50f6ae42320dd48f746c4f926afec03314fa38e3c6b09cf4ab; 0xc761599521d6b045b9c5e9dd1a67848addd5087f092aed190a4411f4d83cd6a15; 0x71f89b874fa6bb15e03c79f3aaae79cd226c65809a34bffbdbde2a775848b187a; 0x7332d4a8c839d092bb3c20c3731270dcae274faf9daf14c5a3ff76c372cab75e1; 0x47051e14a848a9ef2c8119f4cbae8355b9a9ed6600ed1390dcf2ceb346b81531b; 0x1a40a6f0e33acb570b4dd57b3cfe370f54930a8394c603a2586978b1932fa28a1]);
ISq 0%nat [0x2d2b105ec54edc43d539da2aec179cefc6cc6cbb2319c5c6954822143ef2e7b0; 0x28bc8daf5a83e8bb528e90b14f7eb8a9ea140561a5c3cf7e8f6a6c961f01c666; 0x1d0fb2036ec9cfcb75715ebcf0d4857fb1da1be0e5d343f6d586e23ad82e6a8; 0x19fae1aaf1be3dc6380d2d3a6a912148fa8a359f0353a2a0d9c7c31bff1d7052; 0x187611e4eedb870e0935937e0c841809c461affbbb470b2c1b3aed1fd56cd342; 0x1ef2fd0b658ea018a8dbd0a8155387b73f7e5c61986aee2e92f65f6cbf79c3a3; 0x2243be68fd17fcad8ee3a1f9fc3f0b16492d5c3cefda6715757368173c4a91f7; 0x2c999bc89a353fac14001bf54faa74dc7d5c8ff52c44106669662f9cef38389c; 0x19a6ffc70e82c02447d4cb0e6c6b1be3bf8f1e91575808849d06780f247af781; 0x47557aae305f7ac55ffda75f5f576071648042eedcfbb4bca022acb526db18; 0x16da1cdb69355d3aa91b54b00c99261b65a86ec0f320dd15e17ffe0017a81e9; 0x9c300ae02bc584b0a7b91d02c67f0fc14559ef207d842d2fde9f2bdb1bbf2ba] ([0x244cbb6d877b9131a0d5032c7f20cd3a6230016e9715b13db40a0ca3f71aa80d69e; 0x141db34ad57b773afde8e135becb069cb440a4904cd31b79ad58ff8316f528500b6; 0x115c8374c8209296ddaa21b6bae6e9179c3a00a4ca7f345160033d6643ffcc166db; 0x1438114403e3c2e59c7e67b0828cd7a1b3d891d6e3bed05133742f43257b1cb7498; 0x89b04db6434af668334b82eebcd17670cfbae4cd8358c3a521fa6c9b680fadd539; 0x1dc012f5742bd794634b089d49a6695b85eb8aa77f895a3ec47c2e156f2605fecf], [Nil; Nil; Nil; Nil; Nil; Nil; 0x61de171c3cf54a4b750546a6caec34ff67b670ed79cf25aa4fbaca2a9394d819fb; 0x37094b418d341cddf00b73f64043b8857e58f83516d5c9efa7b0b5397a0a42bd00; 0x30b657ab51e32eba2226281897cd25b495d00c656008cd1a9bac3a32638ef07168; 0x3804df6d307d3db9feb2294643c2d2122cfc0025cb03398f101c26c22482ab85fe; 0x1900d8f4257cf285a3985016a6fbf7fcf693d13f58572aedd0374d7ac084cb1366; 0x74485a06c2159a02426db185c965ae19f78ae05eb73c71c3c9665c49e214c1f5e]);
IMul 0%nat 62%nat [0x273154d8da54828e0e9943b5f9b2a5ef6709da64f7d5b3862b3d20d4db1071c5; 0xe67eb03e10921eb9f2ac5861836b437d3df6c741482db9488a0c7ec5f2f4175; 0x2bb351eb3234190022c1f21528549370eb0206824ccdb5699f358e94cec45639; 0x9abb0031006bed63e7e541388ddbc48c6dd5bcdca5545ecfa4b8945315af971; 0x2984725f20a092faf4d4df66f6ccd68d53c50a89affd1c1dee04408064387727; 0x2743056b3e21a79b6e731ee7de6f2b8f277d76a48727bdd53959490cba4145e2; 0xdd61f6e5e324c7fd3f34b7f4e89d100630d342192e45589706fe33b297be847; 0x1e2fa7cf94c39c1d5f6201954a5e0e315086b652a5c1531ead3de00f45a3d535; 0x2fd3c5fd7ccdffe713b474be38d443211d4638976bef7123bf1ea9ae249b035b; 0x1e41e61b59ff373a154dcfcb328003bcb969e66df8587c4871bf077fb3410b82; 0x72c6a41cbf8a0f14af45ab806766e2294cd74bbf20ebaaf20884e64f2aaf225; 0x633e1de38666b4a76c63f0bffe9d337331e32d426339de0c1f347d88c90754] ([0x1027a4422b66487d30ea8c5fa05473d310aab237c88de1b2869c59773e51ffd07cf; 0xaae0054083916c28a70887f61687df7dadb201b7319d2ed222ab30929454fc52cd; 0x2d7c13a6260b58c18697affdda1fad580a7e00eee914540aacdae1d2d941c0cc1f; 0x23f2a82a99eb8a966f604b6c693b3a0bb5ec8f072c6cc989322b59b7ffeb4eee9d; 0x3746f1a98b2f399573eab9882e785e7dbc322ea080e45507509420793d2d5e1109; 0xa5355a29e45e6402fc06aba2c04bf3f78c34f04dd6ec3ba04103c6f1d4dc79d95], [Nil; Nil; Nil; Nil; Nil; Nil; 0x2d41a7564fa62b3156d4575c3ffa8e26754f7abe5bb8af84876f1ce86c9e74f019; 0x1e1fdbe148f989d0aea545ba9a66cf1a621121556c1549264ff6136cc5ddebac48; 0x9e8bc442d5ddcc2f6d0548eb47ce1ea94d8925c380ad43c1e5fde6b1886f8d249; 0x812cf808aa38fbfc11e29cac6214d3f08c8f2119431432d056a557fdea581a894; 0xab9a6f5722fbe3726eaad623d928bea859e2617dd52660308945e2dfe41fb2fa9; 0x2f088292dc2606d7544a6665f0f68883d350c1ff9574c897f0421fbf047415a21]);
ISq 0%nat [0x112f4832cfda52bf2b51d1849e45f87db57353d21eefad21b429c2e6afa34ebc; 0x11e1a89b010a7a285d184f5d52c46bb033f2bf4cf00eb98b50e50cf35587382; 0x2bb476a1f74533a4ca50fdaada0ebe4d8406d67cd3fa5447571f122be9a43f99; 0x193fbba633b193d29cc28c21dbd755ae0a9ef8d75f1034ccbf0ab78333733df6; 0xa218e91b9d0c3f4df27034019ce622e12894bb166212d26aa533dd165ddd9be; 0x2ad1b79dad3cbcbb61a9518d44f8112accfca746277187697606cbc4c509e318; 0x18888e6fdc8163d611cebf79c2090f963224c144bf92ec1170d35b59aa145e50; 0x1b8b94e262796431eb64736c92f6df9939f543b9989f516591ba1df0551594b9; 0xf189ba6d0135c077edf5d8b6d8af01f8e5a6967847295462272b24ad211bf38; 0x2c3c6dd13dfa29654d5308fb3f87b77d7995fd988607f364f9b842c287b37a81; 0x23a01082bb04fe6cb39ed6f9a3691d4fc39b138834d4c92f2a29fe985d98a828; 0x1940722f849a1ee28778245fab409f7fde60e8041f94017efb8ed3a2e7cbe9f2] ([0xf4d68ff4eb9f34e604fa8a53c8591d50152055c86bba886893c104451047728ab3; 0x6835640219557c4d4ef1b92b3beffb00d805a3784ad2668b273d37fe7cb7db19e0; 0x2b24ca311bfdacfa928c7f86d8d42ebff609b1ec051878f2090208979fad886834; 0x1d1897189e2b7cd5a3b4c58c8b0a3047e673ff46975cc377448095436d401af4b2; 0x1c53830fad2b52e8bac453694f22ed84fd0c1c13767d72da980ad0a553dc29a6f5; 0x15ae932e04d836bb58a371e72cd3e236997e68a19452cfe89565e346d5c0367068], [Nil; Nil; Nil; Nil; Nil; Nil; 0x2b7ea9322ca1d2f95212a1d924dada2377712ad5d0187bd722b850c38bd20f9c11; 0x145759950e0751680a046d3477311a4da99b07cedcf7e17281e18f1bd0bbd5010f; 0x9b5bdc6ecf2d49a48f6a944981487a95113a124c02fe04dda7c262d42757cc609; 0x72fafe29fcc0f3d3a650783925fe722f98ca94753478edddeccf94dca43201db7; 0x707e7feba040f06c43841ee0312756b7eb427817fc5e15ca735a6c401746b4546; 0x5728cc2c746135a79b172a412fc1ce3a59e684b3fd6deb2f01c8b0b0dc76a4190]);
ISq 0%nat [0x721f03fd133374a0090ad328e5915efe64aced2b7ee6193697e061d82885e74; 0x83fabb4cf6f2d6119e5ffac1c8ae9bca6c500ee19fa9dd60afe1cf997c4b661; 0x29b01c2db2a9e252255332723e101971a74b1be2349e45dfa50b9643ff7b7332; 0xa9e08d60ac7058356891b5e41120c4f9da43876350269bd5aa1da3b54646d87; 0x28d8a7149b6c3d9df0c0d1b28a042b285b5ae667f2468e9279ff9426550e0f95; 0x9a5e5d6ec8b1610f012d09d5f23a67c26fac641866865187e11e484a27bea8c; 0x15f578a4ff380324d4ca263a3d24988d1cc662ebb04313bf37c12f1589470bd8; 0x12414609c54d57a895d0aa8725eeffe9916373c6472cbe50d285f932fd13c4b6; 0x147d6145ae81c5dd9aa8d828cff3ea2b2f5c2123d293b45a8ea015ad4f4a5d22; 0xeac56c0f4b80baa702cfb1f9a9fbea72595e90fd886eb266b8cbddae8ad2830; 0x2b7b927f8bd02925291c589097674aa38bf3a860b4428e27a394dcfb17f048e1; 0x4c8797e3dedc15d2c242b38a3f4371610e2c087fc4102b407d572c184d8d0c0] ([0x2486a2029fc520d91d999fb7d93a569c3ed124ff0de864dfd77d01182e8bbd571e0; 0x204500e6a791bc2549f3124a0996061dab9757b46e3018370d9d806a4756fafa747; 0x1d17d2d96f88312df302cfa9025228ca1de51b1382ecdd14c336a6c2b9479e5cd38; 0x101bd652f295599fa5e6953adfc19056bfc21c61f52802dcff0fe2e6cd0a5c5fa05; 0x774f3558f0d360efed75bd6bf35b218f723adf45b6464dea6b21dddee884f8e870; 0x1dbbd73cb05a4821aa75403e42bd33d679f5b057d5d0ebc81eefcacfbfc3648078], [Nil; Nil; Nil; Nil; Nil; Nil; 0x6335b9cd7f7217a160edf77f3680f5d61fc453bda21d57be60df95f908c052d506; 0x57da587ea8938ce8f0fb0a5380884626349a30b66003ac62343fed6ca021e93036; 0x4f6be8a0ccd5f92316317ca011b5e4a775373dffdbaa6047d0d86f6ce877b18b70; 0x2d2cc143191778ae67d973320b2a940b3a37675b27910b1ecea3fb9eb127ec5436; 0x168620200fb8f4713d6ef021c459d11841b29532720b4ce12d2fedc2e061cc3b3d; 0x741de3dadf73b326cc5123ef9b207f00cb95595b1ce412184472165829f98f752]);
ISq 0%nat [0x4a42f21cb120c6a3bedb86f15626b50f522d44ff20d8173362fb4dfe5c77f55; 0x29f169ec7e55c78f118e457345970705c956da9c62b4e2b8d49dc32976ba7a4b; 0xfcb35ebdaa0fa6f1e8822f51a2be934a371af1ec79650d44f2640de2b546128; 0x6448fd06f4c1729d8039154b9ceb9f9a7164cc045e182d2ac6e1778a5e5e6e8; 0x1134f49e2cb37bf5e24254b86b32fab74e3205841d6909e5fc28a7e3cca4c775; 0xcbd2914116a8716351dd1e9ab123e7f349f7962753ed238f98a27961f2d9034; 0x1aebdb278e18cb9a8185ea289fc7dd11d16e9758b552d5f60d31a89bf1a9ace4; 0x1d623784abfef53ce5496ecdce7cfda35746b9a9abdea3b30b5833ca9aecf007; 0x21091068297ebc702a411c9f7f6e5bc4b707a98da5c6445d23cbd5daa441217a; 0x88a3c389d49a2981eb3b678ede67bb9a6bfcc3ceae0925a9113fd996cd29108; 0x110bc9fa4ff3aedd562bbadb7ed943c1b63d2204e53bc9e50e605ac5bfbf528d; 0x19d80267d6b23c9ac4a353b3959e9c28c76e68b58c42ad99f984d0d29624ff9d] ([0x12df162473c58bbc2f4eb7f4d7eda2041910b032abe47697dec9ee9de42b6df4233; 0xc7fd390b814b460ef195b6d019afd483cea4d0149d7e47a9a86c2dcf8c1c7d3149; 0x11429ec91b2772c5105154524f0ee65c230c794a38f1e693b107e9b55ffcc1d8931; 0x42d977423b513b0142cc60cb755556ee8d698e1559436e068ea6723f9ae9df9e14; 0x1619ba8293ce1f815343452aaf4e6abe42b55aac97319745a6a2e91ee3954221e5; 0xfbde718dbef9945ee912a2afbf735242ec5c7dafae3343ef4c3a2adbeae461a0a], [Nil; Nil; Nil; Nil; Nil; Nil; 0x343a3d8324f880622be6603026ebad3c15babf6160f7dec97a51812729ee5e0707; 0x2257f01cdaed3340caad44cda8e1e9c462341fba9e111209743aecdf5ae54c7d1d; 0x2f8925f934787671fdfa7fbbd31238835b82db4a389df3bfe07792e061a5f2c447; 0xc34412702fdb1b30fb826b12ac7b0a9fb3d30993155fee793981f3e10beb37824; 0x5229efb6408fb7b5e079704a39f921cdf399d6b7ef64343efad7133f9a07ca169; 0x3d66367241526091b0ee9556157d13ba8041ff89deb2f0cea5f61aedc9a0d8323]);
ISq 0%nat [0xa300c2488a7000aa419dda818ab7f47b35222e61ce60e4f8e3a117d51e6e33; 0x8eec2ec94cfe3330c24336d36e3dfd9f7e5ca899adc9f07742c848bd74b1f6f; 0xc6a96511964df92d8e7230a970e9514d783a750ff48a44c86f2034319a464b9; 0x1f547bd679090651111b8934703077cf700e9d35696d78395663ebb39df65484; 0x1d0e125740cb0ae11553503218b6ea6d6384d7eb13914ebca6f558a5adeebe16; 0xd85b16952b4b4503dc6e36b539bfe0779f6506b47a72e15a1d9cd7ef13b6e51; 0x1b693201f8e17b1f60c6f03bed3225366f36ab24417175ac6237fd869bb31e96; 0x208f1801d94c0d6ebfc0f9ce1802100636bf1f60524b3f3efe56adb51137c6b8; 0xc3ba23099ef309ba3a77a6352a3bd933f45fe39f6e7a990b6dc0ab8b1cf0141; 0xafca3d6cee44957c4799cad41541c46eadfa2eb043f60269130933fe6357463; 0x2b1ee7cf5a329145ae085945fdb73012526bc9943db7d680862f6d92454f4590; 0x1d7414eb01bc1681308b137fcd87ced6aaf7721dfe889a9ce530b34fe2830955] ([0x167ba301e5db8e81bc0cef66ba5f7d952b4403ec256a0f52fc1fdb6772e5ade26da; 0x106e7c1e90951e6bae01ba6090d2cab1aa313f692e8179beab22df726a2d7e55f97; 0x700375684e3fb0da1389a3d0e5d06302b82f9b321751c22fe941c95291371a6f86; 0x8184c2ee5e8c32e947937e55ec2ef1de4d1ffd260045ddfcb526da4eb0e1a1f2a8; 0x647b00381c48954a32c34babed7857fa39739e741e70f6c5b7da880d643342bda0; 0x136f1c40c1dca67ff76a1032a0f79e94eee218c9585fb450870cfc473a043b88b1], [Nil; Nil; Nil; Nil; Nil; Nil; 0x3d20bdd5fad3995ef2527c9b6a0c7149f71ab33c02167b7029c2abb3908aadbc6e; 0x2cbe18af361d393c8959561074e3ab7f06189c494d56ed7e89d36e74d137840ca2; 0x141b2ed5de562ac7bbe77532c693be5a50c82bc3e57ba54a3b82879bd7a11139c2; 0x16fdbb6f348fbc332aaa8c34fae77715112fb17efab7e67f6bd1f486146e61ac07; 0x11ecbdd0d384edeff25d025ceff51bca58f8a1d209456ecb70bbd3cebfcbf0488c; 0x49fc9ac72187966ba7a22e3e722b5d4e34231550b291cf3d8e9e2916be20dca0b]);
ISq 0%nat [0x2da9f283d466ab1edeb7b24859d1efcd5fdbb714c1d226199ab5ec31a14b5dc5; 0x27eef397b045c8c6b5931e0e30b3ce7ee090f539461af9e4381f0ec79e959c3; 0xc2f10a2648300bf970b59144ca38b9ad8af0dd022c7bf3f94334e3535585d1; 0x2e4fa9c9c2abe24d5f07a04fe02d54d048b02018ac6dc872dd9ea6507bee6f9e; 0x250228824a2a24f6c12e9f8362f70cf7f425b0ab0c8e3f52542b8ae428386159; 0x1b7cae8c2d3ab2987f77839b37054bcf9ed5e5df8f8ec132b58530682eb05158; 0x23d088340ecbd2552847925bf9895e8b663805163b3fe105c58753c3ae190c7d; 0x154a798edc43c66111abdadb9809dde777a65de5e844fd0faba3a2eaad579010; 0x29b39472016094e9b18f3fba81a983314c46ed7aea28ea340fe504d520daf460; 0x1d6e9d4521487e8c082d73b1ece7947fcc9c81fae13aa0003a906c6af8505697; 0x3d893489ab5353793e0d2fc49e0c849ed77948348fcf18502867043b35531b2; 0x7c7d2f06f520b7e5540225e69dc7ac709b089ecb8e130a67a84802e04cf1527] ([0x18f39cec20114665c79e14b35e2d30530438747c62c5f02001a9d148a246e15e324; 0xefb43fe21f14544c33f38dae3e8fbb6ea44ec1db7c05b39cac89d9a2eaed372987; 0x154dd584fb623560c322b8e8ec5a349cd47d8bbe2ac4736a70990ad75bfd8a8c44a; 0x14aed356190b9adb6c1df6e18a02268d0491992e4b38fdbc6abadb57fd1b3d253c8; 0x81f1a9d13ba28b695ff834dd5c80f3fd1f73d99fdd0b46af9804f1747845982d1a; 0x1ef27846f2e6e7e386256272b78a74d24827509316e8801f9265566bcfd2899c96], [Nil; Nil; Nil; Nil; Nil; Nil; 0x4351443d77b5ad62c5f1df799c9bc4ac450925b876a723a9dd33a3c265b69989c9; 0x29cb24d7e093b3ab67eb695c6c33129c290f207a8968aaef4f1889989ff77a50e6; 0x3a794a218f07c8e5fb404276f3a57302520242888630f54342e9bed62764715b92; 0x381ead11147150739b4c22cb0f5dd34c1207624b2fa3b2d34286979a6a9afd60f3; 0x1725f519825ae8dfda3723dbdb377798bd13e0285282b110e4c2e497c3fa091d3d; 0x72da11cbcb190e9df443c7b44342cae3c453e28bb9f79f0d81e5bef60071d7b33]);
IMul 0%nat 68%nat [0x1d65ba68d8457114df30c7c5a56c70b9f5b43b46c31c33699ac47f34192e1ea1; 0x1c078abdb0456eacd88022454b514e17b424528a6a2f6e5224214365de777b3; 0x1f33b6362dd8e13bda0cb10270acf940ef4e61b6a7e816a3c5ccfd69f1fe76af; 0x15ed96fc5cc7d63da91e7c387e01bf433dd27f80900b69dc427c2384d0ac61b2; 0x71cb1ed29f5b94b47af21f0be02569ab3416560b91e47799b5d7e72795a08df; 0x19d75379f8cf91d60cd0ce256ee6452a798a869104d54928775642750211e76a; 0x1f085741aa0fc97defdedac13a6778dcad3ffb6b763fc537b1ad1a5ce4751157; 0x2bea7decb86b08fea7c4adb84e375d1c17b4823a600b08391664316bba611ce5; 0x15a7f20e22f86ef3ed07c21057a12eccb6bf6b114140c2bd6e5cccdc0a56de51; 0x1392bca04f877a8d18693e3e5b6f3de74da30025bf52952341974c874c3cd0b2; 0xbe9db9129d8a2924badc1a9f0c97332e5c682626a92cc2060e696eeca0d2172; 0x2bb74f0b01a73b7bed2682487c9a078788453e68a78a3fcc5a26dc6edcef0acd] ([0xe1d34796383edfc2c1f8238b078b2e5451b2cfd2f5eda02d0635d89e775b6762ec; 0xf35140e17fd6903783e70e03fe7b4eb7e80cf5d55ac36066194f8f806566a690e9; 0x9e511ddec451facf2d5e0d1254684817de4cc080edd417b850efef360fc3482cf7; 0x2d5ed43c742d210aef6b8ca61e6f6bc31ea71cf22f21b0158e19a38e24929eb45c; 0x3740c08e124fc8231e8503298a4d9cb2f7379baaf920123de4f57f84e034097e95; 0x13918d565cfbd483c8d968412c3192a896a527bbea7ff57d90d3412c7b581629df], [Nil; Nil; Nil; Nil; Nil; Nil; 0x27e62d4bb971636d84e7b99234620445a8e80ad03652dbfd9e8179e303422f58d3; 0x2a894fa48b8eb939387aa8204c1055e5f479192fe8957c1798f067fb702e676c14; 0x1cc155fcd2fa31f1904ee4cf9270c41200e7d47bcfd2321c711f7511381dd0ae91; 0x9a66ddd02c78e761dc6c01a7f27cdf322c4d9539b1be3dde0bf09a5c29b41f966; 0xb2f13ed4c1d83c32a06f1c3f0e44fd70e1fd71bd51bc5f38a9c141d9d9c78e180; 0x51e0343bb425fd0ceb2898013e75c3fcdbde0fb8bbb4c75198c9fc0370c988c79]);
ISq 0%nat [0x2b8b2a6d0cf1cdd5a9b60e05fec7943aa0c9ee7e5cbc1464b3f08de441289cfd; 0x2328fefbf7675509428c4b1d4b4b7594c0e0fa3ff96c860ffb6f89104168ae34; 0x379e854d9f274e02f6f11df4dd570747903ba0d6e2fe405cff07e6fc39eae25; 0x2e9630aa663a2f2094e0a4c1ac623a7e3d01fa6a828d2712b1ec5261d18c2452; 0xf029ca5812e68aeb1ee011b2ec5a29901044c35f3a5502aa4e9baa1e8ec3791; 0x1a7a10114c487c5f0b4c7122357f53a16d6b0a1cc26cd39d1062f2342e1ba585; 0xf2ffd83c0af909de1949dc2fe2c1e0d2954b036379986803e389488abc7ad8e; 0x2000e39f3a8e4ee1a65741f701003b336fef2a1bbc831d099dba9a1594d3d658; 0x23d4cb4dc1d2cdc33581455dc6eeb74d36c8c5058ca8249062c1c5e041f71d01; 0xe7159cf231ca34d347b7495700603313d4ba9f3b2269d27ac92b7230a3dabb0; 0x254c0848eab332bd3a6ad956cd0988eef76c41da0a9b9504d8be64b8b99205cf; 0x8569c8e99528046b7d7c5a4637a57de5c43e79d3c2a894c322a7e9f965a3bb8] ([0x257954b86ba6a78104835cad0390d6e01455b51369314e7bdad4f095df7538bd8d2; 0x149f5427d5eb8c853cfb38d36b3e9f1b81d898bb93a85dd2364525d0d5e1bdc83f2; 0x106d3dba606694972adce00cea8cb104ca5f981c7d9febd4f46d30017431fdb98b4; 0x98d046f12be7b86a347736b9adf9e3cce600fba5393f2b7107f880b1e3a63ff874; 0x105e92345a1a283bc344eedc7971ba0554b0b0d9691df966a9ea17e42d428e71ebc; 0x1e430845d26fb227b0c93b6e07f9bf066f2e746b9a20ad7bdcaefd315578d80491], [Nil; Nil; Nil; Nil; Nil; Nil; 0x647e6487141cd5a050b8d7f9e28bf909833b1ce78323b09040d19c03c0b5972af0; 0x392f2ec41288bfd548b6b925b3e05117c682bec06d3a922640378cbaf411bd0f30; 0x2dd3973dec20b410086b95206c1be934f186f83f071738e65f73d5142b318e2368; 0x1b226436f1b33f4271af8f80875f7a1b90b7aeba2523cb2d207304021e4a7c7978; 0x2d48f45ecaab8b979fa00e3b5736dd47af58c74ab4dc3563fb54085204336e6f73; 0x742acc11c29dd1dbcf125b90b2d3f68b926060646cd0c529c476f1478b5018a54]);
ISq 0%nat [0x1a2a8f936d926f54abf8a9f4848c9de225ee7b4b27156556d0a62a6ea6cd1461; 0x2ce5b877bb34d855b84685736f09e2f5a58db1aeda99462744dc4107ab77fc39; 0x95860a86807c322f799cad5aeabda30383660b8270aee404f661e7c08c2a79; 0x24bab85d782efe011a061267858a7d7f667c816291fb288822be109b1baf2214; 0x1d05d614e638d09f441085418e4fdab9f85df377ef60ea037c50d8174fdfa21e; 0x2fab2b06bd2ac1a21650ba1a53e6792f264cc5f0b6646053058bc7cdd1cd79a2; 0x1e613dec800fc0f64c8cee0ee147d0ae4e335f48f6d30619fa22cd1c239b3a87; 0x3984bfd84b1568ecd783f9a154c0162748db02004e0db70adb38f82c8a94a39; 0x2894aa784cbd6491fbead74adcfa275f5211c924ac8d796214b6647b04903e30; 0x14226250663eabba5ab14537b4ed8a49478dbc70a1124bbce73daee0c306594e; 0x129180f4859af8f2923acc396b6edf1637cb5ea99d0a874edfc480422749d65b; 0x1ae113ec682ade5a7a55d23e952cec3ca76bb2be7bed47d501eec4fe69d27497] ([0x1b91b4e0a1410e68ea16691b9ab19931be804accd9f435f70dc8f18d21996993e58; 0xf48e66052fc5b7084f57d318ea41631f22bf18e0cbca9c90215d3606a8486fc85b; 0xe1e907f1c0ed744ecc4ec024858b54678810bb9007280fd3a536ffe412cd25a929; 0x6a92dd3afe744e06e8040569ceab71e273d7548b435110271bce45ef22e1b28adc; 0x20f395d4219db3dfae02486e76a6443a5d751600abb1fa82f8ac7d80f2f661b7c3; 0x1808112beeb7554a378f3c735f66142e786922640a75d43185c68c167f86a3051c], [Nil; Nil; Nil; Nil; Nil; Nil; 0x4ab290b3fce7270f3815119d368c394f326d0c6da94df1e9299da6783c67223239; 0x2b1706182650b0dbd611917e34c767885537443d5793c9fcb848bb7f277b13d24f; 0x27798b80805cd483ddb0c5ba7c52f1305c663e1a33c73a42076d3dd54475404c87; 0x13dacc08d971a92ce5e62063b06e269c7b089fd099f24af379ff93282c16d08fc8; 0x78d86f927e05a636c3da5205a352bc3b2f49b1b6915382610b01f2e14e4b6ec7c; 0x607e94703f7d5a75a131b63ad8e4703c14896c8268318c576b2eea40900c11b67]);
ISq 0%nat [0x28173eb38b40f99d26a74f241a4fcddb8eef3894dfca05fafae52a200af61251; 0x147d55f937c6c4cccb1c344b8799526a6a90b875ef8a3f44592e42c9c2f26dac; 0xaadcdbf5ec7f9d4103830a1b04180f49d803eb3b09c40f957c959ffcb5b5be8; 0x193232a71fb9fc5357d4ec3700720f741311ba06d3d3f584af778dfea8b69219; 0x6ef2f54da75782fb50fd3252b0a8370a5a7e04e0b62875b3b48e3625b13aa0d; 0xf2272e49df46831a0855edf1374008a65c1a8494e77650d5aa9cd509b51481a; 0x1205aead992991a54cea1849bd9369ce0c194cbeb2bab28b990c66d713c8d80b; 0x2f967707fc6f49cb6bcefaeb25ddc94adedeef106d509afcae121df95bd26ff4; 0xbd18bbd7a305ab9c3ca742b2719aaf83ffc2cd7d6d504333f4b95270a6ae80e; 0x1533b861482b5ddee274348263790cfbc600625ac660f0be15e86d9453e5f2db; 0xbbede5c6c2645c865acaa4dadf9533a44ecfde233b4f7bbf82d8a9692601fe2; 0x2e09f29586cc8c7d865e93f74c9d516fa3b85e2ad3d489dc7d55bf5f7786d836] ([0x12cb4537661f2daf8a81cd2faa941a0a301ab1a0044a0d87fe296aeb1a0115394b6; 0x188d83ccb766ed189ddc8280a6feebb389d01b24cc8d5ad8fa65896a60567f8f42e; 0xdb30caa4712605c005fb33ad3ec9796ca003f08daa6f34bb1c844e98737c3d31b5; 0x96d863520e4e4ac4784edffd91e8152e31a72df1840de06153d9c356f5402049e9; 0x79fb0dd90399da09490054297a1a1e2dd2de011250f48f66408a89067af502b980; 0x16186103e70511676ff45534122366e298eb74b2575c89c32b0d8fa385fc2d444e], [Nil; Nil; Nil; Nil; Nil; Nil; 0x34ab071cf91a909244a37f0f7120c944e6f87ba377013e37c4f497a1efe4e8629f; 0x434c69df6b6b954edf10b5bf40d83a33643e6c064bba54e4e36ccbae2bf7cf8770; 0x27416f2380172f7e23a8e2d984bf122d7ccbbe9bf9b96fe4b262556af2556a4f66; 0x1b52b8167308919bc614c241e44797bc29b33d958d5465dfc122ded38c928c21b9; 0x16a795032b4a1051cdc7cda7dfbcf15ddd2a27e4a45315939fb8f4c520b2a1e33a; 0x5aec02eab11afc49a58a4e1854d1962300dfc130f1371eec3081d64482ef5b42e]);
ISq 0%nat [0x13b65e0df941d8affd963abfa0f4cc51b16aacde63219a23a0ae021c7fb308f1; 0xe35198e91bde7b6a91abb83ad884b61a42761b1c1121cd53b2fc66043c8e04a; 0xda3832fba94f3b14297cf4eaaa0c0481e21000c452340d6893e29fdb17a9139; 0xf3caae27536d27d3203c9e03c64337ca685930d6439e2432d850fb5a48542a3; 0x2714abc9aac72e161e932f189f98edfa682731645a9f8ffe96f91f4478b5ee97; 0x2881f01bedbd64d8192dfb81e685da03d617c21a5469c6c459cbe6139367c2ea; 0x2e8a32eabbaf316df1de6d9432b3d71bb3cf45f686c8d5684e6d45a4ff3a0f9d; 0xae499499c51bd28ad885c2cf51af06a4f63f8735f98d6c26ebca07358e350c6; 0x107382e0c38e5f4546679f9cb7a160e173412a09c938e55103e30795a8ed3a76; 0xb81f7a27f12cac9ac01287cf367b517050778bae25bf9ff6d7f44439b133729; 0x2a4631c3a7bedad7a59cd27accb30a267d2276c1f28b6bac6b996259a37240fa; 0x8d10c9aec7414765900d09390a9e43e437a02f3ec6db70ac7dd5e1d1147e37f] ([0x2828fb39ca2b7715e13b779449570932034f2c50cfb2f335bd331a685d7d17f42d6; 0xd6f5741e40587896067d4b61cc222936d2a4d9e1f2a4dd1b4d363a6acce9f99a4a; 0x11f6c9ac847c42dc45ae2798c8fea07fac0eea9d21e32e15a7e53d7a2434c278ebf; 0x93bda03cd87a405c79d6d144e93886c96134cf57a930ae6dccc55faa18d6b5657b; 0x116b4e0472b90fc69482d3beebe41c717ccb74ee717a5c0e344089806a0be7bab83; 0x15895545aa8a538b3ba010905941c0b1e33b71d62796439bc09e3b0f4bca281c12], [Nil; Nil; Nil; Nil; Nil; Nil; 0x6b7ddfc074ebaf1afb651b3e9f12347370d5dfecae2c8402af5139be0e516ace2e; 0x252323a7f51902fac0c2c6ab1c9b796a53a74414d5753e5c5a9219e5156a3f0ac0; 0x319c61cf32e37cd2a5fb83ed6d2878b3e1920731a365c012be8a1d5a03c51ed8a5; 0x19aa16f9424891fb001d24f79de8519b2c1861c1f3592599027e9d2f7ff0ba31c5; 0x2f9421c28e74c12d56c2668d184f041b7aeba8f69f2f7c21b6039c96ffc0cafffc; 0x548489bbb329d6d521303cfc3d11b1926b360327a0b2f04df282ad0d978ffe53b]);
ISq 0%nat [0xf2c19237571c039f12a85ca1a377d8a68e0ba219be32035391ff180cb0256e5; 0x1acdc8cedfb9cbf22f1b5400344e4863bf5526f40067a2c44d5b0c66111893b7; 0x1e7f06e02fcf6324e0dd56be9e3276a167c4da0ffc0eeb68b4e7a24112833728; 0x1b3e901faab93066ac8313491d1454c57dede0923157fae4d9a8b42da59a6fc7; 0x182b2bca6cbac9f76fd7602702d74ff1a8430e322b1497dc527b25f9cb8565b9; 0xd815cf69a3b38f5dc7f3d5e6fbe45c0c22735fea30f16eddbb934b83b775807; 0x9a77e6d7b032b5c688f79d02f115373c657104aa6687b7874afe48ef1bffaca; 0x27587d10bd112f7210c27d40618baea1c98f8172c3b9cf16e79dcbd5d2ca7526; 0xf6228c31fe887020e8ce2013c88ddd0987e07b18a274a43cb9b07e569ef20f6; 0x18ffa5e538a2deac7586274036dabf7a0836dafb7fbec5d02dbe6f41f6cd3f08; 0x4096300c01aefa4b1741098eab9105327cd64f2a6e8fc9ab96a9dcf3106faec; 0x2a03a2c53af0146611bc18b0ad34e7894c0a71bae52c05f69687beec4613b629] ([0xf4a78079c8da4a8a5106f1d577de649c1b99ae972b4010911254922e14b1f70812; 0xb60bab1b9a28b3bfe2c8109c0367bd3b9e575d0f2a500e8be3831bee60cf20ee2d; 0x115c85e1be61ab8cd380718fd3614c39b70b2d32221b6cc0903bcc30cc123c43042; 0x7d6d6850ae091607f74421121c9d817f9415a64200094ae9407dc7f9d75167f2a3; 0x2b4fb292658146e1d6dd740567b09f4d733b74682c16c37e0ecc3173313e67176e; 0xdc83ea02b546460281aaa5ffcf96f01e9cf35dfba92348352394f31fa3ec71b13], [Nil; Nil; Nil; Nil; Nil; Nil; 0x2ab3df9890f4a5ca98fb0e394d7ca7385025594958bb7f2e9ab842ab8a1eaa4239; 0x1ff007dd4d3ab79e1aee2b0988c2a28ab9701ddb81fb89758677d9d07569044a50; 0x303863bb3da120bbfb608f039cc400fc67c15c41feeb2606974b3b16bc4f8252db; 0x1715ab2d06531395bed060266f60cd59f97c4a51e0cbb8eb117123aa04e30ee048; 0x9ae5f6bb6acff094f38e23df5e3ace9043d95f28c512a347c67db8a074c9cf4c8; 0x3a505365bed82bb8e3183029830fd32314950e16c05379275d2295d985ae36339]);
IMul 0%nat 70%nat [0x1916643c16533693d188abef3f4ef7f53e20a225358445fe8d2c3968b38354bf; 0xcb3bea6bb0aa8043c8fdc2e52b5f0c8b659529035ea738f8be3af2b3e7967b8; 0x1da433ecb878547b0d8d063e11d67c85f87feec0070f24dab694298186096785; 0x2c918efde69b5b3add153f420a4e32bff847aee16d6c9dcfc9e82f81c21af9d4; 0x65e8f873c25cdcae2d5dcafa587011a7a3961cba6eadc35e7812961f3cef0f1; 0xac05e8cd197852b5226c545ffdc3aa5dd88b4153790f0dd6ef4b4fd47e531be; 0xaa3ea216d7684cae98bcfb9fd9034e1f019c2a7af28416aaca3cf331b8cc937; 0x2c7dde94c512776cfeafb485ff1ee4d62589ebbeed82dd6c5aa9fa9d40b89e94; 0x4b9222dc35e72e9e6b7ecc63c7fa9b49150ab0efaeaf4defd02adaca5c1901f; 0x2bc4f578f3ed1fd39a35a4f8ccf677f404f2738a9480049c7a6abd6d12752f89; 0x3d36587e92f9a8ee4e73c683c00766fd29106b9a381e5665495b33d40fe08d4; 0x3054caf8d768a7ae5b46c5b33f1720f095136c012c69e0c4638539bd6b81f38e] ([0x1c99944f3791c0f5deda1c85c66ccd9a32925e87f9f1c3eb9193e66bd9a5a0466c0; 0x15832f7820c2232b500b95407a1209dbe75e0652e825d7dea48741e8a4b3ec71f63; 0x1268558d5f020530107e92f7f53e77c1b4fe9204a515391463480c13a94ffc9ba91; 0xe33a23d3e2019903e090a634e128896aeea5e85af295c74bdd4f31ef6418c00d1b; 0x5832603cf170530f9d84e65581132fc8fe9bcb15dadab809096bcb6301d80952eb; 0x1badbdb8daabd0cbcb621800e36d85acc42c035313b51b06ab9c59121226c64dde], [Nil; Nil; Nil; Nil; Nil; Nil; 0x4d78bef72c4a20f93cb44ab74bb52091d7b4eafa31bcca74f7fa90c33a0c44fa08; 0x3ace66b35ee50f80eecd23756c63b73eb1a03fd9be8a5740f5ce56dd9abe429ea8; 0x3278d53982f163e2bc8c6d91745a4d7de3b57a726c1aeae3a0435974d66e637d7e; 0x2712ec5bff25b42ce77077a464d387bd5f63457a719f2128763fc7faec148c0763; 0x10cb607642c1b36e5f0f2a33df5091ca692d3cb11a6d2e4db5b3fe9c35093a1546; 0x69aee4f038d3d6007be3318ed0f44252580daf3a52ad5f3f10545aebbfce5a3a4]);
ISq 0%nat [0x244c42d0e6dc8a6ceda06e4649b8e90b4d8cd491703905744ff16594cd1aac7; 0x1e8d4c833f2412a1187f062e34c01b94d4235a77a7601de3f1950b3bd0ae3cde; 0x12eba409edbad7d0615d0a4e06b37fb29c5b9351144ff6a21dd1860e1af68f98; 0xf87ffddc7f6364d4f1386152d3205881cbb1ddf4030bbc7742f84aca4a7c58e; 0x17463a8e294af769d901cabca750c97bd3c0be7951c07c3c57eedaeecfa3b612; 0x18a19a60ff9995a32a75b151b41c86579448ca7b24bafcb35d669681d7815f0e; 0xcaae85e26283972345b70a4d9577413803a9760f1c10e3d8889d4b6a72851ee; 0xe8e8e0ed336b8b34f4d801a4718bcfeef57217f6800587f6a7456677e6caa82; 0x15ff5d970b67d56d7a30017fcc6abb92104d2ac7b048656db4e7016e0593426f; 0x215ba5315d860082e727e341500b73f8dafc4eedfa8e1329f663f94bb2a586b1; 0x2d75daf68dc414381a2d4c445e7b21768942280c16e6c35501c112d95b4e9d58; 0x24791b56bfd4bdd3f0f278dbeca1083d9f9fe5a8919ae0c8546dd0ffabae0314] ([0x313d7a8c79784b6a762dadbe64cd82162b0c2320c270a4e263c0b52aa89a522b7c8; 0x7e194bbb7d892cf0be728f78be44280ba25e9c7613acd0897a97edd8a4104e135e; 0x22a87d35d967d9d32a61d2a41308334aabbbc3cfd4716ca781e5ca2a13316588ff2; 0x3962ea41eb5dd0be6a90c99795a056a2209237f420a5392610aa913a7d81546cc6; 0x13777d4b7419308ba275aeb326760db1fa060de5c29730c2db51417ea3c5f9fe68b; 0xb873364f0b56aeeef2c2618eececfc97091bc3fd7cd4750fca284d138d3c61b3a], [Nil; Nil; Nil; Nil; Nil; Nil; 0x83d24adf3ff1f37505b84a03eb98a7152256db3b5d4365982a1fe66d586015e7e2; 0x16c0866501caeaf9f171ac8a5c88579c943474645fbae08c50db86ba78afb8cdea; 0x5de555542a2bbdd900fc6cf369d1bf09497564bf3cedcdfe8e3a13497f1310d562; 0xab08cf0b265d8706adc07de2d3c91a07381818f9f4d433d0588991af1627dd92b; 0x356b3c0a324806c1456aa2147faacfbe13f0d213a8f9a231b9354a640ae9c5512e; 0x319df17bd89c73790f13a2ef9b66624d01fb7d183b383375a209fcc7c4cb0351e]);
ISq 0%nat [0x1639cc49c43dea84fcc54e0e53959a7e7e1ad98f29f374e80aeab894a322c22d; 0x1b4ba10703bb956750e319e183dfca9b6c9e4a975fd6d8d0ec22e75f9e28a5f6; 0x19fa731efb3de8698793ffec95371f707639dd99195d3fc70aec255e88b84cdc; 0x1a5b54535c1de5dd9ad0bbef0552caf53da9584f1eee5f00222b05189bd11bd4; 0x184c14fc0a94e0dc13974ccb48af6b201995c5f8757d27476a664dc705cd7138; 0x1137bcf1fd7f644b0f666e0918ad32dfb53f183058fe088a05b16f7c693afd2; 0x9f5a309eaa18ff9d92a2a464a856fa435b6f2e1eaa6f3309d3b103c4c8b5bfe; 0x18c0f5561e54618b7890ca63e0520e626fe0e6af02d8f90675d42cac4aada51; 0x159b8bd907437a564eaa5a17ef8780492bd4a826f2838adbdf90d9d656efb901; 0x2ea03aebb82272564d37b293a06780498d444ebceb5cbbed72ff2b24e879ae9d; 0x140d32551b771b58734ebe07e06d9b6e548fcad4a7753233d090465896ce1636; 0x476c2fac2927067472d15a726a6a664a2b0f13a2ca0340e8863ab8d4f9586e4] ([0x21ef87772ac976bb4828c394e6650f70fdaf6bba3c9d6e477d97ce41f49518483f8; 0x24ee7942538a82bc7201e1157a4bfa66f247426cac0ff52ae2ab7f2bf37db144a3e; 0x23d8a8a7a282a596a0b032b07145f184b1ff82e373ba28e6866e4e5075f124f70f0; 0x1aee5e047c193d27657c973886fee316497b05627172a3baba712e534d924bc5880; 0xbb87b795cb5913617fe1f946fa26e08017c497b77fdecdb7e296087de83d2c2ca2; 0x186b7fe14354ce97ae8fc5f2235105abad1b5f27c37b35965dc2557f30a779aabe], [Nil; Nil; Nil; Nil; Nil; Nil; 0x5bc5d71f1d949a1809d755076bc65500e73a70a47764dfe54dbf0547a583e5f3b4; 0x6337c82742e6dae3036b84fd7562ef54d366d935f68195277f6590a27dfe2a94ad; 0x605af7db229bebce18b31a549ef4972928663e45b8c57b0a60b02456d261cad56b; 0x48f2cd81dec806baca961c4abf2376ec3d9e420514b09fcdc51dff3cb61a9db853; 0x20c42b1d44cdb6594350516522a004952f9e1a16a71c6f149465fc9f14c0df5bac; 0x5e5d459ee6a7c3c4ba55f527760dfadbeb7d47517f94d0828feaced3f0529a0ec]);
IMul 0%nat 75%nat [0x1e1cf36ea09f40364f9be771fcbe26fd95128da0d5dd5f218c21d18ffd488f71; 0x16d80ce8d6da9b159b60a6e3219094bb912e60e059c0566c50f34990090e6526; 0x9242ff955b155f76c817e49d5d867c2ac14d96438bee6d30164fcfbd3711630; 0x48257b6c0f6da4e7f4851451273f70dd8d7fa8213e2ca808654c4f8c8343128; 0x24ad680ec4694a37160c9f9440237c96d2d3d9cf0e746b0d04c77070d1693b54; 0x23e6fc27bffe7f7ecd64a781b54a92a6a6d11a0cc0f7614e4cab564974cd3417; 0x1533efac2ce8b2bc64ef78b0b0c4bf788a1028c2f8097c2ac113a120c3efbefc; 0x184c03c248e5515fa18a28e1fd89a7142462a858191a3e73da2aa1d0dec4e89e; 0x14cf762763ab30723cf820e2ae02b82e0ec8ab737530f3973c6dfd88778d8641; 0x3042015bb242034c57d13ecb28410bd02b134a27421ee098bb46ab050b99e940; 0x25ee766f7b680467f91fa0dbcdd26dd5c93d4d2709a5f53aae594067f8f61dd3; 0x1621e164cc6bd016ff8234fac9d020c8fb8682302efc9a1413b207d513ce41bb] ([0x17c8a3aee0e59222e6102c047dda13df16509d2a8106c004d552bb9d91299a5a177; 0x1858aa78742f92554807f8db13b0b9db7186ddcbc075960586486ed871869ed2fa6; 0xee25a3d0874546980d0244773fb4f311e8f4856dc5d388847780842182af64e185; 0x57e4f78520d530352c961e916159ff495873b8898805b13fe3b04f0d355f017c0c; 0x1b721fec60b06a13688e9102f0120daf1973026be61d22f6eb80790a125555b6fe; 0x10dd094a60ae760a26d13ea7b4b4bd693b1b4b6d024378c151618fadf766a8899b], [Nil; Nil; Nil; Nil; Nil; Nil; 0x415b34bb506d58837d9ec9d5962b055145a403a7020c7b668dbc3efab8c1e06aec; 0x42397ddadc909c10868bcba7d53c1ed034f625c96c6f01cdbbe1ffdbe17614b445; 0x2923ce12ecfa7d88e55beabf2e416a57dd8e259214132b1f82fae2cad831cfe6be; 0x104bbec08e7ed39083ea10316ddf7acbb6ff467c13a601175e620e7f89cea0c2e6; 0x623133ddb3506447db50e468a9606192265ac158c689502c9a468ec9965775435; 0x4571990d6ec877298dd67512d9173203480384a290c356bff32c591650fe4e71b]);
ISq 0%nat [0xf188b0f52686bcc11953f15d44976342982940e93942019926403f142297020; 0x1412898c426207c27824c221747670fad4f216509b3bf37306f261bc37d0e43f; 0x52eb1994d90272efe204ac1f850f7a45b3d26e72affe9db9db8e3114152c69f; 0x7739233a0045549e0e1acf1f09ac4ff9ed55502aaa1da66807f8ee2b1856445; 0x1885abec27a7d9d394e80654b0241c5b6d2b05eb270f0b531347051fbd5ea0fa; 0x2bb45fbad7f127db975a398fa749185421c86aa949bcd820d1c59e9412df9166; 0x16bef2403d85309536f8dfd2b474300ef0f447cd0fe3a209b7eb25e00cb4d426; 0x17200eac0a4a6506e716050c0d66d9a551c5f4f2553a8909837f6b67cae4c2b2; 0x5014303c534a1b265988d90239c6130fe46393443085895a1340bcd10ca277b; 0xb5e6b19869f11f9353e15816f9da2f7413b8811660cfb57dad213642efcfcc; 0x2eafa6fc93587d2e770fd8b693b31e8e9c7dd8b2ff3125c002d64e2d7fdb2a95; 0x12a047eae70e517b0c9b490706b52cf731f26e88fb5737a752ba60976bed2d64] ([0x2786c4b07c6659dcde4a9c16787f5a72aa863b95c9d2f43a517c47f57930de3d921; 0x24ee98178d4ad9345839e4920ed1acbcd37a65404ebeafb449622d7af4a05527c41; 0x1de44e6052563a4e2ef9c3fcf871e3dd6e5c029f018cea84f173f199f774af25841; 0xf90143487800f25283323bb7b67e27f6d9761e1d42d41414df2ada2792b4087d5f; 0x61b70d7bb61f9dd7cd03999931dc1887254cc64660b4775cc6863bc4e3bd9ab594; 0x1f642a50b99d464a63acdaea33e3afae1f6ee3ed8aa3545125e694795c40df98e0], [Nil; Nil; Nil; Nil; Nil; Nil; 0x6a25f92a18e6f84cace1c333b6c3773c7c5991b905d46fd32437fa3284801d8476; 0x63aed1abcf0406b01198dc2990f83a5408a5e7c1b1beb5e642b4060a949f50046e; 0x51b2e555bb374b4a9cc5cf25b1affa43907aae9224b0b429c573a0b7e1e888285f; 0x2c2223530afdb5ca045d4317c42d38860c627c0f12aea61d4c80417a5765824628; 0x12e457d22225deda61e77f41a37e57db7830c547d4b54da730f5afd14854379176; 0x78f9427669d8ef5cc7ad172de139642d4c69bb649b76cd00697e76147af8d0eba]);
ISq 0%nat [0x1f2a6bb36423d2ba3916b4f0bfca6a41952773f26cc9c363abf1939e5f55d4f6; 0x1972586e6e125ab5d4ac03208c5a1b68916bb268ec2f735557aad7ba776316d; 0x28f974167345e67fa20fce29caa12d3244bf0f7a513572585b9421819cbffb3; 0x22637142310cdece30af4c2245729685f1bc913fd173422e7196670765833215; 0x9a22a8f7798a8203f162e178cb8bf80a07de1d8249dcc18413761ed66de5ded; 0xe1683f0bf2c5b2ec33b9da0afac3dbd3603278a49e9ac36bf9a89026668ca10; 0x2ed036b92332258857550f0eb82be7dc5d7413ba125ef8770b741dbe64b20aca; 0x29e661ccefea447938c2db4e8fefc2b677098e94a656da05342c6144e809add2; 0x25363655e2398dbaf90dd29f36446bd01ef0d7f6d7ff97291dcf366f2eba703; 0x2f05aeaee3cd49dc9ad6fe532c52468026f37413bb4d6c9c293b4ea6289b6eff; 0x1caceba13e45d0e1e6b0ad294247a799b506d13b2ef7085bd30c9de1c0df5699; 0x18dd5335223d25b4dd7a62da0bc2f80e6040cca0fb75c9677937a3be319a5c70] ([0xb902d20fc0e606490fb2cc008b72920a82800dac9dd622dc767ade5b7997ee70a6; 0x2e0aec1b096795ef8406fb816d15c03a05dc4e17ad1183b1a2db4283e718478a3f; 0x11d3f2ac0308cd5151433c9fe27ed7c7be2c637bad2ede72f131c173ab230d92ab2; 0xf1fb1cb8cdb8c2fb6b855a4dd9016eb6f27f8b61d3f7055b1c07f49d33a9f4e365; 0x427781bd73b600740cd87ce7e2dff65d387f225822989e75a80ccc9ac3d0491f90; 0x13c183b5fa3ca73002ef75b212e4d864b64973cecebc92e4268c1079122dd8446a], [Nil; Nil; Nil; Nil; Nil; Nil; 0x200a1c6d16c5da2f8dd58af3992ee88dc1f78fa330af2ed35345c00ba3052d13a1; 0x8a3fa8d8eb705c9b613299d74ae68604e79ff66b42b73d8079c6a4529154e0aca; 0x303ae59ef8e4814d14ff90a2cb5438e6cb7752667a1f8a19070cc8f6f27674b3b1; 0x29d9f278846f9ed3b4120206c5cec1e0ca8076d5007800140fb80b6fee2854c22d; 0xcb481d9502722b08f27d3a8e9f066d082070ab9f9c4b87ebb6a7bea5d85aa18e5; 0x4d58ddef6f062a2de822efdeeae511845e346c90548f8779b835f70694bba34bc]);
ISq 0%nat [0x1f02321b63d7cc286e2950842cd52aef29958ec759268ee7d9a220bf66c3e587; 0x221b6966bc5128342ea33809c0df515182a40e541005fd81adfb69650645df3e; 0x23520ca542de1ec60feac3fefcce39a19bda47fefec6bf32bf969926f4ae995f; 0xf70f6f94c089d2d4053bd8a984b906ec10e6049e9f7aa4e858410085fc0533e; 0xa0464fad67666303e79484af0521307f5148bc51e5ba47157e17a6f0d9983a3; 0x1266ceb9fad0177762c84bc0fbe76d4d2de6ad844d77c98f5ba64c3bb40897f5; 0x2bfdd8b73232598c3d89513b09b66798bbf8ca0b2857e7890f5363988e58689d; 0xe59a3b0e0bf1d3f081810894f8cb9fdcab6937e0d3113108487949db703fa44; 0x2a68212177e402229921d31670eb9a8d3ccff51c41ce62139143395753db3a21; 0x1caca6d5c977d0107d636c1a00bac6903fb464b57fdc6849043ce21a30e96c87; 0x2fbe47ad15488da26a74e9ce35bebb6df1eab6d1d57387b8963a6e11735c3675; 0x141fab1f736057f3590a546f9beaecd666ade51abd3f09d6e4d77b32648ef9be] ([0x23d06d917282df4b832893aef880c47efdbfbe11b04af3a47f803e87d9d5b04f9cd; 0x17d5f1f02939fdee37b3b159770e430ddc42ac55b4e2ca1e6da424a445b4ac742e6; 0x19d5eaf5e9c966ac970c6cfaeed788a8f425ceba06b3ca7798ee7dcc75bc7db0686; 0xd0ad5d0cd3d18f7435887ba0b949d03867c38a09c7a905bae01c71d4fc93db97bc; 0x7a211be53114dba2c035cad3167ad6a369bab2c533dc99a84de88a1c389d50bd72; 0x20acdded73eea46d29f877db3f15da56b19d11dc0d1f57c3270b0a3014babf6a97], [Nil; Nil; Nil; Nil; Nil; Nil; 0x60d4f28a7e524319f2c2167af120d0b2e173199a6ef1564a848a6e8b3df8b8cae4; 0x41623eaeb4f2e0b2bbb62e7377222f0a41e61a28fac44c7c489be2b3d13326bf6a; 0x45f30495b85924b7687b14a769793f476186f9e8ef2def8b43a46944aff8007d2e; 0x24f154921327ff38961863c56a3ad9c82781bdf8bf2f0ba3c0446edc5abaf7a82d; 0x1735444675fa4d626c5f28427a41de0980a7d5ba93df6ba78a0b2e0582028f918f; 0x7873ea42663fe374fbbc42c15e176a192ae45ee92ac38aa8baaa138dc61af210c]);
ISq 0%nat [0x5e58e25d165db07e8078b7769a5fa94836616e7f1ccd9ffabf43124a5e5c57c; 0x2d1607aa48bdeef45fc61785903ce7f89ecc23d75bb1a154746a3e3c4b7a0e40; 0x1b52621c5531c3495c32a0ecc3686a04d4e794b23805316f22049318dfd44d4a; 0x2a17753961e4b6b9dceed9531e13ed96b5d7fd3ad9b2d73a4277fea2d22a08c9; 0x212a820d2d1982969e6db32b79f8509a44451805daa03e445182aa0836acfeae; 0xf659111663a2731a8f601610567fe07c87fa4f06cd6bb8783978670f4df7e5b; 0xc6d6536615513f2255d40a88c64aea5f627e11d970398ed62f929790d93e82f; 0x232945f01f9880a726539109ba1f5f99d3c8df93ad18cd8ea07b30847ef00764; 0x1e6495b5ed83feb2367178908f5eff616c891a5ee231269fc126338ddd722d89; 0x16337e70159dc8c92229457451fb27b27a95beb6e868f87b797ee98ee0534a07; 0x275386b24b39239ebf87e385096d5e2aea7ad2d3202d45bd797012382470c78f; 0xd62e85ca1420c8ba191f02a614b1d0f3ae47a8b31d9b597e1a81a6e533742a6] ([0x2c45942547ce7da43ebed6156d397b4db9085d2aaaf988967a2a870ee6889bd00bf; 0x23b0f7dbd78b6f4785b85d8bab431b709a8db5c0d3dd8774e379b30b45537934c24; 0x1c44d14b276a08353c0885a02023760e84195a122840c8f8465310b696bfefb804c; 0x10bb964f041be9e36ab07e12de9a7793bb9486ad6b8b3b2f0dbc812c455e0e8515f; 0x62121d628750bb533efd2bb52fa4c3870844e93cd74f568368994d211f79631b2f; 0x24a6d370972ba8b191b5b9160f725764a1b7613a40a17053794b0dbc9332b04fd7], [Nil; Nil; Nil; Nil; Nil; Nil; 0x77d68a2b55d74520c45200706db8a5c3e1896e4b789938c805d41068bc778668bf; 0x606a6019f965520888023449178006fc4e4b67b0c4e5d8da07454e05c18b34baea; 0x4d36e1cc01d8ac4fcf1fe85b914980a1605d5e3a0b834abc86914b2a1707ca786a; 0x2eb52cf46c0120ad6212c8a68a62f8c53fffba96e12fc6a3093dd1f54f5f083eff; 0x13ac053fd12aa659252dba463898417017328916fda697b5d5140a8bac589790ba; 0x8e2470d9354e8867b07d8943f69bdaa1840ce26d203f9932924b9fa377f94e07a]);
IMul 0%nat 82%nat [0x281a915a9bacbf4d9076d87bfc64523bfd12dc64a1da17d1a5de0ba401d89939; 0x14a20c92c6bf07c32bdb35949be98eb9f7564f7ee5a7a39f4ef6a48c06d6764f; 0x13a5d6d125cf2966eb1e3434cad9adf18478893b74d9f52f08e3e91a5b909811; 0x2e22cc2cdaf9e9845faaa1a0ac1af1920ce16be9ecf54535ace2665392c4176a; 0x2a0ceac1c3da5dd18f8548bd671465b486e277815d4faa9291107e625b834573; 0xf8b37c030efc1dd2944a6b323acd9e18fcd560c936c1f1a007d65bfe799f6e6; 0x132b6697fad496ae4a5168cd84528ad72a5a608da5865d83e18a756c82db8bf7; 0x22bc7aecd2f3beb46882c88f5524e012990a77fe291d3bace30dd06ac8da1eb8; 0x124a43233b3e569d93d9d091717de52724f372b5c815c65f0e1c121f08ccd44b; 0x19cc97af043feb4b21497855ef9185980ce6662357b122f70332679856928291; 0x2899b63798b1cb5934ac30ed233afbb073cc965b956fffcaaf76a9211ea1adcd; 0x2cba6e19a32503653ed3c34e49161bdc90bf91b925df33d5deb4a4e48e77f734] ([0x1ced555bdf3003e2102f364b699a2adb22ed645c467972b8117753517346e4e30df; 0x11851852cce6eb2e642fd9506c4aa2b5a2e73ed8f83b43471c29301189806089245; 0x98ca1cfda28e0c25f6f00c96bd18feb588f512bbfcf3c93339797a287f05e37e47; 0xb964140beffee1bb78e5875250edec325a0a273e11f34ab86fee804fc0da5270b3; 0x48872facc327bf6ef56312d0621a1a62ee10bb15a3e7ca020571ada975f329dcd8; 0x139ad031837ee5360d738cc66d1d7f60dde1493d3647a0ad20c02fda408adac745], [Nil; Nil; Nil; Nil; Nil; Nil; 0x4f6d0b41091b5f44df49507c1d3a82816f6b8f4ceb3a0720a8c30bbeedd12042e0; 0x30b23ff180e8be225da4f355af4282da8d55ed10806e5189d5c8a055d2f929f3fb; 0x1bca31c87706b9e7fcb2f7e09d189945c9807db41c4b34266bcad4532e68f2e962; 0x211ac4b486cfe9f6815c01174b31e54bb828772b41bc68431f3a3084fbfff03164; 0xde73d90ad2610b47a8e4b0dbff81f9fd7b46685548c85a6d2ff53ddc414c6228a; 0x5145368053123c0193d3286901a3914aaf2fd2c09e56dc929a5c159b95baedef9]);
ISq 0%nat [0x2ae70db4cd5dd34fc7279f0fcb3b2a082b0e65a9c7e64ddf7ccb7b1c8fe87989; 0xd8e20de4c213a86714e3ee67dd8b72f003637b89e34c9995d63493a48d35f68; 0x1cd018ce7686a295923ebae8b5b7b29ae563c8d6c55be1f74da6f7b497aaa1ec; 0x4d1a74f3952fbd73f3def9dd279effa59ded58b6e190b8cf30aedaeebb036b2; 0x102767509a1f37e0aee95a363f213226642635c2d8bf07d3d05a4dad95d901fa; 0x2c202ed3982dc26aba2aeea9f16f8da9c84da2f2d71d47b98568def99d451346; 0x14bd3750a50ad3db8454a2f33c971438f1ce11f3b3061617fbfce0a58c9a23fa; 0x1a2323837e9fb9b406643cbef3f242322da957c449b467e024a52ec355308ef1; 0x2d52b0d25b748aa8f8ede2f9ddda294cb70a383b23f0d723548f8fe48d45394f; 0x1c866b849eeaa382fff2149414b227eba6f4b18271800681c24dbfe6e971a909; 0xc5f7c1d33a22d703005a343bc9bf7832eaca81fe0e9783032ca63ebfb8e8a84; 0x27427bdc2b759eb61d5783033f34ec5da9f97cfbf2934baa11f59087ebfb58d] ([0x2aca5b2b7cb6e366379d55415b6ecffab6c7c6eaaa94572f27809b23abfd7ad61fa; 0x1fbc6cbfd5f8513aaf78fa40ffb266a61d1bcfabdc884cf86e840391f52322f1fa2; 0x21b111dc9ca0319573e053747b6cc7b2380a02719255a44eb418990968874cea393; 0x1e093c48de1495c1d808308b9477e2ffccc13e35dadfde81d755ff8bbf54e7d59bc; 0x10f7d9a2666a2955f16f982d86924515feb6c0a55806f67c2bf13bb0f7b9c8d2c53; 0x23e16964a474bb37ae2e04f8f1bffa12324c9e4ba4138910915c2dfc9e65940f98], [Nil; Nil; Nil; Nil; Nil; Nil; 0x73fe588acdd2d331696b738374ff89b38fbcba1cb172c0c4df465b03aa805f323e; 0x5772783d0ce653797441b686fad320752e3286bc7ef72abf2ec70737b5637dc1cf; 0x5cbbbbb453f365c2acb866d7b2e02bafea77fa62d52d5438efe72593d6f11bae10; 0x521e4edadd5dbef0188b7e13ad525a7cc8c1efdab7c2e3190d7aa76983a64d5b41; 0x2f44c7202011992d3e13a98e200ef58c91f1c08fdac0c22f0b75a70020567a3b3a; 0x8e3536124331346116ce95ed99b547010de1986e6bd2aacbacd04e203564d1709]);
ISq 0%nat [0x23d0d3ba574b704cb48a2150570ffc97cc0b27d7736a06cff6f344700204e50c; 0x28e9d29b2f6c8a8981015d3eff67c0010fc50b5ed369c9659a0d2c21f9c753d3; 0x1d968b204bf7034fa8eb07a0896095396149abe3994cd727480dfcac0591ad1f; 0x2b04d746f0563b32a229ad8811e863cd3ac041c192f4961dfae8b561da3a6344; 0x13ffbe86f802604e0832587ddf416eb037e0d6236fe1949ddc6c332c4e8a422e; 0x1863943c582ca8a8609d50be3843cf8f91351c7652ca33cd708aed64a4cdf36c; 0x9e3150bd6a5c23e65e00f5c8e22ef3c3246d08793b8818c8a6847969f3aa9a3; 0x817212b8e23d33825e888d5b27041213941661a41e58bc4635532d817203ae1; 0x1d65d58983b63b50bcb31ac8969a214ab3834095a9fcf6cf7916152422100216; 0x58c61fcb4a394e3f8df6e040847aec98befc169552bfd1a55eac7f2bd97d332; 0x10cd832fa2aa6820897b7f5bc8fb38148a30e7b9758ab3f58fbdfb637dd70e2f; 0x2b8a3152b3a7b934f01edb0cc7e1ad19a2ebc4fc00b2caeecef7fb5e6c1726a7] ([0x1187e9137d7dcf42df50324017d33e41f1603a4e9d916e7bec4e093d6aaf55c07e1; 0x97fc2b51ce69796b1b1589dd4cf1e9d49986833b9ec083d1ca30bd44ec88e289e5; 0x4722869ac29a774e4b03645787a7ef86ce10c98610054a85bb85fa55e577e599ff; 0x266782b5710877811c2e79e91fe6470ca6861ad64467a8a64d1224a19203423354; 0x1cd33ed98d976397aadeb3e4b7c38d9d2634f85063878a2a449be30c9092221924; 0x15b4ddfce878a5ffe897e9a98c73a81a2a7e47800f65c8423c3657663eaefd479c], [Nil; Nil; Nil; Nil; Nil; Nil; 0x30435b480495bb14015cd71400692c77e9fdf7a930316305c551d79a9181673c6d; 0x1baecfb491fd53ce98317a7fb31ff12afed75b4a7e60f40163ced680cc5afbba2b; 0xe3ebee4d66737d95858e760346aa1abe793babb507e134c96a46860cf944b899e; 0x899599df4b60e36d3c36d7b3958ee8047a222fe28e8697da75f97fbd55e08d58c; 0x6eb74cd04b995fb8584e97f9c8006dd3736782861ef27b186616a4c666b782527; 0x545c523def6d0f780b858d93710a3c8d78f414c2308753dafe8f0eed42a9c07d1]);
IMul 0%nat 1%nat [0x536a9a2f61a649f2e887177f39e8361e7d369c247a1559c8300b5eb3280b8b; 0x7568cc9681bf360fbcb16711487877ed427f9d7fd8429a64f9d247de9790b8b; 0x1f6faac58f51d1f98517eef72f5e8ef8ab765d7e0a61aac8d6f2ac56a570062f; 0x2346ebc37a662dd3ec9606475d98953a16774e802b520196aa493473c2beca2d; 0x10dd9a263771c5027e20f6fca302d5f9d1b12c6266a870e5409982b9930176c8; 0xbd3a24142f2137f999601bfbfa5c81b82631b6f9cc103539da4c9bdda0422d4; 0xd6faa6beb883d92cf833000b36ef8be353ebf278b816da884e774f66e23840; 0x2ea195082f0fde04c949c248ddd20fbb38152db04c728060c9082410e252d05b; 0x48302db4cd31624d96b4f26661ef53e7b97a19dc1be14fba47914339f116508; 0x222ff896a207b6802ecab833594cfd13461036bf0e040ff5f3b272bcc0b84bbb; 0x1e71ac3288b22d10c09c908ee52b066351d7bae6a13bab937ecf6284984c34d; 0x16ba2a59f944db8b9c5d75e6d4aecd8599eb33ecb91eadadf3a0c764d4d817c3] ([0x14656da61978b569934394af4dab91bb2ee241f8ad54e357ae8e7c5dca67a87acc3; 0x158c021c8da2f7f1796a51136a2423c27365c13e331eee32ba6cd1c12183bcbe8b0; 0xc249142e41052582129fae2ceed13455e3edb7270c3dcf10eab04b318c61eeff78; 0x5ad5866df83c36dc6daf08181cdbe33e435c4f43375b8f8ff7eb9ea225ccd28853; 0x2804649f0b21481c42832ee7c1ae432397ee83b5d4dfa55a1f6aa7f59078edb892; 0x1085fef2dc6296fc7f2f182a207bf5ca44e96afd6479cc24422b43011adce55ef4], [Nil; Nil; Nil; Nil; Nil; Nil; 0x37def975e89228c3b0f8d8b1d6bc97322ba8c1478c8c1a2655e9ffdd23123bd825; 0x3af58c3bc98a07ecf5442e2cc2249a1563e3279417a417cc728b06eb698239cb5e; 0x2199d51e33707d71cbdb966d529651315bbdafdfedab94bdf529dabb2f1ca29f37; 0x10b536bcdb09fe08f6d9a26f6d92e8adacf42b8fa091adfe7c024c340fc77b2d61; 0x8bac08a611f03d58bee23b2d0fc5c799e298bf5fd7fb704258b117e0320bc694a; 0x44f773160a84b70d5065eead4c1e2a8c2ed0bfff93385584da28459af24b5358b]);
ISq 0%nat [0x15a3e491ecc6936b0138e363a3e6cc971f39954e6037bbcf9e2aeebabb0c4311; 0x18e44eb2c9214de43c17a2cf328bcda8af41c95bf4fda2ac4c9c76712667255a; 0x1f7cf110ee5e903e5e0584049914042129570804ad1417543f22d12560a06455; 0x10d8d24b57d3496b31360321475fd0b769a84efcefb31960e5e43b80cd99dda5; 0xfc5c1ce6fb8b1e0a09e16d7c0f9a31e6c5541ffd69c1e4e842795184780c363; 0x12c67d73830c290fcb11468d64b3ba997c10f598f865ad5dd0b62f493f210627; 0x12151ff6f6572b1fac4880151b2e051bb1cdd8ee44f4c852f7b61aabd0d004ec; 0x14e71b8f9c2faef575f4e0329fedc9b47a80eab3130ad40e702c3f098aaa1994; 0xcb2fd0c72f53bf0b08157e73c60d7337ff0f91b8ebbc004e78502adf44e9a75; 0x25cd4797e36561e9e156eb340c1f484f877f72ac28a95cf4477ddb033655fbb6; 0x22296fe2e506d1327aaf128e5cb4f02bf527781112cc0e2fe022fa4b0bd5d63d; 0x2408b6979abd799fe27a77ac615d0014b5f84c6471e26954b87eb8428affcbba] ([0x1a51d9561d6d1d4e2cf8550e2c29114459628486b9e9607de522faef0509419f6a0; 0x3b239f05b5ada2acf65aa4e1e645586b0d4afeb3bf48608256e412273b7a69b5a8; 0xd8681c932d7e18d91685cd34d3c4bc1130fc056f850a8d03c157902a98318d4dd4; 0x12cd9486b452fa83001eb926868e4fbdf4a9cd670f4f06544e0c4123943a8cdd93; 0x563ccbc412b585529cc81f855dfcc6297cd30eafd9c2da8bfc090921630bc98294; 0x34502527863595cf72f5919675351e424735a4bfe745f6339dfaf87aa83d42a63], [Nil; Nil; Nil; Nil; Nil; Nil; 0x46c2a04e40c3315673f393e2a10bb5bc8d284338877b6e7386ca7f9025c516afe1; 0xaec3a88a83576b930b9656f664e14a51232157b67b046e60d863b7f98a3a7a7d6; 0x25586ad431dea00f81da4badd12a2bc61855f9bfa14b0b58ede19c213f041b71af; 0x3d829dc08b7cd4c096b8ea40477b52ad096637ce33a9bc67fd0468d8e54dad8ae; 0xfe178c1b6eee0d8dd4456b12733b2a870a2a18b483aa61de81a5af25d381dade1; 0x117bedbe6719d83a583aa7011f9b6033e2e5cffb678f92a545bff64c477aad394]);
IMul 1%nat 0%nat [0x2b71e53f3e1611f608646fb0439c6841a39815cce1a8a41e2fd7248a8ba1e183; 0x1dd2e3e01b2c2bac383cbc19d11b03885d7d2e49e0718bb9f0cacd3ab983b6f6; 0x163a82f720cab0becdb2b0aaa1b81bba462ea52daf02f93d50c0e24a25886b39; 0x2d734dc7e3c289e60f3c0b32913b1342594ccb5e1ae46b1ebceffa80a74574df; 0x2c81ec8a49ef00139c1a5208ae4d81163c8ec5928c2b445cbcc535afff3cac8d; 0xa8660c893e7d75051de6e57b8532de16a0b9076a0783188ff9ecae78fe5183a; 0xc51ede0b3ec52ade09e84764fd4419ec37fff4c611a3a771193a632078f3cc6; 0x1f1338439bf47db9b1577a976dee3428a3bb70933834c7147c08b3d88bcfec78; 0xb913be6e1ada2414a3610ac3e7be3a58d91c047bac3ab5e2ff527b13bd5311a; 0x1b10fb73c474f4423903054080847dda9f8f346e3282d5c5e330edcb7f128991; 0x1494b8b97f53751ad2edd8fd502a6f89c4962da160a395e675c470f8f0becee4; 0x1ae4bccf1f42f829557418b326d8ceab81bf60f3aa61e118da6a8657be94ab51] ([0x1d314394525b2837abf01166241aec006a2a5b771807296d8ca1fc0a43ae0cbbd40; 0xecedc339b9254931febbd4865493062c70444c49077883cf0d9eb7e91cfe1aaacb; 0x11e0a9e0872ffb367b4828f029ea8f6789d3f7a29b6c29ba9c707ec4be44258f51d; 0x76ae7ef8216ffa3ae58762eb282678270c5b1037f350d75cddb06d3a50888b0728; 0x78392effca8bc3ed887c79c8571c3174374fffcc4596e1ebf9c029dee13a542a8a; 0x1188b296dfc9700ecc691c9d4ebf93952c3e6284e3158e5e49c7f46f88b6ded378], [Nil; Nil; Nil; Nil; Nil; Nil; 0x4eb23db563b4c57d7b50450cbefe675fd1a3906b6746bf67cbee484e61af03b941; 0x290efb2c5f9dffa5f354ff5be5f0caa5634220078cc5b70f15ba3924504c45bea1; 0x30c988b1e50effb15d72b79eea0aa019243ef804e04e15be0324ae822a8debe522; 0x14d532bdd73ae054071660d219ac9847097c8a77a1b29e4a5ebb542b2c8ac8cb62; 0x15512ef6d4a097f948166901de074ca6e470facf919170940287bcadfcde885634; 0x449cea5f703ff38c7883b2821f45105e140595e66e6d43d295eb1a169f05ea498]);
IMul 0%nat 1%nat [0x2542f3fbf9ed01490eda66e23d35d5b844a4b18316bd3b0fa628f00ae58aeef1; 0x1d283b59e1bcee791b4d69065b60c9705001016ff373304e1c05a46b53129300; 0x236bc7a5c89430b0bec32f1b8522315c822d2a79e8d5a7e0f3f467401324ab56; 0x2c68ed2c1a6517bcfb45cbfe0bb9d1dba46ec27994a5ba4b6efad64aa772d8; 0x21796f4eb3271be62224c2194999c526d3f43e0b4209f54be85fa41e3204b9e1; 0x1baac16700bcc0ef25290167a254869dd84eece1f49e327f4315af72bc006a9b; 0x3026b7e077592271fc63918da639fade524267a27bc63a62794ae8d16547c55a; 0x82624b22a2cee7f7caa40623b33e68c848fe500846c423903fde1e8c7992ca4; 0x2fcbe487140e9dda0cf2a1c2035ae5cb0d1d0f8bee57f7a9565ba4856095e5c7; 0x1901e41e35117d7aa9e5153375098457fc266bda6ad17696d04fb9f5fbf8626d; 0x2051e9d6eaee4983ffaaf3bb45afd000869f7c576489d008703403b9709022; 0x13aee3bb9f624df9896a3187a19d7862b4a924fa450a2ddbbc7da96df485ddbf] ([0x1bf6e96e64f2633a3db21f63ddbb2303a700c564199da3d0494be5e473b18a9c4c8; 0x15242bf79a78f8e976c2239c0244640628956f84b68ea12c658244d4d3fa26d6f5e; 0x167a82569edb7c287ad67e8ee70913b0c0f88bf970ea1511e36e91cfcf7bb12381c; 0xe27550a368f3bd5d1f17e80a0f5881a83600293a873b40f3f0206318a1c0d961f4; 0x8abbdcfa2df70493e50489161b1c8b7bc59274eb200617e8ca7f26cfa83dd3c630; 0x14d803ffae6c24d6487226654a8ec7ad33c75590ae4e7c3e20959ed8d0e8f7ccee], [Nil; Nil; Nil; Nil; Nil; Nil; 0x4c564ca7e8f7425af03a7b574e55d29a9c282cbbf2e78a3d3470c69684cd00b289; 0x3a5e3b7ee3652e8debf9e14de81087bebeb0a61c982abc153bc96ca346a552cedb; 0x3d89922fdbe3b02b14f732ef26d6668976e07e738b88435b76abcce262f56594f0; 0x274a8d5ba99d10116e9499e097aec7e1f654d9387217bcd04cb816c1469a61e9a9; 0x18adc08be484602d7171b91b2a5693c18df9c6f2e817901ee59f8d05501d949750; 0x54c6ac91bcccbbb6c2dac4c0f82bb4df304862a1250e06c54ee9df9c6dbdd93a2]);
IMul 0%nat 2%nat [0x1980fdcb276fd6f5bc4bc37399fb8d727f9033c492559db8d5a2588f2b4703fc; 0x20d8ce9d84d02dbd7e555766a29435c8ade6ae670665bffd3bd04bf95194bb98; 0x2a4d5c479fd2b597402e7516e2f8ff228a2017206a2b712ff20617cf24d20121; 0xa9cdda357b6e19e401910b90dc83e5922fcb483ae972d7ea3d9f088ae880744; 0x24bcf56d2c4c7ec75cab87db55bb04ce8ad2ae7ce7f12413f1fe151c925fadf8; 0x2a39324624a1f0076c786e4b9cb8503ef415afa02b8caed1ed4200c04eb1092e; 0x2fd974ddf811cc0cfd799b6de792baa6aae3ee490c70b4e059c2675f7455f828; 0xea3fa4782ff9a27cbe760f7de8f2e80849f96c61695f9c4e016849e8e0a308f; 0x119dd2338eae4063ecedc6e2b1d603f0ea91482ee72b02066fde762d22c37c16; 0x1c9f58668b2605f1ffdc557b81969d5fe6dfcb719743011462c1e982c530508f; 0x2ab53d1ddf3f3ed8a2e074b0254e125295b5e86f67158756f6347ea909d873bd; 0x11ffcf17a75cdbb2bd03b93aaf446923b50939b76d94275fdd80b6aad42b07ad] ([0x1aec6c32f7b91cbe5b3f812d56e3698e998d2228ff67543326584d421da54a6005f; 0x178b4b3cbc3d2916738a42efe92e3ce88eca1c3e75ed648325becff2d3f0cd4cf0e; 0xe30ece87716139153d838560320cac04770aaa7516189bf10b80596dc9a12799f0; 0x771c48a69e5fe6800f9588260179cb79da48f632f0df3fb20ffce2fb6e49300cf9; 0x71bbe70fa283562b5a7cfc94c231dd9ecee38aa06127312e5ff572623db95e9182; 0x1d8127cbedae39312997026a6bd7edb1877ece5ef9e79cdf0a5a09c9bff0b59596], [Nil; Nil; Nil; Nil; Nil; Nil; 0x4933729effad4c8c7bc3a801b5e9023f8791a155856ab0a7518250d83664a0a61d; 0x405d444b82687f00178fee08c6321b96adc8a6d35243c607562ba7f03e67454d65; 0x2769afa4daf768d4b5127ee053c5fd5b05aedf9ea20c3a4078e4677ba61ddbb0f8; 0x16394e42487b75c8e2e09e160023fd9537e833688446a1f77a940be0baaf92853a; 0x14e2f3a999354d888b6eecc4ee76bae7bf6fbbd01e47846e986cfcb300c08d8ec4; 0x72c748b1b0f607f2174d515af66f33808225cc6074577880172a2e89ac8c4cb58]);
ISq 4%nat [0x15a3e491ecc6936b0138e363a3e6cc971f39954e6037bbcf9e2aeebabb0c4311; 0x18e44eb2c9214de43c17a2cf328bcda8af41c95bf4fda2ac4c9c76712667255a; 0x1f7cf110ee5e903e5e0584049914042129570804ad1417543f22d12560a06455; 0x10d8d24b57d3496b31360321475fd0b769a84efcefb31960e5e43b80cd99dda5; 0xfc5c1ce6fb8b1e0a09e16d7c0f9a31e6c5541ffd69c1e4e842795184780c363; 0x12c67d73830c290fcb11468d64b3ba997c10f598f865ad5dd0b62f493f210627; 0x12151ff6f6572b1fac4880151b2e051bb1cdd8ee44f4c852f7b61aabd0d004ec; 0x14e71b8f9c2faef575f4e0329fedc9b47a80eab3130ad40e702c3f098aaa1994; 0xcb2fd0c72f53bf0b08157e73c60d7337ff0f91b8ebbc004e78502adf44e9a75; 0x25cd4797e36561e9e156eb340c1f484f877f72ac28a95cf4477ddb033655fbb6; 0x22296fe2e506d1327aaf128e5cb4f02bf527781112cc0e2fe022fa4b0bd5d63d; 0x2408b6979abd799fe27a77ac615d0014b5f84c6471e26954b87eb8428affcbba] ([0x1a51d9561d6d1d4e2cf8550e2c29114459628486b9e9607de522faef0509419f6a0; 0x3b239f05b5ada2acf65aa4e1e645586b0d4afeb3bf48608256e412273b7a69b5a8; 0xd8681c932d7e18d91685cd34d3c4bc1130fc056f850a8d03c157902a98318d4dd4; 0x12cd9486b452fa83001eb926868e4fbdf4a9cd670f4f06544e0c4123943a8cdd93; 0x563ccbc412b585529cc81f855dfcc6297cd30eafd9c2da8bfc090921630bc98294; 0x34502527863595cf72f5919675351e424735a4bfe745f6339dfaf87aa83d42a63], [Nil; Nil; Nil; Nil; Nil; Nil; 0x46c2a04e40c3315673f393e2a10bb5bc8d284338877b6e7386ca7f9025c516afe1; 0xaec3a88a83576b930b9656f664e14a51232157b67b046e60d863b7f98a3a7a7d6; 0x25586ad431dea00f81da4badd12a2bc61855f9bfa14b0b58ede19c213f041b71af; 0x3d829dc08b7cd4c096b8ea40477b52ad096637ce33a9bc67fd0468d8e54dad8ae; 0xfe178c1b6eee0d8dd4456b12733b2a870a2a18b483aa61de81a5af25d381dade1; 0x117bedbe6719d83a583aa7011f9b6033e2e5cffb678f92a545bff64c477aad394]);
ISq 0%nat [0x1a2b1eebf7c015b80d1e19b65bbf97d1653cc65c386798b625cb3f5832431ff7; 0x153ec7d4825c7cdda335cdc21bf28921a60cf732e1a3508aee2cbf44cc98e29f; 0x492264fe462504eb8b7640ad6a19f5e9422fb59f28388400b02a42ca832a917; 0x27e499a16269b5157e3d08da02de1bdf921b838837f50d39e986505505fa670a; 0xf16d685f62729145d523495b162f458385b18a79cb1630e6c90276765740862; 0x1d15abec1eff062d2ac69d2e988cf2fcf3c514687390b2da987297aaefd25564; 0x2d1f554fb2e06ef70435bee3862c932ac075d1dbd7ad520f849121bfa38c19fe; 0x18b4e0b0b8223638150dd48af2598013046ba7eb98419ae8a04e7ff85d9121d2; 0x1f48c95100eb594ef49bfefd9805879307a38897e449f1ec5b318fbc544e8c24; 0x2d2bffd863bdb4598fb597ba2a1ccac303f0c5da17f5d91dcaa940f1ad7e8fab; 0x2f1d1820b69e65a3804e732858bfecff4f89a6e0a3bbf964ba0adc0fc372ecd; 0xbeb4cac47f35110093f06984a454074101fef2723e0de1da387d2882f8ece7e] ([0x1f1a1f7d8abe0fbe33573df3167d091afd54eefa3338972f80257ffe80a60fa9cca; 0x1c75ec52fdd7cc8828f75551a3a82a0e53a8da89395ecaba5a8db1b67c5aa6b6b9d; 0x1edf83a1e78a102bdc503b6d6b59c1aa2e9db735bf353319fdbe524ee588c94738f; 0x141b96fa292b3b63f3478586c993411901d18cab007ab9cc6adfcf5d84ce9787c60; 0xb729a5bd1a0a7f6fa91066b2769ee820207dfea004ad35d23cf2779b08dcd6f7ff; 0x1838318f3b77bebe4b6225cc716c476f13cb7d982a2f0dde58930637e3c7756390], [Nil; Nil; Nil; Nil; Nil; Nil; 0x54503ee717f2acb446a6031300446a0aac1e4cb94306e45701b44294dd1ae7c5b7; 0x4d1bdeadfddb95efc4f549d8783d21eb33142f1818670f70559c3069c4943c1506; 0x530066e6db3107f40e470289bc984a19f4a838cf2158d71c340764230c38056a3d; 0x36c0d5f3de1fe7cf6b6100f7ca8fe97660513fa3f1dd813a5d66bf6308dc12b67d; 0x201f9d721f031fe59acdb53151eb8273243490ca6db76b2edd022ced2ff05fde86; 0x5f6251f2e5704cf043342150f12f62dc3047f28f76372c1fe303afffa1a89dd70]);
ISq 0%nat [0x2aa247afe83ee96db82adb506fe990d4cbb39b757c13a133339d472a23c6c1eb; 0x1def1100971699139a515fa39024374300a50fdb358b15d0e45bb4cb96bb66de; 0x18cec479804bc17776d0f93d0bad98229ebd4bf07ae4adb759e3a4e5394cdd62; 0x151e93eaf8cc34e21e2300c2f029f1746015aa17ef4d270901994f0c2337470a; 0x114ff766a841f2561ab90dd7d8b6d8e18d5623f59f8cf2ff6ef612b0f99de818; 0x1c827ecf8dc4e92923c52b0e629cea284a2ad9113d999c54c31d2fb6be86698a; 0x29efc25ab17f5f6fe921467d44b9d63481a9601593f518c9cd4d177779a1b53d; 0xdb7e55c5df9d42c0050a913e8cd0be484c959c7570b89db49f2b151b5d24e7d; 0x28077c85a0bdeeda1a7455ef8ee08f98bf11f8671fe14eda7af7c766e8db993e; 0x259c27d3b504eb946463dc3a5730d557cf7f9166de14119cccd38c4435dca703; 0x27bc9680e59ccf275502650dfe4f8fe04ec165ac6cc940b23797524306db7aa2; 0x2356e83bfe3f19219776d0418359d55d481e3551f21a07cd519d64811631d4] ([0x187ce99eee243193ebf84967a4f6db941ae9b434a3bbd86c49fe40d7f3d3a5427de; 0x9e902456a698cc6352c746f52e2358024169b1a4eda761b1e67f172f22589484c4; 0xb0472668728f8e5af9fa51b179de70902418cb2bad55e44a92928d1fa2271049c5; 0x30e8ba46ede09d985e118330f752b23d53d9140ccb60871297c99507132974da3c; 0x2c5332c87146b3df5295677e786e4663b4dff4803e85d858b7f8b2d0be641b04c9; 0x1a963a1dbdf0e54de958ac786926686c62ddf9800af78b1b56f95dbbf1b485193e], [Nil; Nil; Nil; Nil; Nil; Nil; 0x43d3025a7b5ad148a994c2fe190f5cfd6da9667ccd912c0b4f6a29972a1df55fc3; 0x1c81bf16cbccb44d9fa1b351f38609fbc3cc81e004e56c38e93aa5f6789f093091; 0x1ffa70423e0bc356c232ebf8438f3e324c0ad3fb274aa21923a23027c1a305a8d8; 0xafd626e5b667cdef2b9df8e0b328494af375cd17d8ce875254b97b75ff88d6cf5; 0x95c98bbf6a7a93a118e0d884c70e1500b9660a667c10c8c6f3f79d45b64f7ac52; 0x672c111238c6327216f74fabf1dbe32051c74636adcea98a9cc5a357200946020]);
ISq 0%nat [0x9e6832acc0d8aed3b7544c1e26735a8167626b19665a2992ff94dcbb6f335e3; 0x2833c63ff4454d87d4160e846d625647e41b8e49f7c569f42c4ba4c8e4336166; 0x13f8926e1a804508c25ff65598ca391dfeccb051c0ec2ccf302328ad51513627; 0x185ffd78e61b8c6268c151b9b5509839f9a46441cee616e9cc86cfbddb9ff5ba; 0x1a422dd869be5ae6d80901df711872c04e33b82260fe71805db96aa96316445e; 0x2cc40bf1287849e5ea0a7b89860e558ab6af8403f788ecf37edc1a2006ca8dc6; 0x2b5d1635bc28bd691bc78b36d6bd796b7428f08baac3068ccd580a2aa4b6e888; 0x1bebd100d072cfe59ced5e9174f3e9424986d2b26c517617a44331af90e9d5d4; 0x13cfe6557c9bf87fc1242a7aca96059adca02cfe04701be5b058a9c1ad4ce821; 0x29547c139f4d8ce0a1ca4a1b41bbda844a3a837394f4d36eab539702597c42c3; 0x4932611390a50c6fd0554097337dd9ee92177c413b811fec34f554306dba441; 0x7f070a089727fcecca386593a12f268243977fef71b25236f873fc6ca042f4f] ([0x2557a682fcdc7c9506a33fe2fb2e05575259af47bfe5a06e63b08c49d78f8c6a8e0; 0x18fbb4745a171461abd89d6d50dd2548d84d3e3392962295a8a91f72067725ba88a; 0xebeed2fd93724568e70436165232ed75af4ea955b5b3b829a4ce01871b08e3783f; 0x2c386d4f0e97778c92d18216127e44e7beaedcc6df0b5fa0c1695eed99e12f7ca6; 0x2747c7a8e0dfb25b52c1d54cb42ae4c1cf53ee62aed72835f2d6be2dd208273712; 0x1adbdee4dd2e49a630bb3491c18c5aff9024e30dd06f5abf1795ced15aba99f76e], [Nil; Nil; Nil; Nil; Nil; Nil; 0x6545c7df8dacc23c24e015c5605cb7b35a07a463a3b54171a65d6a5fb826199aea; 0x44675c6fdb268e9af994c4206594e7c88abe3c14367d00150e38d81699077bcff6; 0x29f44ccf37cedd7db732a2d738258c1bca912cc9bcdf3ae11e98240a592507ff53; 0xa6c25d2801e41b1675882e719d090ae8a863a9fcab689240a09a3a8e1118a0945; 0x986ebd0dbe7da92d1291ad28bcc9d1bc11cd3f4eb920d09775a33bf90e3474e4d; 0x6aff3ba2d22ee7316ff998784f11dd6c8d8ce31df4c5d9067b8c245c046ac5a1f]);
IMul 0%nat 8%nat [0x216c2867a0c98bd16953e6a7b8f85182af8a89212dd87c1a4269399315a59b76; 0xda21be623ce6fe1d2985425bd2f5000dba258724e5050780497d61289cf73e2; 0x9a940d929c150bf70d484388772f13715df7a4c5ed98ba67aa4a046e3dc9bf7; 0x219df9c48606adc628f614fc5914cc2dd922a29f84eac15b03b2f7932ee5dcf4; 0x7e7d2b3b69320569873cf0391b4e27b7cd1cf2e6fae3cac287b5d3dc163c565; 0x102eb578637a1f6b242021e8e9b6eb2b5d5cabb28f62730f15ba813ae9f1e39d; 0xa4ab952534c464e0a011a33a3e70a6e474539489e2570d499ee0249a5014045; 0x255b7d3ccbde552849ef7b38e60013882c500fb97d30547d137c8262169eba90; 0x25da206e79dfaeaf33016d2d095db434153b84381aaa05befc53e95edc3f62fc; 0x63292f240987a644d1534a3b141839654b95bbb91abbc80f3d46adf0ebd0d2e; 0x17113a9fe36e7d767f8fb72fa9aac99407a82ac15ad92ee827dc73d99c25ced6; 0xdbf6837b7651c96e55507474308e24cd3e55540ce6b602fe165c96d5163df14] ([0x1510e4ba316bc125e56ee72289e7463316484f730a31aa12ef046c4912b2912a587; 0x76ed74a40e4fb69cbef922d1958649edd1ac6896da0a4c056d6e7e437c36a4e76f; 0xaefdc89fd345a791f617f1f5da85787e04dbef2a7a84b6b0bb519d9598ee94930f; 0x24cb7ec3fa14e6185974af7cca92e87cf59a24f9109f560db0eaf22f49a0f116d2; 0x30e6043c647dd1a667abd8ddcaff872d185ff24bf5955fee75a2c1160b9bec0fb8; 0xdd963d665345b8429ec447fe07ddd6e07c9b6b127ef61ae9cbabb8f628bc738e8], [Nil; Nil; Nil; Nil; Nil; Nil; 0x39d409e6a637477ba0c1f7230f1477a54a9c16ffee6ba3bcc70c0bea892fc93571; 0x15a42c880a85ef9457b7df22b2ef19b24016125d88e050754d2e47e2d764d58727; 0x1ed261f0cade04952aace0454ebdefd39ba3e61855cd3883a742c6721f811ebd1d; 0x7bb64ef03a10720612d9967125ee9d28cf57e0d03aaefbf8240c990d2941d7dae; 0xa0d2b620af4b20ddf34186737bdfb3f28281cc02461352be6de5ca2dc33ed7990; 0x38488dc4dd4fa6078d9c2ff32e003e07a1291298137f173c0f9899a63ee9a3208]);
ISq 0%nat [0xd659f01bb33fdf59201cf86e5dfc441497e50c55c47bf00b9e1c2a6d45bf3b4; 0x200ee2d3c7439cbd49381edadf8072915bcd668dccb7722e12d3dbb718abd83; 0x1149c3218cc4569f42f89f827c421b456e4d2df83fefb800a97a8be328103851; 0x20cb8af3733890eceeb7bf3b1026a6f1cf1456dcb1edba22da639abe09afc193; 0x2afa44b9c1739b2ad7d20d348c6e4c426dbcf74ff1a89a014f5419151a39628c; 0xb70562dfa2b4a57ef4bfb49dfe6e7044db3664c78cc773e9999fb2107c59bb9; 0x3949fbfa8cfd7f9e51031fad39c9068444663e9382cbabd5d276d95c9b4fecd; 0x26bec3ac30721a69f387024e1fac5fc816390a8c5d4f645604aedb0e6f54b8e0; 0x116eea9f85546e6afb502b16a62a2009ad1f94b63f3e3f01ef0067ca75a3673; 0x16f5e6090a78f29051e0c0c4877ac4015237e166731676b7c5c037bda44b4fed; 0x96b22825e089ff74f68ff6e0a6a1c9175ab696d3c99472df8f5a1c949ebcde2; 0x16a53ef036cdf3e2cb264b07ba6139b2e66af7c73cea1b034fda29eec3430499] ([0x163c83ffc564c0706a5b1b645ef3e3bcfe80be5ab3388e96e566a9e6552d0fe48f6; 0xb7dd484690ef3da7d52a45ab82f891d1a660faa85d752453583cfd45570a4a3945; 0x6be3208da7bd71e9f661bbf95661ef85913faf41341159709c623ee94952f9224f; 0x654eff81b1d6792e76ed60ff0e2a485cfd78dc3ef68a65ec3b706ef1f25dd0d9e1; 0x2907df8b001805117656f9a86baa10b6ef9cc3d614e7bfeefb5d9271bd9e4d5391; 0x103ab923b5aac24aea7d175425b9541ce56a3f0a849093038796f3648f1a0b72f7], [Nil; Nil; Nil; Nil; Nil; Nil; 0x3bb3726a328bdd22de8d78c78f7cc1a1f553292a2862b2557731b2757df8d31eed; 0x1fe33477bb0de55584d3dd71b85c37e29023127cabcec54b1b54e5c379c89cc116; 0x1371553129b90a12d2a1b58a37fd32a228e839d458595bdeebf0380d049ecdefd4; 0x125619e46c57bf4912a529fc204bd35d36c8aaaacef2d242ee8defee00ff1a3e23; 0x837984603e2de7d231c68d362000d6fd2c08de5dce08277d8372e9eafb7b8704f; 0x402fc356f26405b395ae33408f676b72b1d5f747eff3965607df9e899ef3b1393]);
ISq 0%nat [0x3558134da2c4332d6e4e4ce3c13d4f9bd5222ed61daeb4bc958d367bf9d447; 0x41c233e5cceaa4870b4f39783782f29f93bd54a47203a6f87a0ac6670ca47c3; 0x1d2e053d2ca18dce3e2c95168a2c637ab4ac5b336c74a97f18f1c7720356c264; 0x2926d5cc2560becb1d4d72a93b7bf460b9b90a98f230bd2169e57035aba76511; 0x2c732c34d1fa30ab8c4330e03613339387c94ba75fa032bd7c946da37fe85a67; 0x1b3784d00b9dad58efff27a6a8338b15d85cf49e208cd9bc19ff30fb77780bf9; 0x76141487ce271f45554ba965abcaf2f6b594d94fdead1c4ba6ff6690721e810; 0x23d6b3889a7e8b4694f1f00b17e4e8e4fe589f4010b778ad2482dd96e02621e4; 0x1a98b21a7b90d182ee9946ecc0c7d034a917f820f1f0a27e7a2d978b4f0aaaa; 0x13cb826bab5999a7211bebdf62cfaa9bcdff5d7a1a12fb3918977ec534e89b44; 0x2da0b7420ac48c96161eae23f493607059f83b800f97bd2727db17f17253ce4e; 0x1cd6476c303333c8bc2fd870b40de7035feff2bc41fa086a2e5a4f79ba3071ff] ([0x1259d5a321333ce6dcde28361be452aaec957ba0638cee410c296885fe2b5aaa20b; 0x51be3045e70c0505a38adfc24bea447c28edc5ef13f078439ff3dcf5e59988f19d; 0xa315fc339749830f1b3e614805704ce3b279a3178cd9b82839eb4158963b0dab81; 0x42b477c083ea576bacce2554b584a93310ced0b7f1e709c68be75558cf166cee89; 0x4ca1dd3d9cc0f6f34e07006de60a1229c4b69ac70cc1ba2fc7830eb88bd707ba2a; 0x61af8713678e5ee320ddd92c55e7484d5da4671059762b6b9dd8204037b1581f5], [Nil; Nil; Nil; Nil; Nil; Nil; 0x316ec4e5864d426361ec0236811f2b095a58f0e589c999470b539c26f219e000fd; 0xf19775d319ff166156a0088357cff0f4f5863cd20f52140c293ebbb783c5187b0; 0x1c925b4fe14dc5a7588fd1a420871e9b517fe03e9caa54d00ca0135969a6077eea; 0xc179f6e6697f92d2ef6a6c9f1f416c2a334eeaf1580df31b3e55636e293a92840; 0xdba09d1ff92d18cbef5a7d23e22bdc11638fd9ef8ea792ea85798b836cceab9c9; 0x1c41ec7a58ce0bcd3912f148eebde9c89c2b3989482e45fe92d300a6183f3cb6d]);
ISq 0%nat [0xcfc34630e7fcee16737ff29bbfab30e1715a81719822bf0ccc91a262e2b67e3; 0xfe067d6023711fa192b995afd49c6152ca4edc79a7e3b74492c5fd2e729e9d9; 0x212d57dbb1a9fc57f8403891b9b1f607e5df1c1690324c00f0fa4244f858b1e7; 0x1a8019c15864646145967026fedf8380a7c757612c00264bc113d1c8aab92dc; 0x1e010fe57704c2ec6b834c0f3acd5ccc7a8e892bfc337350618c411d6b41d54; 0x29bdfcd65e8f338b4fc66e2682ac17e04fef33a03a7cc2d459b1ae795f9b5d18; 0x2ace1067ff344c8f693188e267dd490dee4bc6046ded524465144cbd65373b0e; 0x21950823d3e92a8eb7c7bb961d88f1428581ac9ce7cbba1ba1e68445e34ca923; 0x6e9f2f02e816441064212987351fe91ef2f22faa41013d0dd0159cff077a1ad; 0x10eb18ced9c0afcc102e24a3b843d78391698525ae6a6d3f449472a3e9a38494; 0x74f386722b9f9a0e9658969ed416066f1d1c708f93643dd037847a3f7d931b2; 0x21d4a2ffdb1f81143c1d9f623f240304f19cdd23e20290dae0cc5e755c0ccf49] ([0x163419a4f0cd135f19b5181509c9eed657728e23422961f8ee53e602499546e0cf2; 0x11663dfb6cf86adb8a55a935ddbd4e87e3f4089c9bf43204921fb2b22ac73790a69; 0x1ba6bfa526f43bf8f2fe154d9b3a01a52d057454b1507ae153ca5e763d0aa5f5b46; 0x15da4fa058f8719b4be51293ab4d33febb6eb02496b6cb8a3f9f7d0f1e1d244696e; 0x7b3cdd1a21b8c095235c1b77c00d5584f76d8d21e1e7c20c1e682c044498e0459c; 0x18ad297577ca8f2246277aa1783c4ab2fd76814d5e100d0046679c3bcd1b95eab8], [Nil; Nil; Nil; Nil; Nil; Nil; 0x3d11785bf08863ca73d9a2f9cba68bf46452be7686c79a3ea29e70d87cef8fdcab; 0x30f2c2445b8db6c4e3f941091ae1edc2038abd09eb0c728aadf2a9d83b20c5fb05; 0x4c2de31dd19a7f87cfc553cf66ff645cf3f83a02b4837b1f85d9d5b1a2ed354b0a; 0x3bc08e04969f6a614a457b139c49e6f8dbeadf4942525b39f161419f514288064e; 0x15f150e9c7543285039ac1e4f6bc506d7598a72e55a0d6d40a6c8f898d34cdd92f; 0x5e4228c65ea1a7ef0e2fbea55a9119c9582d3521bcd19a329c85463190445f4af]);
ISq 0%nat [0x131acc40c063c3707daadd8f756a4beb5c1311269ee9d35edd0d12529c1f50a7; 0x2eadaa8496090447b4abe334320495c90425386aec7dac6490638c57805234f5; 0x82bce78525ec1463960cc2525ba69cbb1c7326641c01050460bb672a6b92d6a; 0x26ddb7d2b1a66b053281dac20db84a8bd79e1e24c0a3e78d24fc0f7b1a0cfcf9; 0x2c5b2bbebb797556034b20d7b935cbd38580d10bea87c83b6586fb5ed1621a0a; 0x1043203666463b5066fbb497eaa0d361b0eef974870658963510ed098badd2bd; 0x1c598c9c5f40cfb6cd36d9854009cec69a9d8b13f9d5f0e3404dd109bbb3b98b; 0x1e97d059d995172a650f3d9c368cb4dbca950c65a1d7db5ef38b7ad76d77b7f6; 0x1634e3a8d1836d821301a1d8a37fd1a1e88774ade1b1a2a40973e762c3cc60a2; 0x190b131d5f20c7c74059f9cf50b5380b65bf6bf414ef4b6bc78816841cd7e251; 0xd1d4bb93b9cbaa7a21c211797c6b35d6fcae7ca3645c830eb65bbbf2e7d245b; 0x2c0ed8c77c2985af38045d29b8ee031c80a013d29fae7795b24953498bfc3a3b] ([0x16666e05aeba83dce04dc092b89b1c6cb0f3c179072e88b0e43c6dd39ddb3031c56; 0x7b75b04ec6cf7e646919813466ebe366d7b8d88e4b39d3b0993a157c59a6261bdd; 0xa45141d085099079f0384d8318c66a20481aae541715ac336e0a87e70278df9a2f; 0x4c604d3ace75892d39ae08e177ddcd07b1e18e9aab189149899c52a379eb2ff259; 0xa6f08bbbda5ce3ba3d34ad079e2f1106b4892d5c326785f9f5ad58cd0ecd06fa79; 0x17de12f7ac762600109d9407073e5868729c6ca28a0f947d4eee23bd8feceb687b], [Nil; Nil; Nil; Nil; Nil; Nil; 0x3d47a47b3af47086901dfe3f087b4abcd6f5904b16624f8bf69d101ef7edc872ef; 0x16c764a76eb7b9754e4a68df8c18f4b05f0f0cb4fbb25a6e2e0e931c8a12ed12e0; 0x1c800066adf61760b4abc215b74dbdd6cc325aea55e4342d34efc89d3c0701f9c8; 0xdc4ba4626d6ce899a4c55b8c7730ff2ae2751ad4bf94e6d05cd91ad73b6831569; 0x1d5965eced1a8f7eb4e37f6a625d84ad3a991bfcf1dc86f27ecc7e7eec21f60c6d; 0x5bdfe798c1aa97df5d20a6d99ca3498339822c831dfa1aa32f985c0467770d8e1]);
ISq 0%nat [0x7ba217f2c16a41a22799aa875ae8d53a1c636f1f6e1cc1205252dcb4c6ad811; 0x12d19a765e5994b903fa0c8b028795d226bd863529151aa7e5860df1fe0b7074; 0x1c647fc70c7182505eb260fae292738e0660171aa3fb174b46b1baaf0b404721; 0x261cb09e511e5f6bb63f98c5d77b3d0f886b956c207cf3711636e2307bbffb9f; 0x1eb546e7944dc1799eafc6dfa1ea97c31886e95a34cd993b722a4999add53948; 0x24431c8f2af0b94575c8339643be61659e026060fbf3141d0b385780a2e255fa; 0x1d8eabd80b8d2c58f5d2da3671391d877b1933f37f2587128742d1543bc90a02; 0x2172ddfc3de04c91e028c6ce6586cfdceef8d1d288754d5d909632535b4ac6f3; 0x29522fc886768f51299d2de8012d84cbf0ac8aecb268c373ff10a6b20ce404e5; 0x2af8be1fa97978be22791b339b43f091688263e11a7beec4ce5a5006f2af1204; 0x22e5c3be369511cf3f48d9a5d6e8d21c94c62dd2f85b9c4fa1a288ef2b4d0751; 0x213b151385462c1d3af67a2dce827acd46da81ed23ca1cd98d66fc6b62929ce4] ([0x213bf4fb124313628b86bd49bd94ae151aec6ba971aa31c4a521d3b4cf8d7e4b5ea; 0x161bc344c1ae7b5c68d179e713440760e185aaced1b13a4b1a71ebbfd42a067a39e; 0x14d7f9a78046e14ee93b2594e5f9d5d3025f3a08c962024aa2807548f18ed521dd0; 0xb896727a3ad4ce405dc6e9513d595e841ddfb5406bfc8683178b2dc9ba9faa7ca3; 0x102a69d3db1ff2b28db0701fa89186850b1e1d4672795cf87ed10691d068a05b3ce; 0x1cc5dc5e9589f3461b0d4b289ad612d43397310e16f7025a596891e04e7e2c89e0], [Nil; Nil; Nil; Nil; Nil; Nil; 0x5b45962a42112ef8dcd59ec9bb20f8135cf9a2db352d34d1a886d694a4af615261; 0x3cfd19bee58046e749e1288b0adfda6570fd87256da6ec9dcee552d31b864f51e1; 0x3a1a7b7d9591b6e6df10ef3c3dee4e94502cece87253d939f46986c66b1285e725; 0x217d44e866513f6a6a7aa5d8d8d01a753008686b1bc1daa666300bdb21a4a679ec; 0x2cb2e6fb8afa8d17dddc2605642e5ae5c19c6801decb3c0bd37ec3042d3d524722; 0x71cbba25f9e0b387c010ff1987d8a36aa3bb5b1cd5a9acc975a4c470424f68f4a]);
IMul 0%nat 10%nat [0xab3c7f102dd98e64c96bdd719b46b6f4cbb449818774de137f0dbd8c105bfae; 0x2f5af56bbd13d63368807b8f5fdfb08f33fba7f19c8400ef26f9bd44ed1600e5; 0x1edada15f9f8d0da965395f5eaaac499c2e73bf5dcb10eb7101741037a74955b; 0x9d23a1b362d2ba20e1fdc0d9838f6f75c1a07739e68080aa23fceccd1a55411; 0x2f8d960d3f5c195d70bd2fc38eecdf94e58c24e6b300bf58d692ec6eaefd4021; 0x1d3a0f7f7d87836bd361cc58dd23635d0641f13708768c19b91dbabc60f8952a; 0x1e37d3a5ea28729969027f124b841cc303dbdfc4b8e144738ec4cbb815faf62b; 0x1290f617cef4c2a31b71c94f01bc33dcd3ddd5cee22d1072991de06759cf5128; 0x188d083e43edd4bd532d70bcef0a17994cd963f4d9a8d04048c8f4b0078e39a; 0x188cb4d07d4838a5ad81f34a9f17b63e84356e4f9ac2466ea9b3069df212a1f1; 0x1fb22261b672f73c284b17a01ad78f2e1f8d732dc3959ae3823cc0bbf7b796; 0x154726cc935951cd3d1ea059b5e69cc83871522d12e6249636bd582755640e2b] ([0x279160b589a12a3e7b1ffe9d64612bd9ac300126aae03ab8d5e62e07c2808607610; 0x23762535fa067b30af3a47fadb0c496969a223b9b668579569ba872baceeecb497b; 0x1bd9cff4a3e902f7c46e2c4ce034dbf49bbd7e79df1081d25469dd6e951a537c5ca; 0x12e906d4f0213934469a36c1a71778696e806f3e81255e0ccb2901fa414461198f1; 0x774ca33e8debe90979b45dd6915faa1f3033266fa31cdb03c1edf7bed25e7a015a; 0x2754980b1cb799aab32a3d77d68c74451ee01c021b89174b3d11dab5483efb5a71], [Nil; Nil; Nil; Nil; Nil; Nil; 0x6c596f3fc219fe9f0a659d54d99051c49239249ceba39ea82b7b2dd981443331bd; 0x6197b4adef81a6bb15f148622fdebb0af356c6ab3a5211bd02deea9d0b5257a315; 0x4d3c7399207bf6373bc55dcc2264a0f47cb2efdacb76a495261dce0581c26baea2; 0x35b07437e1d9fb0830ea9b0ebefd1b1318b3c220dc9a2ba845c96752c01e3540e8; 0x1722a93a7855a1a87a4143720be1297352d3d03c61141169884878bd59cd6baac7; 0x9a28d82fe354b896485c253fc85b2d0ab801dea39f6bdc9adf7664ee67fc14907]);
ISq 0%nat [0x2be8c6a276ce544e69007be62522814c9ed2080b1c503c0beec30cb34f150ea5; 0x3bf364b59841ed5972df13c4cf3faed389f2192480673263fb374d9d0e8c0b9; 0x1e72d8175791d6f5a40a02486a26c7ad798267e7a11ae0f26e0152ddeae073ba; 0x13a98f33abd31c76c4d7f5db756a57a07b9981f987d59aac52b2b9c26e3b3ce7; 0x2e806680fa6cebf283e1ad6c24c8eda7eb91c9ad89adc41ab89c3de00a7d694c; 0x5c3ac4e6d9fbd8cc27a78a85ad0ea2b33b81ad888dd7e83ac1afae57d56798b; 0x17455279d063f3867b84541f2d71a899f5a61b14b0f17f7e9cb1a42bb2daff42; 0x206a925c6d15a049d6aa53ba0fda3a48e3a1d4a9f0311423290c4ede16262818; 0xc1e758232944f546855f0bcabf2d27d3307fd7d19dbe2a3f6f534133b9b3b2a; 0x177d1e91fca450200dc0649b7a3fe770303a3ff7ebd99fbfc0c4144a41d3fbd9; 0x2fad7efe43c3c0a933f10040ed2536e324b13306900aa557a14f420cf151fcc3; 0x30309703a06ae772a3d3f547fef0846871573851eee49e10d3edbca3d71c0673] ([0xc4c122b2699c63b688f43c035ca1f123c20b196e19ff6ecce80b0a4ce6a92edff1; 0x289af40fb91b00fcb883a46b8f1e669d6c3d64ed952b694dc15a6bee3a50d171db; 0x8b7ae41c891ed1dcd29d72893b5790c9b82e89d9ea1c3217ba90404879b4023b1f; 0x1803fde6da4a37d77781896a5cabb18dedd0f4d70ee609a24ea047055643db7843; 0x440a5b811618b862bdd763e39dab6c1a4d0a65ea74a8e89d2526eefaffe0737d3f; 0x893fcbd5a64fac71459c602a2ab1480580adff55c991fe7841c76cded001685c9], [Nil; Nil; Nil; Nil; Nil; Nil; 0x227da2c2cf0e0cff222ed2c6605b5a1d9e58356fb411c79f81722bd6c510ee9a37; 0x8f16487c95e64ede0f24177f261b576e1443c6a9c0823663e4e9778b81dc8c66c; 0x184715abbec8d3b6b27cf3f8350a0af90cba21c71fc2b904329f910fe5c8828c5b; 0x5b615936dc276007f1ae154effd2de8e7ecbc525934784c457f53f300b5e98227; 0xc842570a2513cac95eade6954a177371ed0f773b4b126eb410d7addce58810d69; 0x26ea2ac88ba5553dd73b492ec02c727db6e4ad70e85f8a43360f21f45600bfa09]);
ISq 0%nat [0x19d6e52b2d7431f685d9a4ad4a1f44fab4de9e6de137be94164ad7640d4b0d81; 0x22b9ca180fdb2616fac55d2cd88906ca51bcab5de07205a83690cb617e9def9; 0xf56bacbaa4d421b7bedad03ba9ace97fd143eb5250a97a914e5bbdb110158a3; 0x135d71d8cfc4ea2a7363fe95463fa665eb51b206b8c8ca50470c4b8f63ff1795; 0x633fc0d0d515e2e364ac2fb3162438ecf8ebf52c5d1658114ce7c6b79c36aa0; 0x29a7145d77d87608eb523087fc73415ad841be98b1644bab5a1a1cecb06aed9f; 0x1dad8aaa94b2108429930944e5e8721e007419d733cc5e49e05b85f230156b77; 0x438b41c4f43208a6c7581f8b24f887620edd996389d732a37ed55967151e190; 0x258601f76679c721bfa15cfafabcc64538783756330521b3cc354d2b21ba058d; 0x2012e2d7055c6e59cee2cb3c543891e158babc0c22f2f5ac4aaa9bb712a603b1; 0x24a7cbe9c76ef52cb1de765dd0bd2591b0d11bc835db64c683132a40d52acbb6; 0x9eefcab5ac0c1efd205b038b48712c5ef892471508867aa569fad0b7b68073b] ([0x268beb7dca889a9f409e1cdc8dd308aded4e402de48c88e6848970bf132422c175c; 0x1cf335b2aa32e7fda05f52c54cabfc3db70c2b223984b25ba16de820a38f6126f8d; 0x252b7bc959e34fbff8db81f9324603edd45950d28ab84d447a7830e93eba2645686; 0x251124edfdac9004cf1927bba92b09dd493760ec2dae50ac8d9e42e6c6beda76249; 0x131af718aafc993bc3fa89cc66076ddfa1ce7f511d0d85ea52f0c0aa749d408f6e2; 0x26e89b3671bea128f8322af507634dfb638aa80c5d4820783b67c21a1e08e9e40b], [Nil; Nil; Nil; Nil; Nil; Nil; 0x67dd480d4938fd9f7329adeed0fb53a1db0652061ad01dd8412418e6736119d61a; 0x4f8c0e338df39deaca1e29e6d2157df4cfb0e81193376f1acee11bdc0418f92d40; 0x64fa23ff61faf5e55dfa01dd428c89998d5a3cff79d4b75df49518e3da606319e1; 0x64415ff66b97d1bd8dbec1cad78970e859fa7d5bfe136e6b78adfd4f2f5163b977; 0x348384abb52b507d1e13907a16530885089fa04d2ec740fda291a9be10763a12c7; 0x95dde8ae4c871d10ad74eb7fb9d9eadeca6339024fc8f1bc8f74110f778647953]);
IMul 0%nat 17%nat [0x296d6f7c28c7c5eb97fe329246099f873e59b77802a594eb569fa67e7995ade0; 0x66e29ceee4e4e5ef6254d67d9ee754446d194631353109538287dafeb5501a9; 0x30492b71a185f844002146d253e9a22383f99b4a26c77209895094f9ce290c6f; 0x19b2a659adf16a1fbaac10e72b82ea5ae2b515834fc310b55ec81ce1c3a18670; 0x10a3e00feb77a524d37dd7d233f4683df631a89886a080fad5d776185cd7ef24; 0x1c2b490b180d887a23717867fc1ab6a0c81adab12e1c51a6bb74a686d205fd3b; 0x29bc748d28bdd0d8298055998332daa91c59067239008e020d075367eede96e2; 0x2301081d1d15b8a98c1863bf436b70309e2c51d16e7ddf7a8c10c6e95662c63; 0x58dd4beaa3612de8ddd2811b36d601492c5a7ad21b1f9b52ec1874d538424d0; 0x1ab42b27913274e43c6a36777a593fe1c3f0e3bd6391863390706e25da6c8876; 0x2a1bc7caa4e9434f1c32c8f21bb31290fa4f498c1218fd0d2395a2ef56444fe3; 0xc313e8e716f9e97fef5433c2ff62c915dab8590e831857670f4c0afb888fb94] ([0x107b3b1f7d6a58cdb9a4b72ed7743b5ca711a91d24dbc955198f2cd1fcdc2c0fea3; 0x12709430fd0fe2e4418982a5750be05b7bb25e9c8ad2525ab877e24536f69f42489; 0x9f4aaeff13dd1df5c25615a06c9e48b997bdcea20ec6d91910bf3b012e21d971ee; 0x7d7548bbf9f34ad2c2954d34442717a6545d72c6b32c0aea61aaf3aab18a2f4e1a; 0x2e673c9b7fdb61ff390d63f04d04fe1c24bd96ef69de9095835d3eeee335d34533; 0x1935fb14e46d0335e8c5d1d02ccc7fb3ab44279905c41a609ca3cbf60cb5bc5efc], [Nil; Nil; Nil; Nil; Nil; Nil; 0x2d7b06378ee68dfc464eb29e8422552c4d75ebdfc3388868e342a8475e584f5dc5; 0x326818b613e94aaa54990eb67e550cf1238f1e1309a5c9ddade233d6c474fffc5e; 0x1bb08d75c862c661ee69d7d45293ad217b8d6e1622a10fd97a92722172969daf74; 0x163b5524422e5fba05b095600f7efedbcb94c650b85fe0b8032bc0f0695026a5ed; 0x902155cb9537515ce64e4272b1f437fd4c67d643b03464b41c8871d8b9b45ff10; 0x5edddbea08a06efb3d4c157bf2c960a24dc15f3ba4961af4f4262d3a68f49ef68]);
ISq 0%nat [0x25887eb2ca6bd0ac3fb7875e53fc3fd53cff21c0d78f2c68365f4fab10eee3b3; 0x9100fe660bcd99da8736cec1c34a26970960fb2b2618af3ac5630d2df58a653; 0x2078e35ebb53c02565fbda8718c9a2620718833144f76509c22c52f09c5a7378; 0x2189d8b1662b5d651ce8f56708f665ff110c2be70410a91ebec1d89618fef074; 0x336eb4bba24848c96cb36a6755657ad8d3b812a9ce4d11afbce0fa0f9d6207d; 0x1848b0161c6f6417c5997828bf933c5c03a4dcc8be69cfcdb34118f53aaeade5; 0x28f84e96f48244d2dcbb4f1501a1a7d6731bec626f635bd3cca134436479dc82; 0x19e455b7352d46443c8ddd58cf54646236f897950a2897768baf8499e816028c; 0x1264930502b30f4a289a4451f3b1476055139b2d2c3f6cae96867793866cad36; 0x20aa12c5f1f46f94acdad4c403d5441569cfbb89923705a64157681c4aa43300; 0x14fc57cc65081d4083a38f691fe5af929c25fa35f9efcd99d48b5dfd416e0e9f; 0x2626f5f203af433ecdc83d7bc1cd48a77293411d491d5f0d307c5ebb4f76b467] ([0xc5841fc78bb6a8bcbc4700c484e3424483fb07fb257ec04f131ada762bc8dffb75; 0x13b51fc39682647b51b34914578fee01541d62c904c4e01bea18fb1eae4da5b669d; 0x13aff4ae129316661ca1283c2105f292a68ac83ff02bd06e6c60eb2063608f55ef3; 0x9b6b7bce4fbc253c65caaf03d4b0cd3efec854c7132ef7c95127efa2bdc93f3956; 0x2e2cc9929f93dd58d07e3389a92419d7c6fa12445d2b45501a39913d5c6b89ced4; 0x983708fc63c67c83dd38d8634556f764dfbacba9ce7e728dd5d8e7609a7f09797], [Nil; Nil; Nil; Nil; Nil; Nil; 0x23b5b376eb5a38d519746143aba60154d8bdbe18f2797b471805631d0ae5900d3c; 0x35ca52e4b48059db676cf92de401400aa209fcc357e0ca02420bc31525fe6fb37e; 0x35acb2ced9cc0eb59dec61dc3c0dbfbb72c82046a88bdd4691901920cb07fbe0d8; 0x1bd1a78dc7e1eabbaa0c186055d79ad8b29a8e4f9cc013c58e09480eacef13f7fa; 0x9c2f19f49e4b77e1b37fa13a05dac747a469455db799130a870260185dc2fbd0a; 0x2bac607216fef5a26066182ce3770f11dd05928c9e6b695bc9a480c639363411d]);
ISq 0%nat [0x2ff3bac17544df8e1edee42d349de7bf4417e39612985098d4e89a3b85e07010; 0x4a128ee0d2811bb5b73618f1b508cd7b3c751b160147838dc96ba632194eca3; 0x26d167d7b2edd48956a1747df806452c15a3696d0cf66daa2fa07463b5cee4a4; 0x1e9db389c9ac9621c824e649478745d23aadb4d4bbdedd5a057e2cabce62bc37; 0x1ce48fb432f8c50214d965d2bb544b932400027a711c4bc3539013d181179081; 0x7c1b7b39a591273a5254764277d77e61e23f9095e1002d83ae221874b00d873; 0xdf75722972888358ebb7875922b6c2936a472d0a1395ee4a6dd485063c76a00; 0x42e1fe25a69b90a051829206d2e2be89cc51c632e47e4cfb4c9fb3eb5489626; 0x276da0c0f2d3ad52a010d504bce847a63520e85aa09104813867e68243829b77; 0x237314a0ddc935c9c05eeeed02f8b13b51fe34fe4647c0e55a2ef18b0f17505e; 0x143e999bfbfe0ce838aab027d411b1ff2bbe55812666d88bc12ac9eea1a63210; 0x422153b3d554379df3a15f881a4a36429293e120cec0e160c50570d6ddb87da] ([0x1f6b19ccf1b2035ebe4a6413a66c92463b0980808eba1357e6ac09f9c324b2e4c0d; 0x1799133b3a564b72d8545f8eb4ceba3d4492c12ce3940eb3845488d97f36cf631af; 0x187f968b881796bd7b1559c63f7a3c54cd29ef02105ae2732efa4648229c98ba20d; 0xdeed2acdce48d5abf9d775b9f7c15c556193ea18ed06beec30485d17c02cf03999; 0xd25ac5fb8adaf72b05522b665a37b19f08f7bd1a48dc8297be8cb3dd0bb96e703d; 0x2382f9d19fa4f9e37fefb7bf60522af17602d147a66278826dc9217b860f633559], [Nil; Nil; Nil; Nil; Nil; Nil; 0x5583b0386a495fe38bb41b16688c1d4d1d217a96b9ca48ee8c8e42f3b850b3f5ca; 0x40e3cef2e25f8192c0eabd2545d5738896f73b2eb52a87dc4f5c89b09ded96039a; 0x432bde692ec32ed4a046379eba51f3e1eda2a7bbfe94b3084d0b33fade2dd352bc; 0x26fc6202ffa12ba01b39665a8ed0a6b11ec20ad77174e6b47cc456c2d64baceb4c; 0x250e0779d34504625e38cfa0dda1dbd3ca1ca955375913950046b974921bc468c3; 0x892ed67ee7a7974b29c76f09175e8e9234edea83378ab89e421376090e0ecefc2]);
ISq 0%nat [0x2da69096bfbe223550a3dbb847aa183cbfc9b628f4536bc37344e4a75d36f572; 0x261b8a3b964fa4328d8932e12b7ca5aa3e07a7972cfabe90358f6a6e7fd5e030; 0x695f7844ce25b181c3bf590675fea1e2c09ccbf3e1dbcb9337d13302eda7769; 0x40883fa7690091b5f632596ead04a6eb63852b44a94e9bd65ef326d914670d; 0x197e8a61bcc95423f89e26790b9263f9f747298b968c7fe1bee932f6f128a9ec; 0x238ee6fbf27cf998dcd16978ff439c7993f584e5816ea94754fef186d65a2dba; 0x1d98a151645183fddee0d408816b59c978e726001756d78f209314e0788f1c33; 0xcddada3be5cde94d113499c211b23ec2faa27f054ae590ce8ce401a8d3cf86; 0x12dd96156bddd88b9762b9632b67a211aebb1b5824ed92631e5ab423c6453bcf; 0x18659f634cc8d85c5064591670be1343301f7dad343fe9ef4b4419ff95ea3507; 0x1a270581565eb75d8abfe0fca4fd8a09741443b279a915f03a008e6cab148608; 0x1997777c841b18aabc477fc431e432e1cca5434a92d7c4cada60de264db13f8d] ([0x181afbbc9380b91698df3c19062b4d1eeb6ea71aab21d8dc6885f58033d7b8ae92a; 0xee8441e09a146371507b159392540f2a8b53811e0c9996a52a242f3b6aeead4494; 0x67e7e87b16434f2b0ad996172cdda86f182caea00dacd618cc6e5d184fca0d7338; 0x20117908f48875b04846a2f4e7d1fdcbea499232d81df7c94b92e5266fd826cdb3; 0x121615f243ae779a7b8c55860b8b3be4ce8b9ea2c73cd4ed1afbfe05cb64720924; 0x141d4192b796b5247697fd073cc49e673150681997232865759e55e8bb407690bc], [Nil; Nil; Nil; Nil; Nil; Nil; 0x41f5e93400168391370574885266151c6f246fdf3fec0c29bcfe66ab8282b3314c; 0x28f1045529e2bcf57c5b81b1c70cee745cdc637d72cf97d618072e98eccdd5b5bc; 0x12b95ffc76973d4f5673b91be0aca8472c0e6fd0fb494aac8e68e303e44e17c2a8; 0x66ce61fc6ecd16fc46ba33efeab771a53f79f295bffb51cbb70a79001d4c53a8f; 0x4757926addd2172abf4bc59ae8f5f6eb7c6729b1aab35082405ded9944346bbc5; 0x4f9fd8efe07addeb64af687fc0a210efd48b08581730abe39c16ac0d365b93a3f]);
ISq 0%nat [0x21c4fa6f1404584a39b70459fe1aab4f9875e30340b505964f20caa4359f50bf; 0x1ff53428cd99404f365012cf9288f7eecd0e86b51a54aec825ac5cf4fae3b275; 0x22b99d6a808977594d4f184e550e0b9f3333ed3fab810f8dc2c17c2b2753e0c3; 0x14d7a826ff4b6b53cc6b4199f3d6268bbc71010f8d11bee30fdc2aed43c95371; 0xd21a37ca822f7c12b89b4aa04e82ad658fd7aae99b7e40d50158d2734d8d07d; 0x16680d764f17d96023ac68d2ed7a3c4578c46bee582ef544f96fcefac5aea1b0; 0xc72781c89237f54ec8e9529d725f7c9981bb4f51e74c254f3615a55061c0c8b; 0x18594b038863432f9d4e3df8adf6bc2af1445e77b282d52cb6f28001b82a668b; 0x2789e42144638a62bf7b7e8671a1308da983dd4f1d0099cdcbd94ed511c65002; 0x20cf5bf1634312661c728db297f851b6d4ece4e18015e7a043f68d1151b05bc2; 0xbb3844dfc326fde60d52a1a60fb655b2b0793b87867e25f285d22ab5a73d8d3; 0x1f275ab9cef007b715b82a599068b6f580c7ee5278c945ce678072e24c02d621] ([0xdd08dc6ecf1efdbfdf1e11eae3e1c891fec6c703a5bd2b7b4c452023b48d4020db; 0x11e8d3a131a6e2f4a828c8ab1c6e6042391bfae09e602f7a956bae252b69438e527; 0x101e4add0ef8714c6b6ed80bf55171dcc1fe2ca1e87e90ba77bc6d954f29c701bf9; 0xbe25ff3f82ceb868bd3a3e4336ad92650bd0136cbde4d9c69402b48518818eaf6f; 0x66bf6c336d81d41eaf133ca46ae777a5b491da46189c14fe061460a51aeec030ce; 0xffaad841b07d9e9cccc4ebb7d2c9194694ae3ae3ad1a28e7ddc0af5eae7a2f372], [Nil; Nil; Nil; Nil; Nil; Nil; 0x2646e819f9131894a09bf183efff1bc5324c8518b4f4d084761126b231f1bca056; 0x305a20f885ff566725b0a956ad3aba5d2ae30891b7e63e8d798c6def590ba885ef; 0x2c15782f5b2ad8078c4da1d467b68c70139984b6eb44d080e1c7e35c09ee4bbdd8; 0x2155535050f4e83b0a4693af7e9cc7af2259a6c01cfea0a1ab862af775945c5930; 0x12d9337fd17412277d93630dd8b25edb8b1de8c21dc0d37dffe178996d87a7d6e1; 0x426294324879c5b4368051e54f482ea9755e42ebeeae6582c1c32ff6c0d86d845]);
IMul 0%nat 20%nat [0x2fa24bef14e7a7550e6f8d23fc32e8cf5c9bcabc81ddeac0b5160604c7e0db22; 0x1b3e037783e091c2cc97ff1a2a1616fd4331792fe3a8f1183ed76499774d041a; 0x24ffe7e59d39073536b1f7729fe452e31cd9d66a75864b10c76896c0295d0faa; 0x21ea9cb75e5b7c910693bc796502316a002444628830a9d275e64704293c7fd6; 0x17bd2deb237e8ae6e8e8e011e183e9ae85a4a82f909e02cd41ec347057fab917; 0x2d71bb8ee382ec378d0b892b7e33b9e1b9c2d036131b298b52fdabd88b892736; 0x6672c8d1ec5cbdac52b7b2f281734359f140bc312c6940e452820abbedae10d; 0x25f61ccf8f4ea1abb78b273cd5d469c7e804c9308ed51519c15a77c47156ba69; 0x18c6df72f5dc1eca2f9016dfa4293c28e2dd791bd4c3c0febb266c424a4636a3; 0x2153f42baff55d6206ec171b6fad298030c3828c0bfbb4b5e6b2e397cc2179ff; 0x8e0088c904e240fb700bc36058ef2c3c367a6e4232d7d997c7694b14f1d603b; 0x6f259cb84d85e808fbfbe22cd0dc749fcc1d4283f87d53c3cd5b86aa5e9576f] ([0x1cfffed49d91232c1055d1720291d809bc5ec0fe2426856947f668405f46873b66d; 0x145c7975a2e46271da9f8c26150ecf52b433adfbfd075e83052cf596663a2055507; 0x10bd532f9db9cdf949d3e039fc9b7a55b189257d700b41ec192d3604604507396b6; 0x8fd555565a357357cf10358f7522717b9c5f1892ac486147afd3198109de29405f; 0x7a5f8e2f6f4b4bea9c63038725279ca4161ce9db3c5dc54988f5ef0483e8337ba5; 0x13a84584ea2530a7d5053b4bc5f81133ec1290797cd27ad5b7bed2ffdddcf59927], [Nil; Nil; Nil; Nil; Nil; Nil; 0x4f5c28e4b77e5f7cf6a7a99067f89e65309291f9029b52f37b248e842baed9bc7d; 0x37fd70ec6a0345ac0724e220f142a0326059cf0d5f240fc10950f98395cf7bd430; 0x2e58af7b7981a7f0446aafb1550410e221a82f341e2fb8023a16f1e1a4083491cd; 0x19ec4f3790c8777779295adeaf4d96ed8c955a8597ef21700d525a5c17f508649c; 0x15f8ba9eb1ef082819b0776f54ac531c0f891a490de513ab31d0db0e2377ceb213; 0x51f8cfb91e854b7a458bca2ef5e699990909324eeb599ed3a8b76fbb7bdede837]);
ISq 0%nat [0x1c3a10252ed33adcbd4c2752e80265967526fb337d8e4d957c0fb3a1847151be; 0x84c905b79b067b0c629fb1dd4df787ae8dc6b89d12570397c52686de175c290; 0xb3c3962387a723d906c2bcabfdbde7781c3c49a6ca76895612044cc36ba7e56; 0x230b42cef2e5c0fcc015d4d385602718cdf46eff96e3984f2ecd59c9ba2f6c17; 0x119b2467e75142c9cfb682d92cf7cd7025ffdb203a2f6eedde137f65e39c39e2; 0xab5da898b1b219021b513ddf710213176e851e9c93c2e90a136c871a2b84e53; 0xb1c5e5206fb062029349e8f082464f64224c56d20001c64e94329b6006629c1; 0x2b4d35fcb9446bb93c29900771e3df395a6167c42cee4a4a606c0c8e1d11cca0; 0x2f08e12238b7601197ef6521f52ea239e0426a1e2cef744f7c6c6649717d050c; 0x2a0c47856c2464db418ec69a224fcc6bb988d14f347bbcc85568e055cdeb78d7; 0x1d36b0ed686b78631a3bc6d20551decff9bcb840e6fded1a9bb09ff4ed670ae7; 0x6be10e8889dfd133aae241b351efa484bde11ad8e239accf666641ac2d5d233] ([0x12c1b4411fd17d53644a35a5110f2743bf214b2d7f0a276cdc625de2e95637147bc; 0x9345c42b3fb34210fbdef9f372ea7c2b113295069028e31caaa23a9b2c343a4b68; 0x65ce54813f3efb4d7e9e0d1c1ac8674a8b38432b478543ae2b43802bfbf1a62bf8; 0x2511082e832b441ff669c298019c855fc159f4a41fa473a4c6501730804f3bdf05; 0x1f0d08680e70ed57dbc1f514d63a976af20e0194d131bcf22dfc4079d35322b970; 0xf52fd1402ab31511af0bef099a78fb26a7547468fe469d2bb104506779ec5afa5], [Nil; Nil; Nil; Nil; Nil; Nil; 0x34a58ddc849576cfb503964091a720a9a7bd556cc2846515c0539b7c0875edb1d5; 0x1ae6be72ef8a550ede76b2c4722fa650c2b822488af6572d7abc340671b6f0d4e4; 0x1386ebf82c5d833101b8b77e55b56d4eed7cfac447bd1e661e0d08f76a1e3f156f; 0x836f00563ee55e67c803ce583dbbced9dd92f52e72e258d615e092fbbd31004fb; 0x75b0b7ff3b07303533c37ae8358537f1e88347fa845679a3cc3056b6054a9f2a1; 0x420ab054f76437aac0efb184b3cfe8911d99e8e3e472091b47550b57e41359dad]);
ISq 0%nat [0xf5d64f185c849532ce5a223eb9d7703d8127f5779dc8c9a03bc9e46af96975b; 0x229f1235d012300080ea637d8adb603155b4c8a76b2d660328824780fc0f0ae6; 0x2083eb85b482a29fdc2aadb0988997d1b1c805a24110ddca18527357a5ec001c; 0x149a51038a82e125804ca3d772429fe3b09c52081ed639de7df3b60159fe3d3c; 0x1026c45829e91629e38ed24e02d5c457c002a39c1ef7c87c02586a3b659f7514; 0x8314891d24b19fd9435e98085e566a51e24420775565f40bf98c96a4175530c; 0x22ae375ebb8636e775d5685557b06a15b6e048f8224cf485b67e24f481458ed9; 0x28224c3aaad5bd4e50c90e6be612ead4cd47737e6b81e1d07d92a3116e1bd66d; 0x2168251e376d46d984bc438be6bdce8c8a0ae70cb31739983739f6f0df2b2a34; 0x346d4152805a9da6fbbd9dae13263c7708738266cdf309785aef263d56f198; 0x6f3c6558a0a7d268c1825b20239d73c17265ff66e06624d6d815445857fa817; 0x27d11b4ba30d36208d5c07be025d561d22da3a3db72f314638d1abf3a8e789ac] ([0x28a179aa9a1668b9086cb7008e404da3bea4ed058d09c5a1192f799ca8f564b633f; 0x195a20598b569c89799bbe9f21747e223c50d2f087bd2a3879b679dfb2db950df2e; 0xcc69005244e47b537175a50ecb93fb667927418e62529cb1ab32487f49f14103d0; 0x559f34113b855448ec2dbcf1fc59258fa1433fafcdb47a22ab89fb8d8b651f3c78; 0x31475fcd2596643f8a598051469fb516c408d84f60f102dd67329d352d87d66184; 0x2bc8a176c3e51eb1fe4ca925ce96b5e33a0ff38ae1c969b5013e88dabc945f2ae0], [Nil; Nil; Nil; Nil; Nil; Nil; 0x6d27c2986b2e68c06119cec2593e2462734fc73186263ee4f59bff69c8ba971594; 0x44ebcd45fed0ba6f5ad733f8fdf64d681454dcf038599781007d853f2a8e26c8ad; 0x23dbe410ad119b2ff1f1e0de4452d6c976be2a51ea3c1d83893f365b42cbabccd4; 0x10a6fe82166bbee3eb8bf6408bbfe16465d0a90d6792a90595a18f826db7e4df6e; 0xb1b6dd43a0ef9c09966c1be943b7746e2dd8480a236dc8db244d7463b82604754; 0xa3207e4a1e96a9b2182a1d8f08f03ac6161220894a65120463cb84da547aadf2a]);
ISq 0%nat [0x241c48afa60eb23631481fb73ef72fb53bbec631800f3fbb41297c23457ac423; 0x1e885a5e9640e4fc3ba8d3aa014cef40e561354dc578268d51219fa2c2634f6c; 0xb00605bbd5486b5bc77b90be7526a5ab3201d60ff6aa581a4cae7e4a2a94177; 0x25cb6144b30aef38b5e3fa0f489fe847b3485ae79fc43adb9ad32c9ee605a2b9; 0x1f62aa3ff5fe38b08e52b46da0f36d3b8c3d444750ee17845dd1d078977250b4; 0x27802c70464bdad63a9b8c6e9da15d6ecb81fb221d6a5839e6f9ed29278ef1e3; 0x1cd8226f2857bede7f592693f62507d5dcdc4c49ce17cb0f9c2f3c08afd40a4; 0x187f070d7fa9ef4e5728e7d9a5e33c8ad3244181d37a8961289b1c25c060a993; 0x12492bce8e81ea9de8b8788fe11650146cc0dbff19592d32f032e0b21b9f2491; 0x28656ac66dcac7fd273ef099a283593f8a2fedd6a3bd1ff28b05d57ac62ebb0; 0x28333de0ead2b4ca972baf1e038f260932524693676bd4195d303087a5fe8940; 0x13ddc8a75f5561540600dfcc8ceb407ab09c42055e8e16c9cf710c16b6786f09] ([0x1dcdf1b1065e0581967e5bfab8716a8eed48aad4344227d3f50bd93cfdf16c1e584; 0x16657bab5a8dfdf9e757f517fc0fd6f8bd1c219d938a4a364f8a7d2c59b732160b4; 0x2de45e7bf41dab3186c8ec79cdeaf5d082d42623dbd5b11f7af22d8671473e2327; 0x5cd71c0430400838400c5fa76f9595e9e303abebe6d78d843278d08f4a43455217; 0xcba7a80446053c51697a76a7d6e519522f22ece540b49c638d68bc6005481118c8; 0x15d88e74cc0b657458384ff17500491c5dc3b477e1a042032a000c53ed8cc8b8c1], [Nil; Nil; Nil; Nil; Nil; Nil; 0x50b451bcb551068fc83669714271644ed871a1956d8dfc66ee577a919706c99d4c; 0x3d711758c06bb76260d769bcc0f3aafbb2ed62bf27c53fd63858b4ff293e6a5dad; 0xa38f4c791cf5c912106e69e611c08dfb3e7d824e2c35cf69106e5887ec4d7b869; 0x114cfcdc5e2ca274ba1e47f5a4331c0649dd2d53c5e5821e46e4069b5483af14f0; 0x22afd0dd659179aa7c19a9d7016c034e77c9b78541318dc211f289f704a979f26a; 0x53e69ce0a8a6998653a2dc8ffeb6b1cb1bde55bde3fd8f19eb7495ab2784b4eb9]);
IMul 0%nat 26%nat [0x7cb005a790afe5a7dc860cb1d1e64ce76bee1a8e15fcfd8bea8382407dce969; 0x30e7a17819fbca550b638e43f4d372d98d2ba424ab24c619d4de911e512f316; 0x20554b45efcdb6e67d75cf8c31aef31c0be6698d76c919519383c785269bf058; 0xd5a92cc0ff996fa36c45c843c8b839f7a3dbcb4ca3ef2266196008bee70e929; 0xc49a127c32bcb2eb03755727d4788009e305650637980f02dc2b3d712b84834; 0x5d73c9af5cc45b2793904ca106241646322a8b761a5c9175d35659e85c2b633; 0x632ccb5e1ac54e4a20134a4125b8372c77949de98eb61f0eeeefc584d63872; 0x24d226510fdf18febb6118f08717409a65b94593904dd17f213baa6b510fc192; 0x156ed262574a4cf3c20a13461869d14dff5816420f61dfed51bce5d3820c6584; 0x195caf65ede282f0a2a0474c58e52760ec4340c22a6b409bc90a1990f12483df; 0x1417c4e21b278eae11bb7333f9b30b4b6e22a9f0f82c0fd61f6a43b3bf2096c2; 0xc584e242ee643c55452f5c1b0e3222f65952081f7eaa7c062539feba98332d1] ([0xfd0bd59d9b2382691ac8fd81c8ac2071d178f947b3259f8675b566964cd4ac6e20; 0xfad42780c4921eca8f03d73571303fb8c00765cdd54d7a853442077618e7aee911; 0x80d220b3fa74dbb996b1d4a791619e5a211f54725e7c32d6ac19d3bfa606c89bee; 0x828d61078cae53cdc86b25a80f2c02387bb8957f7d8127dbfc55242ebe0a8a014a; 0x4438383e6bd79428fd2d138650b557bd5f1a51aae959c7e1ab7f91745aed87bd48; 0x1116b435107d734d2b10b2b41bd8ef85fb09d387c75be05a22a415a01ea2c89aec], [Nil; Nil; Nil; Nil; Nil; Nil; 0x2bfc2ce336cc050ab0aa39bc8018e33dc8c4f34420f79cd517a84e1f64b8997826; 0x2afbb67043c7ae8010c4cf97f63985cfbb0ff4f375f2a7927191445bf88f0c3517; 0x174287206ef71170da0c52a4f6955a9312e5c516f0fd70adc18deed61369c4c6db; 0x16b7cf8df89b9e6978c28bbc27620dc0eb5dfd4a9e5b29af819611fd800ac831e7; 0xc6cb454323b9fbed196369e01226b106288477ed74be843aa04f773ff853a8800; 0x42763c8447c9e8752c2b211e5ea6af7896a79c717b671d271ecfb0dd494bbbedf]);
ISq 0%nat [0x2f01fd37ad5c115cb2681b448436420c67a20de9423ce32b66812f8460196034; 0x28fea2fb3fcbc921235c1e0d385d18535de60a22509a7c71f0a67314aea57c47; 0x1a85e2b55f42e6a4607970e5eb270c33915a302f392edbb500772d6adfc58164; 0x27250c9dadeb018b30808e67e72110f6adc0205708820188cf3b147bfa2b3702; 0x22a0b5dfaf586b054c6f52784747860f6cbd649817fb4c51a820058f04b102ec; 0x1b378f404e5747bb20a848b303e637f490f3cffa4c937b643db0c05fefb197f4; 0x63a18759390ca5d538b95eaeabe07f6e97cf63075222625c7cc8f3722151f43; 0x1989e7df54af69d906cdfbfc0fb0952bddebb2619c650b1818c4c48946760124; 0x367dc4f53c0ddbcc5d1ab6d9cb8b5272ce392a01df79dc154405398696500b4; 0x5116635b114e239babe66899ea7b8261961d622b20b9dfd07c8dab3b8b3d6c6; 0x30284744006ae0ea6278821a19a54dfcf6fde6949f72cbdfeb1f33f64b235497; 0x223f6761f90a557ec8ddc1ad2b77fefca0bdd62085917dfc163d8144a670f4af] ([0x1337c087dc256b0153cb96afffc0cc9cc49f0dcfc398dcb6e90ac506f5b62a061bd; 0xc7489762fca39f69d35481622ff406feeeb88af3ecf022e7c4616b360f9dc7d945; 0x8b29991dbed0e2dd9f505329353b5511ee97555b30209413f6f625905b96750508; 0x49367f8058c5546ef84490be16c273504a7d9df0d9861abef9ac1f7ee64582ae70; 0x228302167a2960ea3cfe16f228109c35fb237acc5e8447ca43ff828269e917c530; 0x10f8707c955ea225a961ce6434d658ff3f1b7d915a67b7b90bb3a44ba71dd6b5ca], [Nil; Nil; Nil; Nil; Nil; Nil; 0x339a77c9df1d8610548b6fbd8267cd846b62f543996181b00f33475542f1660d3c; 0x2199c3abd7bef6e2554287bc15f1017b1a181db8601075848ecb09953063de8df0; 0x17cfd0de10ce024d59b5c58ee9f9a7722c19b2d715f2e1913b49bf7c58d6c4e15a; 0xd0aaeb3eec67f27683f5201491ffddfe40fe20c3dd63f1e4cbd174f0e0d0b73a4; 0x6d2acc91c736067489a7ff612a88c922a256b13970833217679cb30176e3b353c; 0x4055b01d3c2f00bd8f15ed3826b47cfc86fa68d82134cff1e2f1a0f483edd8e51]);
ISq 0%nat [0x2fd9c490b037014db2a3c8da1831f3b0ee96adeea460941e91d1d52c23f44b21; 0x1869d018a21cdeea520ba44281ac3e1658e2be0679a72da8f67b3baeaaf24847; 0x2bb26c7d9f5b544fcb7fdc8414e5ea8192137638ab64487c6969a747c5968f51; 0x1058226ba512280f19c1c3497cbd7b6bc7c2e55453d625130aefc9a8922ee0a3; 0x234711af73b82ab433911c5b8e49ebb90a0b597859a5b12311002b9ef150576f; 0x2318cbd521e77c1b042cf350be128e7e63d998e0c08ede004474d72555d9deec; 0x1d5948d41adfe25df0a3ea2ee4f89244ce65d6cfc262ee4767cb86fbaf2e7916; 0x15170bb2a6287091c6cb642225220e7552fc00e8b8077189d2f9fdc8cfc082ef; 0x72e2fc8e4fc9f608cc7ae2e3de1fe67fb6a26869f1972441a4932831bdf9cd8; 0x277225055ae0621a2fddebf7e70a2d6a9001f8fc71e85fa63f9e0f16954f1a48; 0xed91c6f26c102a8b16967db1bc012b202a3b5421f22ec23f1e53ddce3f4a60d; 0x2acc0cf7a2dd926738dbcd442267536faa8c83654f88017db3d242674179aee6] ([0x12b85a5c739c988929892dd861fe4c977090982e12057e2b7a0db59efa54ee20a21; 0x80467aefc3d565c0afeb528d5303f8745cf57ed92f44ae7a462df1b5fa4e5a2eb1; 0x16b94bfb6d0ae255a20d365fc5290802524ed6ac39f8b3485e6a27ba333cb195854; 0x1ab2706a7308aa169d0d74394ebfcd8a3d25cc6782dd51d01dca6234299ebeb37bd; 0x9d441efa10ca35d28fcb18ebd678a9f1bdfef30150003df7692c8c49f78fd62b1d; 0x12bad2450d62b391527b428aeff704f4d46902a995061a33f1650dbe2573ec9b48], [Nil; Nil; Nil; Nil; Nil; Nil; 0x345e066a31b207f653cdd376ad10b068195bdc4da289562210d84b06a7ba001894; 0x18058c8fda7d1a221ebafd54617fa445cdad280447bc1dfa9daaabde1d4489b3ed; 0x3eb9f4cf6c16a7ecfd96b956516b85a8c6a852787d88b72e553369673a81025006; 0x4865ad1a99c84076824e70c95e5dc8a8d4c7aea1d2cba47b70176be9d787d766a8; 0x1b8e0912e1e4e7201f76145de9a9739588c70368b8b39ee0fe0e40f14a8029321b; 0x5092c9ab802e1190363c6f1d5096e09e96f2243358843f4061bd48d3d187967d0]);
ISq 0%nat [0x2d7cc30635b53e7b764b8bf452d84ac6153c7ac9b9d39553624593d7092de8ca; 0x10e32b24e9d6d5348392bed976f936b9aed3ad4fd555e4be1b0458478d5c6a8a; 0x42171b7c985a334c736c6d178e4ccf6044296b38066def53d557a7131133e46; 0xd9f508a7dd7b0b7e4e50c0e548802fa4bd951d3ff8ccaeaa2c55800ec3726f5; 0xc55416b6745ced35aff8ecc00f12da2f3f5352eb2046eb96d38839dee0f95ec; 0xfedb5f10bd0894619072cd374106cf8a904f63b83248e35c1c4836898186674; 0x1865b7726db55efe7ad1217a9b0ebcc53a03f600e2d552463c4d92504931b9e4; 0x17980a3ea8fac11e1ae426a99b15c79a8757cbc5622cbcd4b66278fbcecf84b6; 0x293fa19d12909438f3d2670abf2272b9849eb182a81bee00fd1b5d7d466f26de; 0x938b13ec08fc4a7fd5d52f961323a02aa9de0255cf7a91156021e1ae3609743; 0x1df3136f9a476f9d119fa601974b2033daec1896d336539ac1999e69c5beb78c; 0x1178845ec02be66f98cc0222adce459403de7f8c4628d43771bf6c091b9140f5] ([0x1db7e75fc4d741cccab0d61d3502f952027cab9641a55681e4fcb1c016d3f3dac2b; 0x10e864d8d4617a78855040a1670bd69a1962a225f59ab641da6755fc0dd7e114228; 0x1d468d8eb9b8e525e2da3b15eecd4d509a6011561ed665173ae1a026edd6af6ae3b; 0xc356f94b31ac189ca4b72c09087d3a0f023f2b0a1747482a8bdc75a9885d623bcf; 0xfebd9f71960fddfc40f5a68d373f929ca47c69fd31081028bed1811c6ffcc4fb9d; 0x17ff5aca9469e48514c50605d6304c4b64356dc824f797636a01952c6204a26920], [Nil; Nil; Nil; Nil; Nil; Nil; 0x5164b41bae3c63662c499f1da9b04e79a81c0930c2c6b71d61b238a35badedb8d5; 0x3038edb7e48910c9ef3c7eaecd1b57165a5990875862810919865ec1731ca30f66; 0x4fa320c809cdf3b83d65199e50065a0efcf56df031d2ad78eb5df5f0b138a442f7; 0x234ab1dc8106c5f0fd7fa901c8ff76731c18623bd8c05098a8577869f67bfd83d1; 0x2c8bc631ac38fc07eb3caf598d3067d12f8657da4bc62bb81ecfaa5b1faaa38e74; 0x65b18e90b682310fe7d77c2d94abec14619a3c47b46e7727517ad6e75526cbe2d]);
ISq 0%nat [0x286a211864ef919f72c0732a51683f4053b1d18073e218affc0b93de12c0d52d; 0xfba8246829a1363383d414503780c036fbad411e8efe121749926c6f92fe58a; 0x30322508fb99e8067dbc387536a610c0f161f26802e134a0040a4e0c6ff02b2c; 0x178a276bf5b0e4b50870b5d2eff0e33f6155c8475ac11b1530325d3cbeb4ceac; 0x288aa5ccaafb2a62f5d0f4f624e54326486fb1b71215511fcac09221b6084004; 0x27d8b18529c76e147343117ace4bb45733dfaf55ba5e269fdf6120b306eeb0cd; 0xa4459571064459f77b2b70f3514416bb38a3317bd8330bc40d51d65905a6464; 0xa834594f0065431e1b82cf8ba47a79799ab85e9cb36aaff8df3f50eb286b7e4; 0x74a133eb31fe0080d70094b14828fde6aa71574427d8574c4773346f90751a; 0x16625fafeb009b2b3e81817b4704f32a01871dcc8c3341dbd7036c0d0278d8b2; 0x340e2270414bf9590af8e7e016fff60f0af83d29e5764f0056cd13f1929a609; 0x113f46e10dbdd3c4f7c89af65c2eef3e9c31f3f5f11860637a3ded0dacf0378a] ([0x1a96bb268a3ffc892a5a83aa504a61a824f0aa9914b6b15f6db6683b6f12c8c59f7; 0x10596923c82481074362be7b73d21ab86079438529cc1d2c5a829b323bc20228aa6; 0xac32b28338938b88e89579dee9a6fababbede223c9224a945ea18f1e61b05a243c; 0x9599ea74e5912521bb8569b26f38a696fd043c3afb1c8441359eb37368016a79e0; 0x3fbc9151424339bc9ae89695519f87ea85ab7cbd2dc734315479e309c8c9f31630; 0x13df7d119d3f04ee2e1a5a58c747baf5683ced38ae24d856b2ee186ae7a8d7b6cf], [Nil; Nil; Nil; Nil; Nil; Nil; 0x474b236ed52b2d82360b587c22f77fccf44d300684e97effe1655d0011e97453a5; 0x2c87c2f8fcc46c0056a49f7947fea7873cabf64f87a4b7f60bafa2ae180b2173b4; 0x1e2c10da47581b2b8ef5bce472c3b0ed3e92afad82cf33b1d6110780eadb94caba; 0x1a37db4104d4218447b355190ebd0a246609eec5808dc7b6dd93eb345d0290411e; 0xc64797b1f33f36d6b64f207364394515c31dcf770f3d639110e6452f3d106c21f; 0x4d05efe5f1f92d64822cc5b574a748908b58c31200ae57e5a8141590aa0262a0e]);
ISq 0%nat [0x2b3ec88eed131230a1f19be3a6839f50186dbaa10f48082dd4f277e5c766d3a5; 0xcf36320032154bcdbba6efa39270d499a503f00a27dca0bbab2939f450e175c; 0xc2c773283916e4d427478c47893cc78dd0e1f87025e46ebd5d4d17ca0df4d87; 0x257c7f36c3aa8a64b7118b6d8b744ae478bed985dcac18435567dd3f24e09508; 0x1b76bacffb66bf499b731c394a01f9f5e96df26994e7ba625f449d9bf06200cc; 0xa028506913d6ade461974f2fe308adc650dbeccb84e0bd673adfc321eeefef6; 0x545e57c38d8860c27e2ae3731b26b50ea03c5abb18184779cdc73b7a4db7d60; 0x116976f2e652b54a38e3dc8e576b98352701832fcab825d3e20daab549610935; 0x17857b3e142f602850723def3bd60617501f59b9d6548a659da0bd7089bfa440; 0x2d572e4085cbc8f5f02e0e98e9a9feb4dcc51d882b76bea2525a07c41e15e802; 0x26e9e9ec5916d113e5d11ebd04780e54df819b9a3cd5de6c7f501d3276e32d15; 0x281c9ec9021cf8702be781bb771d271e8c2181d695bcbbbc2ce0e053de93c19e] ([0x7a4157df16c0e9dbd20c49ab531d75784189466217450ec74882de49fbc35b5094; 0x2cd30a7472ff81fb0eb128e0981c3ecb4aeb1bc8b07eb06720968b850279079180; 0x70a4d50b57e66dd308a00347b00a7e9abfd53b454072af874f249e1d1cd42277e1; 0x1b2c77fc040497f02aa222b397e801d56d0bb2aa7985d2c00c2b03e51c9a42ec9c; 0x2f9614b43f1f25c3c47ede3f3dc623670b3bb311f8c2c14747620b6dca1e572fec; 0x262c9de613bf3a1d6e98cdcb5f56656716656f81ebf1f53782f0c58a6ab4d34ec], [Nil; Nil; Nil; Nil; Nil; Nil; 0x15a845a257c24db161d970f9d86aea388a847277216c2973d5f9b4f4ca8eeea864; 0x95a4978212e43ad1cdd7c2b4a40001c7760f639275f84b98293c50e558e7d53bd; 0x14034af93a38127cefa2480b71482f90aa03fe8fab27da7a13255f557dcc0d52ba; 0x5cfbffc573c38db57c8d9bcc703740a8cab1d090fa10f96e0c0fd478688195d52; 0x8e7f43faf46bbfc5830c9707afc93506b245f46dcef51ad9e554636a4c90e3972; 0x1133d3a242ff616063a1e7dc409441868ca259e1445d2769dbd5484a2c2999cee]);
IMul 0%nat 29%nat [0x1ea4342b3788b4ba72e7e9c40057ea4d00a94f3fab9bd461685b2e89c04eb6e6; 0xfe2a020819f26711d8a25cfa818a1698512f15ab6464cc3ad588f991ccddf40; 0x231e92c8e415640ceb4b876d533dbed2b1b1accca93a36e8b501267892c8dd7a; 0x80699fd3409dfe36229525f8b1345525c0d34758d92b432f98460a1f0c1a21b; 0x2de174f210adb4e46b2672ba6fb8fa62cb6515b594b38d695ef73e0d5a8bebe2; 0x2b2337ce2e3edce4215fbf3e41b9cfa726aaba2fc33e726e30aa3f739234f1fe; 0x13bd05d6321b8d078f502016d5a88acec3bbc5c25cedfe092a7bcaa0789da7a5; 0x6490ba3411a1b9b3d5dd2bd45a22ef324bc39872b88c77a3dedeaf44a51e8bc; 0x53a1bbfefaac06a8ed269fb764b64954dedaf7d7e146cb3aae0e71a8b696f57; 0x4f1c42f05c78d07b3f37f403877bfe5415413568c4e311ce78cdf0bdb995c90; 0x8da1d69f9382cd3427a0488d1a92a77edc592113787d0105306eae65e9d0a11; 0xe7b9e3fbc97a7067c481b305f4fb03bf28d5086ff2221f09739762fb4348ffb] ([0x1e0d332f97a55dfb99285941dbc5678d5de3a9323f0de886b1f1cebcbdd4a594511; 0x1b70975a7a921686b9d9bd7a7b8a7b5405f88ddf6c4b4e8cbb26c138bb28bad7542; 0x103e0887c787939c20863c6096ad7d9a336f3d095910097404ceda47606a56de951; 0x85625bf6ab61bc1a748e1ff579345d3205954a10e632a4e554f7344f35b0dfe0c1; 0x7f924841884016807229d2a4723c8dd536bb856c5cd1ea07273b9f2602d11768ab; 0x217d3c6eee65aea38f903ff2de4237ec065e068434d8e4b0e1d9a429de12a7a91b], [Nil; Nil; Nil; Nil; Nil; Nil; 0x51a7e0cb5a0239cc25412c33c0fff6d8cfc8537f061aa6f69fa74ce9a369cac6ea; 0x4a78d406f62f36545fd900271226c302519380bf8b92b65140c22978c7857a5a46; 0x2d042a10d91399ec7471a925af61ef3337a7fc004dbdff035ddb48a6b62c0e5954; 0x18d6172460fbfbdbcd4796cb7c0f68be3d73df132a6c411310ba3b655b6e515077; 0x17619204431ad1fbc861e519ec5ae07eeb16976b5d8a66d68786a93b052105a979; 0x81ede6668396da5a7d0d20a7cddcfafda42143a70e243784ad112f2f12560b30a]);
ISq 0%nat [0x23f4225d48587b4801edcabf691d59e7a72be3be082ae37aac7ae6bc34c16e45; 0x135b581c28bf34d705f2a958bba19c6c6fe2e251422ca353c45b6890048f27a1; 0x25daf767f35f81686b0d0b4ea8a3986d6ae0d023b77f520af0457ae353f45f43; 0x167be5e4b568c7493e97f37f275585bb852f6a38c46f26db62a855325ac313ed; 0x2e9a7175bd71316f4722478767d127324fa509a9de2136f87d9ccd38e1af869; 0x2247d26763d82d0d0e06609ad80fa5997d96c4ed9ca832e888291e3a84ebdbc; 0x1b84d8dc31fb2dd267b4875ae133adc29d73184c0ab5fd57640ff63eb8f2686b; 0x1560d9ef5fab2438db58e4bd65c7fbf418f81bbc82f547b0210dcbd997ccac5f; 0x23a2c98484b882fa99bdccd5764a1470bbbb075713aa854d943430dd29f0bce3; 0x108527ecc06ad4240419909b6cddf000af87daf428699fa8aa5faa8cffa0d5aa; 0x17e8e3250b985c2b59e48d99d8055324948ef85cfb7d46c0fe1e37d77d18f895; 0x16978e8f474ee0520e1a12238eddd1f694ef2b9d6d772b4f781b2c1dd6423427] ([0x34955290638b6325d9bbf3c954bad705704ad62d8fedb981364f7455d0eda08cad; 0x2bb1b355a460266e8ee69a86c5bef2e37d688c226021a8e4add19d786d980e20d3; 0x25925f532e95a95afa6a8220e2de510be457cba237107be9367d0f4a95c7b9c0e1; 0x2dff8927edf8c08cbefec846de9efb2eb0e0ffeba3495aef915e70846a8b43fd97; 0x23d1e87e39d3eaf42f91ac3d7ee9d69296752d98f410527feff9f5c20c1dac92e9; 0x47c8d683cfc185d9d40610adfaa7126abe6f0c00aebd1ecf5ed3c98ea5b71269c], [Nil; Nil; Nil; Nil; Nil; Nil; 0xa0db1802216011f356df90253cfd4cc188c4ab9796f4ca91fb98ce58fb43668e0; 0x869ae164f07596cee01467c7aa313f4974f2fe74d1e0dccbc27cfbef1e010e5d3; 0x733fff8b142fddb79bb580edb94da7abeae679543585e57c5141d0c9a7e150871; 0x8d8d93472385e2ca966c7290a5f06a544da4cf4a598a1323d9fbf82a1c7205448; 0x6f0fe73b91dd3a6714c535550e8dec9990bf69c9b041b8cca41a807d8df2f5e55; 0x1617436e2edeecfe03bc747d28bfae7f9fa7ca0fc4f355a270760f1d785da0c09]);
ISq 0%nat [0x1c59205ee6e9a046694a6fa786a5754d3beddccbc99ff5096a19c21e63597ef3; 0x1fe5a1f366eed75d46d2e177e5698aa2711eba6483f3386efadfbebf7a8e3dce; 0x1c6db949655cbb85b190a9e8ea7c047f3bd7a964691a05a0da8ecd6df54716b1; 0x6f23ab0b374a057561ea1c5c9a865e5e301645fad693671cf4019e59a05fe07; 0x3025cdc011ea3c23d7a76c9b21a4f3c3466aa8b9e57ad97b1c61b06a62383dd8; 0x29a6fc47476ed6c0f78b6d77e8f5bf4bcc58e8a3d552210e2d69c60f86d5deb6; 0x58bba49c8acb430420a903d6c0bb26438bea5f7a8adb36e674c4f4e24071be3; 0x1a7a8a752016801c6227f906107b33d5566a03d16fa6ea678a8aea0afa86efa4; 0xbc586fd6f52b2fefe7626a6c50a29f733cc303d8239ff3cf59eb4ff22a9c9b2; 0x26627a4c1cb1bb4d7e896812c923c3986c267c4aa6c27893f65470890d5d5337; 0x20cf1a6ca55c87d5392de1ff46862f0c2f5496e247c54e7c903e801b3994819f; 0x1dd03f3147759ca8edf6b7db35e9dbf8ccdc3b8bee46f9b252d671edc2123d77] ([0x17c37221aa44898171ba90ca1b038bc6d4996dbc85a302e374032f851963d089e58; 0x139ba55aa4ecbc6e7d633a0c8775b951a284bb29d11b03419145e2b1dbcf30df380; 0xb4eb660bf7ca333e870fbd6ea2d250fae700133a3a7cb745a31c290809fe9bcdc4; 0x921ee1e694d77e48bb7ba726a359f3bb3b3282b91046a75c11973f4b435536d959; 0x530a74672f7fbd595c689a0e914dbc0b8264ee27ed0bc24e5a44c163092abbf233; 0x16a1b4e90df56d69749f6384bd9f130af3c2e3be361e32c7906eafd73cacd363fa], [Nil; Nil; Nil; Nil; Nil; Nil; 0x403ade742c27014bb6d318e7ec5541042268fe4d47ddf3e0399d95925bc0fbd538; 0x353d0fc68ba1188f1ad6876c133f1e42e56aa21bfa96a8e4feba3aa10abe19beb6; 0x1f7e8f72fc9dbb05cf38349b970e4129b7ae0354c69759e5afa19dbec2a41a6ad3; 0x196af2f297d064ab469ca716ca03e1a2ed7448765f99f48c1671fb63fe10ea4941; 0xf64c9c50a818565dd61f37ecf7bc7a14c3759d6e004d8d0e2ecb5fe216addd0eb; 0x575640b8226846a32e210b4a35d734427025f632d140cbdd3b846d37fa2524187]);
ISq 0%nat [0x20664bffab727bd327a679b60f975befeb4620c08102994b0fb5f81efa70adef; 0x2f43932d1bc7b089aa898ffe3da630e5c5eddb3073b02cf3862f7eb3e6077748; 0xb812d76ac040113af9034dd22ff1579c8f82b61fcd30dade6f2d30241c9b7ac; 0x165aa12bdb2696eeeab71e0fd90010a9f24e6756c0cb1a670ee41f156ce7d35d; 0x2d442db6df077ef2e5abda023a4843ec223346d67676892be61ac820438f80dc; 0x1a15396c8a20ecdf931f7d3d62c9d243d75bd8c2ae1585d8d08c413c91e0f31e; 0x20154ec9fbdbd306f6714130fc91bae7b7199dbe73e238651e8afddb65eefd81; 0xa596f4dc19c87c3d5e2bbbb9c00cf0b2afec4099f13b95c0fdc17415c85844a; 0x19289ed578fd5f830f2d14367b4d286cd89d9f2afb90f30cc2b42dd301f6578a; 0x858a8196dde0334211b9bfeccdbd7633f68425cce4bc061a07665c6facef78f; 0xe1fa7385118f126a38ce940ee01cb2b6f7ae6cb56c6bc16b217b67a285cd953; 0x10e96c2f9a7b3b06afed14d156cb0e97c2e785d1a2d618d6c572e4859f4b327b] ([0x1fa65426cc7499e5a107f35a0daab08772f8f2c317cb1715ceff24ca0c69abe75bc; 0x1aeb67dec62d6670ec5973183d029f759c38997799c640c4fa528b4a9647619e0b4; 0x1c30e721252c511e41e1371eb8a2d700f58fa095ce3fa4e2b09e183487fd76c2f9e; 0x114f157996eb9638142a76efb7e0081332423f8b5e1fa8cfe225309596a49a2f44d; 0x8accbe7ad096a9e9685b2f36e2e82bf8db2ba2472c370e9d440ccfbd298a0aea69; 0x133360af035c4f7a0b025f2be18f5d116ce40c4b4e3b8bb33588fb3f0e86b7e498], [Nil; Nil; Nil; Nil; Nil; Nil; 0x5652b2d9b5598c97a461caf9cf4bb8e379791b6051332bcec8b81ad3e1eb5b3a12; 0x49a7e6332a3215d7bc6d17065760f46d960088b6911432dc49d115f3e4225a9d96; 0x4d3bdaa553e278849dc3ec414ae0494e24ba869c683f8ac01e2ba048b85e03712a; 0x3091f822c9706ba210a6bb285bae1a50d766037ac464a902e3af7cab46782e5d53; 0x194525263ca4cd334f9eb32ed0139eeaa0b8130afc4438147a23d45bce89f850d7; 0x50e51b3782aaa04ab8193b88f934eb202cb704cf2805d9024d823cc8217ba9f9b]);
IMul 0%nat 34%nat [0x1c9d47ea4368de298babd81cc8258949d699d44164a9751e49c9d56f50c1cff4; 0x2ff3464123e11cdca7bfc149c3f7e715680a20ea2abe86536ba22eef99c16f55; 0x77bd4878381c68448016f70f476f13e149a4fe97aaa923d63c718a6da4615bd; 0x174f006b446da7001eea144072bdd89d697f1a9fb58e5edc4d0db6294af7c6f1; 0x2ec1e207b577e4f24dfbcc83d887ff7a3a8aa0257e29f7efba2ade7f457dbff7; 0x1be3b68d053dd3f0065a903221249f4b0d5481c19fd69879f9482a0a93ecbbb4; 0x2e8bb8267e6627b2715b59dad43ad8c182a092426d6b76e744fe62594f9fe8de; 0x295507489b6c1cc32cce9291abf40e2934c89db430d688a8b307e4d7a465d2fb; 0x2012398e0f59f440d141b5293b4cdc7178af3507f92aecf3e396fbc72419a7d3; 0xaa6f18f3b116db11f550aa04da830bc3afb0c598b1254ed0ec0f8750e4242cd; 0x1bfbaa8a6bb0841639ca99e3a2f64c509bb735d84154461bdf6d38619091578f; 0xd51527d7e84e6b10fa7cff5eab73b4f203c6f6db297512fb26d6ed7e7b66e21] ([0xf53a57c3512ebc29a22dd00e061c12f5ee382e219e65f7fc4a90e15c3aaa1b2d17; 0xcb4824aac8e2deb000f48bac31b76930d1af8d05fd28e9dd4a6d24cdcacc874b93; 0x92fca643966f213c15b7a771deaac177f548f29097c22f42fd7d7c6a7fd7e7efa0; 0x7463638788013be3f1ea27b1aceb86cdca7db66179bf4233eee45fb87983e78903; 0x4681c6084a51259900ed5cd201fc262821c60c81e30c68591226b570f9b680e396; 0x101252b780d3ca66ae298420ae6addd22964c31b3d49a0fd5626aaf1cb9e7e7c87], [Nil; Nil; Nil; Nil; Nil; Nil; 0x2afb988f14cbb03083cb72cf108a5762292d5c1c3b391b19217ee545736ba551d6; 0x23c7c58e8e30627124b2770918d83231e85329d871c3077089f75db3fa08cfc538; 0x1a7b0c4384c03d4c83319db487d45195a247147904b3662c0504d33a95ca214db0; 0x1552a833b99f4012095284e11a408332ec6b69918507d53b63754deee916c1bb72; 0xd23f8d98d7dbc5f813571431aabc8fff8ef5c1e32cc9470fc46f3a63293297b59; 0x43b90646e0523ec1b25253d32dfb45f5b9dd16d7cd69dc6ca1a5685d7cd9cf04e]);
ISq 0%nat [0x63fccad9affe9db0b581e5e5cb725ad6d41a0e216565e377a24e95cab19eae1; 0x2eeadc7e493338c7c5641e224cc0bbb42d11aa1f9e17f87b602642bb816449bb; 0xf5189ed3ef99ed0287d0e8eb2eb73ea83e95c4489cbac8637ebc6f9b4d1df65; 0x2b739744c827fcf5e5ff78dfd8e640d1549b099e9c7750747e8794b5bc4f92d7; 0x24b590b506d59347de920bf4ba3fdf082e5ee655ccf7d89faf9c26f4776c675a; 0x1074ae3e5223c50de9983aea5626c56d0085516857a6e6d7fc309b493757b736; 0x13103b2b708bca278fdbc90bb9dc7293d3afa7c951ffb4fe5072a7bd1c3db19e; 0x217269c707a9f4feb21400a092d8a3ba6865c2b01775e849e3e6b270cff74376; 0x26b9e6069e6e11be09a46e69262a175eeacf51228108bc9da36e6737cfabfe9b; 0xb94546582d2bd2b2bcc5ea5eb754740b8524db55340b35b086759c410dcb62f; 0x15ac3f4242aa689f0845b5c378590b9717d46cc1f5a4a92adc3ca3a01e9a222; 0x242300f943ed7632b58bd99ab61d013e62e9efd1df97d0ddeebdfdbd8378bfd0] ([0x1a66fd1fa1bf73dd258291b4995b494adbc6ac68e1c4c6830a4c0d9990ff4e8cd03; 0xe270deff1e1f4ebc860e31db3e674cae77a21e8b2a658016933baf221c5ba01a11; 0xb7503977338d3fc88949a14285368b62e9456dadbedfd23814edb89ed98a4354be; 0x835312efc5e28bd1a2da198a5de03cddda0dd0ac3911fb1b9ddd89783dab4ee5cb; 0x3786ec14e047174de68498b76a1cfddbf93a1331c20734ef6c2eb4ab83a8c619ef; 0x1b856b2b03d01d52eea5cc8a0c9927e3cdde1f97009a9c1d9d7446bdebc54fba72], [Nil; Nil; Nil; Nil; Nil; Nil; 0x495b67a6712230cb578bac446090f983422e69c8728a17e67775870b2d85289635; 0x28ea6f0732ea500a885013506afcae1ab306fccc6237fcfd8506c5383d50ba7650; 0x22085142b89c6a813e8d8cf10465d7155218358f45613ddcd909abf0198910f4c8; 0x18a9cc781b74d66c32b291a72ab11d849a03cc2c29934781f56029c4420db92d2b; 0xbec4da12555607b47a3e016d198327e8bb4cfe94f5b1ac4a99eceaca0b5024f48; 0x716a2f0d56fdd33c10412334eccb5aae0dd8b30b02684590da46f2a07ca01b548]);
ISq 0%nat [0xb5c610cd2f329f18f4699500df5ba266cd8a84add7eb40f3ccbb45759c1870b; 0x49e1c38d6637e4d95d5cf99f81bb0ccd8813889d7248aae3398f2e712bdb396; 0x208a0e93e2af4097fcca89da2c715cdcdd1822d012d426b3ac8c4c4288d8652e; 0x2206a05bd75a7b5304565fdb483a4279b53f2aa32d81324e4a7aa05a9d098b7c; 0x21442bd6d0a168ebf7f5a758b73f7c464663979b3c4c8ad4dedd551eaa3b3c4d; 0xa6822b069eb3a6f10a19dced38e6b05d80d05a16c5020ef008fc8cab8f0783f; 0x196dae380f67983507ea2f05646b9dded25575086bb64de967547514562a4d14; 0x1f1d7e6ab0f246fc898742c91532a2da4a39687ef335b259551010b23b54142a; 0x28aca3d708cd59ad1d370c9fde182656478bd19a48ab050aa6d2164f31231c10; 0xcf233f9165717a0d4239bd40415528f37d5170fdcd0c9db8a553e82445f360e; 0x168ef9b27109029c26270ca47907e5126f73c28ce87e3cd0717bba8a49b65858; 0x1b075d8a10c7d59155a44389f61796a91aeefa7d8621a19d6e7244bb8dfb896c] ([0x1765ff88b8a8e3ea18447d2557fc37fd19966ca4a8ac6d2336a394164d9f64bf4b6; 0x16fc5da141ea5e492f255efe14be71667f91456557fad12f0532ef0e944de9f1a08; 0x8ce19a4300181576097214f5c10ad0813e04b5e91578b61353c4eef6c5881477e5; 0x316e131bf258846f95bb5be69de95853adf1c943b0b6b05e1473c2b431f7c09e00; 0xb2783673356f410720b1b1a0b5c885c16bfef14779d70168fb80c6e77956675080; 0xf40f6df9ae03799526d07e789f48a76df1455f552e009fb8bd6c70f8642d9bb03], [Nil; Nil; Nil; Nil; Nil; Nil; 0x40fc2b2470b81431259603fdd19ee96d94c2fe0d4b5d27c7ce944de6f814f9db21; 0x3e7bcb2e9bda2ea39dc3f92562cf6d08bd3e4a0e83b82e3a6a146b59d26863d252; 0x19facee77787edf84e398f53f199d5a998cf1818c2313e73facb7f5dfcfb29f8d2; 0xadb472dcb26187e080946098000fdc1a97a8eafef4580b63a9be95ae5055d4a36; 0x1f2be07f0eb726f51039a4f055767e029ca637218f334d0c9040c82a198d228e62; 0x4085470f4b891d4d9c114f8d6e3aae2f3697d112c5591b8b9521ab3ae57de0e4c]);
IMul 0%nat 39%nat [0x1627b632964767393f14dabe4405431761bd64392a824fcd0ecd51805bab1718; 0x2f5a9392a896750dcdeb90cf8c2e08dfe05e6e5ad93f996d77abb39fa1bad2d5; 0x4c855789be1e59d564b094a1cd5f73c34540c3f6d5b23905b687081127f1106; 0x26952cad8b4aed50c3ffcf6c09fdde80e9ce2d14c3c115e04fe823e3df2dd707; 0x1fad7ab9fd7420af99f92e756a894360d47b713fd9ef9f541f6ec287270b4e0f; 0x27c116e4ad12f84752e5bd699a3b6767784d2977b5d45420d777d6867696a690; 0x1528e9207ee1761913779293d2b57a14bddb60294ca422a904ec51f2f8bff99e; 0x153178df6ab65f4dd0ac7071fc8e04b651da3f3012f158c635e0cb8b13d9776a; 0x1c351d12cbfc1cd82aad609c93234d52067139d3387b04c27710f3e3b5f438f2; 0x8faa4529ec527be676d701a51b8771f0336b7833562dedb581e10647f2dbb04; 0x10d330e357ce1ab4a55583e69bb52a435dcf39d1724d7d9138f07041862c63b0; 0x2017ac1d017ddeb0f0f4ff65f151a9c33af2da15ab92fb016888fe7cf4c0567] ([0x151a8dc3ec851853cd00194a547dd6f8e7905a7f1edf3fd5e4cedd550e3045d1693; 0x100300adb7b487c1233d2c00b68fbf8662120ed44f877676aee74e3909c34ab5024; 0xb28eb0555eaa8508eddd1b8fcd4a4041707efca4f5acdf84e36299fe8f13b4d463; 0x60605d2a341e7e83eb7140f3d3df20b25596e305d0c5982b3bef8deba59bfff804; 0x596f8dac0c27680f62a23c66e5d4d17a9a4ca3888f76fd410aa81601d1fcf569ba; 0x14b4803d0406e3dd07b415e9cbc8d70acb8cc6ff82e38b34164b489cab2018149e], [Nil; Nil; Nil; Nil; Nil; Nil; 0x39381484d6cb8467d381e3a06956d5cbbc958ca6dc8bddb5c8e72e6f2e84236c28; 0x2c4d2ae8743372992fd0caa9df7a019afe547c10fcc1b52eb8fd8c5cee5175c367; 0x1f11dc06b7ef4b6c3608fd650c0a0010779f33f0e50a5650f1b74a7d09894a9337; 0x11d0c187ac4984f60ec19d298fdb1dfd64e64d452f0d73fe0167ffd1247e2304c5; 0xfff1ac3b2d0e01e2dbdb7890c35a3ded8613f664bdbb4498ac216dace379a1d09; 0x5124e5979f1c4d54e3145965f89f4f59377e464e6c5ccf4366bfad98a68dddd5d]);
ISq 0%nat [0x2b8833ff1cf3cc02ef288044fc99559751ef78d26c13405d3f2b5e28979b84ca; 0x25a518111623e0c14201253465ef2612bb6d073ae1ae5d58ab7f2086b98db7b6; 0x1dfcc0812601eb87a1443664bbbbadc00c8feaad0f9a2ccb726ab4bb4281958d; 0x11372ebc1afa911ca5c7c4c9026aacc16a659e2f111d09a0c61627ebb361e2e9; 0x125ce0ba166a0b8e48d90b00bd5db6b2c1f6e7e1bac4959f17a03808ead24dfd; 0x138ffe06208a42d267a5d19d67554aebbc539e97fcdd36eb8ce913f8c220b950; 0x2a89b27e37fbe755effd2dcf83db73c111b5e029dd36ffaefc669d154a45262b; 0x19c6a8f129c4cee7fc6d63d7c61fb20379860d855ca4ced60d032fb98633d706; 0x39d9213b36c0c3914194a091ff3f22f4517554670fcbba7226638efb0fae085; 0x14edf5a8d987690d61b9c98c2b434df15754a375fa1621cc5a75969022bb1352; 0x2b81d216ec68f69005a575f9c5832d4ca650277198cbe026cac22a7e8ec4a99f; 0xdf97904ee348b85bc077b2b7a67ed47c9bcd0a73a701092a895bb7304c011c8] ([0xa5a3f1252e479339a3d6494b357f502026a115aed358706216df9372f75435c2fa; 0x52944966523e3be98e7c32d674b30a2dd4f585bab15db1de996924f4d3a39e8a12; 0x3d8042e4e84d4f6b34083060a2cdd25d93ff70372524c7ca1bd728398592b6e450; 0x1bfdf055ddb33b4c1b35f6915751212fcab8db7125743be39f6092bac245d805e7; 0xd9fa54dacc2264dcef80b70ed17c7b5cba1c77a3e5b31157ae803b0d516a1f579; 0x8389a91575fe936871855f9f7949200c599faeb7f703d8eda048a87f3b8b00962], [Nil; Nil; Nil; Nil; Nil; Nil; 0x1d838b6810fe1a274831b17ed6d178159004034b20e904295e7e8eb019558fd842; 0xfe18776675f1931e227c5446ad5bde27145ceb1cd41254dc0acc8cb49e3f7b0e8; 0xc0a17a9a664803f1b22a6a72e1ad067bdd04edb522d31f60484bd2942b3a1956c; 0x655daf0ff9721c04cb9fca7dbba421a86147d4c22e01f5ac77921a8b6227c3b1e; 0x392851d0796fded37d6e6c09e8473f85e367e9a41296b6f6fd4be4a89c85ad8fd; 0x2754a8c41ce1a6b8171bc5b7ca0f760c270c482907f1a7a4372fc3a5d9fe12a98]);
ISq 0%nat [0x340b40b5f17c507ba8be2da191b7f15e2ca94f7e1a638617ad4d879425fa8a3; 0x2a5186aa9ffeaef151b8080765f5ab85419b107e5cca295422efbaa2155a8726; 0x1de778e00ad3b87eb034e5e81da7851027e89a956d428af5f632453e16714486; 0xf528eb55cb560e0eff24840f6eb80d8799711e13fd4c17fb50fa48bfb845267; 0x17bea62c7e6967b74f6d46408dd103c8b9d1b7288f979a56a5bc5702b1c8bc51; 0x24def91215285059d8a61a611b7f25dde3abd2fb743d201a893d15c40fe841be; 0x1514c46dc9ceaa9b1dd05f010af938adb0508455f213dfbe1cb1ec44ca841188; 0x273f6c060234a5440b6835431b37682cbebcb2c49a094e8e447a8ac8121ce600; 0x26f6511884bc0757e47552fb04d8438e32fcf20ce95a57a67a446242e6b63567; 0x111bab1d8afafe083d14ea8a9826bbb015382e0677b2330d4c2b8ab5cccbf607; 0x2e0eccb13290ce59a16af068e1c3bf46abf1aebbd51b336d1a1a99be7c06b71b; 0x1029581198b8a3554a63266a9e196f5300081f512dbfc09fa57833c50f2f0943] ([0xdfe42807c5a3942e910d4a6aa2be73f111058cae3c049b17246fb36442f1ebe977; 0x108c276a93557dba16702965cb9ad474cf71aef445f53a8c840706bb3698587d746; 0x1408283e8474db8c976501bf8b28b89e3723048580c9e09b0a4d4c887afc104783e; 0xac42218ec3ddc7c70213086050cade4b267b6d84ed10f7902ec66ee61e1bb187e1; 0x3a4efcf7d252efe8d5dbaa369122f1aaec4d4bcdffd17866421b99836d907e3cd2; 0x17627cfabc5aa9a983aa42acb8d19613149657590bc78c6c50d5812918377c1378], [Nil; Nil; Nil; Nil; Nil; Nil; 0x27f5f0a426addd4169e215b3213a609e158cb979655de45f107aff333b5d5d3dd3; 0x2e09bc30688fd75ee99ed95c4eb7c3efd8456ae3e566c70407e3f9fe6214cd0686; 0x367ee437855bda60164ccabfe18eff499a7ccbd4f7b2d5a894c5f382e8934db482; 0x1e4cf9de74abe0d622c2db2f8d52840b2a909ece333ab80760939ab72a42ff7d39; 0xc40cdb773adef5508badecc4bbe95927f7cafc928b8d883643bee35fa85f814ed; 0x5e415f2ade15b8717a4773bb63294bcf9a9f5917349f0f5436043743633062a5d]);
ISq 0%nat [0x2a69715ad95a1e056d324323f7e49d56b50415d8d54e0d49a02b37101fe4651c; 0x274f6dab1df3afc7e33e91de1be25540dcb14ff0c8e90d7c78ecbe79b24353ef; 0xe138f64ccb36e4f9555bebf9df924c5dd4bfe730effdfa6c8627f1f364957c; 0x7091d54edbb4b8c19f2dada7a2044286453e9dbfd3262f907b1529d2d019ff9; 0xf33d4219acbcad50dc6779da06106f23b48429606a528b052ab75dbf43f6be3; 0x2cd3643200c33502c2399c1030070dff21f3cbd3c185c56215c45185aca8e9a; 0x2022fba9586c13c23d8aed8c77c82e0e4b35bdda4725870be40153e4d341880d; 0x1313f2742bfb4d11e57e557578422956531eb52aa49f95f8b442d8067d20b6c4; 0x72d3400421bf145af7e83a745d048959f1bb4868975d51021bc567d7bfb1701; 0x2d1e6543da1391d603fd58b9d3c7be42ab0261c08a15bfe599d2b557846477f8; 0x17b1cb3319583600f8478faf77d392fe882feda805ba05189ad7b67b877fbb5f; 0x1b6a5ff83c74c89b2d42958e23449c8217614af2d55a94eef5de4992ffe3a00f] ([0x2a6bc463a77f2e13608137dcb92e87f7e471bf1e1ab868de0119c4e5bb9a23a15d9; 0x184e0945ce83b18ab0283a5a8644255e44597c94530f08141e80f29827ecc6be62d; 0x16da5265c68da50f87b9097a049fa8799c3f3054c22a721d98a09aab33356965458; 0xe5bdb33dd2ab5b1d619587e8eab710267e263c010b97e3e7c0206f41269c071b65; 0x469c23d0c0d69ac93af0071755722237cdfc88bf9f3b717f4c0e835f9d718c92c5; 0x2502667141dc15d6e60df9f849e21d221a03badc1233b24a01442fe8963fbf34a6], [Nil; Nil; Nil; Nil; Nil; Nil; 0x734bf8bd6071ec02ce9aa11a3793dc5a50ed939fc663f30dedad587678a4580032; 0x43009862a4aad3886095525f8995adab8bcbe420a8810bb759bdc7446baf1e2096; 0x3f1fcc93f798456b8ecebaa3d85ab860952c7b7a2a8618977bc1c44ece765717d4; 0x294817eb88fe967a054bca3b2ff0a8103861c1058a0f28ab15e456bea5e55d64e6; 0xe6de1e38085c1fff52766da6424a40d7849f57c6449872aa99597126db5bc8fad; 0x8f54b087cff45b5c60c4ba9be626ad64a0533ec21cb4cea800cc9c07d733d1d57]);
ISq 0%nat [0x2bdbbfa51dbf2565d23ca433b42db0873ceaa9ec2840fcaa4da3fb918ae44969; 0xc9f4bffbddc8cb37e6d372420864b629c3895e4f3c288cec54733f0a14b957d; 0x263a1001e0abac1eb9e03b4e685f1a5de7e3ea0822a671a569b7743cf06550f8; 0x1e7c731f0db13e45c32f95c23b9f6b99311485eac97b7ad093837957d0530b9b; 0xe36a102884f9e5bf3323cb3724ec4a17e8984e01e65e039d709e15310dcc0b1; 0x28f94cc798d5dcdd1f7bc62a3b1ad893071f053883f5a55a63bf3813c39bbf80; 0x1eee2da9835f41f7fbc190cf4bb4d55670686dc597bc38364ebb0d58381f1107; 0x2c17ed9f04e0591b0dda212f019b9c625e1a67a723e7376c067018e2e850b012; 0x197d16dcdb82e3962b3c0b6810201cd2b0cc32d61c7df95d9e7cd33060087d79; 0x142273c69ae6b4bcccfbf8079e0955b2a16a96ac611d1ecd19bddcb5b9507159; 0x1ff80ab075848e0e3219a9ad2555e6100270e44a9081d990f0a5e085f339336d; 0x1568d447fb2b7cd6b9a20b4bbbec78059a66b2a58ccd18e0d7686fc772b12af] ([0x1b3488fd2db07b06a1a904bcef1af3f24085faf4eacb6273d533358cd10f09001f5; 0x14159a69ad6ea639d57637c2f29d9890ad83845d0338f3cf37152514fba24554667; 0x177f89b8034890bf9616eadb3bbc5b1711f341006a087447b092029b7de1b2799c9; 0xb62464e9f768b601e2e2d371309f379f2cf3eb072b6e12b94bc99d10963dec7349; 0x703c23b856123c8f4302cf5dbe8ba534718c8f17a45315b2dd0f126402d1668d33; 0x15d150af60a2189623a8c4784b01a767d6659d4427d66f09c4b340789ddf276236], [Nil; Nil; Nil; Nil; Nil; Nil; 0x492d16ef00b1f6280a3c59c2226cff175e38238a75f098b4f4957c56b8c5669cdc; 0x3631c2dddee3a4d1260316aa60697ef00adad7a0b8b3f3e76626884ce39589a136; 0x3eaa0ad9a7db1853cd717ec60a31a78d61f8a8869341afe8aaba0a0cc7a22c66ae; 0x1fcb945c4aaa6ad013f8c928d8677f07ec91a3d2753de7c2599c2077313d1acedd; 0x143ecf2f38f5522eb3d86b73b51b46fccd90425a0cec076d9ce9519b87d00dcc33; 0x53a963c6ab3e55a672bf3363639373184d053162894903b086912a7f3b7f40b33]);
IMul 0%nat 44%nat [0xf4b5217872391b4bbdb4805fc46242468cdf2f5d5fded02952d0dfe3fee8ace; 0x16247dff625f2b1edc614a95741217a83d3f6d097d1e2d634ad41306c3c65d35; 0x2532818c14b92420276042b938ca124cc93fc9bb5e907680efec96b8e2ac640f; 0x28c7a7893f4ec5d03cced5f275449667cd375d0d15dc1941ee11abe7a7dc23e8; 0x14fafbf1bf91597a47d8eb7eaf5ae92665d407524c3c845674e118924c2e929e; 0x6c877019295c14983a4e7ed688e2a534a6995f944dd691a488fdc46bf22ac33; 0xbc1ce50407cf587404a8f35a5c1d41ae3732e6dc0ef346030cdf34e369223f9; 0x7513cb3800143a0c2e3979092ce62262ae6514f7ebf28624906bdea7a10e81b; 0x1bf484632e12cb545271346770b654e9d5b65c18376eec4a381833adc82e08a1; 0x17dc2beac2a7c90c4ae2e8d7c453b64b7a3300611c1c30a23243678cafc9267c; 0x2ff3d2beadcb5156aea3db2e939f1399f2785fbb4f9e9c00ef493fb8060a5673; 0x19bc4e92ee0f97c113a0dfe9d25343f7a500a4cad99fddd624cdd7d53ec2c7df] ([0x1100b82a1951e3fd2942be8220e02aeaa0ace63149941469611db5cf345d17b7b97; 0xecd8af4319bd7b98aa44912081ebc77e60f3c25b91e5a0d967b51abf795efa564f; 0x6544d58a24200f39d415d639685ba7f863878dd50c2f3a6199050a59c2ef6b277d; 0x6c4a6b6e5796bda4deca68a862236e8e763aa59974e5c4f7b18d18cbaa2d522c53; 0x1b33b5dab5fa08d34ba8d9187f19be7d61f8d36939c04f90e14b7e1af2d89115e3; 0x153298eb6b34a01ac50442d7848724a6833a5996199e0c3e7d9aa11f27b787d767], [Nil; Nil; Nil; Nil; Nil; Nil; 0x2f0de34bcad722cb2a6a359c1af67e7e2e1540414ba9b245a3f3cda8bf75eb10ca; 0x290ac83570579f6cf772bca1154decccff722e25abbc4dde6fa7bd045288421388; 0x12dbb04254ca8a819103d35bcd12c1a3875b59e3af28acaa13dbf918b3c638545c; 0x138a8a28678668fbb84e7e395d26228b6956e3ffff57b1867c80e9c20ba465a854; 0x6458af44c3e17ff7b9d76730cfb5804ece1028cfd5eb1bed0afcd8d063f3f23a9; 0x53250b658423ff4c0f0300fdcd5bee96c95faf8263ba08a05ff830560090041e2]);
ISq 0%nat [0x2d777933f2cc50dafc82c27bde0829d5491723df201533580fd0e75bb459346a; 0xbcb528b90ec382b124f662ddb2477264a94e1a189cb394c52f771f0364f1b1; 0x141d563fe854dad1a5286872a52140e84fc621e93f81de2b3fe7b49cf036ff10; 0x440a2f4c795d18bdc243d4f937f022526308416b77381b7642063112bb2cb99; 0x194de26579ad66fc71ed994afe4401722cf9193904bcabae30ffd8afc271096d; 0x1c215d0a8331f17797281eac577aa20befd0ad431f8bba7a6d90fe654064991d; 0x2ea19196f03cddb6da6c42bf9cfab5574dec34b91b8e94156097db34dd812394; 0x63d5796e67b4342aaeb8d69010b0cc7f5a1084afb519e66a12cbbf4b747eb5e; 0x48a27305ab84bcf6f8f6677fe072e646164d918498eea7b3ed0411016f275ea; 0x1928eb0ef3ffbcf1caf578ffca6af9e5f5904d896d6a042b2e367e647291339; 0x22b979be749e4b701fb2036bdea6b97014ac508fe9f99bed40d086cdb5617c65; 0x12e594b4331cb390c153cf19477986a8c63d1cd69c18a9b321902d338e792827] ([0x1e57d3cb8596f88644cd1d8905d809b969e16e2fc44993b4c1600511a590eaa298c; 0x1ecdae217cdf6c80180ab5d1d73decd2cfeee5f7b1121f41a7b713859aca032f93f; 0x1c6374ada6cba3b4b58a0fb78698dc8fc08c3eb129b6459d77aec34d76807d7db03; 0x137b5ec25b20e00960bdde14cf67dcb32e4c3e7901d6cd5f798f8d30c499a782d35; 0x5fdc705edd01ee7204c99c9482f690c7fbfc830d97dbb2e691f1960bb5d3201e76; 0x1124e4ea1532c13a5e6eb294ce6583f79ab9da196851fd15ae5eaec5092ec16f9b], [Nil; Nil; Nil; Nil; Nil; Nil; 0x52e18b1e12b729fa90ead18a33900cf435e66352a2e24c679dda80bb860e29f748; 0x53c495dd77a4828702f83b9c7e49cfb402fc76c2a07459d979070b8eda2f90bcfe; 0x4ca1a83b962bbaa7f6198aa0a66cdda8d539732314518228778f6a6f7a25cd9dfe; 0x34710c0c3ab355b0d90ddeecce4a07d6b8c44178c7d85484a88db5199e4340d0dd; 0x11309a9b35f768873faf66e38662bf202b55b77e572cc8d699489fdf9604c50c42; 0x46febdcc40efac92e6408f3c701b9661df5329ae3b746647141aaecd5f289c84b]);
ISq 0%nat [0x1ece92c90ba83716fa270b29845532fca66a3ee9c1cb8a65c9a9f9d3133b5d22; 0x25ad62c1acb7df944731e9d1b4ce9f199fecddd037250ce12621999388ec93e7; 0x59ad08a4f61599c84ca05a4d11d11a9f9b91a5f77a50ed54ab07f3674db2c51; 0xf0d5315bd76690c7f207405817f60ab9ee1a999a761a7293c42056601a12d23; 0x192dbeef48f9aadcad357c9eb3ec00ed17bcee8eba2a8f50bf204fb4931fad19; 0x2481c27044ec4745842e766d54c88678dae48020c9d1085b9e002d6904ca6566; 0x1e5a77b57938709d916208f7efda18cdd81799f03fd0ed706e20660836fe792b; 0x216325f3b8e73d464cc9e95f55c622dace1cec100ea781ca78bdd9d264b49e9; 0x2a10a314ee8c7b7b4fb7bba292c9dae02f7b432e02765a23f4fbf7586fb9faf; 0x1c1fd00488f484d98de227fdb449ea4aaf4ddeb0680a44276d3e56e3ad19cef7; 0x1e35c6aefa8733ae7197f38a96fc1456955382d08d70ee6b1574c3f0e9024cf3; 0x226fa6fda8d4cab6ebae2b95929091a44d22171838703ec82a44bf34d8243d83] ([0x5d8b5a7770fc51ac8b1be531a7d5be11ec19d23c15e4352ebdd3222f8c6915316e; 0x2e80eef7ccf254b281b18a342366463216f18d8ad961ba62aea4793500a1d8208d; 0xa6f039bcbf5c23c7a061102d14fdde839f975a4ed09758d31dda94fbb3d15be258; 0xb0ef495e9c218015b08c3f94a8bda2a92cbd2c37bf635c2a7500d262af2d4547b1; 0x4710d61cd1c725b8fb6893ebd56a16e9b1f96bc76751eb51ff9d31c656ca77ce85; 0xe67a1d0702040c526181f44881b6e736e671dbc2a4ab3a2b13680e8b2e32d6e48], [Nil; Nil; Nil; Nil; Nil; Nil; 0x1155fcd91d48dd033f4a01c2c93ea8dda46505000266f1650c84bb90c6dbfc75de; 0x882c81b32fc37c3693357df955e4a1c9fe3d3a9d270be0c893228c715e4b061bb; 0x1c8f29f08347fca93b638618517fa6d98fe1e68ccf422833aa7fc0f15b22ded22e; 0x1e56d91a61e4635560f8571c421e644495282fb5be623757e2ff1f62a356e31dc1; 0xdd00d4a186a8122e922099c8cf7702ac8cd95c65ec638fecd58ee85ad439ab332; 0x39970a5bf78463848f919684bb6024bc39518090ff03aa274769e09affea43fdd]);
ISq 0%nat [0x9015c33089394d89f084228b7dee4d46de55c4c10b057ce1ade138070de4177; 0x1e0d7b4f52db2c08e3cd2b3df7691655d3ea03f01f1d26dff106c6e584a8d45f; 0x2004542bf9934d6866fdd7610f5f018047e3728a0aa53bd3424e37ae5b4fc74b; 0x1f50fae56c57da2e4f0c6e27aa4285e64486dd9d1e90e198805be4ba230c2d65; 0x87c1851907fcab2488c01f92bd8434552a304c3e4e177988fafb675fbe5ff8c; 0xb496832ac90b418031bc437a5d721c06ba1ac5ba22b80e3448b0f9db02035b1; 0x40dfb021a771365dae4a7391217dd02ddc763168b6789e6772871ee4169e80d; 0x1234a42bfde0e2bd467581c9110bfe44d9790b28fc19c1c31cc87fec1f6bd937; 0x1b45b09a8e6237dc4a2181a314d2ec29219e087f5ad2538926fc86f632fbe9a7; 0x1cc4530be78885038b660a816ee86c56a0776beea34ace4a9b2d6ecf367a0786; 0x26490628b44dd94c237aa3829a941b0c87125defbbf52fd79de2d8956a1c68e0; 0x26abecc86052ae082ab4bf451c52d591576b702aafc2cda45d242245eddc02f7] ([0xa337b96c18f3fd83601cf25032485dfdc82a6a00165e95eb56f0c41e1453d56117; 0xf3e74d97f072fcb1adfac8e3819cfa9639a91b55a1fc347613347c33387fabf435; 0x172fc0f98b1f305398cc3754e5c6c4a54101efe73d27471624543eea0ab47cd1c80; 0x11d3d6842c258cd5d80a98fa47c48ac0923ff1ed7e4f43a7bfc10fc118051a96271; 0xaaac2c1258b1df03c550479317e7271c09f234b84fa2bddf387daac04f05b6028d; 0xf4d6a9e7c5366fc77c55a8eb36cd9e6882e72bd598f2beb98ae48244c7f1f7faf], [Nil; Nil; Nil; Nil; Nil; Nil; 0x1d05590de0654b597225077a171c948ddb31695fe6c3412d6ab2a98e498179ac46; 0x296c8548281092f7cf18f637bfc83cd8514fb82d8097305ce7381b4989c6296ae7; 0x3ecc44b3172ccb2c97637b351f334c503e44ee74d9e39077273d40cdd343948a7e; 0x313ed47d5eece2ff2a72fc631fcb0b879aad3d0431aafddc5da1191589854fe790; 0x1e3929679a64979ff01f1f3d73c7d2520852272c40cf5f31e2abb0dcf42127e178; 0x402809944722ed0e848528e264386fb39f2115975e7bfddc7518da64adb7f1b77]);
ISq 0%nat [0xbf22d29a28c181e8d7621b6ad771127caf60de72a0e4615c677b47b2696d87c; 0x79e66b74d7d7205fd65516015b634bdc837ed2e48cd5c2a162f36aaa76dfe0d; 0x2543e19569e6db0e8e253676f9764bef6fdbc880cacb18fb5990e4af70e44b0e; 0x1384adf5e943180939370326c3d730eae0634a9f1ce8e66b813f02f920bb5b5a; 0x23068725abb5bd488bf5c77d3db2ef51eca29b947ad476b83710c372c7559165; 0xd0ba5bbf0fe40809a791222c3d82adb01c5fe28c2c470ab69eb40084cabc141; 0xe1fe72dadfa951c58266a42de0f918bd7766f52752d65106df2da87e0525baf; 0x184403aadbfacbf372975e4c9d750be0e55b9ddbfe564a4c129af58ee0115ce8; 0x36fcb0e644697fee17ee353a35d60a7b3794b32c7b1780dec1e06b35eb4e83; 0x1ae4ede13f3fc7e22a9cbfc0a0f1bfc118ae631186d04960a869a6e8b340e3f5; 0x2940ab227637e46f7714b16f0976389983a0999a3486b1602c056a708eebdc85; 0x16b71fbeb9e9b2ff3dd80c6712c436849ff1abacb4d9a6a4929b1564edcb0dfd] ([0x23496df86a1ccb5d1a5da0c4590f877fb744bb426600abfbf20332ecf5ce69573eb; 0x22a418fd18af096b88f8df8e6a78ed09bbfc722ddc40dfa9c85cd8c67fe9f98d9c9; 0x1d3e4e69e05c25dc541cbf06dc828783e5235276e3bd0cbf66a3b3bb7d9453d7c33; 0x172c79dc7889400034205bee43fed975a4fc0eeb12ce2cdd208c8915dc5881ccc1a; 0xc59f4928ff5872df5efb6c4e09d0e0cb3a308da2f3b76d5044e8ad47043fdd51d8; 0x15782b252a303812797ad70be66f62548cc4db962abd98a06c84cfb5b4db226ee7], [Nil; Nil; Nil; Nil; Nil; Nil; 0x5f7fc3e38578c7b806f60462ae15f6581274d2d09ceb4038e109bf1201ecfdd3a4; 0x5d47f51ea45b94682168b4f2183f5459bff42d36e65cdcaf352585fbbc2edcaa22; 0x4e84703c4f5aec13b0aa68fc1191df67a2829ef37d7dee1e20df7d91927c3e9615; 0x3e2395fcfb9f931528792e405ed5e985aeff629d33cff0dac69edc5628976f23e7; 0x21fadbb5b515927a7b0688aac6235c5be8c770ace0ec0cabebbb38c9f392b31e10; 0x5526459430a49dfb1ea8073759366835217495a24c3406093579cabbab61b7b13]);
ISq 0%nat [0xa2b64c49ca35547fcb843d87bdc721bb760b6a938c40abe0b192fa7dedcd1c2; 0x14830d4e15e7a50ac96c0bae78408e74e2d49b9075160595d14aaf413d283ca2; 0x14ec3e267089eed732d1e50fe65139456b0a2b8d3d0037cf88c1c205e707f672; 0x2e643534ede2cd8ebc50b1f9f992d84f6072477f16a9bebcf8e68c0180a9e939; 0x20a3841458c79e16b4b085b6af29350c0466ab6a7abf85222804985af7f1d124; 0xf68ff7f29b3fbd036da6de6a208d6de31764cafbe51cb5d865867ec5693b069; 0x749751ce7376284c7622d27b447282e766d40726a5e2025995b44c673e2e18a; 0x2deaee33d1727fa11ba5e7eb66de45f18d62e8a49b61a138f5b6e874bffdb760; 0xd5cfd1f9bc0726b541a22dc37179b3b372f7004bac5ebbf71ab15a852f34f64; 0x31d7abe879d329e14d461060192511ac1df907f486177fb376d01fd1ab51199; 0x19adf72b867f385dd0e11472a96f552acf7b7bfecbd1ce8982f3b423a7b6618; 0x3461ce3ef2aad550df7833eeeba22738e38151690cd57d16519fdd66358b4b] ([0xfed33b0b710e9c64dc568ab71cca86e937a57e5d9f63afa21c8f93ac0afb74e980; 0x1306e0cf4e9cec395e0f077707e075e32d5bfdb2871a10554750d022a2e806aa536; 0x17dd59deab5846ab23993b71236009c0c3d465534419702b36228a4c65742fca47f; 0xf5f6d397af195192edd3d215a7b7d1198b79b88ab3bb3db19a7525a451d484bacf; 0x518cb3e4b6716ac9f0e89b8c72d30d7c2eb81a82e0a2d913176d4749c9906736c6; 0x1163dc65be24ef5c16806740bb3dae31f76301a1387f372247998e4a5c01ff2489], [Nil; Nil; Nil; Nil; Nil; Nil; 0x2c05c85a9c718552f208e2830ced11ae099605d7f63e0f3dedccc87ace0b8d2168; 0x3454951f08eba025466b266d8f1f53a78dd8a8a1d7eec5629843289323bca6db1a; 0x40bcdd29b89c515c7ff8443b5f8e63779b69ce479aea74878f05e04c0c853c15e9; 0x29ebf40da88027e043489358b715f7be79aad20682aacaeebe485a3215b636cf7d; 0xed0801c57481e7edd7d3ae52ff25e7a98193ebe3809fdbd250c7690ce6f371867; 0x4483648563ae4ba36d70e9365d9f0e58fba193e684e913ea57f4adae886eb0f4b]);
IMul 0%nat 47%nat [0x28e7b96547497d0db317c4f7763bae152fcbfb1dc33d8ab9be8ce9c03247447b; 0x5b7f3bcb1e851cc2259e1eecbb3553112a82ce408ffeb7d774da8ba725e35cd; 0x1a42762e8aa00b4c054d52f73e1b22e3dd1b650f03cbc8501999ed709bd4585d; 0xa07fd87e231cea0e4baf9e46614bca363be0c50df17712776bf860de8ab7be8; 0x10bd74ae34162de5d40bd4030db48b6da5ac7077d73597091de50d3492583b7e; 0x2edf828a4999a857abb223e4e26f43e8c1df18f8770105087acb209adc093d; 0x13936cdf778664529232c552888b0809cdbd8c5b00d6481141c9dc159666d487; 0x1579177378fafcb4d118994655463430fabea3694dac3dd9d544808d70371dc; 0x187dc7f849b47d24e91458cc185e0eb508f43aea5a4f1f1ef3fa4a308fc7a701; 0x1ba279f48fdcdf80c2dc781c08b75836735e98402bae4021761c0876df1ee7dc; 0x27b83e3798636151b1a8bf1aec1dd292dada4874d96e0404bb05c1217e022350; 0x29edb94c83fab4fc7489f040d8d9e6f96a42f9669887012217f4a9651bed3de8] ([0xa21ca99951b36244fd44a9d2496d97c14759d0ad27046464bef3fa768d5d27706d; 0x44814b0bab89ce9beea1d9f3ff6e0b24b30e77fe51a52b11001f9766ac8e83c04d; 0x1a638adee2b787c7eedd89781397815023ac9da49b6368ff58d36d2483f8752307; 0x1992208e960db34b1c37f4ae4360f7898a84577a4f73fcf308aab72a3ddbb22433; 0xebe80ca01366f7a3dd8730291c45fb9a1f3197d497ea02b23f3f4dcc3506ef908; 0x400b9837a993d53fd0491df69d1477eb8010a28072e2593a4d043eb9ff486cb0c], [Nil; Nil; Nil; Nil; Nil; Nil; 0x1cdbb712d83f29af3921309e32685ee5ed40a7c84ff2f762a79e2598b020865e29; 0xd70d348bbea27f8a22bdb0c6149424711997be2803fd3e1d13371b6f1aeb6a0c9; 0x5e0a8004de8792a0b62a3b663b4273d1f487e7241f5919228245ffc396742b042; 0x609e5e9f8294d9a5639fde47b8d49cb8ec85fb81e3ef6f9efc7031882868b4f3e; 0x3a8ca2bcf2b1faa9af08612498b6667b6c6a31703dc079be9f6f665ab2a065ae1; 0x16cc1bab00268c72ad7df575311600670a945f92a5ca026dd972f609472ae7756]);
ISq 0%nat [0xa8ee31bd7dd3f4f7c54b5964775318956e987c385f46d312ff2c7fb30642883; 0x2def98f9ce2684bdceb9af4185f1cd5e89abcf3aea16c60ad51f59c39b0cb2c5; 0x2a0cce847a1c30744747685a4de96fd64d03f9b152d541e5a6be017a99e67956; 0x26b1911faf5f559ae4dcaca1dde4482c025fb3c4b011576131bc743943fd7a7a; 0x2acb4b5c0fceb65065bff93597613a42dad9a223a57030f3fbc86dbdddbb45ac; 0x1b613708ad7225f1fb527c711b1ead8e2c0f99ea101c6aba77c4815d0fa3c1ac; 0x8d69acb9120cbbd78e6d3d6fd8af9652816d1debb8fa97e7e3f1255a7f6caf6; 0x221a1a288422799e02820986c250304ffa8867e1a7160f6e6c85ed11d87dcc82; 0x21c9d997be6bcf2791eb8a82fa5118a27296a8332841840ea12ccc4364a3dcf9; 0xb0e172e9c886d70be0b519df002b693dafa8346f876815b2de408672bb4fee9; 0x23b92fe8bf201468aa83610403b2fddf21a42d7d96c0e95d49d6d406707053ee; 0x12c2f771aa2f7a07ef93cdce45c1dd648b461db5608833c11e922e138b84ea2a] ([0x16caf8195d710f9cfb37b5d694c04cfb6f6d70c17cc7338e6b649f4f647a291e23c; 0x214989b261f1c58b21162dde65c063a0df15b466041996312a321c7686b9717f93d; 0x1e4b0dbfb4ad956763bee13be9a953241e1d0cb75c99b2b47d6a19ab48c9bdcb28d; 0x19dbd3ad92bd3183bb06ab3ca1cf5e1032c217c81b560597e47253d95cd442fc428; 0xe023598a7afeaefb99df3cb18e9fc0031d7354016398771795e0c33d37034ba347; 0x1478ded966ebd55b49df974433161daaed6fa74c1711872d047b3d356e7e72a1ee], [Nil; Nil; Nil; Nil; Nil; Nil; 0x3d9cfe2033dba36abf5917d99e78c152dac5bca3b9f6b35b1ef8f3f4e39cc412c4; 0x58d96daf4c47c2d83102457f5330fe757ca6fd3965f4c5f61463f0649e98797b9e; 0x50ebdef89ed3997ca2a9bb0daa0ebc254b4a2f19176c077acb72c607554fcc72dd; 0x450965ee54dadeb08da66dd3240b3133cff5b462e60bd3d0d779881de5a1635feb; 0x260cbe0cd54f1179715c4abaead751ac2400ec0f759c91a35c6a3be1553162b885; 0x4fb412630ca08fdbce133a2f07e317e3d08a55efd5a746fa2fd3ebe6292914c1c]);
ISq 0%nat [0x300ccab525887ea09719b7d3ff020c03ab9b20cab00cb7c76a8eb8a825d45022; 0x19549b68816b9469f91a637048def2554db6818930c1b439b775588813a296cc; 0x10e75cced8cdb6786926d2581d2f6e3d0dd6ec15ccc72b8d4a4a8bdf41429fc5; 0x7ddf7aba1f42f035cdfea6ea4f78294b2e262d6f9c5894a48120d9257378692; 0x1082fb8f19e7c024fc388911762a16b30ae0b8891f602cd253d21b14a902c25f; 0x16c8e87e8573069bf406e107c25fd0d0244900910b327f9ee4058146936ccad0; 0x26380e2face4bc3ca61621c29e7707315f7ea9927b5d5af514394914de4d0583; 0x2a31ce2a4ccd9a17e52c107f911b386778b80c710d2d6de9eaba7af394236ae; 0x270cd8fa91dae65b3b2ebc2f509385548a68ccea87970d6c7ed5b112db98af2; 0x22425fe671084b8ea1acb3a1ce4be89bd3d38c64d111633c5b7dc9a4b1f4616f; 0x1bf7d5b61301c5c1c641c99283d5af80d4d84f81f8176e5525e679f520e30841; 0x14d82a44661b9ba310280d4a9ca7e41767cc380c48b8572761c309739b8bc6da] ([0x20b9d00e4ff04f066c4ebe4d04f4ed5b36a8db879af961401cf67a42e0ed61ad553; 0x1285404ba231ee2474c70e13f6c4f14e138f73011fe473730f1766a71f246d0e872; 0xf6bc5b6d6a1a96ffe19198bd8b3bfea836a9f6ad8f01ebf9d72d1c9eb67ce9d5b8; 0xc77467d39a0d623046548726852f4801e75f2f31f5b1dfe6b4e73d9ff8ccf63996; 0x40f6b53343bbc34e37381202573d0af173875792ceb2bda21000f1a9cdb5a7dd8f; 0x16a40af7bb3cdc67f8d73c5f547970fd1b7d92efa3dd336230f292d73e27d8e204], [Nil; Nil; Nil; Nil; Nil; Nil; 0x5a501c339f101ceb30a6517ad9de26708399e2114ca6fc1b02a7979376677d1169; 0x340581a9dd56d4c9d4bb1d83a68ae29a14dbf7ca6dff3cff4d80b812ef50dc72a6; 0x2bb60d9ed1dce6e5f728f3bd22baff4337bb889e5ace7e906dd7cce4c10e0f2ad0; 0x23bd0187a2a4b4b07bcac2151b4467a9fc2513c055c24b595a10bcb1b0c57811b7; 0xcbf62616cdfcb9ff920539afac896bcf8e573bfde3668f6bae2b1e1a1483962f5; 0x5f717051482a3876a5a23dfac646c0c89984cc9a51d1d4b36e8b85c298613705e]);
ISq 0%nat [0x2ad4c7decc2985c96dcfb8e31b5c476f0e6d2a916e7dafe0316633b804b1bfaa; 0x1b10f936192e0af9f5f7d199e3f18ccc0439d8e6be5c49933e458a302dcffc4c; 0xd59712f7a2720239a6118e131ae3dfda2a0cb98e737a79f9cf3ef5af4072690; 0x1cfd9e2197e5ccc53878907d25a4d76ba2672af1729be73704f230ca7dba1fdd; 0x2c899f9a1b6381cf4e4b63d39d5ec134597d584583ce95ffa3fe283864b3948a; 0x25f4358f3813bf21dc02fa722842d3f45f1ed81860e6d9b0938fe27356b4be4; 0x1bd382ed9693818873134ad80dde65057b5219c2321c9f2fe46ab931afc3c4f2; 0x6be6e49c46db300e3d904fee00625272e2fdd76c3752ad3648f6bbc9ec48469; 0x651a1efcbddc6214ceb49d6a94aca00d836463bc1e002dc8d53edb435096b8; 0x90fd4e0d8732f3274a580e32918228cb3bf3a7586b84fd6a42428bf643b6f4e; 0x1194147adb35b5f4edc357dfca549631b55f6eec939d0ea791f0ab8cb3076f6; 0x71073669b71b4a152f1adae19a0a842ea1aca86906d8bb0cae4bb48a0c8ac76] ([0xc4d4e755b7154c0c07bc57cc1d4cf6b63a7bd518440f5d8317bc364cf8ec046d40; 0x101622275184ceaed8a09a4d85aac3ae83a9b1d18507db181e3b143a1c3d0273eb0; 0x11b140ad6d977438b358799c1bf05261043d32f4eefc79f8e706da024d4b5611ab4; 0xa932ce0966af18e575243ccf2ba8d8c2935e3549b739439e3104b253aefea581ef; 0x4941cdf05b3ea78f80111acd7a81c854ae1ad99d7600bdf9be11d06d6ab3219427; 0xc5d273b03d6f2bfff55824e00ac4c64ec5c72546db9062871503e6b893cd8ef10], [Nil; Nil; Nil; Nil; Nil; Nil; 0x22498edebb683b188c505b64e5b66d83d9681e14dba005ac8774dc5f3627f31d7c; 0x2b719fb8a2573e4e985f4ba15498359e4a526a80c9c90405bfeb679881b447d84d; 0x2fbba6a63a2c96fa8ccfd7aa34cfbc27ace463f3695ef581df13e8384190c763c3; 0x1dd8226e73664fcf061676257ccda2ad81b72b2012193b4d92487c3f0f58746bb6; 0xdc18700bdfd10c4126125d650e83accc509bbb81f7818d80253833c7f1a8a0fe0; 0x34aea1528b95edfcdde42fdb562c154966873820a2bbaf59557d499ae670e398c]);
ISq 0%nat [0x8a2cb12cb05516e2f401a1c9ddd7b6002f433238082049ce0db8b0ac7f3c341; 0x654d73e65e59430c5894c2c2856b2b8913b22318842aa7f6b22bdea5246a50a; 0x7a23467cbe6bae4e53267bbb492dfa35233c40ad42a1be4b9b677f8fc269026; 0x2fb72d18f05803cb6f87f65266e19b4d87b3032f0aa4afe7282b55100e0e0057; 0x7f5ab9824a44d7274c7a963c1959e0b0c0b145c71a6f23d65a2c95b244ae9e1; 0x1b24dc10c3ab1ac76044e22df8aeea0824609a13c3aea29cb1c5d108f0b7b52e; 0x27e5cec55d070db7d053959fb88413286a02b0110dd7a43bc28462aa07e30ac9; 0x2cc988a0972bc71bb1aa823a4074d1e4dc5233ef16418257f97ed40161e4a8b7; 0x14a44189d419b63e5003c73ea550a9220aaf20916b6d9b5c3a60310ff9c5e91; 0x409f09ce475b44cab16d411f6e0eb81423d89d9aa9ecfff7719b1e39e5479cd; 0x28f72ca0607cc2906dd67195429f5950c915eed559f86e45068e8e4fa550d784; 0x1eb0d8481645a589cfe67b5530b2b2b1ab05519f1120746f6de2da0846557a5c] ([0x20dd43cd44c24b6ccce6e5277c8959b6e18358299c7d0f340d90eae12efb94e42b; 0xc5c0ec4ae7b2a3947c5e2a78946c304e6b2134553a1b1ab690d60c1d4ba286246; 0x135626eace5c29ed4157ba9849d7a462b244defdf06801ff6472a7c1182624b140; 0x929e0fc888e07b2e716c67d393b544251fe1da14964e60f2c82eb9621eb71ffd5; 0x6eeef027f3a5f033d0aedc0615018bd802c27433a8e5c132702f249672909077f; 0x27967b00eeb5f0b6016ae94a672106fd4eedf80759b130bae644d47bdfa96733a], [Nil; Nil; Nil; Nil; Nil; Nil; 0x66eea61e46e098cf4c2cc6db9d03ef05fb4b3b58b68f34c56a9d887af6ccd5508; 0x2f79bd0ff725971ccfb76f56ae159bc5ab622ab9cda4be885a5dc3dc81c6ade07; 0x3af905ae986664a486240163aedb60bb5109310a5982cefdecc994d22500f6b13; 0x23119931091db3fcdbeeca68ba802751ca0994e2fe268ef998e46ba48e2ab7509; 0x19201ca048aadfe7c66e77f5ecd1d8f66bdbe39c1a335cfdce27431bfdfbcfcba; 0xbcc1f29e118279a9f369b292776d29005d7acb63ff9c7d543ad08d592021e058]);
IMul 0%nat 53%nat [0x1a3737c563a40513fb74281506a282e1835f233254ea17fd212b5c0b70641825; 0x1ee4e056bad94611f83e5e646596811f5a53cf23678d814c60d80db1236caed9; 0x2ee08ba70ade560ea6a5c965a44d80e0af59fcef08689e73ae0a37cb8fdef649; 0x765bbd92817a19d47670c133551a31b9494a73cbc70a84ac753e43c00e87fb4; 0x224f68cc76e7edb5c10449204e36d71afee60dcf0e541a17341bab3a8acef505; 0xa4346f85a499d84c59d5fd5a33093ba19219f739af37220f75e27751892a442; 0x2a7e807df4143319f24b9e7a29d453be9b9f0386b7949e9ddfd6cf6121a1a1fe; 0x19faf0f922e2f23ac7838096ac0b521e68bcb3716cd6605dace87465e26db43a; 0x8c9d2d72e94db51503a1b9f601309d7a3aa48802fc0b0d76aff2eb619cf0f11; 0x195ffb9295be58669e9707ef22b347a26c87c4860ead7266caaf893296c4ef77; 0x13bd284839e3c87d777fe9a0cef647eeacd42515cd5252f42aadef1dfe339f50; 0x12e28477cf6c355f80049333409177782db888697dbcfe7924c34430e6d16a58] ([0x16eb79c4ecb5b20b0910518e5fd41682d1f69d05a2364384df7d73b3ee20d6a4bf8; 0xe5bd63828f2735457ab08e29f948b17ed437dbe921cb676a23605328e71be82a37; 0x104b446f1753db31d9ed4774ad5c1521de50b5b920b8c63c5753506a7945619bd54; 0xea79082c552c2ae7d6ebbb99cafdeb9c6b24734b57957f76d47222189acae70c2a; 0x7ad41d2ba087e6a33bc5ca5375657ef48a48927b500d3499901d086ba80c66a233; 0x186a33dbc61bdd196cd0a8f634a934f2125a5e4a7a22f18a425ad4f9a8ced5d02b], [Nil; Nil; Nil; Nil; Nil; Nil; 0x3e9ec505cab637ba60a8e2da6d7085aa99caca4161f0b679ec05a3a1d87ba6c7c7; 0x28821185f6ec7507fd0b283fc3b157b45c789548abeeeaf7ccad37adfeec034855; 0x2dd395edadbc7e13a7838840f1c461e60138d71bc66c92266091b227da3b8bbc38; 0x287c786a6b66ebdbcee33bac72a49f0c96da736289548b6106eff7c1c1feb3e6c1; 0x1631d347332f0057f4547f955a73b799abe79823aa50192d9f91f7ebe716394305; 0x5f76c7b881b17b246f0f0f6993a72e7540e279355a1249418b50f03b1902f8632]);
ISq 0%nat [0xbf84b535b26af4f5c0772e7901499ffc06cdcbcc7ddd7ba75dd41f3b846539f; 0x242dbb0fdf6e50bcb03b194dbd2bc431c107102c1ceaf7227104106d990fb9db; 0x5e1ea9f9d6e97f98781cb04389bc2abc798b1c6325b3fe27f42c029d5070365; 0x26eb2fd6f102ab17ff1c057ece7efd7d6b2aa5fec6b4af66e719aae6845cbba2; 0x2e8f681c814950e7c259e8a59a6ae3f036ed5f5ea53e59d8105aae44ca94124f; 0x243a28ce021309b67a1f7a35064e4539602ed8bcb935aa0c20aa4558f040c5a6; 0x39b45fc17745e2d14828e62eaf92eae52a653cfcb00ab9c0ec47a55aff4618f; 0x2a36236086aa6f789d09f9f880ff43508c8989b038ad181bc984260d25241a1d; 0xbad9f71416e7a3f24448aaaeedacf1b09a42cbfd6f5ba2ab73eb58eabbe4b6; 0x1e7162029361df61bd3b613420c5ee46e72d9e7db91469470ac0a6b381a92ae1; 0x300fd69aa4947e119e240deb7650b4f9c0b4565083abf9af9e42450e0a99b8ea; 0x231f8b40b136b1487f994d2ca6442c118efcd045f5bcdf08e06a36d42ba2c19f] ([0x114d7620c0ef8b66051357a061e16cb565e3762e4968697da53a48120eeb2782daa; 0xc7c1d6d0b2a73b17b07b6c7a633ee40c5a3445ae7973648a73c52e75f06bbd41f3; 0xb8023e01c83fc0126646ef107d989604c829e5775d80f89f0485c57a530f2957de; 0x751e1e8279ac095e4e5f26631fe2400c385bc19cdf5bb7952c7e139a981bc7a758; 0x410a4e7b4047ce73c8d206a59cf2b51d945b5ef95fce8ea497e66a759acda80442; 0x14181ccec282d6131635a3a6e5c7570f2a120a58ddba51c684003197a999653174], [Nil; Nil; Nil; Nil; Nil; Nil; 0x303946e3c589716ba8f75e2263087eabdb7b655087ba4cd08b4bf8a0d7a906899f; 0x237d9573f95b7d9ab7ceba5a660fbfc74b9cfa4e326a2a3ecbe1f59c79fced3655; 0x20202062c47ffece2ccf39c18903ddc4f8269ff0bca8228b9d67ba89abb8f33073; 0x1549a0b6d657bfa27bf5a535563be9c5139c730edeaf8b336388cb1ba4e60274c9; 0xc8c03c07f474602b414415aece77b97271d1019e11b6485de3a336130b35269b0; 0x510c6a1ee4cd20fd4121ff2112a4085aa60ce816451c4b29055000e0966578359]);
ISq 0%nat [0x81f44ec404f04bacd97e39fc35195c191b460054e74983db3aa56cc09bcfbd4; 0x1144a4c3d8909720d91792afe7bfe8e807d832ceeebcff0cc5a85a5529551377; 0x5320256fe8f305e46fce2815d9c56e278a53f17879f52e2b3f2a78b7ce63ff5; 0x180b09d30d100b032b705426f33aa63d2d831d91b3e7100028c8db1becf4e3cd; 0x1fae64ca537c998578f3f6cb73aa3a7483b35f6e92d0603c6ca100d9ddfdc256; 0xa5ec9ec4243d5e760cbdaa7b08411358b0018f096b7f9c90a2f248356168a6f; 0x1f0f58b0b40d47cb12472680abbdac3516ecd3e18abbaf8e2e18607bd53e305d; 0x5578c77a0c3dc6241059026ac1f4456fcdab3cb5e838e6e46d56b323293f28d; 0x128ab82d9b5dce2040bc973a49533daf9178d10e039bbd038476228d68a9820c; 0x165a9c47df35b96cb875a1c233d433e9e036788170a7aa61eb68390f5fb5cdf; 0x12242473b97be33ed7219fc14d6f11b44dbbecb2832807c88904bc11581b1d18; 0x23eb174a45389dc9c700a33640b64bb4a69fc871562b99891bebd0f09cc8520d] ([0x21115c8b4b2d51889fbc45feb225aa7132bfa2abd35adb92dbbb6f2013e9fa1d593; 0x1935135f62fb12dae36594d516eb2921144bbae5eca5dd19001151886e995e5d677; 0x25c0a7719024ee4bc111e8bab89ef1986ef2cb135c86958aaf2b7cb18eec17f6b60; 0x1c0b42c4fc1875fb586471fc0740fb890ed8a994a04305ee26bd71d7836d060188d; 0xb6d0eabd84533e9df9e135769df63182399f3c068a3552f0de24edb305b0a163b9; 0x1c7313ddbb6c98be00c226242acc95f2cb0a1ee2b943106342b9d862c172500277], [Nil; Nil; Nil; Nil; Nil; Nil; 0x5a4d6131e221b455c09be80b591772f72b90fea675ab6f60aa0e14e6a3df7bd361; 0x4544e37ddf7a80acdab8ae963a49ffde9f90f61457022f7d2f2ec220dc784430a9; 0x67d43f960ee5b487944d6247886fe389d4b06b41cee8821ff4771b7f4dd2d6805d; 0x4c921dd15ae094ec749630dbc0066542233afeb08779a61eef69fe6bf6277b8343; 0x20b4625d0181053244e98262a6dc113c76f09f77b9c1951df1e8fa5f9b3d41b382; 0x70c75b6f330c1070065960715ed82661566f319d25212f49fadb77076dc8c38a7]);
IMul 0%nat 58%nat [0x198e2bb92167e96cef19cdf11bcd40ac494fe5e7df82667148e197248276ce4b; 0x2401a805de8a5ef26c027913f5f7432008e1520765440b51e64f6e710c4e3f3e; 0x2c6414bddd6e041caef6046eed7690b18fd87493a3b21cee20f9cd91d775a4c; 0x2cf4c7ac8ea2fea92e8ba044580f2cc6d0cf5a67d8a3994382fcbbf8537d2248; 0x121d4f18b9cc53860117978c357790dc127558554b68fa99564392dcfb685ef; 0x27f5169e589bfa755073fdf0ce0593283f72826fc8bb385d6edb1388ec128533; 0x1b46f7ff67b1b6bbdb0d2df4cccab9ff599fc4eb4601b093338925f995cb3d57; 0x26a3d1a7ceed9a79fc6dcd31682bc613e3e00741e3d84572dda2297586ec2cd4; 0x2c36aa3113b4e095bf13d941d9b66b8566ed752e7b202313bf23e52f044502af; 0x1f20908cdb8db951a69c66175315804717c90dc47135cf326c0fd3180dbf2372; 0x1206b3866590c311a0b6aa49055e2bc5dcd3e92d494930ae183af7496a01efd5; 0x18c70c78c9a76d2db480c1a95538d3cc9774dd459ba38a53fa31d1dd03b14800] ([0xfe6ce877c6ff26d8a43458b68eca95802d3258b772b0266f14cd70ca67f6bb520d; 0xaf37e325ec4a93c9d99a0bb4acdd598de2b80ebf83c2eb9bb953494927ba9ce54f; 0xadbb90619ee5c55ff163906a42e074d5f43183d7abc42560b80f2168488558b2a8; 0x5070d4a070aebc1e28b28972231f89fddcb960c372073482c8b4d6e7cf4f27b2cf; 0x683acd6e7f3fab89db2555d3e791c23a88c3ed94be7f4a2f830bf81dd337a9ef80; 0xea67c83fcff90bb9b5d0033af357d359cc370758a9ad1dfc1559fe16c2cfc7af8], [Nil; Nil; Nil; Nil; Nil; Nil; 0x2b0c424bd461a32470cc5ec28f9c7cc34c287c8db62c081a59c7118d5ea800b28e; 0x1eaef4d6f28d3220f758a160726d752d80f157292f957672d96e3d00623d515001; 0x1dd2ae5f3d8e094ecf2a6585c79ff01cc78b03c3a7e89e53ba5eb111d367f649f9; 0xeb2f631ebf38322c267f3ee460d0a00d6d15b591e09f276f39d1e74e8dc762a60; 0x11c14446049606bd68f8db9cd679646c78c9d2a333682a074b16e1e0b469ef797d; 0x382591766212dc688aa300dca8014b93652ea135a23016df4f67927f005324e70]);
ISq 0%nat [0x16ef830ffbfa28de301d3d35c2540fc57f8655cd4e3a557af24d9f565691dbe4; 0x2fee72386590082c8e6c96b210e7692304dfdbaad6ef6f86950787ac3ffb2499; 0x965f95ae938019bbbb49e1eba0440029349f76518be5629bbe493b3e622ae91; 0x83fabad21494d3450b746714a90734d92d30409be8d81a52b126da32962b55c; 0x2a8ae3c3039c60828c933b7bf6c67f0c337dd41225a8b3589bb58e575757faf5; 0xa18fda809e98da9552224dfed167c6be7225bffe4656bfac24ffca228c979c5; 0x8d8aa01debc0064cc96d4413fa5d254c400c35379362070401606254583ff1e; 0x75a16369454f24f53c87b6ac8f7fb4e99e3b3c9f2f3766387c7810ff95dd1b4; 0x482dcd9ff867bbd5008600e1798c7dd854738f798bc83a4be9ffbaae5bb1396; 0x1c8b6a28a79fee9e2caf6c1d74d2be1ffa7d5443fc54a520c3ded365b44a5756; 0x9e8510e3b04fbfb2e72fd5eed26f2f9bd45896a487af79eee03ca73107b24f4; 0x8ea7234d17b0fb224f76d334fd6e79a1bbf7124418d2b5ddb4823ac0d764e23] ([0x24e778098a1a9878a63b9c499fcbfec9b18c7471df9be7ef374bce4b8334886d32f; 0x1bc0c5c7bdff52a0443c27c4f21d3d76f245f5977d48c25eaf82abd4b4b87196487; 0x117b5ffef9f03ade9b5d8e1e9fef13b9613b1f37f33c57440ec92e788ecb8c8fcc7; 0x95fdf7f7896f4a1b8bfe077b92855cef831b1e3c132b484dd0a49d0af1396f86a0; 0x795b609993af09f233484afc30c401fa32b211a2eebe16b6eae66f8341738f889f; 0x2432179186f31c8e08306abb0908c2101a428d5aef7a7241211e4373fe6fa69a61], [Nil; Nil; Nil; Nil; Nil; Nil; 0x647effdbcaae8bb529531a7ed4b02e829279a7a3acf4bf13eea213cb3f727fc6ee; 0x4beb89f71cf540ed992ffef1c38f3d257d3e48bf3c9bccc70f8a37da383b89127c; 0x31c61b038c94cf8722871e352f8fbc1ff551f637f474dbb1931a0e1dae5e0c62c1; 0x1baa204689c7c6e89dc1d5f7f89888cbf7ae9f1e2d4113ad24733ff5c9a34bb3f8; 0x1752d84254242ade0cc445365963f7c8a7c7700d47ed8da0eb8ce1cabbbdd04335; 0x8b65a3e568c4074bc54e195b2e7a9267b43970250e118699653653d3c2ad124b5]);
ISq 0%nat [0x22637a165c043b13b9d5b55a8fcf5ca5d665b8750477b5f67b3bd391569e6559; 0x2e1ff5501218f3e49de2904b8d96067212e82f6beda8f07c71d5016aed4e0257; 0x561e8ee75d168217f46624eef8f31d816cbfd59a2334163be257afc39ecba24; 0x2314d634ed2ff3af21619cb0d71c239e187ab2a8a2b3dea070cce5735d6738ec; 0x129816997fd335ec0e609ce50c955ec6b49df03a997dd54b610b32a3d4264742; 0x2b5b290c024bdc552a28c03fd9d350594f17ae40f3df7146cd68b5f083da8152; 0x28a06c80a56d722a8a98714bd471b98e2dac2644f64ecc2af10701baba12aa80; 0x17e809856187c78bbee870cca143ddc8acbf9321baea092265a0ed17822e2746; 0x2eccfccc261c67d244583df102730162bd858bb72aa1bb61a23480d4bb9d6ace; 0x2af6efcc833127b6230dc7fcb146c065787ba6d9205423fbfc38cc1aabd003bc; 0x2b802bd06f8e2cdbbf12ebdd72f9fc56b03b29ceb7ebe3553e10515a625d2962; 0x2909d2b6e92ef16da25ad7ed48c89f2c6a46aac105badba3f51a47b4f9918c24] ([0x895a992135ae41247c4526559f92eabda03ca80bdfdf668639a206af86fb236893; 0x608700eccfd6ec02430de764942876b46f6072482f3e77d75684ea3fd35b25d44d; 0x535fc44432c84d2c49a2b29e23ad65165ba1625f8b3898e97f4c85a73109c445e5; 0x1f12bd06e8e2c5b1cba4dc9215517b86af69a614df336fc805b9b60f0f6a44cc1a; 0xe81e87b4654cd45112c128c30b99d7a7716ec7667a1d6ad1af7e332be86cc202f; 0x3557fde776382c5efbd1ad90ee1cd437f4dd5479b19ca234b04b8103763f8d730], [Nil; Nil; Nil; Nil; Nil; Nil; 0x177d0b2a6317cc51fdf55b36908a07ba62d620ea9d8551ebaf3c1b41c707cd6d98; 0x111e85f1da0b73874582e777ed027ca5f198f41788b8168aa3884b369dd0d3b9c4; 0xe93e3b0f5b2546cbd9590e550ad11b462c9720c564b14137b5bcda93d8020ea01; 0x5e8394983278b13740ae0441981d84970ddfafc21951a816de68d1eddc0f17ffa; 0x30d3f1d40447c0a1441d425d2af3f829bc1e31e19e1e4ab5c7437542931234237; 0x109faa423f9713989130459c6fd5edb8fcfd6d41b1cf16073ea8536dff4bfdc1c]);
ISq 0%nat [0x24260d07bd4115a55762a8cfac31dc1512b44c94f5e10ca60c96cbfc4de7e74a; 0x1a62869fb2d21fa840206e9a0835eee595ebf35f01201ea8d3283406df17f78a; 0x1300d808f16ec03c4959cf853d7f4f6276303671999b764d1e86b5bf376c236c; 0x22eeb48e152116a0d4b249a7dc17c0af0b727a644f19f594013bd19f4388f232; 0x257a11e883e9f7f0bc418fbef913fbbe0c5a0da3a64ba6d5f7c35c63e2c22aec; 0x16bd5e9881cf9fa3970dc7d19978fea125648561d1668d0df0263255594b4982; 0x18bf7fc27c0beef7f90e1168b46407be4e390d7cb018ba1f6563ad218ab57f84; 0x2d2d7f5c960521ecba5c8065883ac6ea63efca6067b738fbbd610b747659e879; 0x94a17a67ca6e2f715c3b37162d57014a74a5a85e53700a7bcaad82222a016cf; 0x1c5fe2a37ff1dde58ab1601c1098f105297bc744491ff48214040b7ab6161563; 0xe7f35f2155e7cd70eb2c5bd4d8dacc55cb6dfc2d22d9a1cc59674bf02e99bf5; 0x2f3a679d621c40dd2fc1c4815c37f8178f72de2925ba58de1bc6b80363c3e397] ([0x3ff060a85d5f4251bcd3ef3232f5d043157421d217480898d4adab925dee7725c0f; 0x3d030aa71c057260e028664b85d9e9b826e608f3f7b18f555c36e5426edeaa9e4a4; 0x2d8c9bd3b576a48b5e394644fa9004b1a000d127f98f87b4825110142bcfb59878d; 0x1f2259059ab359e20ccb555f83bc7aed9d587d31f5195480b41bcf913cf5f3bfa0e; 0x113560505868740f798907a5b4cdeadc5ab3038433ecbb09c0bb20d8748ee6b0ce8; 0x3e0c57e10ce4a02f5588f87d26e7948ef42d5a46ab671461476496f00553937a5e], [Nil; Nil; Nil; Nil; Nil; Nil; 0xad17dba48512419b2013e4d241b9e2b9d86af1f121a94de33ea92336af502cb888; 0xa4c087031fd6b14ed38d7eff5ed75efe146e9b950192d0063dd1d35923eafe45c5; 0x7ce6cc3bab21c722d6de0ae6d49e4001ec67009b0f4267ebbea353bec2f9543963; 0x56bc661c9685d7bbbdd94bae861eca1a80a09970ea26c7704522601e1cd9cf9187; 0x32623ad790ed8328f2d2c4dffc8be3bc03e8b575f435fc390502ab2323b620b485; 0xeeba97d759708419267579f0636f9ef3ffc4aa666cbf3c92ab059c98a06e8a1b3]);
IMul 0%nat 62%nat [0x3c94efead53f8b743459ec51893fe8d7394cc27834da6d0a80fadcdf163d063; 0x615eb0e66168caf1f9df541a855157f79dcafc7b4174a2ae64e3860ae597caa; 0x118ffae1aa7bc29769aa941b48063097d61bf2d37fb865273a8872307789a747; 0xc4cdf6f9e5dc9abafe149d5d5eb14137eaf9bc227f88690a8f132beaf1ca22c; 0x107a322b7c817cbbd253ccc9a811218c9e215c376ca4a632802f873f51d8e321; 0x2d8389c05aa95b3d6275865f0049833718939a6bc8d750718222c580fe348c1a; 0x2d3639ce27d642e7eedd37486a037103911f40c4fe7600e003cac15b99f3509f; 0xbf806cdaed278b812339de47c9ac5cdec922547ac31f31981c9d462575b4453; 0x51a17804a840797a041afc4b7ea9536fd36e2f92cf7b1adc0c64d8b54a94545; 0x1ff679e7d0f1dec8d5645bdd8a306e95bf4a5a9ca88f31e88a85665a1325f870; 0x2362cd46f5f6598226f3e03e842078d839d01025134d2203193a97fe9db7d865; 0x19180a1f9cc09c6b02e7b933020f24cd3b76b6800dbf802e873006fb3b92b43a] ([0x223195b5f25689bf36979f37a651d9ae0b3827501c186fe63f62ada250691c167f1; 0x9975082fb54553c377b13e201912a35fb7927eeb2bb7f82789cf393dad1d4e4f5e; 0x138dbf941c4b47faa8be21a3910437062c66f470499c78ab5f2cd1fab36ee07e639; 0x4815eda243528aaa083702b9674b12816608fd9ec8833a48f2381379b299bf8498; 0x9a75d83449cb6be17c8dcd31b52f3c8c541469cef44df35907f7b1637202448daf; 0xbbe19ebcec78107171ac813e06d6bf3b3acd4b268d3c36fa4e2f76b29ab55b068], [Nil; Nil; Nil; Nil; Nil; Nil; 0x5c0347b8f64b75f3b9700a09b7fdc3609e877760ea5a601220cffe37c706183a85; 0x1ba0edf946528dcde723a5e626502edd4d7ad428612f7889139de5175f72704b6e; 0x35ea150485fde1984e68552c0e42b47d40cf20169f5c012894a72e3d6e6147a0b7; 0xd8783abf796e808a9b0fa9b24fd178f0b0bbe6865d47cf7efb0fcbf20b1a1868b; 0x1b49b68f2aa1bf0e706ebaf19371ed5cda527b2b9dcd783d18c9b881bfa394a5b3; 0x319db3ac4b1a2c906709c44ef27b5cdc57b920484413cfdec0343499d713b397c]);
ISq 0%nat [0x67aaa9d32c44e7891735e2edbed440bdf5f9dbe24eb49beac21fa77f63f7100; 0x2d1e9580fec56cdad27f634df88ff9f54aca59739846c1f4334367ae0f38722a; 0x2c0b32ab24c9dfca165b88d0ec6570e43902a089b73e9480c5e41af0dc18ea; 0xbddc8192a595fd9ca66c00017dc9a029d20af184e959ea44b4a0d69596f38fa; 0x2c6cff76c13b821b57919cdb044c7d478c6f0e575fdd07801f46823b7e74a8f5; 0x237de5209c9a312d2670bd1e74a5fdee3be238edad667a52da95008a90af98f8; 0xa9609d20f49cf1b5d86a06270099aae497d3b70937e0454626491db93fafaee; 0x239f88fa103328cdc676902fa694548528a7d3592cd60eadb4fce49be7b23c4f; 0x21e3ae8aa78001fb61fb45ea261fd8ca77d8640c7930336f55a3e73efbb66c88; 0x2fe70fb1f2827b2574242ab6ab7b0abb0e038daab6aaad57479716905cb33a01; 0x21dee0c1f81a19f2ede0178e5faade2fdb864be545d712db03b96581f70afc33; 0x2909badabc6e5dd82d6c512bc58ca378bc328c8e5c6c0c5f619b0275bb884522] ([0x1119dcc479020ccf7dcf0fa72bfe1908b83bb3e802010e12b9e94e0b5864dea0f4f; 0x148d2b3f1b36dcfac50c4e949f2a1da2092e298f20ac5bcfadb285144be819c374e; 0x1775d7c14e58b2313e3e7ce24131d4953641f7e2318b3031dec8ee17ceacd65ab2e; 0x1024d8eeb6c6406c1bdeb94a96d3eb428faa54b0bf0dd813a1982bde2dbd0a09aae; 0x7483c0b4bdd2a79930919c6fbc46da5aa1aca12c780a3f6695f69d6405a82ddb24; 0x16b4c26c58d3a164e69516a78302319f62d6a9f4439015a5d218a1b155f2b527cc], [Nil; Nil; Nil; Nil; Nil; Nil; 0x2f10bc2815f5655ce1f78d5f80c77d66e2f9e1c3d6170a68df14f78f1dc7bd5fd8; 0x37ba283da49c79e5d0d994864abc990059829c08f9dbade7520ab8d13eed49a3c9; 0x3fbfd1c10d3312a08c8171f0dc86012c61b2f948e7997b20da14265606dcbfae5f; 0x2d385f4aed7fa95d5666aae965d34faa54792be944cdae913db8f6313c51981d9b; 0x15cc203516a7db170a60436d78e80352901014feeaf46f20e1bfa18185ab2c58f7; 0x58438c44345e0d98d0f9e91ca9cfab250d78d156c8282b4c3b3ef900254617d44]);
ISq 0%nat [0x36dc08b1d4a1a543440e2ea5f1bd63e9da039122fb1df87d969ccc7d6e59caa; 0xd26ded36bb55bdb16527a6b7ecadcb3f47c742e65a0345435faa5deb0f26c51; 0x19683cd820bc55082b30dbb3a802c7a58b3ddbf9dbb49d4f8012d1aa4ec70e63; 0xee2de34404002dfe81b702dac7b6960f8eff40dd516406783255bade3a3a21a; 0x17c2ec94b1a0321db1829a42054e25dd5bfa42097d3bfb7886c3ee0110656515; 0x1c2cc546dda3d532c40f6f25bb1bdb2a36f49aacabbdb0f9ce023bb98dbb337e; 0x1eafd20c928a72c2c926ce8723d62241d3380705a3ccc57ca1a2f45c323b9a9c; 0xea78caf1b567d5ca61d63391f419fb307fe47114203dc4f29b1ed2deb6cd5ae; 0xe7781b3b7d24b66c0830aec0834a8b11984c94a1fe629011d82216598caea6b; 0x922dc86eea5d50111a31f47d946939947415701617e0dc0483b595f256426ba; 0x20794888d8b6a511ac9894a1cf44111737ee6719266553289358f335bc98c40c; 0x1ea60c2401d46a3becf334161655aded138e1e95c495c897a0c7cba4123671a2] ([0x3c4cb7c289e3c581b936b534f0e354237dca711d66ebd37f22a60c9d5755c67f77a; 0x3047a62b6859f1280227a4cd15e10bd48b86e3789c8e31479f98c6cb66d9194466b; 0x29afa81fae41594e9e4091928804179857eb687f83b76a46e89b3c06ffec0bf7867; 0x189f2df6a9d795266c59b4a5640423207ce3036c7e4f301959192fb0c9819d29f0e; 0xfebdd3553acf039a66f0b2912153e503e50adc63e17f4e4f156a345a2fc4174d9b; 0x2adaa0cc32a4744804c0d2b778c3fc15934fabcf7f10514641081fbafef8e5f71a], [Nil; Nil; Nil; Nil; Nil; Nil; 0xa2546bbcd61e8048abe655f362376a2896937de92fc4855baa9277c48218db1982; 0x81e3958a5b59d26e2b369cdf46f3648276e237b03f973e988f07cdc97a06a176d2; 0x7159ccf43588514f78a2d53fbeaf413a508a39a7233dddab8b46bfa51e3c912bd6; 0x44a6be5fc97c9e6adbaac6c2f3c86af617e98a1c65e9ec931b646cdbb8d56d8bde; 0x2d6e88cb343b1a9028f475ef919b724eecbdbd80d62dc20d19e7e58bfb2743ff94; 0xa2885bc515be86bacdda0efda3b1a28c419a7754764ab94f3d24d14c05ba27d38]);
ISq 0%nat [0x2b06691d5258dd8569e2d9ca48b46ba1311cc201e87d3cd2e2e7aab4346f4aa8; 0x10cccbcc4897f61bddcc9e2ae58650e2ef3649f322f5807ba955a2d6b767fe4c; 0x13c29e0b317480e9da72d4bab2e32f1e28786fd2e42b81c755a58918b1a55d1a; 0x2f169f0818bf888e0b8670a8d9f54e5ee1b91524661036c454a5dd3af5f0df87; 0x13e047199ab5b79e88937e111b3b2f65d03a132d4e161e22037c14bcddac4323; 0x2c50a9f6d1e9264fbc0f39f3c9f306527338874e2bb205ce8563cba887f98ccf; 0x1673a2c8b4da6ff996aba2e1f1990db7df2e77f46b1aa93e72e6fc67c2c68df9; 0x2637a769e9d2470661d6fd7ab139360ae5fc5b8bcff82831d531a9a957ef0ee4; 0x1db5652e12629037915380252237f1b28bd30711f78bc5a12973eba951c2dcc5; 0x188c46aba8660f0d04177dbe27c46320d2b4d5234f74affc381bed882fb84e72; 0x2a9ed302e89a087f2eeace22dd9f6907f4165ddaa45984c5b021faa2e6de6d2; 0x1530eded7f9738f6efc318efc00db5b92142d9c9331a48687bd27cabc0338eeb] ([0x1073977914491735ee7d2c88efd7c6542d6a5c9cb1cf02c1ad7f34f5e5182ed6958; 0xcf4690bb1390cc0aa8fee42e9a3b8c2ac26fb4182f6741940e1d804c849654e8d0; 0xdb4ccf4eedd80c47dcc8829eae5a2c1da01494658d93b009e96c76c3587f7428f3; 0x1095f62bdc65eb8ba93777d98cbd1379b5bd64322f32ec000d4b496925a3344a08f; 0x8b9a0615bc8064d9955cc9f760bc1da99956101ef6a499b5ad9b29f4a514319aac; 0x145f8de763b6e637ebb58d06873dec7cb8f24b8909837e0f407c9d0059445e46ef], [Nil; Nil; Nil; Nil; Nil; Nil; 0x2d4179cab76de07d7f26ff305fa8de631fb23384455eab95596e9521fed5aa2e07; 0x23f3230248051d7ddcb441ba1e6ba4228e0bdb129c5a93d88832ee3b9a4723a8bc; 0x25bc853c3cc3e2f1f3cf2156d1f423772f3df40b14f1315d0b3842983daf24af7c; 0x2d5e3df1cb7eeeaea0bf93a6c2b1b81ed7d8097dc82f09eac048d328a5b9046074; 0x18c2fb0f3a6206f811e05867df3d28c1953a9818b0347f83df6b17fbe390d3e83e; 0x4daa235f129a45ac3b822d4e79a21c6a4ef68e1f76c28849cb4959d36aaa57ab7]);
ISq 0%nat [0xb0b5199947f14bb864d20c61baefde37549dc9561d0fea462d7c00e27790c38; 0x16c2b17ddc63c7e7ae1ba1b1d20fa0a3625a8d0cd369fa89c003b311feadeb51; 0x7ef917a72ff36424f9f8f7df563fae2101af542587f99b16769b316978c597f; 0xa3b168830f26c94be19993f947f22bd970425f6b4159df17281792121f8f854; 0xe652e29c6351bf2cde3d27bc19d265bed87a4cd2c3b754854cc2bcc1dd48777; 0x2ad49a889e4dcc4a19563df914ebfc047bf648ce39047c5b8b5ad259c92996a3; 0xd51637b1538b99ee3fe8a37d355f16701a6f8e1a3d3401823c2b5ec987d21b7; 0x1a4776579f3a032d4210f29313e40d7154731f23da8017175f753286fa5b5c0; 0x1355ffa932462af5b2c5dbbcc6e015c5b8a1d8dfc003ae4a8bc187fe7cad6c68; 0x2b46e41f01613821b80813b9caa82cf7c4abceda57fcaf0438f21c6dd02fa80e; 0x195485e9ed75ee3b433fe643fa564eb1e29efb6cef61c3be1ed99a2cf50b873c; 0x1f0c1355d67e84dd6d2f6c8cd264ce36ed6cb99e31efd7d66921e0ec179f7846] ([0x151c643e42ec6008edd6294c96dddf55f8993a5be2b319f4ea23a3120ccf2de2802; 0xcfeed645489f3ffda8432fe09f1fd5443d133fb9705c39495fd8f137b682c7a38b; 0xab73f4a975b68742b1a051d99f539d3b90bfa881250968dfe7ff7b596493265da1; 0x2a8927e2671c6360871f9983b37aca35ec4123fc1d97c9a576cf8c60f4d4b99428; 0x54b10b3464353b4806ce7a1c43c4edd812c393c2bd1a6d11efa311d7c29b4b599b; 0x10c9e89be71017f93955b858787f1050f6c2b893f5523a743faea3f68ab63538b5], [Nil; Nil; Nil; Nil; Nil; Nil; 0x3af076c12a7d9b0b1bf826c103c702da6267d9dca211d3b88d7a94a80106aa6ddc; 0x25169cd9e65c42c408acac80bd83bb46899af57aa8ffb77081386eecb384142f92; 0x1f7cf089f37027f72710e898d74e0ae36de0f885c536ffebf0262b4fc829c5d619; 0x95bfa4e1b393bd0713a340b023b49d67214ff0fd7e67d3e7ee8f9d1a6419ff7f2; 0x106277094884c062af30ddbbec0e7945b9bfbb6588c474c1a36d5382b846717481; 0x48a1f6fd58a17ff299c00d710adf2f9e985fc37c95139ea9b78b5038144c0262e]);
ISq 0%nat [0xfeebabf3fcf22c64826c67856ccd640f707038de37b0f79d25e505ac1e93371; 0x2bb571698befc376b78f0f3e313e3d8dab69b3bc068a6e1d66446696946dcdd3; 0x22a19f310bcbedd7ebd108bbdf148288de7098888f42658fa57f0460299bab08; 0x2c008861b6cddc8c6c7c1490ec354702766501744e5793764613344234430457; 0x25eed72edbba6d018880d50d153d2b10704252e2357ffcc809d13bea3317a7f3; 0x1ab36cc4c44f96f2aafb5122755f069e16ebc10cfb418cb8f814397f0725a24b; 0x125c0695d7e7f82f789b4c7a422f5f977a78e9d26d4fc2555c72fdb8ec97d120; 0x2c54b8ccae54a41eee64d3130fc76f8f5a2f2678b85929274b1542b4a3cad79; 0x2b47d7d3b1ad4ba462b5fd006309394df894fda1861dea939da31f98a8eaf54f; 0x1cd6eee67b9c600bccdc95d6a3b52410310e737f29405533d8117acbe8cf81ad; 0x2bef4c06664889445d0361ab634f4b2acaa01e8fa178bc7361ea666619d65325; 0x2e299798c5b8024031e2566bd2c3214fc9d9202151b5f8f8a67c84bc034726b1] ([0x177a9de4922ec9658ce0cdfba5328c0154d01558bedb0ca64c52350ff2051f362cd; 0x1ae6b33334baa7fccd23428ac1fb21bb371bc539de6f69eaf4980714fd5d8972bb5; 0x1b18ed8af8915ec3344ec3f2cda1e4f12a9899c3d49354db13ba7727b068780b819; 0xd7ae016a0c0027ae9f43b004a7952f2a75b73fa5339601cbbbe5bffe0d7419b33f; 0x8c4386327997ea2b4cd1e8983f81b2d2eac5e1b161556dc6aa7fecee77b0a43a8e; 0x10f5c2cebd70ca1135ca32517481abb3170e8c946d4112f5435f304187f68b0b1b], [Nil; Nil; Nil; Nil; Nil; Nil; 0x3f1df5292e928fb63b85e78b272b0822f639354f360808480244584ebd17eb4156; 0x48298e7e1180387055f67f6f852c637924027aa886290b5bf34fd3ccde45a5bcb1; 0x494b59122282c336e7df2626c43d823a0aed4315a746449f731e60802436ad42ac; 0x2537313c3eccdb76aeca502532b6f53c2bff799622a54cab59f45f052ac5ea8253; 0x18d5be98c1e7269cef6566f482e96abaafcd862639297b4c16060e3d1f2fc15d3e; 0x415fda31425e87097439aadbe402bfa54494bc83437e271b346ba92da9d89dcdb]);
IMul 0%nat 68%nat [0xde9fd80c3c4a82ccb1f0fa9e21ef47714cfff714dc36869d5be976245374243; 0x25413558ee77c231c8962f3fcd7977b56b5a2b8a0b9f7f573a04e161be0edd4c; 0x1eefa9d22fa3b29a6d8d2b6191aed7b61b4331ad8032b1f37b0d2036eba05b92; 0x548302e3897af8344c6526cb6f4c66f965c01f6b62b85326c7d626da30bed96; 0x23fc425f4bed2dad19f1735aee69a544a0f60910750d302592c2a8215f6828f3; 0xcd2e3234338723832e479d46ff7b585c72794494a2830ed0aae5550c1b63efb; 0x171ed1667172dca52a59ff6d49f7092b428321ac69e14ac7bc322e3b756f10fd; 0xb00b96edd8c289580d8fa743f93cc5c50804c405ac135329ba9b99be35b7250; 0x863ccbd0eec09e7395f4d5fbb36a19b873ab5753be3f47b6c0c6338abcc745b; 0x28031ab7ac729bccec04e530a4d0db2608aefdb6af87edc052cba7e26579e4fa; 0x7ca9f5a454099eb70c763e29224cf1f81988de3a392846032582c18e2632f0; 0x286a3084cb222c9fdd96e269e0cb7405267fbd2b2a818f71fcc9c0f2d338e219] ([0x1d07c59ebe5babe50eb7c3d6a14af2a3f6e6f5d4f767e78b668b1f603cb1b298b44; 0x176cb86a8d3167cafd364d569e2a0e38612586c00b5b419925eda6e99ed6cfa248c; 0x134bdc3493e6af23deb4ec4d1b92d5c5869163911f199928782457a09befb512118; 0xa1a596797cb203cd843b4b9cabecf5cfa08bb876439b2aef897026efa16edc32af; 0x8faa6fbda68018447582b6d8db8a4dc721d471eb790902b9a485870d93a86eccb8; 0x1af61bf146e7bd96f3fe04fae066426723e72f25e33908f2571babfb3366d7abea], [Nil; Nil; Nil; Nil; Nil; Nil; 0x4f3d581cbfc31b1cbccd8f0217af7fc2cec301612c94d270848a7bc38ca0fb876c; 0x406c183d3a3d75fdd4b543d321e465f8fc58433b7743c3b4297f0ef47c3a469984; 0x34d74a5df316537a9e24cc84ea68a7ce5424eceb6df010afe1e5d6818d5094a917; 0x1caeecdb655b4380bf0294f9260d779198637bb832cbe6d3b768228c167f12a626; 0x1923bc042350bb166c43af5885e9480d12bb2e352a493ede49e71b79ba2fc94f01; 0x685e96b9fdb5bed34d32b302f4031d16c21dbe519d7b8a31b252384d051beb9bc]);
ISq 0%nat [0x208108eb89824fb07572f5aa813e3c45d4010aa2ff1bd8148e52f98dd7e1f3; 0x3992bccb19bfda3c09f723fd780a09f0a5e4897d666961fd922824bdaba8ba4; 0x87cef36eb756a59ddfdfc1966225b08e8408d7cea031724a2fa4ab3bdd9bc55; 0x1cc880c7a5581c6b3eb7e5a00eb432010e05743b9b2492927590a041e2491f89; 0x2ce03ef4860b7532668609a390d3f41838a65b4b0522122072dd5cd9ee703d1d; 0x1178f3408dc917516100ed47845356c81a20020540acf11d648d0cc796ec2656; 0x2ea19ec13fcb2fbb33c1c6eff922253616172c498c93e50b1cdaaced241d8a1c; 0x1afa69e199b1e16667d7ba07290452e9225f6712df80aeb74b4ee08caac3bbfb; 0x17e9c583949ba38c323fa1ad84647c044ce75997a9299a7529f1ffa32b791145; 0x11793f13f878dbdd2d2cc1ff5e8b255772587d6e5f084cab4e42911106a7d246; 0x132876c137e28c35205ce04b715cfca7f1ac073a8b37f10e811218fc9e2f141; 0x29623d764da941270af7377cbfcc74f5eaf86abdbe2120500c6d972c70f274c7] ([0x149ffc1b3dcb47b16b842dab4a47f78507e73aaa8d88386f855e7547b8c7ac59b20; 0x7dcbb44942aba46066419c12435bf4ff862b72c86a19605b412caa6ec2e2fe8048; 0x18e665d999007cb152429eae453fc63091f6d26cac3c87e772b5fa56a6ad7047243; 0x254bd32a321cfc946c3bc7854d15d7165cb0338ac5141b7e652f55fbe82152a90f; 0xcfb847a1493b93aa21d456f3e54d9e79cdbaa1b2688f21afde088f582f4de5996f; 0x109cffd388c928d5bdb74f8200ba09c2325c25bb9184d96dd482a7353344d7da40], [Nil; Nil; Nil; Nil; Nil; Nil; 0x38372344031ee6edbfee68da43db247965203896eb69341d0e9d1e46f504bd5228; 0x1724d4a94ea8a5c25c81ae20d46f664c4f4e1e26ff6199b11c0147b3622216eebb; 0x426684c62f6f5ba16f2585079fc2627ab7e38c61cb68710bf80a7d9931940dae5e; 0x8426733fedc2b60c285b2e67c9ccd5775c3909c89b67aae3448c6cda21b558610; 0x23449643a97f0e8e21e963cf47805c177e3a04b8ab41d1fc4a690433a6f58da36e; 0x41e7277b6b3c60bdd1bd026a87dd41c73c15dcb33c87f687cbd8326cd0d073f13]);
ISq 0%nat [0x2dda98cfa228d8c93caf7d85e6c9bb3b14c5ebc32bec05b835c798c4c4c49a6d; 0xed991d710d08b10db89a437e735b8adac72327d07e0a1931fcb270905f80b9c; 0x2c98205ece426da65b38768ab0d681dc18d46e3835e4e796ecb0bd9298615834; 0x521d300fd9a1cf6291dabfb731e2c73537d287d5c143a35895a8390b4d1382b; 0x113e3b848650eed2d96a724ab771e1c4db7b603db0e486d7c74ddcb6fd9c7e63; 0xdbc76aef75fa14ee14503ff6cb9bba9b336c5c8e2567b5c3c1adcd191f0fd10; 0x90f3482b012a5cb1a90e753d17d31ade1bb97555f0d1207939793e8f9b0f85a; 0x27184464131cb73cb1c0c0aca2eb914397a69d2c56130c2ea64fee5c04487c43; 0x867a293159a92f1dce600d07e674b4e2df6eed52a23ac4f7866e52d3a3aae1a; 0x2f31735cd4613335e941769b14e5a16e62cd95d2080fbebd98b82305cc8d3b24; 0x267e48063cb6ab4559c023b0047492617edc56f9565118cc5d1e204ec73a0342; 0x12ff7b83304dbf3d1103fef112d5c54869ef6d0823c0e3ffb5ed78f97d98a4dd] ([0x160d847eb29216d7c58857042d98add63df11eac6ef64205da6a6a13bd2a6b5dd34; 0x116791c3dbd6a3f392939e204147db9c8275b7cac01dd4aa46bf91c87ec82df6de4; 0xd495753cd55c8ba2d3c2891325c6aef029a28cc9d457ee5856c4d95a6a16481094; 0x37fde165decf115cedc54c6cff6c3311e773f8877be84e5b01cc322dbe73238eb3; 0xe05ccefbc26d9f1776180084b0234ec1a21d823d8a312450ded625fa1491e24cb6; 0x1f70bb7ec5b7661bb48e763a19db5bd271fc846a2496f1da7e3715d2061c81fbd2], [Nil; Nil; Nil; Nil; Nil; Nil; 0x3c69c53e3d8dafbd3c8446f70c1121f548cc0b218700ced8a45e3d44193d13544f; 0x3002b40ad990cc6497134777d5f17731b378362bf6168d6d01b5b1f50c9f126ebf; 0x25680a77a77022070a05038b769129fb4269bbd7d1fa38701966cbffc67e8f4323; 0xc07d480f839f3ba25e6a7cdc8c2e1c593e0fba4cec99f3fa734483accf238fa8a; 0x2673409a3d22ac46317c1dc88b9d4f637dccee9b400205b6e2f0d52f43d735e924; 0x7612da1da08e917fc53e7048fa635664d13f2202594d02e449187462002e00acb]);
ISq 0%nat [0x2c48581f78a44dcf46a5379fb185f7dd2fdc46ef6f5c61f348aef95f60fbb8a1; 0x3001e3acbc40f3b2acaca26e987e4ab864a913aa09630f42dd6ac7bc0e47d259; 0x463238f4939bae3a2fc9e6f969791a8c2106b9d3dcf7cbc3646c50525e2f20; 0x2a1adc2119d8229a96e7b1dfc4a60ae1dca7199591e646fe37c91aba29c3e72f; 0x1231aca8a877a17c8672023fed5dcfe0e65dbcb70430ba28110c7aaee803b37d; 0xd26ff22253dbb7febbdba7c0e123e7004d266b48bdbb0ac6b1a123387958833; 0x13a613da4c5a406d41046adf401e9c2a9e8c6204a2ffc9a58cad58e9bf5c2e1c; 0x2e232435019df7a3a7057749176533a5db269d98d42a33713611bba89223af2b; 0x28ef31f569cf86a2b5a5aab4258602a93d541977e543089e282236edb22eb7fc; 0x7b9a5373a7d3317a320b93a0a80039cc3a1696d4a54aeb27ded05060647dbf5; 0x164d39cf08b0e1ccaedf3df9dceb05f0db8b3cfd1d0374d7f57cc2247bc52ad8; 0x1240baa126dd841bd4cbd26b155f64b732993297d08ed17bb9cb7a6c30fc51c9] ([0x22e805b0b1916a8a806018c7eaf5da0ebc6c0b878a154146bbf54b91364f2c47b70; 0x1f5a3edbd39bad75e96fb7b20ceaf42627b21757e77e7d9a0dfc9f7795af8025257; 0x1a39eea6b19198e3fa877303f897106ff53c7602f032776fb850f21605a096170f2; 0xc376019cfeb4bb1fd87decd65c8eb7019fe0ce2e53ca07d0066ac01b9afe931d83; 0x4baa43c448623cbdba17885a42d06e46d2b2890460ba1c4c158a9c50a3c3ae0d05; 0x1b4586034384fd5d432692712f8dc352a0bb8ee1587fd9d22edf2081f404650ef5], [Nil; Nil; Nil; Nil; Nil; Nil; 0x5e01005dd458332bc82e601ad38d5b9b7bb3f5b958df43924a981f11bc58528933; 0x5466df88a4ae16420754cb78e335344a052e72e73b4055ee798919fbd2c7bdbe4b; 0x46c49353115838623a172a891589f66144de3f3afed3d8196e30efae65324ab6c1; 0x21f4184cb7333c36e3abb48f052627fe09965f003beed636d6ec542d3865ff6d35; 0xed15c6768ccaa4f2047ccdc3a49c1c48e2597f35b60c02347a426cf611b35b02c; 0x6bc09716dc0f91dd54c418af5d8d9b0866b795bbf900465d37f6c633cb0e99181]);
ISq 0%nat [0x266aebf88022a2b5189ca8b2376ae9d30e2dd6ac3d073cb02f9454e5fa2ab5e; 0x2c681c775a701ab73d6d0d1254e6b1be411dd59e83a6055581f4e0a3cca37a7a; 0x19eba48ae1a8976c61437d29012fc18ffc112d72f976c67e0f3a73d444a7d389; 0x1594c8315d6f52f0d971869814cbad3ab81ae19ab296523fac805f1f0b45cac6; 0x260209e317c276512559f1d16928ed2b3a8d10115942780358a7492f0477cdca; 0x2bcf90754cc65426df1195dbf90ed53646c16268ad4dbb14284aa7882f1526cd; 0x205c6dca475fbb70303dbcf2927c8a3e2091e877ce84bd4a0231bd8f628f2da5; 0x2cb80fc3cf4edcb4575bdbd731e4fea597520d1b6c76597ee411dff34833c060; 0x199025e75afbd3f354380065e252f1684e2f2dd9afbf82e7b458a40fbcb4ae76; 0x2526e9c4e96e94491546240897895d4bb86202c5927bea3cb9dfc0c41ea1f341; 0x1aa5520da13ace966661b56569db3bd197ac073b0981231af8827152be8a0b95; 0x16fdc5cace94959ad384b9421166f248ed5d7bd4e4878d21af44c5c3cd1e60b0] ([0x1cd983c8e5e2064a0291e1b57dca5170280ff968797c6f242ca3e12403182f0ec9b; 0xfc3d15853b37ed606c022f0b491c10b8cdcf40451cf1ea3a6136992beef168fc94; 0x864c7c86aa0285a24886ad08b835589115ebcd41610f095da13c67b2bd0761e976; 0x83fcd622f206c8ae93b05c29596774402d380d0027a50789b5f9aa4514927ff6a4; 0x4006f8a9c33aa17d8c5994974fcca9fcfe117af51a9aa760cf392e137f7d01d602; 0x1651905fd6b823eeda8e2cc20ca626b5ac857eb7ecea42cc08b106c2f2986164db], [Nil; Nil; Nil; Nil; Nil; Nil; 0x4e1e32e1cc6ffdb028aad2b6af5bce4e599db0af25325494be8e537f4387a93284; 0x2be11277cf7e241ba706c47d2f33fe44bdd505f24aac76f84b748020539a1d08b8; 0x192140fa8775c77270587e7eb6bbeea9230dac3dc0d5ea5d7abe2b69421ccc767f; 0x1832802a14bec6a6965560876be7f2c5d8753bc57f93d305ccac6d69218507dafd; 0xc8e5bbfe805017d7607c96b1384b2ae170d6bfd4f697a0067e71fb514e1c89636; 0x5b5dba961adaef4e2fa01364a9cfad523cd99b87a33c8257615d22aed6af05d00]);
ISq 0%nat [0x1c71a7fc8e233ac26cc0b4fd990172a43139c7e219cd4cef30b8f7622f1b5212; 0xbd41ae910e10a82a2cd904b83ed7b8210b5579796b5976dafbbc7549fcd91d4; 0x50c592ff5c536d16c7d496aea059f0a6a60b768b546417b07824d229be1350c; 0xe0099353643f81888ca1ecefb9e912038c8e96ba3a49da7781bb0dc6e4638c7; 0x29f0d1a93d84c0a49ae8aa678a278843fb09064a77ad6b5b2a93aff4d04b31a2; 0x2518b19184df94251d728ddb0d59f27ef814f67313184f79aeee014283cf74c8; 0x45729a7906a1f864ab89716192a6b2da9276bec536761e27fcb8cfd58ad28e9; 0x1a9d252444e1ccbf543d61e3c4b9e0b4984df9f5e30c193512fa1549a0101964; 0x239c597e8114d3c890c4e9b5ad52f6aba66ffaf1e75d9a9ef65dd22fc13edcf7; 0xdaad099248888855c3665241c4eb92f4fb6e1c26ab51948fdbd97906e860e26; 0x19da0bdb6ae17d162e49d98b269b608f2a0304098eae1bab64d77f4c83e5a9b7; 0x203bb517eb851a6909c7cee5d7edaa20f6fba901aa7875e6393e73efa57f5aca] ([0x28ac30f4b8bdaad6e74ec7264bf419cd7502590e9ba6e5f96ec0b09ee4e5f1465e0; 0x1bc1abe3cf0a1adaa35ffed4d444776f22e977248b0f10511d8cf8f3d72f3ec0ea4; 0x161acb9a82c06b7c3157254e642437a6b0014ffe80bd5ae83cbee01e64adae1781c; 0xcbdbd36c712e385081400b3dfd9204d58a332eeee9d2d33a20f358b071431e5b05; 0x71d349572e503821cdc6603ca57ba2579c63666ec2d739411134832089479c59cb; 0x25d11d96dcf1f994485e6d77226bfb3d67fc3cf3ab6888a7302f74833f491e6260], [Nil; Nil; Nil; Nil; Nil; Nil; 0x6f9bf3d6e9c87fb8cd2180c8740bbe96bdfc374d26cd81a869bdc8ad0f3579c1c1; 0x4d2b6644e88df443fdea9f6d14ca3083d7b5c78139a38dbc917214397513801c02; 0x3e669f6ea4bd8af73f870f0ebd844368e9fb9ddb47f9630caeba22147461d4f3b7; 0x2572cb8b811914ecf684ab03587bc11d8c83a72eef612bf1dbbc5a49fc938a846a; 0x166de24d736cc43a760a04708b68309900b65fc4327ee43af8f9ec41edeb406402; 0x95517604ec1b6cc557b5f0454fda61affee1fed3010ca2a7d115e6548fe10bd62]);
IMul 0%nat 70%nat [0x4f6a82395ee3c26077f3f5f3a8c5cca4216c56c2cb7b767e26a8f4abedffb2e; 0x1dcde55c46d59a36488749dc4c64ad4477d506a9893fd1f0fd2f8b36da4be133; 0x22e372cd7747a1a81c1456425f55ddfcd3fe6ff1aca68d0d393e07b95c2ba66b; 0x170745507f4efcd613b87a555f99f12cf0be44f6bc0e132362ccb0dcf582a0ac; 0x19e6865f9ea0eb994a8ef3086a5d83320eee8ee25f0a778dea13b7cb67de448; 0x1c90858ca7f1047fadf6729af7e2cbf4566703789ec2c52239d1fb0641b58f34; 0x2433cabc209758b6f142b51a5910db7c60da68ee92d4f3f9ef1fa2af4428ebc; 0x123d11b4218e1c9b4110d86d67c69d0e6130fa9acb990cf4f6349e4ef81734b; 0x18a83cbcc03de1509cb331525fdf711a753eebe4dd4bc824e29610dd35f01eef; 0x1e06653e2e7f3ee5851951d2bd471eeee4f65feaca0e6fd45e828f01bfaeb898; 0x2defb7708406a8f91fcf4d1aff29da6fec697dc615394aa89a6214af0dbc564b; 0x1aa15a8c9357cac440ead810144ee2a249898ad1c3d896c793f6636a56b107b2] ([0x1b9f75116ef2b3c4ec556bd15970ec588e2e72d1449050c7990df74a14c14474e2e; 0x15f6d0ea5e95445fa9fae3e726e138a6ddfb745fbb1dbbe61ef82c0422f15201e75; 0x13decaea35ffe8e4b5a59cca48846fd025a541ff2172f9a3c46b817a81af144ed7d; 0x10599e86715a15737dfcb39faa3c886c014d51d123d718333dfc035414583a9f748; 0x664069ceffeb76e96e3b0a53da64030799349eee7ac84c823afe1af23b24ac0d5a; 0x1cb93362e0de348a76a868d348213c2db7b414e1c4432c1990124f1082f5d11a89], [Nil; Nil; Nil; Nil; Nil; Nil; 0x4b7e0ecffb6c7ef4636eca9d3dbc22b598a205e139a3c2b5f1ca3c1fe492cd1b50; 0x3cc4bd939833da2e5366f597d045c0e9266f539ffa9dfb8a63e576266d2aa5f879; 0x37365139e8cea8ab67ea3adba78f198d57d1bd570c22704ace700b3e8e07971ec4; 0x2dde6cd25a98c8ee469c67ca0763563ac80e44ab45b9b6a541b210305d655f5b10; 0x135753e07481e29a32806d83497a9ea78faf1d405a2a21fa44a1fb3016afe6f7f3; 0x6ffc35031ceef6c10d09c69d2989f68b999bc7a18ca53efe8d8db4feb19f0317a]);
ISq 0%nat [0x92ee868d411adb5b94e8d3088c74aa239284b89436b20c3fcc51d73525b48a1; 0x2276d0e0653389179b736e4cfdb2d09afc9641c5dc58c92e47e258c28f72e802; 0x1be1671a03b951bb5e2e3168e06db3f6365957bd0551bec3204b4f57defe09c0; 0x2051c06683fb8f375613332b23f9ba0fb47341686cc52e94ec86f30c0533d2d1; 0x2770412a533f31a08b6c191a833641704c33cc68702eaa5aa7f551603be2ccfa; 0x2c0a3097199290158f20f9ba4d33af5fe26261cf57c629e80cb1b5963f9137cb; 0x2d85eb2477fc16e305dc106eaedeea975da66417fb3a13d5f3c2dd0255f9db03; 0x12036778c2053e8f538662e312aed4eaa5d1e1d1deea0cdc2173a01877d33820; 0x1d1d664978dd5ca969a1cc18fd10b53d2ae31cd546540bb3eea7491beb29a0c6; 0x1749c860c39c4ca59454cce61a339c298fb5b2b827a70a3d2e46ee67853132aa; 0x3025048b1782732b65af6fb569756f764f7e54c584f5af101b920e161ff50cc4; 0x1fc297b75b1d7a43f871bb2a02f28a1b298fe10317a5cc1549d3ae22e63fc1da] ([0x1aa696267af06e4a8a3bc890c3f7568ae729517ebe5fdfad3fed3f42d4048294cb7; 0x209680f14b5c7acd63dff3ffaa4dd8cd1f00cac4f227fbbfc4a0c942d4a5967878a; 0x1cf0c1ab7735045c53b790cdd1aae2344cd7cf4ee9a2d2b8a232a501452d92604df; 0x1368687fb86c31de7eb06227a684761c8a5f8e034a5fdafe02acbca75027490bcf5; 0x64350829d3ed022aa8dfd679e4a86a6e00b31597b47a383190d13483f9278ed31d; 0xb2196d591506cd3df0194976435ee1f94a9cd238a6114b8ae31c351336366d7a1], [Nil; Nil; Nil; Nil; Nil; Nil; 0x486e3f322596e4e8b6368c12edcda3e6d3a0422190b0a6618996de5ae76047afbb; 0x57b0089e138f64ed9bdde5684b980d93b8f3b61d114c1b5aa4a36531b0ff33ce6c; 0x4d42269e3167786fc3f190d1e3a853cef764553f5debc16c06c7b2fbef822c3364; 0x342cf70dc8ea52751feab10d5bf1681d0d6c11dac4fda032edd097c8ab713f1192; 0x11bd56fb9c3468423881e237523818bf8e355c4de8b7333ac00623183c36138ad4; 0x2fe1672732982e5549d6782940d96db2f534483f6dbcf47f35092ce7226570d54]);
ISq 0%nat [0x120fb86d5c8426b423c416145a2d309c4bde67d0903fb334092c102e663ca861; 0x1da1ca763f4734c034a4611c25d01ff335bdae02c530bf15850b7ba938d8c5e5; 0x2a27669728cfcdc80526819e1cfdb134b14e0290b77c4d600abd497062bc5752; 0x2448535aad32c8b791b5e2ce3af556b289178bf69903e8c717ebf065c178c60e; 0x1fabfed3638d7cefcb0fe21ed31ccdc63d18adb271f703d63d5725d72bfc5546; 0x289838d0ca8258fa1e360e39e169e6d3af1432375cf21df9e6eea8eaaa885e5b; 0x7da861fd9b1fe0e9b0c3303c82615e0557711600b1775a6703cffc748df4e4c; 0x766c04293feed5a1103ed9527f7ef51268ba6544fb799685efdc664deef8d37; 0x2f2e937c552e801d41c48b93b7e2f6f477fa54d63a106c3dee4f98a9d3f2577d; 0x1f477fbca26463083dadb7712c129ec4be72b4dc238d1206f8cbee3eb7f8d8d; 0x304aaa6b1160f54f8131110e555eccafb1defbdca5007ca8060ef9474e9c4712; 0x2b2c708f6b8a0aded5c2a9a6daa5d2f5d404e50ff0a0fa50d3387e258c953f86] ([0x26898909aafad55cf2715108f3c53f8344a5785dcf59ad4571203191ccaa25f4cb6; 0x22fc5e2e785d103ffe5ec80fa1d73798af11d991ed50378b3a7966e16af255c7fcf; 0x20c45947007f59a823528daa9ccff6bf02000082210abc3b28bf8fa08fda1dacbda; 0x1adc9c69655be3bb680c1374d8df263591cb412520f89693fed3cb343fbf122aa7c; 0xb2936e9a0df74852b4bc7eee2c7d6a15653bb49d4b27a69cc8939a23434bf2d802; 0x272ab31b3a2bad8c55ca91a28b901384ffbff4b14b8170df917e0cb064256f3853], [Nil; Nil; Nil; Nil; Nil; Nil; 0x6a34cd46a0683777c56ea5b2fa0d3530fe3650ae13f8e1776f266dec69a4839fbf; 0x607cf3a12e0149f4420638b9381782d7c89a695520c90e62465592adcbad096137; 0x5aaf0a3008947192fd432b164c750e4db8285bc5bacd3f52ad27e51e789eaaa157; 0x4af103a0b7b30117840ea64be0529a7fe218085c7ce75ebf0d07275d665c43025f; 0x217617aadef1889e36037b038edd6053712c466655f607ffa1d7a01e7dc500677d; 0x9b3bb5167717a3d63eef66874b64d62bb512169d9cee67d14031ddc534caa0fac]);
IMul 0%nat 75%nat [0x3caef70e7020abb3fbf5e394ead86a6b40cd774ce10f24c2d62db99bcbeb995; 0x268485863da872ca1285fa84855153f5513a3d5ce403484a168d5d68ba308713; 0x2b63f0963d03ae817329fefffd1302e8cec252a4ab43c982232d1800e765bb69; 0x21705f9dc83597923d01f662fc6fda1b1c256b066e6e9263c16ca58ef57e3233; 0x963f84c0c083b59112902d10d4398c76b5bb6757b833ca2299c8df763d38693; 0x177e359e4125826fee866adb7964fe59a671690c9aff267c43528b2104951343; 0x1a808ef78284dbd208220e8c2aa42fbea58ef5033c390f8da067916285147e11; 0x4d857aeb85c4dd0f1707fdac1b9be6a1b591a858eaec32406b0faf6a95b5f81; 0x1692a18be008c45f00c4ae7c63b9763cd7fb57c7acc6af8f6bb3ccfb468620d4; 0x2404addd4d3f1781fea13b944bb5aae425f43e387ef6440141dea540c238036; 0x16554f8e6c82bb55f894da461efabe673d74fc49870753fd38ba5f4fffcf4d3f; 0x16260fe5d4a762fc5ce995ca1f594902a613aff778da4265fe5492bae69e6fb0] ([0x1af9e597f7b33499d69e34893563ba3195cb8207ace9aea3ca7d924f6841b4de730; 0x1a3405a1bfe21e1c95d9f0ccbf2bbd6b6d4f30cf957b62f8fc4a100c262621249f8; 0x13b063c47d649c060c55cc1f2211e425d9612e70d11b754c2441fbe70b9b441db7e; 0x12b5833708a5866dedb9ab77096db639d5d702ca91602579e7b5f17d11eb8fc3f97; 0x9e78f8e97e94cec3729ab2994b4708ce6489cf23074a831f959031631966083385; 0x17e7118b84196793c55a56a550939fd66366d1ead17b6e25b6821aee40385a4e6b], [Nil; Nil; Nil; Nil; Nil; Nil; 0x4a9897a85a22b6a33c9c858a23163c2d9eccf7378b6273c624caafbdc2226a63d3; 0x47ea5487bbc8b94a7662f105a6cd74c00662c44c2877faef87447580c002bc96c3; 0x372b60b922e482778beccf9ca0ceb3a25c52b48f01389cd2a299cc8fff0b22606a; 0x33da3c2cbe961487d7a90735cc06a1c3246d90eea4870ab4a563bf3e7aed7b8d20; 0x1bce00dee481f9d547f19a9885cf69a55f68967b478772c1a86c8db62e2e65140e; 0x62e80816a762142ee58a63ac3198fc64564d896efe4bf9f67ae72817f34299a8c]);
ISq 0%nat [0x2e73538fd476293ee8c14745f83e820cb323938783c6698bf91a626b2c2c66; 0x404c396388b4d9e481c37fbc93771197c6447f10093806b398e372e60dd97ae; 0xe7b45d7795956769df8002d7cb20e9c31a80c476ea9918859bddc3682357a0f; 0x2a5f0cd6a5379595e107ac9ce579decb7ee1efa276f25713062be5bdd6856a3b; 0x1b9ab807ec8bfff8cf4357980eb13ea74f7241c6b106f874ad9d105363025eb6; 0x7bbc05a7ad60d42f646058b74777cd11569ca288ae933d3697be1805dace394; 0x16a1cd4cd8404a4f9713349e36472a7212d74917da71d7c8a115844fea0a0af7; 0x14e43f8c7d28fb328df53a20862548161ae2d10f150babf87edcdee30ed33758; 0x3a1650bd76a7a66d50d9dd58d3882663daba1026c1ddbf772bd1fd7a7e411e4; 0x299600cbd55853d19965cd0f43194f3f047b68bb5fb883789a9709415c57d377; 0x99ab90f4b1c16a71854865bc4d0feae730afba796f0cfc57c6bd922d72f1644; 0xf9b76b1672c14757489812c1b7c5e6c2195456e6a341c06cc8703ec151c546c] ([0xb461cde8ac38c51cf36d7c603dd6dad002d62f9d57275822c48c9188628b1639b9; 0xa2b32667c746258503aa9e94d66a6b5d542c05e5a2f006d10667022d9ded4157f0; 0x5c84582e9b6cd7be7dc4b5f90b80cc2fb503d43e02bf6e0a10fa02f3efc243c862; 0x81844a3988cd9a163930a2ba0c09e7dbd165ee7aea4af1768bda511a1b62644765; 0x4c52c51b80b9054070b278ae36134314925f20d83619e83bd638e918d3a070e62f; 0x991a163195208df61e2760e662f014511732ee5e3bc0f75b3bddbf099a81cfac6], [Nil; Nil; Nil; Nil; Nil; Nil; 0x1fc96964adeaf5292240a285f25e206a7e1d29bc376bba4d06eb02d4a6e65a83a2; 0x1cd193d3fe07557f7a0b5b302b385639350007e0ce3c9e2b23b552f4212cdc2fc8; 0x10be2502aa294977888cf55c46f74f466e20089bbad46f8ed9e6881bab4baa5981; 0x164cdda836ea9c3f1469c08cac1f7d1406c6e4321316cdde5a89130e39ede9aa05; 0xde23c75e8f294c9bcc38f281011f4cf7d347a8d600b969048cb0f0c283bade341; 0x290d8b3dc2ef5a7c1129f72d826b657688bdf9ba867edd3ce49e8c2ac3a296916]);
ISq 0%nat [0x236d92d558c58d7188e26cc8fede212bd2753959e919ff4ef72ffbe11e78e8a9; 0x1da1eff3090ef6928c29cb954148a08f237597a616702c99cba4a0972b3225f; 0x2ba4cb2b9e4e8e2968ae6c4f4d32d972568f4eb1f77b47d6701872a51d8ff506; 0x136d032d05be8b684dd0a8634f091786f658b7b7826cc198e74fba669b3e56ec; 0x121e58364de128b54d20b0c2278ac7a41f03c4ec0d582b835f85c6483d788321; 0xdbcedbf3d6e67caf6c69688af1cb2cec0eed167f8c873b13c54baddf257b035; 0x17dab1a59c814570e44aea9718be6646d60a885a8f30b98aaf5a539b0bb48131; 0x15a7773cea87d6d96440ed6850621cc5a95134c4587e4e8968e789502b13ff83; 0xf43ed6334f061518aa70713de8c4cbbb881b60d57230a6fc32a07b839e7aa84; 0xb43225f9ed9bddb54271b65ca7d03d956e38c32c2d602f3c02b7fb3a994e781; 0x117fea586f4873cf9bb324cc517401fe2b449dab11cc3ff39979c498049e5793; 0xb95ee00fc9f9f799ea1dbd1e6c409e48da051b894becad522f67eb5c549444f] ([0x144e83d16fd065b5731a4161a6d0adbdfa0db2481112354fe99ebe9b5c4a205ae49; 0x8ae23070a327681ea648b6db0fa102597386dd5916fd178e25487cf029d744f5e9; 0xba25ad64d83749579fc51832b78cac2b01a5539c574ff21197b9e8f47fd422a352; 0x37dbdd962e6e5d11a80bc9e16cca50528a2b6fd11de2797aaee10f657899cc6ff8; 0x2d0a77fc6b455834a2f0cb625e24436b9a8c07faca5dddc0ff3941c9c91e7a33ac; 0x936bd628858237b3abc787054155962225dbbfdc4be0476c604e89d895cc34bb5], [Nil; Nil; Nil; Nil; Nil; Nil; 0x374fa104f357ca6cebbd0ff1014cd196109be4d613ea6c61dcf6b743e7612552b8; 0x18abd9a4ef1558a1e006f5dafa38d186b76a13e8e35eb68fe7bf3081ca9a96a703; 0x1fd712eb053d4396c51beb4e620ad4c69b488ac4425b13ea7914281e485bba3856; 0xa8575fe96bcb5fff61cc0eb3e07b5c8c2bca5b1d827939de4e273af952782b497; 0x891a764e2ab39d05f2c6db593f4a8c738d0d3d4e0ac4d93db87099d9cc324209b; 0x24c62b75e18694cc6d7d1e822b9a21eb97c85b320891715c3cb430ce005728db5]);
ISq 0%nat [0x4ad7fdf34a413f9a764b2510e0a89c5ff7dd9890af65a2134b27349553ed18d; 0x18b4b77e5329557281642e6ac21dbef282dfd4f0deef65dbb2b80c8f2c69ff22; 0xcd224115725ebaf9cab2c1fad04ec9c97ed5c0a16501ae23a0340f97adcd48c; 0x23f747dd64a9612fb05ed58b0dbb6c0c5f9c5f8382a169af9660e813b062ec36; 0xd61fa5bc16cbb5ffa5ae5e62463e0fb5c7c4bc80a1aaffa904b8599edc3ba16; 0x26050ba339474fa2926150b7ba52f7b5cbc01b883cf0e6a72845d8e5460b9841; 0x242d70e06fd44f65b8b71454f9bfc16d545bc61371cd33b1802bae0353d68da2; 0x146e3dea8da7462017a1492e8e5af64d2f6f0a98820d98571c1a440fab2ae800; 0x195183771303033c65689396d77b4e3809f14a24105eda490c39750633c5f580; 0x124496abfa25ce2a1f69f76c8dfa02d4808695ffdd9aae3e3cafc08b27e7ae14; 0x23bb003b9bfe073103468e13253100181fd02c1e8f093a6e11df1533581438f6; 0x86014ff9a014c47cd769636a3cd3e910547f427bdb2b66b97766eaa3eaffbad] ([0xa31b0f282ebf005d770487dc08f3ce5d148dce3a7f3985c5d187eb012410d8d74e; 0x709b35f828b8b8e84aa7e1f4eb0e97fa08d34b18c6e4eb1a90651fb3000f156bdc; 0x547a752394066065b45cf5c8fa18e13aeaad2fb03874f67448912faaf9dff4d1fb; 0x3e14f931367db4fec3520709baa4c1c286b490beb1515bb2ef09511749a40df532; 0x1c222e4216e266fc25eb13f6ed5d210953cadc6280e5f1f534f5354cd23c6895c0; 0xabaf1843eaa4cdc8ab9c5be9f343b72ceee9e2d21efdc8ca1a369b1de8619f98f], [Nil; Nil; Nil; Nil; Nil; Nil; 0x1c6d69593c7916e2d78b27b7f40d956ce15c84e588f932efcdd9384bf285e2edde; 0x140e144c1c4769280fd5a3c6051eb2bd5859795e8c284098191341774b6ad572c4; 0xf2d0b5542649e2206e3eaa42cf9e4b0feedb93a148804ddfccea85ac38224e2c1; 0xb4ebb2516e8512c4450f3cd371cfdde338ddd2d8847d326804646a857cbd7dd24; 0x5b579f153301f227061f5d7fa8382f8526a2b9a70abbf7f4917ff1e2763871721; 0x2b80839ec6a52e7672aef765798df284b155d4d8605f69673fb26c8d6f7ab9421]);
ISq 0%nat [0xd701b5f0c38cf17d82766d2a346bf37918e0863e45f2888b66d9f43e571af81; 0x21d65c430dbbd1d95990365a52b2b192951dc551db2362e8909317cd4efa72ac; 0x5287c405b8da02aa7f6f2f80c0304dcd56f9d6882172294bb777458db50f4d3; 0x197e5bd6c3b721fcff26e383ad9c3dae11ec1123c93f8a6a33096ac95651af99; 0x30404613ca9dec9ef6faefdaafd8d55de46ca3c9b340c5f3e3bf9dd9a9b1b8b; 0x162bc9d00e6ac36488e86f094d86a31a0a1b795480b6c6f0ab68b5fee95d7f1e; 0x5b893549cf3da9631aae52eca4af9e7abb2a5e2503fea9c3b424cb01c54272e; 0x2aacc3dacd4c8f97cca6420b7dfebfa4133c73080dce4f9f519d06cb8f438ae; 0x9f8b7a116e0d26af67a421fadaf0b8c8de3096133e060378452747c57f2597f; 0x27a71bc6e659229ca2452d150313cc493f01e74a76e41a4742fcfcf066ce00ff; 0x185b7822c297eff0d406d44c22f36fd1f15d2ac853a8d2d7d8ce90f9480f9f7b; 0x26e6b45b510e4c6dd7264d8e187e6fe64552c7eac6e557963d77b1fb8f2b05ee] ([0x151084190ede3731d1eec7216acc18c56d32350365dadab31455e62cb63582ca438; 0xfa3ec67cffc6c837eb5d47cb39ba4dd96594737a8d0643f572aedca617af2c4e68; 0xdee881387330ac2909ac65446b86e2c4b83492c80936172bcc6607bad5135f3b29; 0x6a4b8a708d5c8ea4bca6646938bff4bbb9bcdb3936e5912552c848d53524eae4cb; 0x26b3cc66dacf5f6749e23712cae2892cf563ea8d426f73dd4432b5b075a7f5df39; 0x13a436246238bfbd251c52605c870ae1c4ba369dc8ee1ecf99765a0ae7a06a8d1c], [Nil; Nil; Nil; Nil; Nil; Nil; 0x39d818564c3d8d26d2710caa537ee4fef9e06dd8617fc96d0705ffd1f7500dcd02; 0x2bcdd335d79b9394e73443d96829cc680bbab1d15f60bbcd6af4f30f909d391cb6; 0x26e0fa9baa905b7d0d5b47684c83ad791109b7faf0b419e95b2852562dbac80147; 0x13d6818e5230f011320cd74b108b95dc63dc2881f89813e3290cbe97d5b8fb91a3; 0x8889ef0f6b4c5e7ea27f2eb6e73305b6c74a95273493462e65eaf1a09165ec590; 0x4f21d33f492808711d43ba097a819c90a061ad268b796b90e09d86c55cbb74678]);
IMul 0%nat 82%nat [0x6b5871437b514c52836652fef3550815734fc8d07b6c8636eb6ece9149e077c; 0xe3d2d17601c8854e885cd7439c69da714cce2746714a8a9d489656bc4d19384; 0x17189baaa1d0bcab8b369f0aed906477ff480389d85c1e544b0995723e3b082; 0xcf9fcfacd83796205a40cd0c08b3501e035c4e40c0373f2ddad570f80c120f1; 0x259b19e8ed41bcab2f659c2aa0b199ded9f78d0e5f8f95538d58b2e49315cae8; 0x1978abcd93ac41419351d757d4456bb06dacbef68d34a5f5b80d59d23de49a3d; 0x21741093b12c967e1ca0096372c1a3c966b49357c78bd38c46a481ef8a6e1d10; 0x281ef21d07a6189ee42daf582b53b1e3e53c091069818de797d8c8423ee4c977; 0x1eaaff640663e639c0877661d255f71576ae75e42b029009026493cfad02ef8f; 0x2fcd371d5f0da6f872adbc016b938847e4e541ef26933f8d26d5deabb9fec9ec; 0x1ba4687cdbe560541271cf7db874df5b48de0ea19bd7bdf5c60974f1e01c086f; 0x1ef9514086700557ab4858828c145c8125f2fcf3d817afae4c0d1ba644b79882] ([0x1b3a612d70c1497d2c7e3a9d6cee86f7034cde2e105ef4828a025a0b0a6f7b97f13; 0xb35169bca4e98125b7366064ed47fa489bc9e6311ca27479f0a1fba8270684bd33; 0x12824133ced358a367de33e32d1c9fab6fa22105b344aebb95c56f3d697ce099fca; 0x564d25a31e663c1c784c6c112a453063f3f218ec8b84e370da36d33c4c9403e354; 0x7cec57f64c11923204957096a9055129ef349e3ac0f1954827bd2fa44887288987; 0xbedb6e069d4483367e1fbc60593fa34a21e7a87b7eb2ab311955ad0b777df553c], [Nil; Nil; Nil; Nil; Nil; Nil; 0x49879168fd04ad6c14cda7daceb3d516579575dad47816d0aa6eb62f273854e61e; 0x1eda28861b0b38ff8767ef5602cc26183a9628a3e9cd40c351b10325426d7b3ccd; 0x322f202fbd38ea510fc5b3e0b664adc14f16ba18a8439b46836455296f584e4cb4; 0xef3a6a1680aa3f951d3dd657e5ccffe9bfcbcc366a7c30e8bf2eb5dba488c0110; 0x15e184259ca7ff1a21fd9db08c30feaab25c70317c385e3437d4051cb6434acd94; 0x2de7ef062e76948695e6265a8135cdc5fa7a3310bb3df95a793dc12c50ae83926]);
ISq 0%nat [0x9d79deeadabf1dd65199320df5fc625fbb7a37ab4848571aa97e596c8b07c25; 0x28c80ba6e0a9e6329459fa0b0b3549bbe004fff1995df32ba395e4cae9615f3a; 0x2680f66557d2ad6f90c0fbd033b68befa97e8246006a075404b0ed376fc5ea9c; 0x260daabf63ee69c77a66dad9f225477f174f31b8b1a62c93185144c9e7ed0090; 0x98e15f676fb6e2606b4e543f093f72b93e0538668d6806fdf9ab85940ec000f; 0x1fa6ea767cd8193bd01791a734349051ada002d71f6553dba5dfb7583e03e4d4; 0x24d36debab4814e12c04b8645bf8fa8b43b1bfd294bb5d38a23763763e008968; 0xd274a6f7997e6c13ccc35878515f21a9b64e432b0afe3cd5aafdbc1dfbb6d12; 0x1e614ea92bca04de4ef6d627e0caf6efb3356b22263b60847cae74f2d632edb; 0x22dab38ec88f66261d900e5d5fa80b8f5f895f4dfa9e49a2efdbe0820eb2fd6a; 0x2ade7cbd5bf83a236969f32f68cff7e233b86a02aeebcbbc36d5a08a811f685e; 0x1358db5952b4c521ecf2a156d8de76b70e71ad4498b48c9065682e2d6f923527] ([0x335269936edee88e12418a7a6fed77cb42d0bfb5a3a62289a6a34ddd4c27fffcaf7; 0x256722cb3031c20bf8dfb5c79461a93af112a45b9a8506b5a20c08516eadb6869ae; 0x1f744bdc94fd98c6a9ba000e122d85d59362d4e17b4ad90ce6088434e09df2923c6; 0x10a33bc46d07ee4aa9adba1f0bce45b6a39cc0f7611263ef35666c09afd99866258; 0xa888f7b9e978d2d1a5328fa4db4710b7dd829cf336aad8964af3685385bd37a07b; 0x2fb05d16b29612831db1a2824b5da1f736c49bc304936252f8310d6877f28e7f94], [Nil; Nil; Nil; Nil; Nil; Nil; 0x899275cf17566d2753144096985e633b85a822df11904bc2bb5e2d0fc46fce90c7; 0x6581d7e5a3b4aa2f4419812ccf2548f1f8ddddf14bac8f4075553129e83f3ca8d6; 0x561eb7aab5d7f0c615d0734fc1e87e8713457fe03e43b024f8f19939355fcda64d; 0x2f75d71499ece3f04d10b9aa068c062b322f56485d8c9b1cfbd35d74d61fd49a8e; 0x1f25b0af5eee885ebe5e1204270648060f80e60073a1a743545b9a9d59ab4a96d9; 0xb0c3107af2b290d2307a0513e587e2d74da46adf22260244dbcbce0439b6ad595]);
ISq 0%nat [0x245542a9fd42a048eda8491190ea232661e27389a839d2b2cd41e5d8d07adc1c; 0x66e51b320c58c35f44bed1b08477318c03aec60dedf8bac8fecce35868571f0; 0x2a49c20b5058ed864b7170786f28657da0b308fe1c6f5f09a7f300a9ad3d7f42; 0xd766c09debd3feb6681810e208d05ae5722a3e95e8b5e8bddf4c3302bf2f4ee; 0x2b833b1a54edc76e59349de3c9d533c3246a707fa19acabac2843d875c52f777; 0x3358723fcf55b145194e0a37ca166554d3b50f7c897f0e6e1236cab3739b1e0; 0xe256bcf92b757f1499b42a1f913e6be9ce5325fe9a97082eb76c27683e4f1f5; 0x9aff4a096a277ed1895684d20a11c5cedd4705b438017f5eddad2610df5bf9; 0x10727102688e015fb1cd1662548f49aa13d2aa2a56bf7bf9d1dc919f7fafaf09; 0x21b401b585b7f595219ebc430c55698a8b385fa47554aa479b123f3de97b8f9c; 0x174178515b1abc549d8fd03ae21654e09523bc4dd9c0404169143a9c32b7932c; 0x2b66146e4a628df41ff397e412fc511495daedbfb119ed838437176a5bd52dab] ([0x12159e7bdb48ef09727ec76950e3b4bc79539e146a541e5cd21ffbf5d6727b00aa9; 0x197cef2a492b580b76e2b709148b9d16222c033d66a19deabfb4c87cbd0726b84d4; 0x19b4b24be1593b0c5d869987fa0ddf40cb37eca13c755f4e922376820b86bb0023a; 0xeb0dd598ddd458d75716c5e5d848c2e0c122d3ba7048386b2371d8eb49645346c6; 0x4f4f87812207e52d481ac87489eef947be5453134e25f765918081debc3bbd5631; 0x116c4ec71802c09b73f927b04da5a5588f161015e099a67d6dc214a9c264945b4c], [Nil; Nil; Nil; Nil; Nil; Nil; 0x337935103bb40b5ec5f056c7ab7a9128fd4627fbc38f720cebb90c27ea29fd53e1; 0x45c90cab9a9b6d5654d07ec281e49ba638fefd9a19709c5e99d8c9f1d5fac3b951; 0x45c17e6c8097259289dbd45be592307e50a1f2dd4dbcc99dd4886ea131bbf2be12; 0x291c7267620180d12ff56c01b00dd1adc492af24711ba0c37bce90f29f33a56b30; 0xf8b65ea02e25ac710d58095c406680ac3f1293989f1181b4b03dd726c193a531c; 0x4a6b0966cbe1370c78ba6fcaa3bca78303adcb2e3fe34b4d86267a19da0c95d61]);
IMul 1%nat 0%nat [0x19bbd8d582c5848f2b47e458a0f996803b9dd6e605e033d07ee9141b1f431afc; 0x1583ad9fd242e9f253eef583e7c3b3258489a5dc62e042f4eb32148dc020f6fe; 0xbd1f9c2a180d89d67ba092268c5d5a0a7815ba705e5fe9f3287347590850ec0; 0x1804cba8e01878e0a14bd0537a1099d30f6b9a61b67e158f90dcccd247ba4b49; 0x118dd118a95a09ed3d08d3728bfe1489dc1f5d5aa88f5d01224cefd3a1d9fcae; 0x1c0096999396489b92088e8b2d598872266a65d38dd80737e0345e460099f397; 0x5709ec79ace333094cef6c0a72103a8d8deff0c3b8e3bda633166673589e0e7; 0x16c0587d243cae54819e701131e19b0ea9a2b8ae00e271c8bedde419bb0d9f01; 0xa7eee3791fa64d78dfa7eef1380fed7192c815949f5c0df91f835284a798bc8; 0xc1e36b21ffaa45fef6e72487ff114a26e82127eae8079715a9728d0fbae3608; 0x349edd76610f56ab24a5275b5fdccc2e8739ba7d192a33984fdcc06dfb4a2b1; 0x85d5a6664c8d3f4cbb150d37730597cb5d200d21f6703fd24b18d647a2c1437] ([0x15a1b63cb616d109c9bf6cb14af4cd4c20da9ccd96d1bee349d75164767b3c12948; 0x167830f015dbed948bb2ad0409eb104e9363e008b16c065728b3c58b04dfb3076ee; 0x19f0a1438f7b2e896dc5e9e6e92bdfccfe538c7ea73059f853ff82989381048b8b0; 0x12e021be70b219558832ed946a10603d321763ff29a0346e45ea94f4c5dec8292e7; 0x7a3f5659f7d5c10154800440839f5150eb698d4158180c35a9825eb9561c92afd3; 0x1263b83f09117c829219cb866d08345865e8803e9acd5c278f1e719a71ac813ac1], [Nil; Nil; Nil; Nil; Nil; Nil; 0x3bbee6789dc12eaf3f7a2cd3f4df8a472f5dc93eb813733b9076a8f9ef646c3f12; 0x3dbb25755f4739f7150e0d9ead5fec191f66ea0f55b7fb32ff44f6b154296de964; 0x467d96b8c504e1b67576289d4332886802b84915bbed6f68795892656d5a38d4aa; 0x337dd0d059905d6aa36094fd724bbf6078d71e339c4979578d60645eaab6ab0938; 0x15d4475589710bfca40105cea8d9828336ed2f94f195c5bc68bb4b1936e34f51dc; 0x4afc44683fade93b7f053fbab6aeef5aeb7039283869af3c9a23eeb72dbc2c247]);
IMul 0%nat 1%nat [0x223d13dfc83278ac5e776f0a79b7662dfc9524d0d5ee7ea5d51ba99f8cc525c1; 0x87d4ee0adaa8434cccada3e0621478b6fd94b330b1c6f43d3508229b1829e5f; 0x213fd14937724a227da681f84388d614dcab5ac3f778dfe0d9ee4d594f3e2fef; 0xc21243e3bffb9f0eab6b98c7c30488dbdaed6aa96e28c47fe9c595394af52b5; 0x14be6a5852b780c834e4faa009aae59c7c6701424d8c61a2dbc551ffdc8e0a20; 0x1b200531c0dcc82895c8e4b8e15aa2127db04f21e702de5a800caaeff57cb5cf; 0x213339b4d2befd2c42c5d32bfe183ebd8815a236d9fce881f2e0158820d6962a; 0xc62160ae0e1c45d60ca7285f0c4bf6b7737c065cd42da3421271b66305fc7a7; 0x171862a634146583362dd217258b42740355e57cc90362c09c0109681add8df9; 0xc06dc86f50645ff1c5f41a47e1ddd7954c50dfb26cd424de6285cdd33ca21b9; 0x205845875ce160ad80af4977e074ed8cda5ca3bd853ed25c816721f7cd05c915; 0x2e24c9f5bf1097f6e75aa4214e8123d1a931512e19e1bab0493c7d413722bd44] ([0xe01bf7a1638ebb8b51f2cbe1d6400a15f1889d381c9b8a85e335975fe736e9773b; 0x8becf5fd5b277dbce5476880c9638a282848c08129972c8f8f45774203f53c62af; 0x7cb106496eab91aa3d735fd471041d40fc25e72dadb29590c71d80f188d12a82a1; 0x38b414e898245e0721bfaf7fbfa9742fa728e0198fc7bdba735440ab686f838d4f; 0x3aaac308ea7ffc144fb4fe3a8f67ba0af3b96e57b9b5348e9ccc1679b3911dfe08; 0x940f13a50041d76ecd382a74c40f0fc3be9caf6a03af6412dd38e88812e6c62c7], [Nil; Nil; Nil; Nil; Nil; Nil; 0x262878281d0030b6768019a0c8b96c17edf43d78f1561656a098f27cd947af994a; 0x1881414cd9129248ebb2548d3688fe1cb6beb12fd8af43de013b97d723991d150c; 0x15c167a6a15fa8aca2615883a715f56f57d60e95c44a87df3991593a9f86f222f5; 0xa9b9d350267e78e6b2d4d1024aaa0b506c07c27469ea99e2fd6cddd0a3b5940fb; 0xac50e0121b202b1a637fcb3f2f44c8f5d7e67dd05b76f3d9471e8ec5917d877f5; 0x27a5a61623576fbbf732e5f541e090c1a12738401e7f8bb3ba5acf0f4f4870949]);
IMul 0%nat 2%nat [0x2ed64ce83314a74bb58557e4f6b273d2b0cebbec702cd6ad11a71c0dfc55dc9; 0x11800fa224455c3ffe7cb04e7b963783e598e90e4b10c55579c840160af484ad; 0xda419431883f2ff5e94e3591299aaff078612f4f9c28a33ac0de131252f84c9; 0x303cc69db8a42415ef9605ce55bc6b9a9b408859df27e4585173eb2596351463; 0x1ec3b84839cfddedb0f55d9cef0ab2af8c364c4ec73d59cc4e8bd7e46767b550; 0xe30a851e51c521ffffd5e211f872f1a8d4f47a573ec7fcf82a8944188417956; 0x41cd140df734b69f7ab39733b21e9bc109e2af329d7d2cc37694504105daac0; 0x1e5ba425e8eda6d4f27356d6f394a72ba163626afbf11609b3fe2291f7f50b96; 0x20411f92d8f8ae103bc3a6038ec03028a09eba2e8ffa1a9788b0bb7a4763521b; 0x7dd73ebfe80e3be38a00d631a81df839cb3531956a4554fec73fcb7fbcab412; 0x11b7a1e6ac06d5ebf3931d846d043fc86ef2578b97ade9c2f788aa14f93cab68; 0x5ab8714fd5f35952fedbd7caa9f4d973dd8bc656bda0ca49b2f5fe4cadf2d7b] ([0x115ab6ed6d8250fdab7e36ad83bbf2bd2a409dc9ddcf664e1a6b77b026b92c88ee9; 0x19d0c972fca7662d121761e9cde0e02596d7b22bd6dbb9a83cc36d58076832a15ff; 0x1711ec26fe9c7cb8f070c5fb449837fbbe1affdae07b9373bd3ccd43b44143650c1; 0x149111b67dd43688b35efb2db342d05b42236f2318d98b040e507b80c334f6da567; 0x10485d53d0672cbc875236c5b1fa6383336bb61f99dc7ce9803d5d44842224d0277; 0x16260c78a6d3cf5d57667ad3a64a26de21b0c83d7d8a9270b9a022d902fb5fa74b], [Nil; Nil; Nil; Nil; Nil; Nil; 0x2fd370885dbb820ab2f14c967fb8b2b87f702a501f6cce3cea317f60f6a1635dae; 0x462f63eeadb56901a3c1ea1656b658db582a8856beeca40ff161eb8155edbf0b33; 0x3eb9315586e896ed1fc5b07e019118dbc18ffc1b006d2f514a583d83dea14adc58; 0x383643093dae58bbf566bc334a824735bb7ce08d0a0b8c406f88bac0fec3f5dc98; 0x2c79356d73417d2bc36f6d20bd7db93ce4da1cc20b534d9d6e375ebb451234a46e; 0x573b86ee7df094fb3bc2a2df42c08e5924c80087e8b21d2efce56e64ddacfb947]);
ISq 4%nat [0x245542a9fd42a048eda8491190ea232661e27389a839d2b2cd41e5d8d07adc1c; 0x66e51b320c58c35f44bed1b08477318c03aec60dedf8bac8fecce35868571f0; 0x2a49c20b5058ed864b7170786f28657da0b308fe1c6f5f09a7f300a9ad3d7f42; 0xd766c09debd3feb6681810e208d05ae5722a3e95e8b5e8bddf4c3302bf2f4ee; 0x2b833b1a54edc76e59349de3c9d533c3246a707fa19acabac2843d875c52f777; 0x3358723fcf55b145194e0a37ca166554d3b50f7c897f0e6e1236cab3739b1e0; 0xe256bcf92b757f1499b42a1f913e6be9ce5325fe9a97082eb76c27683e4f1f5; 0x9aff4a096a277ed1895684d20a11c5cedd4705b438017f5eddad2610df5bf9; 0x10727102688e015fb1cd1662548f49aa13d2aa2a56bf7bf9d1dc919f7fafaf09; 0x21b401b585b7f595219ebc430c55698a8b385fa47554aa479b123f3de97b8f9c; 0x174178515b1abc549d8fd03ae21654e09523bc4dd9c0404169143a9c32b7932c; 0x2b66146e4a628df41ff397e412fc511495daedbfb119ed838437176a5bd52dab] ([0x12159e7bdb48ef09727ec76950e3b4bc79539e146a541e5cd21ffbf5d6727b00aa9; 0x197cef2a492b580b76e2b709148b9d16222c033d66a19deabfb4c87cbd0726b84d4; 0x19b4b24be1593b0c5d869987fa0ddf40cb37eca13c755f4e922376820b86bb0023a; 0xeb0dd598ddd458d75716c5e5d848c2e0c122d3ba7048386b2371d8eb49645346c6; 0x4f4f87812207e52d481ac87489eef947be5453134e25f765918081debc3bbd5631; 0x116c4ec71802c09b73f927b04da5a5588f161015e099a67d6dc214a9c264945b4c], [Nil; Nil; Nil; Nil; Nil; Nil; 0x337935103bb40b5ec5f056c7ab7a9128fd4627fbc38f720cebb90c27ea29fd53e1; 0x45c90cab9a9b6d5654d07ec281e49ba638fefd9a19709c5e99d8c9f1d5fac3b951; 0x45c17e6c8097259289dbd45be592307e50a1f2dd4dbcc99dd4886ea131bbf2be12; 0x291c7267620180d12ff56c01b00dd1adc492af24711ba0c37bce90f29f33a56b30; 0xf8b65ea02e25ac710d58095c406680ac3f1293989f1181b4b03dd726c193a531c; 0x4a6b0966cbe1370c78ba6fcaa3bca78303adcb2e3fe34b4d86267a19da0c95d61]);
ISq 0%nat [0x640d8dfbafde193e7d512f125f4369c0aa866a82c7ff50bff7d56fae93a7481; 0x2d86c2ea84fe4207e1696e70a50f432d75e9c95cace9def043aafd92ee8f4c0b; 0x21b831112d6c729b9efba02f20d6c267385ca350e8b760520f12dfb2b5261066; 0x162184bfd3db38914040a6d4a3ee5bd58fd5d60b9e678bb89367692e4e8a932; 0x240d9854fde3bcb1b903f6d0b8627a341157abb255e9c488f942fb7deebd3cb; 0x2e3049cf97b9926046214303124b592de2dc90a9bcbf4b66706556030457d2ff; 0x124ffe5499ab738983e184f8a76eef306eefcac42d20822c151c851bc96f988d; 0x1b6be41635b9d99afeae1b8a8ab4a1a594b992ec3522c3ffda34096912b29a69; 0x48159bd001e8158093e43fef97226e441327b295cb882ff27bcacd88a8e2dd; 0x268b01510600c17d0a6266b623435b8d0ae55df0066689f3cea76bfcd6506063; 0x2c44217b1ce8829a37d4f557376ccc9ae2d984758673fe9c056d4eb8f194200; 0xce0811bc84a57652f3bd744fa5c84d9726c6067ac695cc2dbb4eeae38e72dc4] ([0x10a2dd19c275e4d088f53bbb620cc2c08a9c29c19e9439bdc8314d2be136d5daf01; 0x1957bf404719815436d8fab3eb3217251b4eb6720c22783c13a1cfdff1a2e7694c9; 0x1b65ebecad2b325020079006726b8d397a470f3c16255c80cfa1297d169d90b65cc; 0x110ce4c815301fb7d86c6108e21bd42ff5c4b8572d93cc7926b69ac3dea85e9c4c6; 0xe83fbfcc892ad0337c610076aa06051dbe3fe040ef33d157f673f57eb17abb48e3; 0xf7efc20e5ef508009976ec1ce6c17f243c07b08ecccce0097f1d6689d57d7d025], [Nil; Nil; Nil; Nil; Nil; Nil; 0x2debbf28c26bf8501943f60253d976ec6f8cefdf038582786bc34f9b0f96b75093; 0x45539076689cc4388bf11ca942d253a4063db823958a06c5a3e38a180b460429ed; 0x49b16fceeef58702a67193b19881f84bd617b12254067e070a5ec66e385e0e3102; 0x2ed2866dcc43cb0f7e6e328e1491c74143a2036c04d312457b75648dfe6bd11913; 0x26fd9ae7f1ad270b413fd9020b99d30855b17553e9dcabc292f1e6603ded3d1b36; 0x3fdeecd263a8d2d13bd353bdf0149f7f25f7d7d33e8eb74b091e8b1cb7541a486]);
ISq 0%nat [0x1753c6e7fc5058b8da7408ac26886e82b13471a8817dd90643c5f60e08a1e7bb; 0xd8e795ced24081f36573d5cb74c98a61f6e8b6f52956bba62319f72cb6ad575; 0x791fbc2c3ccc789675081a63355d57e0525f62f9e980fed5c9a8aa645082642; 0x212b9de8c8f9371a56cc1869e734ba6f895cf4029d0d91d443ca3dbcdc00ce; 0xcbf038cca08bebf62586b39deaf9c220887d06428d331e4b893c83db3e23be6; 0x15b9f23d36fd993be108d1719b19c5762aed001bcbd3db0086bdaf96cd579275; 0x1b5a707c94fdba0ae930885629e2db299ed5e6bdcf322cfd8c1c0aaa6e7c75ec; 0x156ae863e11733ea54395118a4878ff5463e411fb9a245be88fb6f24c447a6fa; 0xbe35c0867d9bfa1a13fdcd0cb8de7e23c77862bb0ad0ee9dd6665b49f287348; 0x1821e70ef760dcdfc9c185dbe4fc48d7efab494652636e6debed26ecd05e40ab; 0x27967251c00f929c804930641ec4adbf35e5ea466ae1025b7f68ba38152f4b5d; 0x925389dce02bb20fd5adb3d3ffab04fdc794225a06445484690a38d09bfbf92] ([0x1220462d3fa37b20ed5aa0c3d5f3ad90220c97255fbf878d032c4bf765afcec9fc0; 0x27ff0953551d916b29bf8d30626bd882b61eb51b1731115acb6b2a6ded465f6385; 0x93e8a5d152b74817a45a6d75dd18765700cd8ffbb64751deabc1c3b5e8ee5d0f41; 0x13c3097c7c369c583e3181cf100f1c2f9ebf1d3766e7bf34fa80bf4ec6ab8529ca; 0x2a303fe9b0f72fd4d7fa486d764d3d97e9918801866469e7c201fb892551791852; 0x432f0dccfa6c8bbce176f597d0d2d2363c143b79e94fb8f1bf98a02ac8199efff], [Nil; Nil; Nil; Nil; Nil; Nil; 0x3183f1c71093ee304c907c98880bce55416b33e7a5bfc052c73410d601f6d8b76c; 0x7be8b6f61bad708d900d6ae5394145e99981eae2738f561c3484b2bb8b4d2d186; 0x1a3402e7e0f9b55aa57b136baf4a92278d88fb8cf201547fcf880eb9064fbc28e5; 0x421d8022a2e92cedbb82e147f8850727a1202d2e29e5201dc33bf7ae3bb51bdc5; 0x8a8a7a77ec3d27530942975b5290cc2e73f8ceb5a6d283ed35262f44465b53e8e; 0x153b61a7ca3ba5dbf0adc37c30a49adac9214cda5c9ab4828da949c6185f4ae2a]);
ISq 0%nat [0x228675f0830b04e17fab09e92e6438cc30b75f8c06f3158ecc5023c8e4ae834b; 0x23889e36713abb2d04f3fadbb33e6253a235d815aa4192688d87bd49fb32c4d9; 0x2a2ebbb1548e410e52d0d3a8a0121680c05fff7ff5afe027aba119e2dd190b4d; 0x5169c3efbad6072157922733106d7fb2057ee078c3cb43f7eaf169eb9fc8476; 0x954ba04493a15be7f7b37f9489a9c0c63877384e628aeb7b3130e35dda8965c; 0x7aa7417f201d8799629e30b204c2130ce87b8b8188b895e83916248242f1a5d; 0x15b94465d4f6e18f3d653b34f5dd05e4d13f3f2ddc67bce3bcff74e4eedc2b48; 0xd164be88542078a7ee0221113805171e4fc600b4bc96bbd80d86d7bb0759aec; 0x18a09ac9c785e578ddd3099ce5092821dbbe28fa10c9d3583b8bc057b9f21fa8; 0x25a3439b20d293a48c0fa8c9cad67984f2971356309a24b95be3fbb25a626451; 0x2d9ff8a00e0ef9a181ddd7b5f9bdf277416a1c4fdb06387038b1423e5ca7796a; 0x2aa5fa05a3c91e8c10394499dd5e7f6c57f83819c1ec0f8dc17897a82f6c2936] ([0xf6ee2049e4c4b34c436fb38ae976e2a907e7ba3a961872d2a72be88dc816d7b5fa; 0x10dbc7ee1a3da6d0781f7661417acbb20a892b995fa12c1e7795c3ebed76ddfa395; 0x1043f1b994f193b44d3cdb5ab979b70f94fbacaae6cd55cec988c26ce831acefcd8; 0x6f4b030805162394e861a2d9a52b399fb477f2edce9617c42c5f6273ba33fa0e4e; 0x22a7cb8ea833999ecd0af76cffc04fbf06cee0e43d17e1184af6d2b7e1a3adf6d8; 0x12395dd8dd1b4e0c5a5316bcd418aaffc3d24eb20d88704f119283d3b1060fb125], [Nil; Nil; Nil; Nil; Nil; Nil; 0x29b3aed373eef1f14d67fea27de737eff382211a795d8b6f0c95d9f181a6150ac0; 0x2d4d7161a34b96b1776bdd02bf91f8113a43860558c8dee94c23d122fbd41dd8b0; 0x2bfaf6599e3b87a83d99fa83ecee355931f53c743c4dc00c2b70f0f4a1c039fc7e; 0x13d454c479857505b90ca97c59923bae21c89881578b03f7cbae26049909f6e827; 0x76066a27565c13ae6c4b4ee2d77607e415cb7bdc5f19e66c5a1609d8b86b059cd; 0x450bc1b9233af96fcac5ae99db3a1bf3b055f8e882873eeed2132e71e55ab1ec4]);
IMul 0%nat 8%nat [0x10d28990938317e4d4986f2c13cf11f3b22e2a5001118f93d45962d74c60ead3; 0x170895fdf3413aa50120e5d0be87dc9622e2140237a6008e6949fb434e47a188; 0x2b07bbdf115946a7e8cb79cdbe43612268bbce599e5b69870c5943255f3368fb; 0x27c23d23e67c9921cbb6fc45eb00aed415ce611ef8eea056247271686f33f57c; 0x16da2d5249711aad0c2bd83b05eb9b3f1119eaa2f0da3d0b6b25091fc92fc0f0; 0x2a8ee243d472fa1882383e8f3ad84520d584aef5b993b1c8c14f107d3351ca7d; 0x300b8a04ea3eb348c7e131517f1a3a800a1f8bc32c812667315a0825612bf9fc; 0x1d459aa70034e5164fb901e5992106bf7d41476b26d7db3af556502d687e0cb5; 0x1410939d18149d0d7039a0b1dd7726ade30f00b0df67a170d3395e18f8753e30; 0x2c19a29b343e3fddcd9034f749862d03d3dc4b60d32b93fa622d45ce7b3f44bd; 0x28c72a7df5626be71b43f84fcb4d49ff382be6ac77a9fb82416fe26ea1baaa2; 0x27cb6d812fa87f448868462f1ec6665c20a3e5c767e0c1fa7925d239fba80455] ([0x1c213f79dc34fd9913fa90fe60c6cab5e3f211bf9b44bebd1eb91c8cd7c0be6c22e; 0x1ec0f079cc7ec309bd02a3e97fb4b9afd5a2d7f5b2fdf1ca597e71b036e1833a641; 0x212a36cfa9248dcf1c43151ffc31f70120ede7f9ac8e908cbe8e25dbca1e34d478c; 0x162c371a53335e209f95c3ce4b5cd7ce5ec275822de620d4ef0c3ea003abb0c6f38; 0x83d372ff55dece1fd6ebc8fbfccaee751e32b2a07239a9769bfbd9eeb45fb34eaf; 0x1ab87412b0ff66d7f66dd43ff02c08ea03111938c57384cd66b5e1dd93dea30731], [Nil; Nil; Nil; Nil; Nil; Nil; 0x4d7b9557ba453d16dc07a8c0ceedf9a955a4ccacf8202bb378afd32a5f2238f515; 0x538965ddd0df3506fcfb1a836c7ddcaefa9b0bad11283380f65a21c4e8549ee337; 0x5946658d08ae99149fb2490d126d5a9d07ada20feeef84eb4d2969e1759e9e9e3f; 0x3c6b7dd48c31b57035a99cc9da94c14fe2dc3e0b1e2c8ca4ecfd5ff9dd3d36f0c6; 0x181caae56817f7f62044545bb3d2ae44f83528075a75883dd139f5ba8e925825e5; 0x6b3c2fff6e68c5c76a77c557e8afb881cc377acbb23005a96267ae169ff0d3606]);
ISq 0%nat [0x2dcddbacff59e6c80d76ad00458b406f933f1809c72a35a0707b8e80c418f2c7; 0x23b13279f5469b34820e8be9a8bbf043b63cf5aac1130635a0182fce135c8917; 0x2cee098b48c503fca27c06b696db19abbac877f20b9c0dc8546a1db5b18199e2; 0x1f94307024cdded2f895765fc8183033ece2dfd7f6f44fcff807b3ac9b6dfbf4; 0x114651a133359ed27d2def95bbbe01237b3db9b7308bfd48be6f16c056b0433e; 0xd4fe728cad2233367271b5eb95204a17a2ea9f9cc60f1ef8542a27ce073f80f; 0x2c79b169142a7069c318a29673396a23de7582e72b3c69c229e282fcd64a386a; 0x16a913a4d665e094cac636f812733f7b2ff422d2525ae7cdc2524a055ca076b6; 0x9c5bd745b04889a59dbde1c666432d1e6814eaf4fbb82da6a7409425a4c51b5; 0x6d4d48423c0c89372a90337d6e3026a9e709b83293e8352ae8a71932863a02d; 0x1efa5e5b647e8f27a6e13c53e8e0ff598743f24414cecde2500e8d094293ff3a; 0xaaf16174d0512b08e65b69ef7f6a2e1255fcf4a34669bb22e9d52d79e060ce7] ([0x2541751aa48a6ef9eb5796dcd99bb9753087b61d4b61abca8d09e0868656126339a; 0x11c42b9d0b5aa6fc0c454251f95611028a82224957ca539148c3c93d2edce0f5fe5; 0x1e3cba33124a4cd291a021ee5e390084b69e0fde11ebfc7ae6e8fd1fb6233d31de2; 0x4932eda65e041526bb7ec1af6da3bd2daa7572f39d434056b875fcb8e677ec8cdc; 0xe81d69616c50f83420d342688523daa1313d6499cd875953eeea583d2ecacbb0e7; 0x25891f9bc159c8a3898f2b3098f4b58f1ecd551f1b7f63dc921a52b4f1f56966c7], [Nil; Nil; Nil; Nil; Nil; Nil; 0x667561e32fef12eacbf09e33cd585c3faee6e8e00f0d2937b50bdcfeef6d8b8b90; 0x330dfb22339001d3d9a054c90d6948171ead0b0b8b032c47f3e36947f70ce8cf76; 0x53c55e426242a862c32ab2a12efc3b81d5b191b97947444dd231f63bd44d0d9f7b; 0xfa5ba0c61c1008afef96c74ce1c5f66180edd1011d031f602454c9be25aa48d79; 0x295ed375d15bb2d25629cfb169739c96afa95e95aa01dcc54a15e27881c18f4beb; 0x955c1a00de1738ab3ef97ac883665eda89aa722bc331c58b81a74216487129d13]);
ISq 0%nat [0x2e6597860ce93197ba1264163b9d50e886b23bd1406186fea9258e2dc6f09db1; 0x73874efbaa750b0bec1374ab91ae2bf33e51e41f1a5327adb2aa90e45a3e2f; 0xf729dc81ffb1757c9c0d8cf1bffdf9a2be690f0a0f789a9f7a1ddea8f513c1d; 0x1474d16548a67c7c2ef9b4550e656c221ef1e520203b3a829725abc0f7423c1d; 0x10110162a40c2fdcd0ac9a7f4a6a8c3de96de8279d0768d66f027d3369a908db; 0x43b4d8bb2311f12b15e866ae5d5ccece693094c0c9d0f0cc70a2e58d4c44ebc; 0x1d7c021b9ccc211535fac21376166e008f5962712cb4516c74ce982bc717027b; 0x1ae7a5157ea9e00a723747471ecd463249b4772de2476f00543aed3f195a6ad0; 0x157c38feff9a35ca19ded5e9d57824db5d7f42897086bc83c7501d9f03015470; 0x244fefa6ebdafdf561ecfe5f73900413929a311fc1087c1f3a9eee78d3253803; 0x289996e1cc79c5fe0be5cdc521d50b065908f3f107e2063a867487299612ff6a; 0x1d319aab41b871723d1ab22a83df64ef312c58ec51c84344cf0b753184c797] ([0xb4de9ad4e3ed578a27985adbb2d468e3fb22f88551c9d127d14dacfd721e44cf30; 0x6ef96022a6180accf90c584a5a04fcaebeb7d660ecacdab4285f78740dc245ac37; 0x9933110431457a7b5ffdc11dff79f07097436895ab336141ab855d000e02a76f6c; 0x5d3accba7f7ddc7ec17ca05248a4593e68582c82f196a159021c9fa9ec4bba3d3f; 0x23ee4221c9b3a009694a1becd75d9e143e141c9c1de8967cec3e781b2046ba4fab; 0x100a477f3866e629709f3c4e3a83005e355fbd491dcd9c45a0f881ab225b3441ce], [Nil; Nil; Nil; Nil; Nil; Nil; 0x20d48063d050674b40b12ddbef6925d184303707d018d13a6bdeab5ada8eabaeef; 0x14d7c78e7f5715f61f50814d4eda3e21d123d2fbc91d4548b0c345d1b54c0b2a24; 0x1b061cd882e77fb675da83c2a57be7169d022a35772a7944d25a88607c46a064b2; 0x10ba0de4211180906ec27413d9ed4301d08a5acf1dc6b5458b2ba6e1baf8468a3b; 0x7d4206cb3320203a1972414494251e4e4d1af7568e627e456cea7f79f5cee5163; 0x42162a97f0517a525744da3db2fe9b548c1194b78c33d12097190f62852d079b5]);
ISq 0%nat [0x286f544a47c3738f81995f80d7c13807de810064bfa1f6dd38613337ee26f547; 0x12673a3416c0b476c8994a3392306858fdf790ead384990439126429da4bbc36; 0x13682f853615b91f5bd81355478e731c73c1c4764f3462cc4c9dc8740f2c3ac6; 0xff4834894b10f0b2c7723d16ac2ec60af1cfde5a97d825502f47fa1fe5c6d76; 0x221176c4edaae4d63bc45e1bafde08cf245729afc00ae9378c62f8098320af04; 0xcce7b9d324e01a2d3a5bfb2efae25fc33ba180d2986afa9013f044ce0c8d3c2; 0x158656bb55130ce0e9bf2afdf10642a3feb38ff039b4e2894256f3b3db959141; 0x1fc15370b91c73dfaca4d74edf4cdd8c0af2c352429213bee91650f8ff70a915; 0xe408ffec11599b3f8e59295af383371ad1738f464ecf1cb75a5cbad1c2b4a41; 0x2dc2826f132294521a9872b24e60dd76e578f3eb06da6c0f34686be14d1e3621; 0x1a0b112b9258669b38d76006504437f4b1bbb04793aed96b99953ddc7135af48; 0x1c4e1f9446e30b2890728e709310005ba5fafe5f3394e28283cb4e160ac80ab9] ([0x18b7ca5e12e600052843c6a8419957d0d046ee9dc13dcf8058456e71f2e2069964c; 0x17e54c308bb3d95c29971145ea268611157f38257ecec4cb61d191665bb2b22da20; 0xdd244e2642e689ee50a6f37c9c446e139f4d647451867d514e6e298060ff29ef31; 0x1912d5ff3e4f70431cdb7068d47cc6b452fdfef3d8811888bd92c723b7eba36992; 0x1fb3f3d59e7e5a1f9a944b238406c4d6cfcd1676fbbc45e731f34db361b9689e9d; 0x18bfdff30097cb0bfaefbaffff57af5c523af5aad5f053034d04a90767e3feb70e], [Nil; Nil; Nil; Nil; Nil; Nil; 0x42d4c2ff11602749d9ad8af92b5213a31ac69e83fa4f7de40ac95b5806ed56cd70; 0x40a52191af72bbab8f950ac499788a08510a06c9ef18d74056e76c38cd87f30e0d; 0x25dfdaf6f3fce0e99b9cb497c61a4081e0ca5194b5bb1f5b873b15e5749cbf1a72; 0x5ecf106c4ba3f95320f4d1a455c2daa3a7e2428b98230a796f16deba469beabed; 0x78466235b54a6ab0c5da41eed5c67126135221a1bef510117bd6fd88ec078162e; 0x5b4dc7af17f51001f0c7206e3f75b8789fb3e7b2d2dff59c09159791a73ded6fd]);
ISq 0%nat [0x15bdc4c5615a613b8bc4e376c4b1366856fbbe9905d90dab8b41386f685599ec; 0x2936b6fcf55dfbcf19b28a23ee4635be3917ae5376c0a5f2f786e3fcbd50b412; 0x797a106e9fb869f73144a180214f082c3d7850fbbcd3a37314ec875fb4d330b; 0x280d9830f2e6890a074e7f4e2ee0a7bec8d95825830ccce93be924b1df489e19; 0x1958965a0275a42423f991eb96c496c5577ebe68704b74dcaacbc9345177afcb; 0x5a6016a34246c04a07853691a87d0612ccea35035abe04f04c5c1628c7f7cfa; 0x1e4cea12670add43d999abf19f21208b549b311c118b9c71761cb40fa25ae767; 0x1e99041fb9807e3487dd1dd3c76931cc855aa719b584893604cf34d07d9fe204; 0x17ddb2a3257514c9b3135218ebd76e141ee766163205aa7748e3f920b3b54289; 0xafa7c1040dc5f95f069ff96e969d22e938583a44a39d290df65fa017c60bcd5; 0x10079e811926d9e1cdd61651987f87109c17c524b293b8dd2558cc8a5a3b87c0; 0x52633f7717d7c0ca198e31cc6fa74ae7e0dbb182bea136ef39dc433705d5220] ([0x24e1ca3bb698fd6f7cc09679335aa606b3d1faf89f26aafa500e132e0c9062c7257; 0x1a8dc764d3a611f41ed777e593a570c3502f3151a350be268c03f7cf1f3c28face6; 0x1a983edea1a2df5263fdc99f903f5f66073d41fb015c5bf85381f45531eb3e17fd7; 0xd3b4efb9619148262832635ac8b6443d0fb1d2c7becd6a325978796ef5512b8613; 0x7ff51a636bd6ac17680b5f0349afcb00f3f68331e427bf70c8617615f9f915571f; 0x1b69a4412140c5361527dda87b276f9467ab2e454eb3df6f663535cd9d6d586a22], [Nil; Nil; Nil; Nil; Nil; Nil; 0x6332d7989750a32ca86bcf5844b520dc0a8c02a3fd66ffa1074038f66bf708f475; 0x48921b2d12a5735a1513ff10b0e1365ea4a49b881e3792ff151d82a700dc55fab2; 0x482f57d8cb96afb5d4293dca59563687814b8346d6872d28a3fc505f0bc0f64e29; 0x2550c21c41a0f0de7e661fefaed14e498abfe446e129908b641c2292dc63f7d6f3; 0x176a3e1ce5aaba610044a2cecace7a58066461b9d99a94a765f9619929731f3570; 0x6baf8071a9cc753df48861f7aeb5fd3cfce925b6d417c89b5e3015db525c58066]);
ISq 0%nat [0x1ef4798499a6e9d88543cb1a7495a14001e77b9a8dd870dcad64fb64cc760d66; 0x27606e5ea2b13667d5f9180c393c926175e3fe4869820ea40b4927fc10606f3e; 0x17254303263b895dbfb5bd542cb6d6d8fe9720a7d4d529ce708d29c84c76940c; 0x2b9dba48d043b7ce60b26a48d7847357f240e35ac228fdf66d08826ff8cb59cf; 0x1909d4ed841ecd5b70011d8231110669157bdb9e479b55032184ef5430e66879; 0x164d5557fd8b2f8c595c396624bb3aecd9e164c97f0da327d5476b4a91087b17; 0x1141d8d28a4b5cf03c2b9ae4e4af786a36e82353ec96356048a05a0c6af8c761; 0xdae51053a056c6d65a4f605e644725fc4b089991b5a8bdfbff73092b83a6846; 0x1d107f76d9d7686b45a7ef1905ef311723399653675bd12573c4529a7c8e7ec; 0xbe6d957636087c828ecb2104d1d964cdabfcf6c1d58e05d5c5e9004b2a3a503; 0x1f5155b2b35ea297cb3a3659bce3c034c9b51dc8dfc2a53ee262b8b67f72b48c; 0x7c85d4fd15071ec299a7fd02f075e4be89628e4f3d11c1ab69ea82b6cc32678] ([0xa9a44adc32414a80030a664b0d925322f555baadbb0ee4a2c7cd6321e014a30294; 0x61d526a63af5ae1ca0c2c072c565a13c8b6f478591c9bc8da6c11495243124bb0e; 0x449f1e2a931cf81e5caf532935eb4cfc80370b98ae1d1287478512fcb0c1cc129c; 0x247990ce0e80baa4229b99008fc6e46ce062ce3b38fb1973c3717110017fc7fee1; 0x11d4c1197c725649708a05a951188f1e65acc55c26e0beb1bc6af02bf1b221e15a; 0xbca205e847a1aa7ae77f20f3db46276396977706ffe14c969675c9d216931d92f], [Nil; Nil; Nil; Nil; Nil; Nil; 0x1d9a6e9f574f9191f2864f32d497a2c8ead1f7974cedf41a5c55735cef5bc8680a; 0x1207cbf28dbcb7154f361005bf03e956b63e27cfefefa734c6a4f554ad67a46a14; 0xd101b0a1396fbcf192fc451aece04d85469749408cd109be81eaa50ab1beb68a1; 0x768e8f38978375160b8c5092c5c2a1a7bf37697c1fa821dbd2846a1b0b89c50a1; 0x44cf849ae33ab71cf10709983d6b6fb3777d8a942e899b6efa5ac2cd6e549dc5a; 0x315dfba0053226278db0ceaf02c0dfd5e663b81f55118d5c16f458a100af35550]);
IMul 0%nat 10%nat [0xb1638da96531d76d6146269b10d61b8c6414bfcd6c4b0538bf69237b08d34e1; 0x1d245776064780707524cc4cf9438bfc8e509e3fa737d68c733978dd7d0cd098; 0xc6c68e25726c3f6c6e52801e445f087b77d2ee930570349d6d6a25cc7e65609; 0x1fafd61827f4a7434217a2cfd1d7f56fb5c0fd8f5c9d707e8df70596a3022840; 0xb1680f699fb386a3929eff28e4debab3eed1bca5d3b149c4f27ecde21b830b2; 0x2436a63ad229d014788bf57b3e9241e07a82f9419b98aae5264982ad1f9f4e43; 0x12a1ead00659d82ccb3ca1a58b8741888ce800a375acd8726804e7de4ca24094; 0x1178dcfa9df15a5085d18b082c6a1b5baeff5a765ddda28fad75329426765df2; 0x3e3d354ce68aab279472d40c44c436a9ef4c45010c9da3d1e8ee3eb098742cc; 0xf62be073f97224471ad0f06b7ccce816da81adb4140a4f5b08d7cdd807a5df; 0x1fea8f45d7fdb1a5815cadb20fdbc98049edea809bec09ad90f5167c1fce3ce8; 0x6f3b25ea4176dd0d477f172d27b5e3ca1602c389d299a8e183c4cbac956f510] ([0xc6ab0961e547e70d716dc79f10cd5e5353b8fd26d58cf355b0415cee7d8e3a6f21; 0x72bd09151d7e915ba066e196452a1e44d2f4a59a355f170e34d4e06d70f6831f6a; 0x678b75d83d415dc78f79f2d10166a153fb41952be5c61c58bfcefb152308481b2b; 0x31f7e212dfa504fb6fc743d856369d64ae92245f5d12e6d44bd6fb38516bad6bed; 0xcded1237a25bb689e182fd253413cdb258af1abe26be6ba7726e959ae91f876ca; 0xb149fb1eb51b8df8e8cd66b8c594e51482910164b0111aa04030f8f9c1d95cbe8], [Nil; Nil; Nil; Nil; Nil; Nil; 0x225c802033fc253b0d1ed1435c10ed304c4d53283c96aca4e2aa41646eec94d30a; 0x14d0cd637fabeec57918ae7f38894275394eb338e62bc0b3908cdb41d901d1811f; 0x12a5ed959328a3a1dc2ee4fff1d421fd3c7df9dbbb68b5504cc18f848b7d0d6c8a; 0x94a830af272438afdb1790a98d5d382f3497e913dabebfaf16aba4caf88fc772d; 0x2ff263bf98ded821f6130fade6e58a9788e07c54cc335f9d31eb3eb5accb7832d; 0x2e3686749dea78f08402fce4a5412abef99189e285232e154102b49e563c901ba]);
ISq 0%nat [0x11990b65b2483d0effae599058c7ffa39d6e7a958ef6136805504b471d463a45; 0x2393e5e88e2d9107c087c1aeb77e7cf793dcff6a59b88bc189c529aa981588ef; 0x223ee83b00adbb0ac4655f08867ca4d4cc6b1385c808d1faa3b5e1a155a3e14f; 0x1a685a130fc1e16916c7b2d293d7a7a9288aa05a38f5fecd698533d8bebea312; 0x18b34d5df1b3b5ebfd018988207c90e6620fadf8e4e1af305b5e53b369e40825; 0x29fa0c532cca2a29b7faabe08c4b8282b4da60409ffc29997d45fc6ab16fcd90; 0xad811932f894130f3779636924a86b8840596cfb6f12e243c67b86176b901b3; 0x159184f570fa46f9e9aa2d95cebe8d9c970489682feea8e4d04213283725bb0e; 0x8410b99613c21ddaca54c8bfbcd78b7e136df589c6343b8b91ca04ba44641a; 0x200a2108b713254c92c706ae33738ae43b36c9fd74a74c19052453ba3dc7db4f; 0x1ac824a0aaf5dd0deacb535e67f42f6d5d26b428435ea0f16d886339278fc12c; 0x1430aaa46cdfe2a857de05a0e1102c450eaca2cf419323658c88d0b531bdfa46] ([0x4e353a1fcae3cba517f3507caa09e54ce1307d037139f5d4b7bb63e79452bac480; 0x228d6b56f3d6d09fd8a34c35c30cb10e45e04f3acafd27ee47f352e025b5b529e1; 0x85e92128cdbe7f1ab6c68a2023589ab5e4dc4c9cbd5247744a7e6d4a974e25789f; 0x4636ef4be4bf991cf816a11663a0b01ec011d271c09097ab868c4c0bf03962869e; 0x111acee547bd2f2d6b28e68e5ffafd72befd837e5ed2dcbdaa5df564232bd78d78; 0x8f74d617016e3a662c69979643115de214131ead847035f7e0c8e83f1b463c1b6], [Nil; Nil; Nil; Nil; Nil; Nil; 0xe38174dc4ce4a8814f1b1215127e5ecb6ebd3ded6cb49cbf4d2ceba44acc54ab5; 0x71482e191d90a0230f419027dbe7fa5e6703b319471755043d80b7e252e6eae4c; 0x16e7d51d9842e2e414a6320a6e42a67aa74ca1c84d065940bf71a28c2a6f162e2a; 0xcb754a3f1a32969cb95329100e55318732960fb80b54443edf270023e65c633f9; 0x3c5ccc896391cb419e6619ddffffb890f6ebbdf8dc381a47dafd7b533e652b81b; 0x255197e20cfe72b2986c116041d19d1d28d6e462300ac4aaa0940e8fbd2f1f8a8]);
ISq 0%nat [0x16dd9a95dee298d0cc7dd349f755d13b0b8998134e70f9f18e99e7631d37551a; 0xa66f589ff5b047a93e3d8f6e28c8128e7c7309f72706d38fdaa4b4e1352686f; 0x19113141b46d6ea25db1bf411d5573116205aa7aee04d55b381732c901ddb23c; 0x2239c1e31e042e98efdd0f7fa10945835f17aaa2c1483d4f8c13fee3916e29c9; 0x2ed41c082dcdae8c59779f46d47e7bb08e2ee0360c82166d0ec72d75275c6ac7; 0x2f55a679a8c091a3682b77b7616c3bb7f26f9ed748ec96068d7382fa09f31634; 0x144346f78e19351eac28734e458a62e4979e4bc2f24c14be33ed5db6fc3c6afc; 0x5665dfedef2a0ad61ad58f85c0ad53df7de418949a703e0548d6a38f456688b; 0x18680b86972c72d576d68d72c4404aa843f6f5c6dc824a305652b69630bfc5f; 0x2457abfc6d43525313684a6ebcbe45c41df387655d5336c6942b56786d9a7580; 0x1b0f0925796b2fbe280bf79dbe0ca9e16210d22587c2c25756bea68ac2a25adf; 0x250d505cca764d851df81ec1bdbcf5d74dd666e866d61e8a56a89679f2ef67a4] ([0x113200b0a0415a0d889ce7aacbbc828d867757b4c758b889bc4b2bba39d07362f09; 0xef3a231f257d89ceeb61d57d13c5f0e84d066fca5b5cbe2f2215f387e117feba43; 0x1142d60c1b51929090db0054e9dc6915e4a27b6cc174c4d8a8f973ec3b0b097ce23; 0x9acf2a66b0ea073e210957508e92e07a9de82d2ee519304a23249835423933b9b9; 0x48774960e529eeee43eac98778434c7308c42b56511f2310f347bb8005c4f05738; 0xa5b69d5481bba576cfc7b1709dbd483a450bc56cd47c87ad5cb4ba1dc1f46d80e], [Nil; Nil; Nil; Nil; Nil; Nil; 0x301efc70656e3ad69501ef660b028612f706ab604d66583203fda9295d4899e348; 0x297fc0a1e2281a843e183c829260494e6416130700bc82010bf13e7ef0f676da1d; 0x2fc530d76c05d322986c31465ed254d2fe0d2917b3259664c4986ab51ea2df7a9c; 0x1b4f8acf8493e18ab3ff8c53f7fde3ef6bd4ac376a156d39a14f1c993bb68c3e62; 0xdd19d98dca8b79b81119e0f296d3e8016edf49da500e357490edb594c708c8313; 0x2e9b3c1d0cce2fe5a1782f706f3ceec6a83bc9a347c2c62046f3038e29d0910ba]);
IMul 0%nat 17%nat [0x567a34008408ae845ccdb3d5a412c74a37f778ba39d77130b7c2f31d033e134; 0x1283007a40fbca776b43f550743f386178b5d45a3c4a60f498ba3663b4201658; 0x27c1186eab2c0b145965783d64c2b6c93c6007e3258ee630f4bf55656bc84601; 0x235e3a0e4b44392b874bdc901841ca6e141e4e36e76d8b0320b2fae735b8f36; 0x1daac043d0de3e5ef0ad5f938b7cd4169e2e8e222ed2bc107366c973c0450b12; 0x5b513a31ecf4179652271aae87a8c2b371131779df06ca8b710cbc3da84e200; 0x142af373f113e90059b50e58717709803b3f4a2b37b89ccf3d9274a1a3a65a7f; 0x70bda1508aba4e9fe451d0215af3e183dfe591c3a698c3914101bd6b27d5e24; 0x11e002c9fcc535355a0f45895fad3732c7c81bac1594ab71e3e52c25353b283d; 0xeeff61288f73f0ac666c14d293abfbbc376fc7c339424d42c08254d6fcd48cf; 0x1fa698e02c4addb859012a27b8afd66b1ebb0fcac91ad90ae52b9d077756c9e4; 0x124fca1c69679860a37fd8294ed20e0749b4aecc5cf043f0b8b963edd87ec738] ([0x12098fb6368b3f5beab1597e5e330f4afb7875a471fb405680a10044597190021dc; 0x1641539cf6fa708b15a57d0091fc7f958835ee3f0088685fc2cf13261a88304dea3; 0x1a810ccaaa211e41d36b745856dc83e337a87e7731e5504917af9fdb4c42a4e5211; 0x124955f4af1e72163ce6449cf8a37f1a3927e712d2680a3db45df864c1c14af66e7; 0x73baf4f1f76de5fc67833352ed2132e3e2bf42759e13baa6afaca6cd009553b15b; 0xfe1b9545e71edfb45a98173aea02273305048414e5d84245e029c5e6bceeb1a73], [Nil; Nil; Nil; Nil; Nil; Nil; 0x32d0fe8465b0b3796ac6c913e08e47891382f0eaaacec788779a64294106a0ee85; 0x3d7974afb056a7fef4c7e5f27c240582c4e79772d2e5a9ba816d40513aed171dac; 0x48acbf09d935a26647457e52f194179f06976d51e913fe4896ff2676fd73f30477; 0x32c1b4ddb1b1b18555cd6070ce2644803eb728ae79f3f36b4aa40865fb1010efe2; 0x154e9643bf652cb6164d3f1d4595c974f19364399e85a4b26e49fb2be64d175943; 0x43691e0af4df8557a8b2abdb0d547f8ab213a0ec9cd7d97598c02f9524b1bfb74]);
ISq 0%nat [0x87775a03cb3fe0e525d993269a44e91e2ce1100f43d55dfb513872a664d5aa3; 0x2596e46a3c40b52d8bb3ebc6569186902635ec6f237a002ec8b93fd2fde67167; 0x244094beafe9e17e4ab59f874a84d22f6678cefe477203799dcd50870998f4b1; 0x35ffd14a395387295d392727946d5618e427ff98ca43033491b2ec5ee34d267; 0x16b67809e538649a40865e35e45cd78c97937e454874d1c852a623eff5479b22; 0x2a0c3fe54073a55978077377e52528e532cc4ac92f1b3bf10fbe9b7c514bf596; 0x13dde22146f330398efb4dd3731a5f4283b112c886ba2ff9db1be1a190760c2d; 0xd14a52444da54e06b232fe17bdeb33e6879dce0af1fc1d876fcc74a41768867; 0xe02a3413ebd8daac241a0b94bae83f51161d338604dec585c5a73566ed08a30; 0x258f1e3a6c54e06320755199ebe2f79aaa2c99caf78a9ca10634f63850a9c1f0; 0x59ad9cc3f1bf6305a1699771b9c844762dedd302bd3e8622d5b41ebe9d78786; 0xb52f2e4724febfc169dec2d213e2af31ce228b979698e7516e4ddd0666a2ed3] ([0xdff80e249099863813643f6a32fffd99616bfab87547252319aeed38a7d59e9e8f; 0xd24cffc6939a202d0fc0f00a2533862288aa2c90f8470df61a305db8c6b0a61799; 0xcbab07ec02d3586a6db0dbe3bc98a0b005062b375d780a9b238f34c87756d03be3; 0x9939a7fc9d2f33beed7ba2d538e28dcdffd2beab620959794712753329e7bf4aed; 0x35222679d759f836ae815d9218025a7b8f8631ccb8ac1d27b3acbfff5ed26eba75; 0xb44acc32bde68ef80181d1b9fe0a0d0183cc9f3fb961ea63f7395d9624034b1fa], [Nil; Nil; Nil; Nil; Nil; Nil; 0x26b71679f3bc6409c9ea4d7064bdad4d454ce16e2b7906d60eb81650135990bbe1; 0x23b0558c37d8cc31ef53787385d05fa62510ec562a20e975f276653dbf0510041f; 0x22b5657ca11af2240d42696278c7620f64d14f1961fc9b90dbf8ebd937d366410a; 0x1a2287f92096478e20fc7248bc800123dacc24e8430f74925a45bb0771401e5bd8; 0x9c48c887969f25bee6f35d3ed6a84a8d6b93dcb5ee8d2e8a8a7551c9a60ede47e; 0x2c32898ef08d90ffd0337ad3b7f87c1fc4102f96b1c3ab35173f1efbbedcf2b45]);
ISq 0%nat [0x18235ec52d9ff1cf410d23962f73b6c4ca0e5a9a9e2b0e521e4288bb9a4aa9c3; 0x17f2475a810b885507050e9d025b1f6e1beb08094e7fa3d68a0b0ffb236a0f2c; 0x275f6c6713dc0eea4fd5ab66000dc501d4bdf0c21cda7eb70155863a6a72f6ce; 0xa417a7c1bb3d5d45e501589b5baad8840c99b5b67de080f7f5b0e054cb7999f; 0x1d212c46a1d5dd34fb15149719fd7b38a1ed6d685f1c1a008427a71c544e999e; 0x34038fb6e6e3d1a5fa447566abdbae16043f80657b90f684b45432a9e295aa7; 0x69d7cd6535190fe307c40bdf8a1b48fc1eb3426fea1e7df6cb87042f69a3026; 0x3c4416fb3642099de903def218925f0b4aa8f565eee58ffeffc8d671e4f1943; 0x28e4bc2b82884c7ed358a71da1edfd483b35aa14359faeac4cecaf6df5047852; 0x1dd94ec06866b43e8b805538d63edee063437d00d1821580f23650a4b7b47c7f; 0x2dea76e02a6bc88adce04c4c6f324929d046319d7d11b2c9be71d61a3995594a; 0x22ef6710107d1bfd18dbbfbf1d9d111db67e2a97c7af29a2160766986440cfb8] ([0xf62ffbb2873ba7833aaec7ecd807ea38d48b6b33fd691aa0d98385d6843e76b988; 0x742263da840becbdfa00bb28f36c356f13de32678673fada32284070529a752fce; 0x84d800ed0fbdb1c837222380561a018f9b50d264639d813cec13cfb06162a715bb; 0x21ba829332fa935939921c86b23cf41d602feb2d18afffbfea6abc081270d9f489; 0x1eb38fb3b5720c004a9c4f6ae11c97ae156c7ea015bfd78b746eb705df2793bc75; 0xab32dcdeaa67c1b4a68ed4161abb17d54afbaf39c8d3596532c88bd3da80dc81b], [Nil; Nil; Nil; Nil; Nil; Nil; 0x2a1edf4dc38ec6558d5c150ef3f47c512385435cf13c30e429aa7f7af8c2a0b68d; 0x1503921afb8a1fef046ea94364a5016d1dd797f8ce5e75bf02f1a676e515bfd213; 0x17a33d5ce159552ceea42551b54d54a030a1097bb5094aa6b612c2cf4a84f2fc80; 0x6fda6b63364169c8614667348b55170c58a973adce181cc2e3c4281016de89feb; 0x677257521d865ca7a59e90c537561cd1fd40af29db2916fd5308f80811e795b7a; 0x2db11f04742885fdf00c89764cf6747282baec81d05758004791d8484f1443126]);
ISq 0%nat [0x11bf3aea75b751ba8e7bdb88890a3b877f69f26aaed7b96201c57e1a7d67c3c6; 0x52a421d2deed2c21ee1e7afab50b2ce46c7751758bcf22141b9b487ef36fea5; 0x226da7201e0844a90fd1612dd9999df3377a8e1f3940016699eaa165f74ba88c; 0xf065662dba4e128c4d7e25670c0c5448fb63594668abe5f587cf6af3f6ed5df; 0x4ef22da692dcc4536292dccec5b2473716afb377fa370429b77875931cf789b; 0x2f1c5b5f70ac2e0cba883b552040da5ffe1ee4a74a2c9077546395ce76ca0975; 0x122ba5fdcfcf1d5521d7295cd10e460303268745900165a45cffea904fb11f12; 0x249307bb5ebbcc8b4957c55a2e73bca8ae5d9e3657fc6e58fb501dd7cd7efe5e; 0x2e52907dccf2f84d0c27ecde48015843cc58e95d2aaf21f426339eee65d40dcc; 0x104bad0622d7ccdc4c53c12d3399426f377327ba0320e0e59303f36eb2825b2d; 0x69283fe943fee192c8ec8a3d6a6da5a6cd8ba5ce0a34a25c7e460bf6d63f631; 0x1650ecbf68b2d8688f60e497057fdb56ba01ba8981fd690ef3eaff4ad8f30894] ([0x2802b3e89fd56b7a8d5219acf3d92ff4edb70cc701953d43c51bc069724495c18d7; 0x2c0f58b26ca988888df53478371eb7501a4dccf5f8d978e53c698849714fb9d96eb; 0x20ee152e0a7aaee4da68525fc9cebfb2689a90b27f4f6f9d8b46bec94227cafacb2; 0x19224be6bb28a863e9a6d32244051864643c2224289c01e18bc7863846193526a6b; 0xa3372e70eab8b7bdf0bf1de6ddb70b2ebd685b30720b7bae8baf7bb1317b8eb461; 0x155143ddc10987a191cef48cf0f59cd1202735f7cba32af11bcdf782ea38d97781], [Nil; Nil; Nil; Nil; Nil; Nil; 0x6c45559f8534a1f1177e1915bd0a5cbe9323f9205728ae200353e22ba2a8f74873; 0x75d2197c27755293a72c6c37a5501b7748cdfa9082ad5b0bdfbfb980950e7981dc; 0x583b1752656e05b1864217fe156a2d292f3b8d7f136cea127fade2145e954d2dcc; 0x43682c8081eb527336c915fb1803f3bba3d91c22b7a74eb99c1d97c1729fb2ceb7; 0x1c6725742dbac0fc94268bbc6db488c3e0fe85abfe08700dc1998ea023f63a1806; 0x550432496d5a2495e859c5056a7ceeea9f9b4d6bddc4b55f76c55c93cab3f083c]);
ISq 0%nat [0x24c7089d0b3ab1873a8be4e5a6acd7d056fe568f7fffb345a18b16040219f858; 0x4471ce3c930814d3719ce2f6cbc26359780ba53687e5d378929cc22fcb33aaf; 0x7f761b8e9c960200ce3651c728bb14dcfa44c1fd78c2a0c398f5f8e6a951ff0; 0x93b6e3c0908ccc3ebfe3f8bf7ecd4dde943999bb7a65f6222f1e94bb8120641; 0x1a4b986a2a87a3367c3ee3d136dc42ab120a60ebd3fa3f5fcaff73f4cf09b450; 0xfc2e3dd7d43c231e20bd9652f0dacf4d2ce344d416f00de1d170aae76611eb2; 0x6122987df89053725fc49f8fe9e95038057ecf7d2540343a408e7d4606ab143; 0x2ec5f14a294e53b92c7b126d822875bbb42ecc26a8f3a12056f09541d2f2984e; 0x2a20e86c211843d2a17a747086f0b6d25e5de3a6da4d3357e8568df018c2b30c; 0x2e2e2174e369f38b56417b5b869182b656658f3411b57ff6d86b04d0730e7a11; 0xdab2c7a51c12fad48e6430dac17f1bdf678ef0c5e4f0a70369c4c80b8eb4b69; 0xd7be806133087234f64868ca089f6360c81bd7dbe4f0f136c933a0619fddee0] ([0x14e6f320cf6ddbc49fd8fcede484c92a1219b279523b6de97e726ef45b872e2044c; 0x14210a96212b395d3a8a1b961650cf7396b3a0b033da97ddce719d96b3022c77df5; 0x7eba903efdd9be60c3bef8fa0d9bc329c7c42f320eda37b323ca3b51df26827935; 0x42c866475cac08ab9c1d39beea8a4f0681123ea498ddc109cd9e031297cb7f87d7; 0x60ce01fad02ca9bbdc4fcef5f0ae20116e65437e6a399b79e24461657489681b7a; 0x125214bc8ae882c3f9cd265b319d92e720e433ec654e875f8847592b32f2d90378], [Nil; Nil; Nil; Nil; Nil; Nil; 0x38f63e8c7a24e0d9c6479f7b56cb479967afb3a6726434fa3d1e3385a763e461b2; 0x37fdd10557dcd64f1942bf89db3951ebd2535e6acaf866897e2f2a784980e287a4; 0x171efa1361c1e29d688512c98a559e6a01e7a8f7709301f047bd45a341a69e541f; 0xd1a9cbc9ef3304b2dfa096a900648562b4e88bfb1f278c7adcb5e5c86665fc1df; 0x128d717a7a6ee238052eda3af4fb0ff41c2665fc6eae839967d9640d9f35eee652; 0x482996a5bc2da7c0fa6db6f79bf6355498d0e1bd7866f9bb996df2bd087eb3c46]);
IMul 0%nat 20%nat [0x2c54d622c9b3226f7549eadda344de7c633ff772d857da58db2fc0bdabd0e00f; 0x13901bd3e44fe9ef6c438399d677c8097c24fa44c2d18c7d7080d4c7b92e66b9; 0x4e46db6f580cbc40a690b0f2c04548dbe2f8168f0c6312ced1a5acce4bf45b9; 0xf84f6d1b94ebcb5f2d90f5a8131f166c32646795c4b5cdd9879ff39547f476f; 0x152919331ab4aece38084c96c48b608b0534b9e9f0b2e1e2691c2ed265f77b6b; 0x2c8eb8932ab2c0b4140e206b64f0699a617e82cf926b21ba5d38f04be7bf9145; 0x13a1d81da1b436f231c207bddc3382f85bf73db4d488fafe619c5020fe6f6cb4; 0x2e53f80f2d7cb660d604aecbb04bcbcd12df4141a132b1253ffe1aaec95dce7e; 0x153f9720a45107878d3491674b9d569d913af9b5991c494cbc1c8f08d37a9c9a; 0xe045ddf0fde7d354379285cc57c858b4b8f73cad604272f3020c07b5c78817; 0x2f04df34d92277ad65c7849eff336a078352eec03e75424d06c176cf55821a90; 0x2a639a47ee02887738237d4fe0e9115caad0fcada7ba42fc5cf0e0cc6beebd4b] ([0xd4d491f8cf8cf04cc34216584c52d278c05b731fb366ffdb18034da68889b1254b; 0x7773b006495c90a0f9adcb9921701ba888357edcaa16f2c4b9c1cb092d36acbfed; 0x5e69043ed40af278acf8ccc009c3478e9f4eebd6c91dd321ad6bdb14c4d0067985; 0x2470b5bb9cc39c8a69aea59c456c37fc958c940d2a4a030076639212beed0f2c99; 0x1eedc8ad5f27182b9758a50628d43e9cc37db77b80e592e6e9cebe641a9f52b0d8; 0xa4b3cb479092949671b187371d372dc5fe6837973da0d3b098d301ab9f75c523d], [Nil; Nil; Nil; Nil; Nil; Nil; 0x24aa1f7ad341376a8f1cde9170caabd60d9016564525aa6f721cc0f68a03838f58; 0x1523efd04c6fd1ea206e616d70433aa81067e9474b6ab25188fb5d1e556152ece9; 0x111b5f54eff193f2811342e130903dd8b91a13814c36059bf2b958aacad2af41b2; 0x7568dc7effdfdcac390c2dbc013663f13dbb23900df7b414280350ad2b2532a6f; 0x667f1ac3b2d9364495b2e0c6d7413cf467285cb60d956cd26ae59d72fd445a7c5; 0x2a7f1db9a139db90f5697853ad4a89991855c04e95b448e6ad933733a4baad81b]);
ISq 0%nat [0x2a32640f51c28442f406d55688ffee0c6f06564232fb54a257779007e5a73cc4; 0x15808d68c69eb915d69bc49f640346da136d33c4336a287a715b608c5e2b32af; 0xe6627dc7a61ddeec44286e5207030d17c838d2f58f7c92c2c66c3aa6780370c; 0x1aaed5668298c52394f5a572595c3e2e246d5b05053d1c1dc6b58a45cec7915a; 0x2de370ebda7ce458067b388c4bfda6c293895092e7f52348e41c70f0780f8a5e; 0xd2c91933e8d4c9973a6832bbb48fe3287b5c7b220b43772e05c39cdbc6ca3c9; 0x258522c51f89a74ce5e26cb028f8b5fd55424bb8ccb7082b2232f7ec280b2fcd; 0x2a4cd6134687ba5be86c3196ba162c8a444f1bd1b2067a05cb203c505adea4bb; 0x4522f955a935120db6e76104795141ddb99a11c3b6f8efa81740a7ba8e84489; 0x1b3d680d927bc9fa5f6feb165cb3be2930a3decc48703c0559a6b6d6730c5cdb; 0x2d95de2b2552be5e96743e366ad15d4e3a61244d36f2d670ae1d1eefc7f04133; 0x11772df68ff97de0cce6ea7e9841ac45ab1b02238d9b628b475ecb27d9e30f16] ([0x2f3fd37e3c419375e8d398d9453a1a48c032c5388715498b7e771a97df2545f4f31; 0x1058715e4157f637f44d7e0ea15e495888f16da46e449ae14006e790d8b27703f9f; 0x13a500e9a9525773fb63c03ef13eb7abae10251039603cfb203af23a88a297b8c7b; 0x20facc138f0d4c6433308e8cb9cf432b36718c8e1668f39e5dfb652c6579e9dd896; 0xfea16097da4e9a98c4c1e0beab0b9bf5a5ab5732d3c7726e3a2f5895b350db6ab3; 0x27b3c16c7066817a301049dbc4c3a9c49a298f3e5f6433dbc3008dcb3e4eafb8a1], [Nil; Nil; Nil; Nil; Nil; Nil; 0x7f128f0572bf82cd921cdbf4eedf102aa46069baf367b012795b3152b8c8431aaa; 0x2d73b5f028241c0ba473989202c0c232a00eef2242c3edc25ed18a2342bb925203; 0x3658b2a4109ac5876910926195e111ae664a88b10eb55618ad77ad08fcebeffabe; 0x59c8f9d38bb9d46c90df07a4f0df7b98e091ce6251703ddac7265dfdb5262aeb47; 0x2cbeaf91f46deb8ddc220cacddd4afc9fd0988f9b83f8f957ece56f8b30767c3ee; 0x99b96d1fedd7cab49b777176074aee88f53a3282006f3516a01d6a9f98b2e65ee]);
ISq 0%nat [0x1c0cfd5724e81cfd8648362daaf038ddb69c93c6a49807263fd6b1f7323a6b5f; 0x23a637ccf0539b87c1b5297d63b80255527a1e0d3bc151aa2aa99cfdf1364bf5; 0x2ca46da697094a2d5ed76ae93ff5818654317555eded2917e478d01c4f07e406; 0x1f8ba7bcc9cb425e21824f2daac8f0aa2c8d617330a8e7f4cd62a434668ecf5a; 0x2141b37e8a29d5817605b07b842eef5880bb52c42936176e96001a2b9f128e77; 0x19f999e8f65b0bcfa820fc890a60f11ea8f3438ad9f49e0fcd0a9adc3e811244; 0x610ea8836e4571d7b642ae6458fa2986983dcde66e41abdbb3380a76113eff9; 0xf99edb3b4d15712d447b3daf12559cd530b7ea6db8d89ac73db7bb2791c7644; 0xd82c5e3fe58f4a01897d1545be764362c98cdb62d3aac8f4d74c70d50d7c8f; 0x121d070cd6487ae7f2672d5201678f8df387086ccc27b2db0434535514c1d452; 0x2ca9d35eb8c4790756695a82b1139164ba6bb3be2ac039026a8bc14272c42713; 0x2d713904903f413d26ad555347bd6787ecd4ec9010bd05588a6988ef0c058cae] ([0x161d9bed1a4221be17cdc503001cc9fc0ae47ee57add8246afd56fb198b4ee46fa7; 0x1737962b19cd075b6a73e6d7d370765d78f09a9a377367d6045ff3f7ac1f3008a63; 0x19d6beb0e4af06fae6b6a4cc438c4ad274da77de466911f0756d832d36dc72df7b5; 0xdfff7efe74eb8b9601a16a4716da6c0e1170e06e69e44bad3e1a99c02264f6b83a; 0x4cfd02c61881d958a48c5b738bd7ecdcd8caf2f94af439423fabd3a8f2ef8a48d3; 0x237304f45cda9a92d1873a81c9656124a22cac41ede050b5870743433db483f670], [Nil; Nil; Nil; Nil; Nil; Nil; 0x3cdf3ef3cb86469f7f8d8058daf690e590957300fb5d7a8827b0fb5fe511a9dbbb; 0x40c8cc013a599f65aaf8836cc21b4a57ded14d0268454aef923683828f5896040a; 0x4737cebdc63459c0fe925bbb02920148925be61c581bc09cb92d38cef40fe6c311; 0x273d439d689545833eab9cccaed1bc5efa8946eb4d1595ffa69e2f304b2fb78878; 0xfdcda2bb9ca0670a6743bcdd8dba45a12736ff97ba7d41e6816e04b779a34c7fe; 0x89a27ecf7f883879fdd02614afba8a74ec006091e24acaa1f8fd254b004cb68b2]);
ISq 0%nat [0x24db37e274770d6b1863c7bdd54c0a1bcba9bc6f3edd758765c608cb47d67c3f; 0x195cc39b0c9ac0940eaeb536f5b8669b8145f571b66da4e909dbe5750364ffce; 0x1b2dace633db4339e4bac7ca1c7b24f3b150efe2334258789217b5d97574a874; 0x1750b26425da7b811f0678bd93caefba6f986097e6390af67d754f9bd7ca8941; 0x1163e15f178ed630436728919f16b356fae03d0c759303cdef88bf41a5fedc26; 0x22d20cb3c5eb407f704c065051a87ac8b9656936086ab92891d54ec17dd29b96; 0x83ba7fc16cb44fb459ffc8e5850c17f37082f94b9c0299dd07c00175abbd0cc; 0x2fd774d7d095196efe6d30000698e14474c05dd372d3b3d17f98ba3f5e2fda74; 0x213b927491a965649e96c29953f97296ffac23d7c4cbf1a34beb63eb5f86bb17; 0x2add69b1931fba04704f1d3bab11d547d2b6a5430653a9b27d69bb24a0afcb2d; 0x14974ce518d1c0e80fa2ee48a25584e3c894f83d033922d471d5c1300172d2d7; 0x2403de157f000c2c85a6803b3d04ee67ef43939a26a7830c4f0d4036496ebcb0] ([0x116564700989ce2674e9478049bb26c82a47be438958904de760b2e5bc3ed24cdc4; 0x100c8fabcbafcdb98a80c8dda0027ec2471931446b3190129c14454e0be90c73208; 0x1e00de3775e788db9ecd7850504e886382c63a5e7ce343126a4acc263aeb2cf8cbd; 0x2083a1d8fd1bbe07b6df79cfc4d810ed7fec00d464879c04b0873b4897709ae2f3f; 0x10c7fc35300d3a460094d6f2184d43cb3b2c1627fad74f302102c77a34676d80dd6; 0xc8a32f6806831e2fb76a3a9503df3e2f63e7b7e63434e21ff9b7af32596dae980], [Nil; Nil; Nil; Nil; Nil; Nil; 0x318d8bacff014b427f1a5a68f52b464dd902d3361656a35ccdaea7d0f201171a1c; 0x2da5aece4f3eb3da5af1aac91176aedf48534146ab2ef8a89830ce8955e74f5696; 0x51b3f4a14c4adf5bc755ba0594294a68d9c10986488fa85241cc8486e951afbf1e; 0x57c8fc9e5481815309f3ce611906b3013c30ab4465ee33bda734ee47ebb860f53f; 0x2ddb8b1c5e2e861e41fbc7f71861f84fb0ce85be3d67f5e3c44d8363060ce77459; 0x393c8a8b462f161a59dbca8fa939131fd83f0a98ab98647f24e012aeebd94443a]);
IMul 0%nat 26%nat [0x2465dd2de2b658e5eb015c3565621750d5e2660477d8cc12cb84e96827d1e559; 0xc9d209ad59fffab1e1106bea3a3be7edea014ea9c85fbffdfb3375d5473bb80; 0x1f7c99869241673053c4a6819d24e05aa1c46a347cf4f7c1bd27429c07d8697f; 0x763ab4ac5b077ab58d347666548e87fac6f793ce2e018f052bba2ee9187b880; 0x2cb3d962b0049265422637f667480079f8e2b53c6473db135779e8bbe9a3619b; 0x22f226f7ddd7d0f8a749166f9ece543158177327548f8ba58d37834bcc4308fd; 0x27b8df74d752b8e76ef6536cb0727ab5d59bf67ba061e2f557372bede2cb8e29; 0x1b1c920fcfc556d17453d12110c1eb83749e10bcf98e8d1b86dd6acab249752f; 0x2767246c35ecfd2f9af1931c536b91174434dfe9f11e44c614d270e2f0f546b; 0x19aff6b0e0224e021325b51ad9e911e5e523b93b121fda41ba6f5e3109e6acf7; 0x22df0e82511cf992e12660716b111bbb2415063c58e5ad2c7a3a4dc0dfea1027; 0x1ee2b7a6c51654e6eb47b00b5ae25ba6705db72110cc3b8558e5ee1c1b8f20c6] ([0x2429556a9dae96d4c83db7c7e1c950cc612aa6f0e93f5fa878026910264eabc6d40; 0x1b80534e6ee622a9f801e8a910b293ffadd12b5b3157dcec5af102e267eb27d8c1a; 0x190ff3af922d7e9e007a1b799ab9f4ce3d4a9bd2fba49bbff6ecac9d7d1b82ec2b9; 0x109a86ef281d6c8fbdf00a8e42f7c503931e773e1dccca4ad294d0173333fc5cd41; 0x7548c08b46edf9d671ea7a341c30324847dcbf0a0355dc02fc4d9e59741dac6a3c; 0x210d6f6af9ba859f7fa770e81e2092e04eeb5c3c4bb7ad278f0d7cfec15ef1cb61], [Nil; Nil; Nil; Nil; Nil; Nil; 0x629d4a28c934bd6adbb35582eacca6d60eb8a6ddeb57dcc550633612a28dfbcb8d; 0x4b6d6de3bcfbe0a0aa4af43a23677f97dce67efb27daa9dfab2328b2d81f4870e6; 0x44ef05579a3ae49d8fbd79de6789c2e85776304343e92ed72166622bba922cd40f; 0x2e1e7a485105dc575cae3f21a9cc0f093e0f65b9c572747c50fb766616ce0fbab4; 0x15fa3bd8676a2809e23200556450ddb3f4c08de27df5c101bbb8c809698a66f544; 0x811fb1edccd4e2b961ce9607802aca67c04ae61537ae521f182dff0d05171e46e]);
ISq 0%nat [0xebbb26a2f832fc66aeef371e3edef79f7a1ff795c339909f44d9b3c519daae5; 0x96659ba267073698085f914c7e268638c7f43f8cc52fefe7d72dac4f02cb1db; 0x2e255042a4c2ffef5dfcd1995426faafbd5ccf9dc3757e79cebf5bc45b1ea787; 0x13ee45097faf9e83a2f0a16628c7fc99ebc74703bda12e24e7b2332d96400306; 0x28cc8207fa24df86af096418d7e85f1dea8d3599f7d498cc42882886c8e09881; 0x232f61e2e8b620cd3ff1381439c66506b2ff6acc50fd335cf536a863ac2f4313; 0x23072cb4fda6a33661ea6109bb83f26a85f09602c37d30bdeb4c1519e820775d; 0x2d8b135faa1b562b8b6b1e7fca848ab7caf433c19333d311d933c5a0e37cd1f1; 0x285b520ea78e393b57a1029cce0c001efb498bf040de39ed4a888cab7b917d6; 0xbab806df5e834ea9ff3e82243a3c86a6baf1fefb0b7721edc6c0d5a20421cf7; 0x2f3107fcc28642a4625e2cf13b0df4f68ccc6db49574ceacd1902d065630287d; 0x1629ea8caabdc19a3884ac23965fbc6ce71df4b28cc6de5d44be4591d9adde5d] ([0x15927f4b64847fcc2ff52f5972512cc9b9cb03eb60c7082b1d70b716734e3f6e3ba; 0x11661971744b3b99bbea92d662f9524fdb996b6af60173cbda08f496aed30b9ce81; 0x1776fa15ecda7873d1a4e9954f9751e6efcc62bd91308135233665368746ab82a3d; 0x131563ab0fc52c8393ccb9eb86b4a5e165e511d07e574103065fb725a669074a4b6; 0x9b2e9c9579d23baf672b0869bcdf189b4813d12535d9a16dadf2ddb8d66ea3e37c; 0x1d42b1ceebf7e2375cbed2f4de2b80dd16bf3b05e61b452cc42729765b95c7249f], [Nil; Nil; Nil; Nil; Nil; Nil; 0x3bbc6c352bc9674609d12e0b46e37dcdb5222dcd2826a641c919749b01e2690105; 0x30baf92b290847d464f74d467192a837197382818f36ecff596ab9762b766402a5; 0x406107c1138188d777af6572bb1b309d09aaa9be74d2d8e32103da93b340331819; 0x35625ab969a4292f69aedb4bd2942a817e24d3dea3a9c7eac52c74439d9b65ef15; 0x1c841d9a504fa093fff25aeba83bdbf04a9778d3e41542a76e5e36f8cc923a7dc4; 0x74d582884a5365400519a5fa477016d1c6ccf6a1c3174cd775ebcb831a1d3a413]);
ISq 0%nat [0x27548fc108aa10457322f76ecf7b87362d313523150b1783fcad5e303a916e55; 0x210b4b85b6fd338be10134c5f0c84a5aee2d5a24bc040c77466b43163b761043; 0x2d3a08a59d13c226468cdce3f41f1661316d5ce3d57ddd0403ab309c84121038; 0xda5baf1a347adfbf5240063b7b6868382388880490fe306771039e9fb766e7a; 0x786b2cb53b7da2c122442d3035ec1c9472399cfa5ab07ceb3b1fe3f7861e59a; 0x2e7d1d02da110a3156d3e1f206665b1dd9befba42024b8330fa9d81b2518d36; 0xd099c7f5e340625378958739fe1bcfd52bc6a7057b793e5e0d7179330a25672; 0x2fbf2bd6fa49c9e1e0f1da83c1708aa6afdb0a40a0b444101f70775162633053; 0x18631b9e31f7e6e062abd6ab621ded261e7a2da51e73ada999fe78f7464b4eb3; 0x2a4db8deb9dba5efe477f07747ea7a2a44fd6d00e0f895bbeb6ed105b0b7d27c; 0xbb5a12545094fc428d353e037ba2c9c0cb6dfc68e0685bf488a1a406c2b2b2b; 0xbde035cd0d8906bc8aa656e20fab2240058e76970a252f13df1fa502369da6b] ([0x15e7783412732d0d9e50e3f7048691bf216113ed0f5ae3313561cdac13c22d7b8c2; 0xc71e253203cded61956e74424949bc27defe8bc9fcfbb98c677b2e46e861f6281f; 0x17a87014b9b24e8650232dec20555762ea86cf587d8e6222d067b05682b9567f129; 0x12200d787638146184e07d8b206d53677c4c4bd4f4637b47f5852fec4d5ffb25000; 0x61836acf5566bc2821e464f94efc5d5dd6dda3b407d7ef77fd7c34cd3e8cdd5e65; 0x26d35cc5a365d2147b0a0ff18c355359203f1b5622e136ee557d7872f6493857a2], [Nil; Nil; Nil; Nil; Nil; Nil; 0x3d91796c500e8b796cb8f44063490b4d34431973ff3996d39dd1e6901bfcf8ac88; 0x243ce63cb18950d440053f50ba9905a306d9cb97aa2244b6b0d4226a5e8ad8d47d; 0x4189169944ef31845536fd20f4f22f960d92f385be51fd3463b2e4b4ec8c075b5e; 0x328dcd1b5307ca8aac0ff8a1f8691e3bfb8dbfa9dad770e1224be59377a82cb59a; 0x12d86fac5c53e4704cc6817bcb62c2589ba3d254650b3231ca94be630c835b21b6; 0x94e3b6c6e22a6797bb0369c091aa0ba55470b6a6939e8a68864c25318bef09c39]);
ISq 0%nat [0x1a0ea09c40aeead37f2996f58f06b3253e9d96fc5e523ae239e882d69ff8896f; 0x210289246f56190630bfbe83a4325b4820baf4204c9c2b1db1d78b82e551836c; 0x11458c10f3d612da90b3117ac635adad1982a8778fd5a421ea2a3319833466bc; 0xe14dc1dd3948b348c17fcd0c48e483728e3d17f9ccb75e1b46a6565eff4218a; 0x14f9719f549a5a2f81ad9e99dbe01c4595c1f3599c293a8b6742411f18973748; 0xc2af113d7cf56bcf7f712937ecfc554c3e2f89dc609015b8ef701d6637b98ba; 0x1ac8e5ac9dfc2fb7f5c742c0cc560ea3016b30af5654e2f1dd12ab40e73b8f2a; 0xfc2f3efa54bdeb3c190bd4d65d1af5f6dc31952dc8945a8b7476477acfd112f; 0x114a4c76a0cfef93b43f527a3c8dc1a500cb33ddb6b2df72f4b6e342c7f8a654; 0x2ebc8c102defd7b33c0827c9236e41f395fba04b50eef7a1c8ed3f157140d724; 0x2ca8ae92a20dfe6e91685005e01b43190bf3cd848912ef6d900ace997ab3fdac; 0x1cecd840544cb563b26b5c8745c46afd83ffa3022f2565618a38ca61efd6bc6] ([0x1b965efbb3fe950faa13e1cd5dd419c9e18015edcd92e1fa59087cfe0c96abf40be; 0xd167a782bb289bfc8cf6669044efb1de4b58eefe4fde970aee9b2f30728dbae962; 0x9fd351aa2cb43ade7ae7ee73bf1476ede8a9e45f1d36d313937d6540e1a08708e7; 0x39222cbe0416ca02f20ab2848e739289f78e6c86fa43e7907a360b54d8ec57220e; 0x31a5ad1bb05de086cc2a372e9add40d43c3cff9fd7e1b1694a8bdb6a013d00a832; 0x16f2e76548262640ed2aa22bc9c8093c4a377cfea5bf89f63d948dfab88f2e8ca2], [Nil; Nil; Nil; Nil; Nil; Nil; 0x49f5ff69383fc12ec7850253c0aab4d3eb42c474468b5202ab2c5134744406baea; 0x2408dbe160883364c5153373a931100d0db706cae9381ef893185c2f0de6d18379; 0x1c20d284aa70a58fecd85fd910c3b5f93fa86ca350b2b6750d66a968e7fb91ab2c; 0xb8db15d227294640efa175068e994e131b9f44ca10c74a97aa6ddd38d98868092; 0xaa0e5be24e25a63e98399f102832c581c3270d447bbc71f106c8acfbedcea449a; 0x5a30882aee34e8232e7200e65b30a2c84dd7a6727ad187a281fa35ec7d80d5caa]);
ISq 0%nat [0x2cb2fdcead434d6b9f168adb743bf0bfb5741976f9ebb63264db2e54ecd3ebc2; 0x19072cb8bf861d313c69522c15fc20f596fc13544c268e478a963ff3c936e91b; 0x278f61a7f94e1583f95009bb391c4bdf4474c95793fe1faadec412b906de03d; 0x2ab507080f8810084ad2a1a8200fd54751a996785262fd5a5662da9366adbc28; 0x1203ef69cb695372f161ac9e78cf84d1db9bf5e5be1563d2b149633a899a88ee; 0x17c17d69954c292f37c85c4b8cf4c1b0de9d8885fccec8355b4d506d2f153d28; 0x13c6158b80e3658d5a17cb4473b5e630bca17586f4a3f54d2e96c0d0a929830b; 0x1d2d26a2453c7287053a6c37fbf150eca789064a46d2a513d52c4b3087205b0d; 0xd77436e1bf1d79fd7352ca4b5ff83af56429f1497864a8992afd595a76efacf; 0x2119db44b2cbee696e1e9417338808c707ca9d818edbf610ca0c35eab436d998; 0x4a54db52f4f3dbaaf8fb7335bf4ab8fda0f485111fdbe4526202ec9e4437e3c; 0x2e20fa9f03e3c35c5563f5b009b8ad18daad6bfcf6cdf655643ba9ed1d41f72e] ([0x1e2c86c5355a23e0ec79b907d3c0cc8edb95f4f051ff2575b002bfe34d85db3dfe7; 0x216c1b5012f5eed544f3fe6a8454f4e406a10f6b6347c7de05dea5a57f3720b58bd; 0x11da3442bf1b0544e2fdb4aa03e7a8b27e7e03828227fe48daa05fbd0bf31ebc461; 0x2ef664d6208b9f7d9bedf9fb7bd4f60c98184f4298062ca5814f24414dbe178414; 0x1c0f2a766820e0a8434e9d92052d68341ec128e5b3ab019c9d9b268b7277caf122; 0x14746df0bf95d937204fd5a0b4c593ec8fe9d71cb324c30bbc0f78db8e805bf6b4], [Nil; Nil; Nil; Nil; Nil; Nil; 0x512ee8b9d4f3005ee3e468b52dff612c0400df58d7dd1e24d7416865ff8d739b3b; 0x59a97696f770614ee469df919dfa364c7c7ab1b499231e35695f2e2638e64afccb; 0x30b600f065aae2532748f279e39e52d871bde2e855ac47caea0e4287e58e9f527d; 0x9b54204137fa8deb63e1abd029aed7e4b19a0c753958aae4722c02361aa951c00; 0x6cd6e8ee43f47d4f3d68c2593fa197dcfe3a664f7945c6727e7efede80d8f0adc; 0x50e4155236b547123e9929c65f9fcb047cb49f975a1da902b6236efd1d89cee82]);
ISq 0%nat [0x258d7822f414a810a9d690319b3770faee1dfccf4fc33e13bb8a3c91fe31d403; 0x22adae4793ebc9cb3b140e9de4db7ef2b490e135d19e85835a413f9c33df053e; 0x29ea1742b5488de4a69f1dd44f3dc141599f4c80e6fba386dac34f05c206866e; 0x2ebc762a262f4490b941c5f67cd0b16de36f6a6978b0111dfb31d45433571eb4; 0x2dc1ebbd1f46aacffe1bf4591e17bab2c24a06120ffa4c5a46a3eced1857b32; 0x1860a634df556938145c459664797c814aec38879d964c9b06862cb49d572697; 0x13b1f16a930208bc082ebd80384280c02a1ea6f4467527444687e19808ba538b; 0x2636f8cd36b955566e3abc881e66d5eed405be16b228ebcc122817856766776e; 0x22a4c6857ab51e2b41f8274e175ffd8f9efc892918b6a4f5c71164a7080336a0; 0x29548ed8f1bc55cc397e59f2570f3077b74603cd4aef9b6d768c62db5a5fa9f2; 0x132b57b06fd6c9715ea7d7499928d3e98baa7837d40382e8ecf7a31452327f96; 0x283609b4e5b8d308f090f8e003d1b0671fdf19310576da7ad0553207ab584134] ([0x2031f2b3f2de2e26217733e5078fe32e50618e9bbe9b198689b7429c979b5f8a7e7; 0xd0620e64092219d5a114677d969be77ca33ce21e9d681b53e7e9eed7ce97e91b1a; 0x19d1b46533dee02d9a8b0f92f3f780ecb0cc196bef0ae73a97ba837bc1bcabfa231; 0x4d13723add0caccaa328d0ad427d04d8e63f3f8dd626576b82db6b54c7f05b74de; 0x11aedea7f0343c65efdc2a003a6fd5efabb9eee7e9607784adfc4f29ed8a004e8d5; 0x138251448d746acdf92444789dfd4ebf69c378cef44763167808b4acfb5099eefd], [Nil; Nil; Nil; Nil; Nil; Nil; 0x579b3a71492e9e17b95a30cd2012003605cb4da52131cdceab630101da2e518861; 0x23f28e55d3867201308894ca9268665d70d7ffdb6951c1814425f2ede391908dfc; 0x46c0db33fa193e9452cc5ab548bcca4207916b097242cda836f42456966785aa3e; 0xea98e2975e8ec14edfcef78affc48ae4283bdc8af2b246eb115e5882ef76eb37a; 0x3090af6d366dbd28bf884e43b96809b82f951961be8b11d9e0bd502adeebc2eab2; 0x4f54ea3c27078b2c0a39b57c40ac4e12d0fb98dbb2cad1a71c66026fc9d7661a0]);
IMul 0%nat 29%nat [0x16f130434caad67d913108357983470de0dba603eac34e420fc8569f11f01b79; 0x2c276fdd9970fef233bab4ec518167573fcf7e801f67b828a715017ff77b87c0; 0x246c1798581cbbfdcc5f43dc0a405396794ea694cab8200f7dafaf022ab754e0; 0xd72d39d6edea636bbc14f73c96d366cc951bd03f9964ef6196aa231bd62791c; 0xad1211abedeaa09298026cdbef95d8f22bc598d2b53af90a565970716daea0; 0x1d070a608680ecaa913791a30fb419e77b189d6fab910eaa4d4639c2d7ae24d9; 0x12551ca15c6cc7c702036172000a83559d7f6940ebb3643a05e2b9f58728d570; 0xbe931bff592a642a1e7e82f86ec14978034d0f18981a7304188cb4464b2c208; 0x5d4b48b627bc90f38454247862716b9de9b0692a967149f9b8e931aef8932a6; 0x1e8be940c4406cf8a013616c71dc37f5e90acb0100b97fc43456cf87ee3d1c48; 0xadf45823ce41bd4a283565bb4858cf0b67e170d910081c42fee4258e69065cc; 0xd1ba2c138d658421349e0f9e9705eed2b16a329377ffd99a73b02052705db9a] ([0x23642d04a0990ad1450b92b5e90794d4f5cfd204e2f3b9dac864c9ced261c7d9940; 0x222ca7230a3c811bb0711f0cf3984d67fed5de465058bf4b0b96499423136614fc3; 0x1925784f9204a88af7d45b5053fc854d96d4abfd94a5c0d7e647f48219a9b37f1fd; 0x126734107bd2bf479ffec8452e83b4d3d280eb662422885b85dc34b849d636e029f; 0xffa482917aab98cd1f89809ddc47d5701177b931fcb7f92fb2d0fc617d0acc8d48; 0x214e108bce0d68046298f02fdbb68390ac35b1e0d9f114d2a0197c9046d222af77], [Nil; Nil; Nil; Nil; Nil; Nil; 0x6016f7dd142df11ee47ce9f76c5291358bf084b34aa072317a6eafa00d926d6b98; 0x5d7053e42d18f54096ba7613ce5ef8244e1449e5cce82b870d41ceeee10cb3bf8f; 0x44f73c82ba6b7dfdf5439405fb5a0682d5e028caf224d7312ed42b189dd81bb67b; 0x32cf502919682364a235f12577e53b5b1410bd649ddf14ecc239ac90ca0c4bb560; 0x2c73b1a044cc2e86eb556043ee2ad29e7b5127c4297454e7bfc3c4fe22274d5b40; 0x83230df7ff7f2aeffe8e2b2a85550d439028d3cd8956074ae74db6e0c200e924d]);
ISq 0%nat [0x242be0b33134dab749c14faec3ccc23ce590425d15e7386111396e2bc047d8f9; 0x21c7932acd06cf745dcc541ebba98ef33128164e2ca18bf4ef74de9c60569c52; 0x2a3e6d88b31d7fe412948f889db2e35dff9305a624a8b935119f01dda590f50e; 0x26d34f010b20a1ce621aa8c43ecc6930f1903a794f8086ae37ddbe4e0735520d; 0x2b656a38664b465824d6fb61b1782417e8fe6ba8d9d1c5a5fb954b3ab2ed7b51; 0xf613632396c15dfcaa4af82f18404d08204623f39b85a89938a4ccdd1ba5cc7; 0x2a0a4b6d35a18f8de09944ac2d9684935ab590097d666b21ada9f214822baba5; 0x7fa20033cfcd02da3e57d4b51dd2b620c3bd5b7a08a46de9256039df379e391; 0x1e578084767e1b18f5bfea682109fbece3af6d64e2e413da4920fa2841656303; 0x2048470acf03602aaa4c9b57796aa056f416d0b3b096b11bcdeb294c96c31a79; 0x1aa100d373abdda218413ea823deb44384e1d000c8a7f3e51cfca8485cfa2e0a; 0x140e8c094ab77f4dfde4c4b78595d0ec54b92849d3e2264fcc207ac89c087d36] ([0xbca2df18cf1ad9e43a360b5e18296a638af5860783ee83134146989989c3299698; 0x6ed8dcb0ce25b644d3ebc3d38aa990aa483f7afee034095886cdf9962e21b49f26; 0x7db9de33e1be39617678303dd33c7461aa4e006aa653278ef2c4ffb6174f5cec02; 0x2e470c379e786a0d7adeb6bde4ef2e49ddc120b1c99ae9ff382c7faad0ff3aa013; 0x20fba80c6c87c0b082986d431968ebe0e38b10700696f22a82835e329a9722b767; 0x70fdf51e842e82126e44378aecced1daf381176f3d3a00ec83c71cc27f3046af3], [Nil; Nil; Nil; Nil; Nil; Nil; 0x20a0d92d5898f0acf2fd03560cc4f268c7f4c03b4e5c1a075d4bb35215b08721dd; 0x134e8ab56c7503cdddffffb583444a6ba7c0835ee2cbd5391527071ddb0d0b0941; 0x15db5b900f62783e0d6c417335b44f3fa78f8931415c65c136130c99a85494ef37; 0x89b85c1672a51e2d034f088ebfbaa3616c06eec271c8a666fa2033edc34fbc321; 0x689420fd80ff09d4270c7e6c4adabfda1a11eaa7ddb25152a84fb5bce271654d1; 0x1ff6c8cb8b77c85a434b33e694b3da92ade45ea57a8d7b8b2441ba0d257d4a442]);
ISq 0%nat [0x2fe57c76dac8de31539f48d875f5ae437312e172ba8f26483a65ffeb8b91b714; 0x12333e1c599eec86a97d1333667a5c01cda9fc49e3f74834ec6d2db9ad45ef56; 0x23732f586929aaf55070c758e13048b8d63c81ce020664bccadf33f4c1c07fb9; 0x1432a9a066fda3286310bc7cb7c10826fb432e86ba9e24aefa2f6efba22b7647; 0x278a9c55d54079370a3c6f65b63820e70ac73b3102fbcdb383532301c39b24fa; 0x2521952782014df26fe1ebe9061ecd003f65cf7aa24beb82fdb4373d6b089387; 0x788534d7bf9fcadc92a723bad5acc936e437bd809ed1f949e930770a3c57639; 0x2c1c5cee579c0418d86cebff910283ae6f11d28d957c6cace4fd88a79b0be1f3; 0x184ae5d572d7dab28ed0025c2a080241ae5fe0ed6dec1f20bf99c231243a0951; 0x101334c51c72853fab4d227b125189f616771ed0522ccc3b95b11adb294b3ddf; 0x2f4aa2d57c7280240f263fe7f4e00fb11d26a5cc2ccf9e4de6a8d76102044982; 0x1ca1c0aae6ad01f65af6860dbd82bfdcb58a5e78252ffb567d0e4c59b5b76068] ([0x1a9ec67386c97fb6d9ed269f3969b904ca85e9e8383ea0988fb0c419f1d74ae53d3; 0x193b9ef53d9d6cea44bb7863d7aef035cd6403e78792ac2179c9f483bacd9d0aeda; 0x11febf05a41f958bec2b184e591f87843ef7f942d2eebbca6c99a1aae2456ce3e85; 0xa4ed085f11ebd81923bc8999cf07d7810d8e47e04c8d7df92d9701988ef7c65143; 0x4bb9f2c44d23748fe36ba23d57de1a3cd14e1a00ba1df3478aca563975bab6009a; 0x1a59a81068c6cc1f2b9b1c39cdcd4a955c7c90c6726f70fbce08adb0427054cfd3], [Nil; Nil; Nil; Nil; Nil; Nil; 0x4a8da2bad92c0fb1ed2f08690933fc98b6341a8ae269a0cdca2c803fd2b39ccdce; 0x45e1e410d1ba267fcd26f1efba5aceccac7e300fc6750aac5e9cd86357bc14d753; 0x32c46f413878850390dd606f18b096138ab9705dc8ff1855ad6510a711d96f4a7a; 0x1e0345592866098f5daca630fed27a9abe76fa8f9bea4b06a5a9dbf7510d44c40d; 0xefef804703be4a1b8d7a863410e4463554572fad0b14d67c8d6a2346e3d1a275b; 0x6bf37e22930834b130a1b8913e3e32e818c132bd597378639cd70ddfb79996de6]);
ISq 0%nat [0x24c14e2ae91260c1d56a758c7695c0e655fb6ecf8b6bb7f84e1c2b34f0271643; 0x2c194da6d69c61e1d1974e294c6c5a7c4ffa2062ddd2178d3c4cc6a85d0b3ff; 0x2012cea398a4739ca7d89947216c4b77b3d24d52617f86447f574ff8b637785b; 0x34da0ec0874a0db4393506cf2390902122d35d3488723a4cc309b0145a1d15a; 0xb91065ae2e5334c36a3378ad97d1bb24c58c81b1b083e0627340712ea467c6; 0x2abb861bf9d5e9ca714bbc5f93efbcfca6322fe12c166edc2a648a2a8a95cc9c; 0x11182b25c7a056b7deca95f95de2463e9d7b95e349ecc9ece2d89076f0710e3; 0xde9bdd4c6b87742e3b2ff0b45311a9ab3a9b70858333ca2df44e2cf3e788c96; 0x879daccfb33d472578829f053e67604fab2f4b6a9624e5c1a19c8a64173c3a2; 0xc0208abb85b50f846325adb7453c21331a21f328f8a48544a139059e481b2ab; 0x3008a67383b86a014d8b72ca0d88d9b8db94d0219762466456eb563f1b4519ca; 0x2932c346935d363bf0b2adb2207b12de85463fb06f632f7aef42c94a1389c739] ([0x2a179a75c6ace309ec0e52ecb70b6c4392dbc65fcf24862ce6d4a3e48e0d91ac157; 0x18d96053f7178e44c8cf0af66ac9985ca2e4a8973d44d6ad26c70d66dfe2b1e7111; 0x1af742d36900d45e98e151471c215fb7c820845996fee4037317344a038bb9d1fbf; 0x1786a9cf10777c10161d44d45abde578cc4901e32402cfbd6b645c50f63acef123a; 0x814a098243e135d00d0469b4b63c31014c56cbc0e0f01191b09d9d8792f38e4469; 0x231f2caab5bb2dd71275f1454c547d3f67725d707f14a119ea77d56940f04f0d6e], [Nil; Nil; Nil; Nil; Nil; Nil; 0x72aa24c14ecf649f61a9c572b24426bc0f63cbb3b4ccab7dfef653ad54f5aed07e; 0x44bd24d4844dd4140a6c6a69d8f4d09999b3c372068fc03329ba2f50c62adb1778; 0x4a7c90e867249de25060c722dc54c365ef1abc7d9c944f122a528fc1a3d811cc2c; 0x41783aadfd4b0fa7a0b42170654d7d95f848218bc2fcdbd3620a3d6b7a5897c6bf; 0x17e970445a2ed4d57fe075f8482f9a7ed5ef268347f361ac3620c9bbe67b9dcaef; 0x8ae8f0a2131bcbd60e26dad2a0adfe4b7f0ab9c52b2476d5361abac9338a866cf]);
IMul 0%nat 34%nat [0x73a8073081020c61d144c31260e37ef10b0ce772580f20a21ffd3a2708711b0; 0xf197ce4352c87236c0dfad98a4ae37648694bb27562e5ed44a2425ba4dfbb5e; 0x19c19d4a1051d79e74a8623edf04ef6892943a52d2db4b46ddcd2de59c67413c; 0x164cd63a2e27c0d3c1980523b1f12697477b1de6504b368b2b4c6a59061bae92; 0x1f71a007c837623ba6df3108b644dd758cc4416c1c263fdd0112f7684195ed65; 0x187f171faade20fe41a84195ec9673b557416672876aae84b92fd8ba83c03008; 0x15573a11a6309b7fbb22c6b62b39450700d392f9f86c204cc8f0476d3fc7fe03; 0x204e2f9a84756484f63395a8e372bac742d512e2fec091501c4e1c5d085f1c38; 0x13f3b52a7d83136d9f05947a8bfa1ed19528a88c6bdb7240c751921f978fc966; 0x2aee6be474a36a92f630d940d899289526a7fda11c6dea36a9f1ee2b4636e266; 0x7074da3ffbe7beae89ed1a153479fd5a6d5468d3af08cdde1e290de98fdb0c0; 0x3961ff20f5c1e32134f44db1f7502a786bbc0269fe469c750138230f1716cd5] ([0xe4edc24f7649d526ddf1f5dd2fc02bde9b58812517387ec75034fd48e52fb35ef8; 0x9950d5a11b227c9b15d791ffaf4949533c4a0aa5c294ebf95c94a601aeeafb8010; 0x6e9f3264bd5755566662ce65a744b0516170f0b2830b5675b2d34496412320858a; 0x514c7fc0459186866aa6d911867be8efa6448c68eff73870ee13207ea3a6692745; 0x383b33b97622303e9ce7f8b4b47901044b5d7ba26eb329062aaba405e682b9d706; 0xa59d1eb20e6a0dcd32c88d280900d130026d2bfaf1429e7e3984338e956fbe63e], [Nil; Nil; Nil; Nil; Nil; Nil; 0x26f62134a32abb5d54125ec66816d2e21eda10d16341eb483b6c2a1ed1352ec63b; 0x1a716c51228e4fdd955c209466bceb213ebdf24de2c8203a927508105a9efdd315; 0x1379c0ada551626210f225341192a74683de0fc8d2175a5fee0b66662d13add7de; 0xe8919b63dfde3bd0d703215584c16e05337750c06bf62f4c6e2ca2d500cac73e8; 0xa62160c1cefc5df0fe146f9ea84f9626125da17e24d9614927c0f57d9db835def; 0x29fc99522a283b8410b80e0056c052e6de053c3a1aba0adb82385888d6374b544]);
ISq 0%nat [0x2ed98b9bb841a60c5c366b577ba410a8511597b51de6aa611bd804de04770247; 0xb69d4e48bad6b0c621ae5ced644d696ef28e2468aa3435f32d28c2b59241b14; 0xac309220a91d3647adf4789b19fdac238c38f6a5895d6e5cf1de306f0c2bc30; 0x1b20e16f0aebada618743e47d1bb91bd8e17d3bf713f40e5bd0d20aa4a450aea; 0x252d7fc7edcd650621298c679f579bd9c3ee5af342da3cd3c587878ef4100d64; 0xa0cf2c0e72d5a681234774c4f9aa31a76342536ef29621d6f3c336a122aea80; 0x14ed0db85bfd0601d2ce5b2ad0b0c63cedea7c5fa222376eaa39a7df92770e5b; 0x1b4d29f3e9cbd28d359b81b9a3cd5930a1aff17cf6d374a8a8ccce09924e9f0f; 0x15932e12539e47dad0cb046b0428223b30634f7744332d74336e296775f24b84; 0x25fc472b0388e57a05373af6c0c358363a1211673908de49a0627161c15617f1; 0x252faad7b619aefbfecfe5600099740ad9e42e0a2f23ddae33a09296501f6c5f; 0xa08214f200b16cf9ae0baae09c34bd3fe022f7662f90b634e476d2a09455a38] ([0x13e32fd9b8114c9666738c42f727db9850bceba4646967d117ab5e9cc097107a4bf; 0x7db38c4f9c954fd1fb62feb4a96c92d82a92e01899a636d0345e6c60bfb56b6094; 0x48fa69382bdfe6badd1466a3af689601df07fb87112b116e4b71fa52b5df8b8614; 0x1e5a007874e16d14be5bcb20a596765505fa43a6df63d08c7c1289187617f8acaa; 0x19882caab595a6cc58b00af88012412c9f564131bf7e34ff55152a2c0f3f674578; 0xf291c8a40ca56095eee1c38a22a891828bca2517633d368a37bb4cc3403751030], [Nil; Nil; Nil; Nil; Nil; Nil; 0x3683da2b3793c9104c48e5c37e4344b1af8782c4ec8874ea45d37d1f692525265d; 0x16f5b3f61e86cac12c5b6deb3214f70018921544189683a99ca298885ca5d4429f; 0xe0612d00ebb01e6b243ef2c28fbceb4c78619a6350a18a8fba73e2ba2f42944f3; 0x6c8578f2a7d0d09880f5d21bc7ba1087575f9f6d8b54a851b2702c2217811ffc9; 0x605237efab328fc80b13df4daca45c4c2c4e77cd506ecd6ba901c4d2f09c70957; 0x3e435f1eb1094d4517a18d541b0f97ec23756d36e899e3ca3551ca6907dadba04]);
ISq 0%nat [0x1eb6ac92f67a50b0e42f1be4d2884c2cbbced7a9960f4f36b37bf64677241571; 0x26f7bde1f8d80d59510757aaadc04b80e333d8a3a4a06443c7cbf2765a1e8199; 0x2f4c400a03956a666c82be258d5a26039cf67d513b66a2aefb6caeee51080663; 0xc722ba124d9112bbc7b694cd0d15ebd1eb92bfa44e49bb49052819d8315e0a; 0xde83ee3307894a3d1d69ff34ad4ecb49102d596ecb368bb963f97fc1944ddee; 0xfe31ba3063c0830218a8649e5277550a6c65df83d8cca130b27bfc1180184bd; 0x27e2d709416021be5a8b053da8eed007c5122ceff0434b105bf28e2529ce7f06; 0x2fd4ed98366b4ce3887fe8754a68bf3d08b353325f5fcee965a958d61c9187d1; 0x2d6f8b84cbe5f5548853aa3e5f55519091724353ec00bfbb3d7777866fb756b4; 0x18a27006cc621017f34411ca38e62b6c667ff319149578dfeb9e10969f14623; 0x29ed92a2f06ea5f8c55512bf4a96fb93dc9aaf1a879ee46be3e8543570e685df; 0x1f297e98d7817f313e6c16badbe36d9ce0a69057ba7046a1fa3afacf0933c72d] ([0x1d1c7ea6f743163546c16d979fcbb71ef02594935305bcf2f8676902bc29f5cf682; 0x1affe1c6a2c0e2f6ebc3eccbb3662e429f1ce9f97b38f140cba4a7c799f4bfdcdc3; 0x12555b507749760f17dcec9d93144d5733288a09121ba38868a860ed6bd34079e8f; 0x74df6c26f3155cbb1c028f8fd41b557fd5abf5db6414b3593fbdb45e6d98febeb6; 0x28188bdbe94be0942d27c67a20e744aa0ed5abca5b6bc1c618db364edb94281f3a; 0x1ae068aa45fc5cb0fd3a7604e19ba06be98ab440836b4879c44813b7c44b110987], [Nil; Nil; Nil; Nil; Nil; Nil; 0x4ec97162991becb95c5aae8ad23c8479d9ee697cf29bf0bbad8b6a6e10f99c8a1c; 0x49b5092c9e20dbcd3e6b33aa82f1c7a917493cbecc9670817a447a895611375477; 0x329e5876c0bc9ed8213065cbdef4f9622d565517f80e4e1326682a09bd07a52a70; 0x154adadb919e3065fdc792a921e84a5282beca446a145cc8be0a12767c2db19f25; 0x8da2b4215908346f724b252324cc445f57409d97dca70aa8567e27bb76d4bb7d9; 0x671cbb1bc68a5a3e3663ca6bda631fd552fd30b1db9ca439f74a919d1abc99e11]);
IMul 0%nat 39%nat [0xd05f0957dca68ad64d8134e8d86bb79c2121ac15c333aeaa448eb306a2843c3; 0x4937af974384f9eb1947a88c47997899fcac4c9fbba3b9030fbd209101ed942; 0x5b498d56b255d2c8664d01a44f47366fe9b9e10071073248a8270d3b8aeb0c6; 0x11ad4eeb5b23f6beadc2ccac676ef2e22e2aa47871b2957c1dc3d087ba463e37; 0x2ffddef765db5d4e10a7d0ef3785d1e5f28743114d8ae181afdb4cc9c6e18e9d; 0x15ec8c74d4f99dac1ede9ce3f7e3f396bfd33ca5ffe6c54913cb0c197c0d369c; 0x1551a9e8fadb6c2cd8feee25e4e46d3ae4de6834a62428193d4917401e010ef0; 0x1e2cb9c054e7575a9c0b7788949882a7e580c01908677f5517c6e186d3966dd9; 0x277c8d95459325acf8106d6568e5dfe164ec1d5eb6e1c2dc39cab76a0118a34e; 0xf7c623b0eb70cbe5aff3e896593071d6f5ef2688c7eb75be17abccaf1e9d16f; 0xf6b70d7c584cdeea5d3ab19ff213cdd3cedfa996dcd8969a50497b215fd7d33; 0x7b3588e3f4fce5ae7d90822ab922124e7e13cc29d1c6e100f0bb2f5e693024e] ([0x1d544953108d0df95037edc92ee6dc29d4e22a54d8c8da686677bea62068e567b04; 0x15a9148e85e593fc7d882773f4bef4064cd70f3ec587fbd08fae700b493d5cd851f; 0x17d1f67ff330de286d9eedee24282d096da2dec8333449e9f7db164a34e58521f69; 0x11e9e872b467c765c49d07284d34c8532741a271c4f87b823ccdcffa5aff67e5605; 0x715e8f923d83892b38d3b962c5301dba6805ed88f83c02680a623dab4392079ab6; 0x281d247fb0118892f461a03c931be98f32bb5be2594dbcdfcb4d21c1e6d598a246], [Nil; Nil; Nil; Nil; Nil; Nil; 0x50c24af99498cb6ad4cba2c80ec51f49684230312d88a4363acf6c0c25c6bf3601; 0x3c50e2707370456e4390a46fcc73d25e3872b409a311762e605dcdd0fb20505028; 0x4100179e15a3cfa45e995ff5be7e84473fa15a283761a753effaa711b08dbb7615; 0x3166a1a72ccfa3911acf2cadfe175e921e8a2f5d5266314e938f73ca0c44487b74; 0x15a0105a7f254afece7f1cd2130e4432396bc45a89a38f9dc170458e47e02bef33; 0x9b2cf17adbf48243d3c9a0110d1f399bf7be78429dd5a7b14449b05bb636c9731]);
ISq 0%nat [0x2bde9031004a47dc876fd2c1548c1b92bd44a981f71d049a36ab9819003208f5; 0x1323cadc77b4e9c494ef6915b024c7b3b08f9b38aee729c1a22b274aa39f1210; 0x27dd2e31aa2e4054ded989635614e40d43124130cf1ba68258a68b08b340b27f; 0x24f1c4d2c6f88e4ed9e3a56ffe202d159f4ced470430495adea4b4d808cd3956; 0x2b09f60caa0895a0fd5d731cf14c613b0be12f71276937b44d60609ea0fe566d; 0x1ced00a9dafb2046cb8b208f0d36f83b6ba5261a0e284e4a12672e78a0cb8bbd; 0x2d71327c90546a2d7ffafef98fffea6eb17f035cb231500ae0514f6f130ebfb; 0x1bb9fb82bd3f06156681c62b77dbfb5cb585119f2a8bc654837f936a039ec2cd; 0x1330098806da17d1e717fe065377663ac8424539ee4f854f90b9469617a75c06; 0x2bf0477e67393af2fee1c4dd762e26ab9e9429041990f6b2c01730756aada317; 0x2c2435473ef0fb4cd4dc09eb4b9035bd6d7b4ea62bf02dcfad89a3a612f56261; 0x238f839326de1964d7c4abc10d6d87daeb198fda61dd30848a001c421c24c761] ([0x10f1f9c10f127470c0a5efe955833cd9633db8aa010d916ecfadb09a1452ca3e0ec; 0xa35a34bd6fb01fc040e0d59cb2e3a06f79b82f5de834acaae1b45a688ece040344; 0x59febf4c79287fbf5546450666383044c696426040951692fcb3c86e4b91a17da7; 0x39c3ca93aabee37fbd961c6cbbf32269f5d38d98a4bcd1dcfb41bf4f627d474cbc; 0x1e0ab8546e8b837a91dda2a93ca5502fbdb3a4cc6e0ce6f3078aa3295cc7f1a835; 0x10547df588522a0bd918dfa6aa7e24409b5470dbb9cce5634c4df5288b34cf9297], [Nil; Nil; Nil; Nil; Nil; Nil; 0x2eecadf087d7254b82509624430d3f44df4e0eba89586173e27db893713f4436a8; 0x1ce8e91453cb254dd506411cef50f92e277e7f791d9dddd89f6ca85bd48ebdb3e5; 0x10fa9e8ba2fe1be80ae7815561755be2688c366ed604f427862c98235a10e9be15; 0xb6ffe5049eb5c8c5a06a4a8093a61bb93833585767da517bfadb5dc72b9cec5a1; 0x6991444e94b3d9fc4aac6c9eed24b3940b67707ebceae8ff4b6b60600354fcc79; 0x411e51b934bd8e29fce568b0bbc15a5c63f628930dbcdf430c9586269567c60e3]);
ISq 0%nat [0x21036f78be7d58dccccce5c9360e196387e5d1ccdcb1ecd7ae26c0e56a865760; 0x17b8e691eca16026cc36b4c85adf1c3cfc20186b2c2c221c75b73393b1e76169; 0xd77a67c4c3499dbf086281815e11019270d471da95cc886776174d87434020e; 0x7d7aecc090290a6a01498b3f66f1072cfb8710d93b01d662725a7ea6835e625; 0x1425644c56cab05d5073867082ecd072d49f621f2d1067cee43eac5fd7fd5281; 0x1c90069d90d79d17a45ff746c93267bf9e6bd45d567281e5a5efe05f5dfa51bf; 0x966e74a5cc311143d93a3607ec64425b70c7536d0c86f9ab990fbd1c4148be4; 0xbdc29c79faee2c37725badab44a6c52b87aebc4573b0d5379d530acecd8e0eb; 0xc9994e165e7275a73fe096d579c2a0e65ba8922db47180d94e496efecade247; 0x2941fb0ee1e14a2187769f4f277adfb5c1b94f6a9897de590244de6c39d5df0b; 0xbadc90a624d97b7f6d5d23656758f470d7126b16672007179b8557070325742; 0x13ec0768d06a7d1824e8dda94436f6e4de4242d9cef6b62503255b9907fe958a] ([0x2e608711fc0e5fa3c8f0d8823f750915556b06eab64b18192b4cd226d202ca41213; 0x2ba6649d7e3f5867672e89afe5d834180615c771d912bd07f81a289c8d66469ae53; 0x29d566b10d588b31ac1ebe6fe9b03d75565fe0c51962a5097ac701ca8ef8c1a3d3a; 0x1a38409d27ebffce34de9dedaad7767924382013e9e38d15c1d1e7cc3531b97b1f3; 0xb7f59480cc4a68fa99ae50db59553e5e0ff196bf37911910507cfbf8c078b44d7a; 0x1c1fdf173add301eb0bd6b76c7ddd7194469e46691399e2256d3b49167edd89a67], [Nil; Nil; Nil; Nil; Nil; Nil; 0x7e5f4343602c278b1809171eb8c969e0bda02ffac9170fd654922335fa92d102ac; 0x7746bea0df6258453230003e7578702897179fd960aeb80e9c24275a753879c737; 0x71f9f154a6423b36714c2ce2c6e16a295f8c3ab7a78b54a83c5316490d3d6015cc; 0x4828f97b7c78769c42f476deca4827aa7875512cbe6a02ef83f6e31a77ca2729b9; 0x20f4a7b63a2f2e41e6d4561379c3c71d577e4dda2ca302cd8a72196624ae19ff33; 0x74a99eca78c621eb046d0640a63b51f3883badf7b12ad7cbb945b53a8eac7629e]);
ISq 0%nat [0x1b6b9b1a053d9cffc49d6eae6cc0aed4ffc99db9446c0b5aa5a8f5feb89f0eba; 0x17af49da4e2ac3f505c4fb0f212d3b9210ff5b08e71644d5de216786e017a7d9; 0x246f88d3798c7d3c35e8194b1493f0e2c1a225a687eda3404d0756f5fb088817; 0x80a669c3a1e66273fb3a51675ed00909394de252a413b0a5bfe27cb1bb25b29; 0xeb776d9948a5a4ed6c54283d8248f8b841de30cb2ce4016de1955fc4cf63639; 0x299a17b098094df1c68400cef1b88c512155b4f70f90057de1eb3166212dc08; 0x297738eb2cfe74963b8d6c4fd010983b8bf0731f2c30f0219171035ba95f019; 0x19aff9e99ec94e578d46ce852d159f50d41d7c3ec74e6b687376ed350ffa0620; 0x134a014552d04199ca7c97c8798432ac6e3c09b09e68ce93aacb75b659601ff9; 0x112a524f7af2ad034569f839217d984f3bfd5dae59d77b533415220e43c7a55a; 0x23493883afa2747d02db170d6cebc8f94b8eeec63fc4d31c546a50c411f96cf1; 0x18a215cbf9c908a6821d6e252b30eb7543d242d44dbedad5d4d022f57821ac13] ([0x13b23848167545bde0ef6bce335a81e1981d482c484c8fec0eb42b3d2186fffa94e; 0xc4839756075b84fd66cdb41987017ff5b5c0f5577f1cf6bd149b03bebc0afeb0a7; 0xeb465e49d8c393178270a4a66f219b9bbdc013261977527328f1fd3d7f95eeef24; 0x4830e8076d37b2a5a6bfd16b649f467e6ee4a932c61fa5137aef08e96dc5bf06c7; 0x3fa65ac97ace4876ccf8dc1a1507a6ea268514d6ad5c0f48aefb5ab626b6ca8e5f; 0xaf2dc7775437fed4c93bc5f873fb8f969a625a328a31a5f7cd67c3ac7f427bf5a], [Nil; Nil; Nil; Nil; Nil; Nil; 0x350fb378c49965412dfb5f545891528ea8162198901749cb4968732c7c6e7c4840; 0x21a6673d8ade5ceb87f5dbb2858ac93f1b26a1e610abc9388c39a4c63bd7ebd172; 0x2816eb0efbcd150deb6ef357f63a87123bb1730b4cdf7010babde5491452386086; 0xd2f9a65376ac14b3b3a4eed23ccb6451e261acc61bcf00fbfd55db843586be33e; 0xbbcc290d411ca2c2622c9c2fd8408f20f8a7cdae831e9d6d887583bf0e62aac0a; 0x2cbc3c0aa0021d1f6ce65cfb56de24f534fcb689ec1cdb23123a1f00bc6389f73]);
ISq 0%nat [0x28e818776df0af3c79f10fb905d94c3c4917d3960438d334283df6cc4b6dbc4c; 0x2d05f01f49d4cbd7483b7a7563f4dc2f635bcd3b3b58844a01285acfb1bce805; 0x135328946bb26e704bbec70b62082beb9b88e95ffc273af3bd60c4bfae3a785b; 0x1614df19fe2f6db48522e1adcc17a7f0b6caf1ace2d9b91e24ed2bb1dad4bb25; 0x2c811114b6c605017a5d0d3f79a0ac3fea69147bf8827d543179953b11633f6f; 0x1b24eee64a42660ac775f336b05aa6223de732048ba39053d39f14fbe26919a1; 0x1d256bcdead6c247bd2b3f7e45cd5d89f2bc340a0bf4c2df79e1df410834e01; 0x22c913cff4b21e97286d9a692e5618ca18fdb7f29f2277889b7b7ccc0bb1a5e5; 0x16975522b9f460fa9e1db571f1ab6d02c80f1298424c373a5f79a36018e7722f; 0x2233c71562489cd9940950441632450b240cb4ed39ea1b232151839478bf8900; 0x246c6c4c8f5d464d4916a449a59d44293dd568b00e793ac7bcef11d386c605a4; 0x132fa71c195abfd0ddd8d2b3132d32c59ff5388e4cb5aeca648581f2d3a78cfb] ([0x17b454ee58db71ce641bbbaba14202f95c528a6c5157f52ad292d05e5e0b57a7f8a; 0x115f9f3edf48aab58d845de82e240549da43c9fb393d3a986317b998f93992934df; 0x10803c91e6c31d07fbf907cdea29c6c71d3bc3e501372f3aac16a2f6f9b34a808aa; 0xdc1c039b4999a5b7825d492009380d4c8ee6d992d4fd157be5f473cf176f35ec89; 0x52738f30539ca24b6fa58053d10ae05965daea684821c18cf09fe11722fbe4aeae; 0x111cd07c51e52c6143851e81b81e401950d93c67c51b9235e67168f9b7d45425a3], [Nil; Nil; Nil; Nil; Nil; Nil; 0x400b2b6bf34a95197bbabcfcefc02597038ce3b19c32cac0909f9b6bbc907f2a1c; 0x2ee4453d2c2110d1a8ec089481ea0ef389b9fac4118605319838e860627b6dba85; 0x2c6160ca4dfd642fa930ae20a4b1fbe767602d2da1f626dbd7dcb348fa372f85ae; 0x25289fdb0b427754a0ca869914b3b161e318782fd80b1b5aa7cf592fe4274a1364; 0xe80a869c1ef22949231a755a41e83638519bf9911ff637e7457fcb33b7dd43d44; 0x436b9f59de66cecf92ad9ae8032954ebc94e8c07ad83895420b4359842eefcfb3]);
IMul 0%nat 44%nat [0xd7056c9375cf027e6254cc3f3377a8ecdbb774584b80008e657feed0258b42c; 0x290559683d3823e24d83513f3fb5673e0fc00cd4e2c293536129a97fba9dc471; 0x602ff9ae6f77f99c51cf05f8ba770f197fee173ed74fbb21ad306b59b5ac3ff; 0x12db2d94762e87dbdfac5d73f23b8671b1e06d580723545537371833b3e1627b; 0x513b103c032e315b17ee06d8f017c04bcf2098e7b4a647fc6386e47bf18f636; 0xfe032fca5f8775908ce9013dcba2c99e153cd0996f8e5596401d79d9f51c4f2; 0x18ec996605001d860e7319a5fed6bde13a02b605cd92fc47dfa61bcf88bbe06f; 0x246f47a885027f2fb039096a931c28a0ef548fad1648938d929ba7538b2bb13; 0x62e5a16dcd5c64c7ea9b66e961b38c961ab9880b4e9df6e052feaf921583b28; 0x6c29d6fbfe7e97a6e65aac18cecc18c34836a982f4b09b26754b014c239c85d; 0x1ee793df5678a93f42810a69e65231f2f5f49e98f864f8e5f7e8a5ac6db098d0; 0xccef7d68bfac2c583b3461ba3c236419eecaf8204ef716e85b7491984a449f5] ([0x1ab61d1766c9f7c676a66c71aab52dcdc0868450d75a6544171d4cce0bf1e7e2932; 0x1af23efc4dc4cda0193ed14b9650387f49844a60db5697cc554196b4c65b7ff7e9c; 0x184d6eea7c88fc3879c28352c72b6c2b43f45dcf93b155954519a43c43f085e9cc2; 0xd70429b356bd3e388bc132cee38275b57aee5553dc2680f513899a97cf66feeaba; 0x4810f052b5ba3a6c8b998989bac88b8c1881b216c4553893a66e44cbe1a9853dc3; 0x172885e94318b1f329c4675e920d9504998c5802736995b16296a5c47459f16bea], [Nil; Nil; Nil; Nil; Nil; Nil; 0x497cbeaaed023d0aae78c3fb52ad8b46c70f2a7fd727cac8b69708f1a4e7c14d8b; 0x49ef16e2a299c9b1dd95d226640eb66795810c6313d5e29d0f7ea2c39551258e25; 0x42b36ae7b48701b045f04f6046b1068cca18ce159b3087c84cb18bd1c8ca72e258; 0x25b9660c5665735e6a201fb97a2f41955581df8d8fe910282fc446e2e46ca729a9; 0xe40bc1dc227b998a0e71bf5728dcde5b2be3c249806abf834ed92fa6e35f128f6; 0x5ed42462263767c569ceb13b6c2f9604d952039ba89338cea11f206f43bbc21ac]);
ISq 0%nat [0x75a05f5c82d955224b1f21f0a9ba21cfb09f7f2eef629c18beb1fbd78ca8b98; 0x111751fa5bb321b845a88f5f74bf82696761b235be0f9c89e1466e7cb3fa9548; 0x2ccdaca27cfefee0bd7a2685378bae5c0a1bcf27d8c9085103c6809acbcc1310; 0x18b251135b8674e5091b0bcb972edeb37e3123006c62bd14de3b99cea1f60cdb; 0x22e2bea2dbe36afc3683891c96b7bdadebcf8898496fe1154521219a4f4f759e; 0x26064ab5319a17e1ff39ba2e8a01142b7fac65c310d976608421d71ccf661fa8; 0x16a5ecf1418db9d0ac550c009eaf2ebc0aa27b53fdf2e61d4a1e27ef393c96e9; 0x2f109b1530e5a1b17792e1cb60bb29d8e96d0ae23e57229e79bdeb77c380df8f; 0x2d8ee82c2d0500eb5eb7dc499a83a98b7560cdc30a9efcd63e06bf1eff239537; 0x6528820b28cee455575e04e21bb6b4e4d31f01733a69a48495338db91d0ac9a; 0xaf18b1ad5d354224857144eba329b61d6eedfc9afff10509cd514475913a2ab; 0x2efc18918939abf71ecf0d0b3b65aee4cfa5f6de374c05d36d857e5ee0865cd3] ([0x4a02087ef1e369cc070c0b165ca88e5028e571f361bd791ba2e6dd60b3e69228b2; 0x4fcc7d9289238a8120533140ae134e272e3d646f4d8a8d352cfcd4e34ef0e4bc38; 0x8f0c23483d861cafbd1ce9c61929df85adb0efd6f22593f9eb99740bed9ec1a523; 0x68044947bc4b02072f6ffd9e9c314cc5ee8bc8d07cb5fc4e70820b0fd6c8b91abf; 0x20c0de8e35827a359408203ccb72c4999842e771a45469be0024e0260b176ec189; 0x59fe90286fb151aa44e246ae339b23ac54800fd0596095a70691bb33000aa5522], [Nil; Nil; Nil; Nil; Nil; Nil; 0xd396830f311eef3d57908cf8048669b3c09ec9d296abc57b95ba1ce79678d4718; 0xdec61d31232ba76e78d262e4409c6113b030e53fda27a37846901aa539cbbbf59; 0x181177f746728116e38921a1ce173da653481e5c187e4bbef0de8e58fe04696dfd; 0x11c1d1cf5054171a23548be5005f8e7a6aa0ec0736065084bc2f0673bff8545b82; 0x64cc2de60e927c3604c9cfd7a9760f4cb3207e5f807f60aa3c4e680f8fca4c949; 0x193c496dd7fb432f9171bdb4986ff61cc718ef242decacb27b60dc509dc274181]);
ISq 0%nat [0x9abd55e57ebbd85ddfea142b9d5af6320cb0239763ed819e293c9ed295d5f0f; 0x99342c0de0ff140c5ed0f28f670762bbb926caae6aeaf912da3984ba4bfa1e1; 0x1954d0a7cc6bb3b43e8e387b7581a4c01cd44169d1bc0b9f411f24096c39279b; 0x19fba62cd2747b764da6e8a691a86d3576027bec500f6ec530192b2251470df4; 0x28033fd19c9a44beb3374213b6a8af45a2718ea90084e3a3368e161e2c8dee29; 0x2d6b2a140f22e82a4f115d64dc721dd455d03523af4a687779fa4d9068d2cf34; 0x2aee39a89b1800f6a12ee074ad9f84a9778bc29b3a0458bd27d6a1693bd41b17; 0x1fc4b86abc740c1554af5c3805978761b495409b060736f27f91e15d2d7c1764; 0xc782f7e5a11b694ac3be597240c44aa1fd5e65f07c8824e33154894666e00c2; 0x2b8acf4daa4e80c2eb0a97d71608f182ab1f9faaecca8beb07cef6ccb65ca6ff; 0x6a7b89a910d90e4de812a7824df6ba5869f37dca3b6dc268a050034ad959336; 0x9c0a653377d7f5d376b3a9ad0c96eba9bbc1da5b5dd88b530041972bbb0688d] ([0x2cdd0295dab8e5a79f4c0c73ea0e5e7f76dafe2fa46680058f8166e6288f0660997; 0x255f1c954576c02ddcf11dd6366ccde17e87d552e4d71d1a7fe4bbda40355b3d62f; 0x88e5866ee89f28c029e20b0b518483ed0096ac8f2bf3336ead1dc99ba58784aacf; 0xb3dbe7dfdd0e5773d14ed68f33095f90a66ea0af6cc5fdc9f1a381e240a71ef8a0; 0x1335ba77ffc4932eb6cdf7f74c36bf87011eb08d72c706aa581f1ddf833309cd115; 0x18660dc2a94cba154d55333475dbaf49caccb40f6698673e163c1032767f645bd4], [Nil; Nil; Nil; Nil; Nil; Nil; 0x79dd3250586f43eb2e67b37b45e00945066d38507356b4fca38a4e66e5245fc28c; 0x668a3bc67d99e42abb2b471be506fe4dffe9efe85d42d0ba4289440e47126f80d4; 0x19f08f8192493bc77d3b8e8ac070dc9450dcf64f3df963980193c262e51ecf432a; 0x217c6e698d974e8afca4fa1f7a1f427864a99e3cf928c83e508032e4369af03eb9; 0x35b547ee89206309a2d9b9a5ed2d3255f57886b908b4081f9052c5ebd6762d0cc8; 0x624bba764a1d1cb873a5251e6ea62a1be201043eb34825187491489c2dab71b7f]);
ISq 0%nat [0x1505a26bb91f91ff947dd5e1c5d2a1d73c38be2761365195d58948c0b3e6ca2a; 0x2c3640a4752db2a46941c296a3ea82c09e7c186cec2af19ffe439576175cd88d; 0x301e1832b8f59f855de2bd998178c2a80c9a5e715f80534cb451f54ef3dba37e; 0xddb38ddca245c135683afb475c1e6a46418b64f5fd76ae1b2e6a987896ab9de; 0x282557c1948eb192b085b2091a867b0983806bebd93363253e3702c2ff7f4a55; 0xf66df992595487a55cc73ca661ea8751fd2a9e3d8ad5fb068ea4a8e8313154d; 0x2f51cf9960869f43c4fd4b6c9b3583ce24154f20a9c3094f81767d9cd0a21d6; 0x2676e00ef9f4f5552beacda1a64a2e04b77a3ad00c37c9c419a1f2ebc611b10e; 0xe08025d6ff9018ed4e614af72cdbf2c1f975c02a2828f6ff1bedfe36132df04; 0xad02a4f61297a357fc45c9c96e6899a1a55456ae1ce5908419a00063b20f23f; 0x83386a43fe08a1d99559b4f384f60eaf70de222ca79994f2ad4d3de4e606e41; 0x38db7301b6a90ed326d5c8b09b882031ad26679b48e57876eff34100a9387d0] ([0x177d5b7a2607e29f8d8596719aaaf7ba5de7393dace500cbdf99cbcff67a8855c15; 0x9830e55e84568749815958f7cf27a1cdf16289a873620fda3f7fb6ebb6aa1c07f1; 0x993f068a915415926252c4837743ae07b6af2ff4020480d83250144b339cfc7f3d; 0x368b5024599db861b03d1653f810557c1a3485f1183fcbd0d8c1cfe3a41e0cbac8; 0x282a454c49667acc39024a4b1d72f61c187c93c53510d0362ef1d4bc5f2d5f5516; 0xf4a4b5fc53b23dc9d52061d949e4b3f53b7255791be983062fc55d9fc86e3c6b9], [Nil; Nil; Nil; Nil; Nil; Nil; 0x411b9a9b09d62bc9506bd5ec00dda027e7892e888d19bab6533b73082edf14befe; 0x1c6f3caac20067e3f81238e58071845ecf3bdf470305d83cdda2f3011f970a52b0; 0x1c4c8104d29f886d0d0f1bb3d3d44d55265cd7ed4756e4903cda1cadd61cbf0c59; 0xbd27183563f351923de943d85b6133681b372e7b8cf4dc60404a27c070d13e7d9; 0x8ed472ddcc77fb7fdca9790c0b29880903ff70248ccaf5398cc349a793b1ed11b; 0x42f4be0d54d43b55d87c8c563d6488653f1cf2a905e51fafce9ce67362d0f6040]);
ISq 0%nat [0x577a40ba0fdfc316e99dc35dcf5c7b42e3ec6badc00d44b95abd30478fcf678; 0xc641ceac476f866720828a9db4076d09538d3fa294b4529a87736f7dedf168a; 0x28173dd9560d323e6a74173f62b0dc566a05cf8c01d339ea719ca49d4728f6d5; 0x14f786eaa179afbda2970af3cb838d4915d5188f1dd84f65dc97e329cde1f06a; 0x1d4f50edecb1627b570e3fb1516dccfd7e594cf2ee3392f7758ae4ac70fdfea2; 0x83294efe934e88f87f9b293cbdfdf790b779b61f9ef1b886ca641bdb279f54f; 0xee8ea660fc857088a24b9a6445b454b9eebce9ef3b89deb89b2af6bab272d3d; 0x2ed57869ef97be4f66f4561b87c355ae7b0cd2db034df87fee989c4092e26eb6; 0xa46c12d55d24c65c954cb7edf8bf1a3a2065f513df34c1f0106d208248bd911; 0x84af4647a5cf4b3eeeeb7baef75d8fc0f651b7967d2258e8d26dd39a3498ca7; 0x47ebc1eda5b2d1a9ba6e15c76b09bc2660339c6fda83388ec4e40ec564a99d6; 0x1647f52571bdfc41213a031cfa111fbbba26cdc07196f5affebe8dd95eaa4d23] ([0x62883e8972ac4dba3b0889a3722bf0e4526bc26e2ad160e77129ad2b20f9a04a18; 0x2ebeae3339163ced93f03d1dc0f5706adc9daed191171daa6d5990db97d8e3544e; 0x22681dc42b469ba6a19ccf8e0304284859883019acdeb5cf8fbc21ee432f7c3820; 0x11aedf54700aa7440c4b4e71b9e6a38b767f5019b6cee94949ab8c280f3791994e; 0x8eff8987b03f6e85195d1557ff0741f07dcada5e21ce03e2ad3302a463103dde2; 0x5e0982920b32cf56c07779d002adea0aedd578d04da0f11c03a09c04a912b5e6f], [Nil; Nil; Nil; Nil; Nil; Nil; 0x11fa34b23677e451235be2898cde0ef0ffdb887adb28d751c84aa6ca04457aa4d9; 0x8d22f4ccbd8a390b1fabebab1219828d1e2bbd786948823e4418b65b7856a2dfa; 0x72dd1114ceed5ffb44c45d5e2111d8684111e66d6e30f63e2409886abb441a8de; 0x41fa701466dfdf5651c6378c6a59112bf4ee3f6e2447882c9381a3b097c6b650d; 0x24f2e24c694e3bf34a1904a25ed427f4932b78a5881722f5c7040617866e5c797; 0x1d4ae38b2b129e167d6bc0d5aed4c4f18725e3f23ad1b0107e4ba56f4884b6a0d]);
ISq 0%nat [0x1e893a0af8d0b81a44e990115afa51f65f9b63900b3274c8e7f2ad763c1b332d; 0x123b6467788890e3ac1fc6d19cd1011f0abd80bbfad7566a133e8e499d9baffa; 0x240ace94b157614e0fc5fbe827b7b2c67c6f56da4ce878e0404eb115cf9212af; 0x1becf7e9d040e5ca756ee987e54249fa352b9b854ae757711349d42bf5d85dc2; 0x69b695c71ea8949eb7c32eee1b9a918461c9222ed596a6106c1116ba98e907d; 0x5b09c4feb85ef0938591e731707e489ab018b2f2a3972277faa206266463f7f; 0x284828bf71c9d6e04db5fcebe341625df055235b3e9abe4537110b626dc1f9dc; 0x9a25817495cdfa7b93ea9ea4d2643cf8e0352354adf6d6fea38ec78e674416f; 0x9b8cb26c19b42d32c8b91ba08c9eb9273a9ea5c5103741bea22b4f473321dfa; 0x1627f98f8d9a4f4f6193a4714931ea491650d1643f97838766265e4d04c77e7e; 0x1ba20e7eaaf3f66b2c81a0c906a008937645fe2c32de81319ca295cf1a444f1f; 0x5af17838f8e261c7f0cd3aaa9be7e00402d6cf8328152beafadecf31d53753c] ([0x11ebd3f305a34a612847a834854e1ed0f7a67b9c3b4a1d152917244b6528b4c2b5d; 0x5a1520651806548606d1d17c72113add0a390000835d86e6980890bf7dfb79c6d6; 0x47c3a8eca5bbc1cfaa0a3f8605df970f4a7fd76909447a2ee8a62b7ff064c1934d; 0x28e88f48043e40dbe893609c81118e7d279456485b0b64a75495b9b94825efeebe; 0x4418dfea6180212a2ca77cd751a0c26e53a9d879f805dc975dc22ee5d2244b430a; 0x81c83aab8f7cf92a2b832324353aa849e6f296503a50e766cb3b095843de9423d], [Nil; Nil; Nil; Nil; Nil; Nil; 0x305129b2df5789bc6a2c3b19e265a1ea1363306c1b359c798e2123752bf02b555c; 0x1079b49d2e95a0d12286505020be3279717450466639943c5cf953625b4b340009; 0xd7aec37245d8bd83174e46d09c5e01c890079eda39b12c5df2da40b63298f63fc; 0x8189046c601cf8825f27a47778e00ce43562724e989c6a32fdb440e1123d206a2; 0xc06ec864ce083d6acf9832c87b7b87edda4d6f886545d34070b6afb118ad89d74; 0x22ee9e8e90b055cecb848b44a0d439f3bb7e9fb05a7e15442c2af821a6b13d0d4]);
IMul 0%nat 47%nat [0x17aa58fb1789a8e7e943f44bb2639289ff8fdc3103390723cb8a292dac4307d2; 0xa598b0cbd35eca7afbccc88c1008f5b2c00691c7dee2d1f1bdc59343278e78e; 0x111136b70235920ada133136ca1a5ca02bcc68efbc1a9c9ce5f22b8e995c236d; 0xa3cc16ea98bfe61ddbe46ec80060244f55cabf4ff1ab43f49dff8860d2112d1; 0x606ed80b0d0e0b1c54babf16b5d28d40ca8a9f9cdb676dc8154cfb8784c67d6; 0x166e5d5545f9f5990e9b8ddadb7ad5a798de32cfc4b52b8a9005185cb6b0bc1f; 0x106003ba07347e32894a40184f2112998ba9eda8efce9e96bce12c74b2c2d265; 0x1112bd99a0974f04faaa19445087efe713e282210bf0086ffca4cb2a34f768d5; 0x44025de13eb3ef6f372905a4935605e00a7eb1e556ede97af5306bc9823ae9a; 0x169c8134897acff3e252bbc8625aab6ce0284a844d576184740723dd0ba07a4; 0x1918f2fc3d4a8124568d1424b2fdfbf5b7138df63654cf7ced8d03c17e44a22; 0x10706ba08afa35f70e1fc57e58540f99cab3440e06ed5658bb9747c9ba9b5cc2] ([0xf399886c9fe8dd9a44202f4c4ce31fd81ad0c762338d8ff30c990ca17a568a0a49; 0xe20e6502284388f7e2cfdc456710c9c656f4617298376b953d3293686620b229b1; 0x107f5969530e73cc3429ef0a4135ce9ad73daa4b62a6e132a46d30ae89acba9a519; 0xc0f79351ec2e7b538ba213c82235097b30e78b83e48ed8fbbb4da5ccfae1a3b017; 0x3491fac7dde2a32e8761bf34d835365bd3be53d8372b1f83cc78b4e736fc88965e; 0x15d02890cf08b68d0ca7c5de6db30550d4e5fba5c9507b9a18791ed3a73bee64cf], [Nil; Nil; Nil; Nil; Nil; Nil; 0x2a5b29f082c18ac0d6239c8c36427aa9591642188087110e4ac0b90fdbe82a7c9f; 0x27231fd72af58518c29e801d85184388d422a8fe1e38ee637c7e2e550abae5022c; 0x2d3d7f6e8d1f17d89252ba4aef3a84bac7b23b581f5d4b20e77b486b14049023cd; 0x2112b4ddfdf890214ccf2f08a133886b8c4e4cd186b5d96d2b02e6a66177522f7a; 0xa43fbee685754ebf37e32f8b940dac56680e6eaf332127a00f5ae0fe6c4a49d4b; 0x55104a95ce1ec8c35ccce68366335487ec6cdaccd449f53056bc40e460fb4b51d]);
ISq 0%nat [0xe92f45a46acb83050bf4cfe71a993f51ec3ed63451d0c95b81b43bd08fd05a7; 0x2f3b181dc69bd2e95d17c666c7066b7ff2c858d874f07d603e8a5436377c855; 0x80a211b31a4a9398fb8feb74644eb8a9d52b66017c7e152c30a1a362b967a3c; 0x28caf6876959faa937b71338a3eeb0dde5b766ba376362034dc0533bb52f0f3a; 0x13888a593c42876efde8c2dbe81eb3dccd8d2c4240fea54dc66a26d10059343c; 0x9dfb4d4ef8516282caf531ef1f9df72bea138d6f32240bcc0d1edc1e61ab3f0; 0x28a2d214241fa15a4114ec911f87ab78a5a302f12ae2d705898a3175d5c993f7; 0x5f2df2c6d44eba075388bb61c9ceecd9a1c6ec6070286d34d78523b1e50eb81; 0x2ea04f1460797a4080ef7509f548556c80dc16ab2f82d700b16ef577a81b85d6; 0xe391795a1c2128b1d0183e13d31167b5d6a9aaabcd9fa0af7ba6c0880effcae; 0x2f4721026a5dd508b5e0753c2a02387a195f04499e8746ec8e770d7fdafc6698; 0x1118e1285b582529635eb3b5a0de920d8c14acbf8e2c795d472b2e6b20e84596] ([0x4ea4e3a455d3481ac577cb3887ab3e6134c18af241882b1498e8d0e4e8155162ff; 0x1a246b6d0053693c9caca2a5a01ed7e805fc1a7aba394a00808984c6abd33d878f; 0xb60f9d3b4b344dd4e778bda26e76a607d153969b36c3a0f8ce4b92c04cc002c6a; 0x91f18cc115302f99cfeff87f9e87afc70f6656cd194def13082e96f52c5da9ca6; 0x25cb971a4a43cae1ab92979f5b772355b8655c8dfdd0d3db586d2ab8c4d9e36ee1; 0x3dfabe3904ce9daac07f39df0a609b9e73a171ac752a78645f7c87cceade9d6ce], [Nil; Nil; Nil; Nil; Nil; Nil; 0xd94d0cf9a3a61ba0f57f716f915ad4330272ecd3937e520a6c34edfe96692ece4; 0x4f50b27162e1b935aa215a28c4a207e9eff47a0abb68b41609ed2a4c7521163eb; 0x251ef11fa9b164297a33edfe57f30707383c676bc1a6639ee3176db552857fb64; 0x1c8c08d21268002fd183479cc9043e2e7fd85cd6a5a4fb3716a66cf6033d3b546; 0x6a064816d943c0744aa24845726bd6e6f31aabb24fdb960ad0f69f452d75f4b3d; 0x107a12431a980d494d199052aef5d8a3806f6dc8d0c3050bc90e3fa01a8057c38]);
ISq 0%nat [0x1ac5c704ebf4585073bead9378886426fb4f613052c3881872c5bb5d30965e8d; 0x2ad03845848d7ed1fea4531965709f8903b556a1b4b33b5eb7ebf685c49260cf; 0x2d0bc77aad60fd8bfa8eedd20adf128257c59d659491e5555ac9ad70ee9b3dda; 0xa53311eb2672096e217ec18911517437eea7fd893bb86472d11f6fb01424e0f; 0x12e3f0b777e88602feb87d39030e883669dd37c3147b4f788e479b5ac93965e9; 0x2ce90b965d5f7384350adf9213d5f2fbf32d49704e1eb748688db88b8e586e16; 0xdd22e47b0386e1a057aa72a2a99f14424a9a37e7f5a2a57492f35c472457937; 0xfffe0679ca2382195c8e9cd20677842ea1c6afa2e6412621d897eb7e905ad22; 0xc66550bd1565c9772c443ca4ffeec20037698d542694d0551ab007818aa7ae2; 0x1591a4a04708a43508f02d82dc22ca322ea3fe91b2d5dfc7ae2ede71abd6f927; 0x4aee2517d8cc0fd0382b1f6aae43b0f918bbd9d12d2af11127035df95d46068; 0x2a197250092b3c277aeadc1ade134cbd2e80f839a93d0318d110de84a77d014f] ([0x262bf66080a6103ca3ae03b48c2b836b9464192a9aacfa0793afcd8b21efcfc857a; 0x1868252182c435af239bc6059329d42fa9a9c560780ff4aca75698ae3b184ee1493; 0x174df345837e6b75eef20ac77a3690a216342b82cc040daff6816eb1aa94827b785; 0xd6701382f33f2e90978c175a623d6540e2e0f2e3156e50f4e2190f6db66219ce9d; 0x4def63e643d3413fd92384a5866d32abef6bb31ccadf4685fccdd9ddeeae721a5b; 0x159d43ac545f41921c83abd370fce7701bf012dc2a0b2d92a44a6d58625b77ea0a], [Nil; Nil; Nil; Nil; Nil; Nil; 0x66766b14da71dc006fcb3c5804cb14972717c90de91ff88aa15eb3c3f63363e2af; 0x427155c031bab018df17d24f2d2a99a84a31f846005f5e8698e4e4b7f4ce9939a2; 0x4019df293e2a6bf18d5801b6619d1b61eb8685acca15a22f16d9f3c5c894a22682; 0x24c149c00d7d821015bed8737eb4fb65683608d8fab236f746c39cd1a42a79f0fb; 0xf8ac517ebbcc1284f2ba337916d045ff8ef9747af6a821b5ddb21a5b635acab98; 0x53c358546cc6ca8de8a0b18041dc0580c38e7db48036176a71ac32a9c14f202cb]);
ISq 0%nat [0x2956e35a4b249888e8d08fa0d25fc98787059d1103d00a8b5c6a71c6a2f7ddea; 0x26d7fb4c55acfaa0e37428e188e0837e4ce737cf29ea6cb989ce55c1cc58dc42; 0x6b0cda5d0a37bf55bc6ad677054d38fbbeb7619813800962830fb765b23b880; 0x1889d51b449a10ad3397d20730b45cf51d9d011106aa173d3bd268862b416474; 0x2f846fdc7bf09d071ff4200809bcb45f0ec4cd8f90d0656f9724f23d66df7ce1; 0x439dfd35e4b8bd8a15fd33273fab2c1195431c70baa272c465badc38a382558; 0x2333da2402da70c968425419748d202593668e00f3f594cc120b8ca74021ee46; 0x4fa1979b41343404dd5b1807a125e6a7494ecd78300cbe8ad5aede167ea9f17; 0x1ab41e34a6346f12e0bc6f87c289f84a51790a9779c94631448756e62d52ee9f; 0x2536399b17f09dd6aedfa19bd3e42dd44d3a504bd8deb2c066796d78064707df; 0xce710a91a6bc2d2904ddbdf11898e38860f401df5bd03ba5c111673c13fac19; 0x1aba05a6ad8168fd0a62c9fd8b83bf92802fe18ce562b3a772c3bc37e4158c49] ([0x111310d8944d5248ee935d65ec071aab9a13dfd56468d06d1b10dc73da954e178c1; 0xbdb72379bc78ea0cfdc704ddc3a24a61ec152a800444bed9a6f131ca55a5938c18; 0xf25bbb9f1b8f676c7d2dc2b2affdeb2e0a00ee113127233977f83f2dd17be86e99; 0x428275dd49d6834b66d207edb10e953f2d73789ecb6c8ca22749e71b6d59ab87de; 0xf252a9b2ed0e0db108be31a2fbacb7756454d6063c59a6571685468d3a1952ce7b; 0xbd5e388cd389d22d4c63d9482465d591d7dc57e83ba2c78c24d3c4aca34c1a512], [Nil; Nil; Nil; Nil; Nil; Nil; 0x2fbb93859eaa0f41ce7782f81851ecf647f84b368071b648b1836b131ed9ae78e3; 0x21f5da3b90ceaf0301c9823a9e216afb0238924bf8c7edbf109f5fd606b278424f; 0x297a6744b534107049ee4692a39951948e5f3c7a82ce738f99a40f1d1dd45ae51e; 0xc85e819da76ca4fab2506823b99d31e355588f4d4dd7001904044dc259fcac36f; 0x2a05a1b4dfc858ce7e440c50d2b7e7bbcdbcead19dd1d5691338e7314591f6ac8f; 0x33a05dd97b833e0d443ba24b349ceacff52d758d4bb17bbc817ccef535072f44f]);
ISq 0%nat [0xbe71523b16d2a20c33f66ef32c8b468642fa21067b9faef6164b0e9e1f04df4; 0x2acebe11d2b58e16b41d49caf5ea23e6c372e4a19adbbc84d43e4649b71e00e7; 0x59c07d77182b3c96e5dff448e07e2554bd9b6760d92d956fbfe582eaf1cb642; 0x2f9ff89eca7691cf972b79eb8c394affb09e595fe39c51a4c7cd51d53b7bae7e; 0x2a93f6e1c795c08d03336d5bf5b6a4fe528a8a34e2b557c807937a6d8baf9ad6; 0x2cd293a073d122207446034603fc2a2062bd6d4db38d2e2296ae72a3fdc899e0; 0xd0634ec444d7222a2e64dd555ab233bf751ae767dae1a0dff00bc6de6d647f2; 0x18404b1a799b30a99560db14d87a703c5bb36ff8d7e7c6b68d8c309f7daab266; 0x2fee9ad717a06ebe63a556be7c3f2feb100b62b6aff481c4d8fa6015ac4b483c; 0x241555860e0d18b120b5cfe0625ae6ebb1b7b541c3f02a875d240ba61d52dbcd; 0x1513c8b495f4ba6fcdf3010911e6c5296fab8f1fee6426aab307973f2a81b93d; 0xde84ef17be48f9575bd157ed892435c4d7ff649318587cbc48a658ca167dcae] ([0x14ae5307030fda8c29696fbbb26591389a78ccdeb1e5abf32091761946c24628cc0; 0x13dff28ba101f3f9392b9a7ce6fea27b6ded73222e8fc852eaac78da8598c006e05; 0x120259dcd4b43a7badd63e5284e33a2d1941ff57d39bcaa164740105718e31b5038; 0x769a0fefdf61b59020dfc922644b78b3c3c1306be502b597e9b23fd343562bb74a; 0x634fd81e27b0a4ba87c78390f27f512421924b9c01d65b83cbe71cf155785d651c; 0x1a1b7b46f875e7e95c980db6485c56aa86db53b3ce509e93bae5dc8fa3b83b73cc], [Nil; Nil; Nil; Nil; Nil; Nil; 0x398a17e2d0f390e2039d62fc795303070f919431f8b4694544910d89dc2882d8e4; 0x3680ed44a60956ba39957a136e87cc0bbe02a889b9aa097c4ce1187b7f1bb8125e; 0x31777aefc697a3be32d2954e2b73c6af99bf45c84ff1b8eea8ce29418d99ec094f; 0x161b8d786955a42cee4713f38441930868bb941494caa29ea9b3ac4707ed782619; 0x11d0d3a6a618a1c2399bcc780f240f553e0f2fd6c4b86392372b593ff52e2cf351; 0x64698944c4b3d68997e26bb56157bd75e60033962405628c54f4d2647c25639d8]);
IMul 0%nat 53%nat [0x2214e62c1a54c5d6838e12630c9723c741a7a644f366953ed8b71cf57281e2fe; 0x2186f707a2be905cd96c513613ef287e382b3bf99be0850da194fd669aae5b3d; 0x1b2b2c34e3b135f59078ae0d1a89e12fe1619eb22c5a6723ab040e46e15865e8; 0x5796268aa63e37b22aa4283f74f50a9d36682963c8ecb11a66f15f4c41282b2; 0x49a01fde0b15f699059825e53b4ad10b2858c92f7f6293052c60a724a1bc59f; 0x14b096af31769d7d79b8fae0e9b74cd1829dc622ca35017f7fa29bae5ad18916; 0x21704616d008d2cc212cab5bca9ba681df852db4ec3d989330916a2e288f0c8d; 0x1e87a776b692f207552b0cb56cc91898fdff87ccd0f7ddf90be3d2463b9a5417; 0x899cc2eb898111851276f96dc90beffea7aba1dd6f18a66fbbad654a093284c; 0xc3e054d182fc3596a05644c45c5235bd48b4a0b7d365f56e81974495976e3ac; 0x4e6612603af179d0c9db6faee7a3ae38221b3d2b4735a3fd7d3bf33e043d57d; 0x2d670598977832609647ad5d3a778b779f573525e267a92e279dcfd820a56604] ([0xc2ffce0c3c0902446125c306d7dd77779d04a2de4dedcda2f5fc6c993dd7103c5a; 0x89d93aef83ae378810132f2ced4048946ae759b89d7a133c33737a75d14504e1a5; 0x58fdef812877c659e2d2e32932cfdb63c4209d5a509ad45b67711ad07cdb568790; 0x2e62afb0afb26f13b26febcd2297543e20d77be3d0f16a3b78aeea1dd2b512eb32; 0x1e651ab33600b5813a53704dffa999c1d7cf27fb829e1364fefe2a3cc26faffea4; 0xaf6e9e70e95de8cade5643c31f9b3e9c767fef8d5fe88420a5c0c1c18cc19a1b8], [Nil; Nil; Nil; Nil; Nil; Nil; 0x22519e06758ee5a8a43affd1342e1d4840b0e333d2de2fffa75018b1d8d368c1ae; 0x1881a7307cb17591f077dcd43462a0b06fc20a865cf2dcbdc8aa03d789e12c3646; 0x107bf2183adb3a9c3b537cdf7d19e537d9afb46dfcb601d70cbee4f100b62ebd83; 0x9322010818111880b0f25a8a57113e8cdee6253fe8c12e1e44eecb37636d9655e; 0x67008a2fd9772768e1bf5d691e5211e976fc454a93392fa32ff5f80a89589d6b1; 0x2e5161c07946eb2270985224cc671820d3e76d46ffb852aa7b6a5b2d42286eb31]);
ISq 0%nat [0xeae0d3bf757bfad753afe5397fc934427f84dfea4092a7ef4c99e3d132e019f; 0xe73c15caaf15123889f5e22b28c0eb58a79d0fdb6171adce006a0a4d5b4d024; 0xd6f501b8c0bf46455ccdd03ea6f0031e94feaad1a72455285932955b5051a5a; 0xb00bb92b8d3ab3f63a7632ba1ed3123ebc5db29226908d2510ca7d4315ad764; 0x6dddf7c6c2eb80dc92cc9ab8f46957e4f3659e3df88f015f15b36c1eb8f3c52; 0x212b5fb8ce09831265b34f9f6e9929f8667efbf9ace743205930417a7fe21c0b; 0x13e1773a4789a540585bad3dac83eadda1582d57fd75945e111f45802dcf9070; 0x170a4af3c08e46c67f21a9ff1521f658c4d82002cb161d42663ec099036f3c2d; 0x145cafd522a3bffbbf5597dce49c2bc5d63f56f6d739a46df5fccc3d43bdf519; 0x2aa6f2d0d0e39c55ec35634a51b3a3c89f4dcb93840978bd431dcf8d3530c9c1; 0x2a8112e3790dc7960c6ebf757a2fd7cfb5f49a1a608b7009ce741944548bb188; 0x25d313c0652b37efeae2969aa6af33c91f1d178265d0e7ec6e31c384433be291] ([0x18d3186e9b30522fa9b52ab06e7e0a629a5a5dba3d2edfa85846cf5082ea0fe6153; 0x8c76261ba97ce25201b8e6c0e90d822eff81988531c86c680586bb83762080e7c4; 0x97fcaecf02cd22c69d85fe68918dc50de64c4d82c666106b7653b0ebb9b7d51485; 0x41d67f46d7ac84056b6bdc0bde38493f1c0b80cb00b0210b0aad04a5e2aa40c83c; 0x10987b0daf68464d608ca953fcd02a40325208667fd5aeafbc5ebcc6014cfc506c2; 0x174f4dd1b155e6eb9087028926dad0613226d72ec7e1562bd30c2e47b5fa220a5f], [Nil; Nil; Nil; Nil; Nil; Nil; 0x43a0c5ff986901fcebe127cfc99567572030cb81a56712196190b4f61829ecce5a; 0x195a8b6df27af7d9369a52dc2309ddc235efd3947fe1391bfe1de104ca45506b7f; 0x1a47201ad42d057d2f252070b2f2658c8a05381918337ca525cc725e112982c7aa; 0xbd6b8a81fb059e9bbb7af9f7cb470ff6b6d3fab0fd4969723642a9c785420b431; 0x2ce28d82c6ff89571b0daee3f4bff349ea2d39c51324878fdf2536d08b7073cd9a; 0x59fe038d164e1fc38141f305d604d87c1a0dbd3f8c1bb47edc126bbbd1ebd7c1d]);
ISq 0%nat [0x2978a013819909f264ccb5545251e0504f7b6af3f767159a83a3b9f912337286; 0x142b16d401a302e2e5778e58de2552bd3c29e6b5c7570fc112ba6cd626f13ea1; 0x33b83657d1008022162bcd20c6c7ff30461c3976ec47131b5fe42c0e48e2708; 0x17beae3d71ced288dc987204c8be70b2a0f68e33ea804521f81b864abaa698ea; 0x6f8aac755049be9a2db271d7ea1b2b510447f75d69bcaa18e8b90cf3fb08679; 0x1766e0ebf96347799c2acd0d11f1fae4cba4d69850e29e309cbecec4f359714b; 0x22719184cea47f42149345275834f62bc2214cc85d763a8f00bb457d40d6f153; 0x1bee3686ccba73813cced764bad341c7d1d3e365b2379b82a5f2bdc82a6a2e0e; 0x158eed0397cf5612fa4c00099d1afa9cad68986cb1948ca31cb3f589ba8490a5; 0x2cb234d9da650cd197a5b534c95c8904fdd8d9a93853660599d55bd6dc149c08; 0x28f23aa7d1c351f19964f79bb4e02512edcac8c386cfe70ca7a3e1e27b4cc046; 0x416e337dd63a1ae2c31a764ceea69071a6e59bc139244b6f74614e5650351b5] ([0x29a38f8565b60945b93bdd692e89d90000a363f81b2432f69f601fcbd24aadf07e3; 0x28749567228ac9b425f572bb854eab77c670905220c5caff2be782a9b0057ec530b; 0x27c9ada64094d5ef0786fa8a2412a484830996c037e98980dcc09fb6077b97da47e; 0x1a6942a27f46f43a78d0bb6a91d1f06479111c055e337d221d1dccc4ea1c6f8ad92; 0xd5f3cfc18bc4ce8b835cbc651d8304f8aee1b20c6cfebda375742bf69a31a1f519; 0x224c4a6b2d1163be2ffd2cb5f7f5ffb336cb2dc44d566524589b1e29f6aca3e1b3], [Nil; Nil; Nil; Nil; Nil; Nil; 0x6f5c6c793d6eeda9d50d0bf736088b48466ca48778bd96c710a9667e06cc747201; 0x6c15989ceaa5c8d47c4f10a7d85748660e632b9a6333bbaf2ebdb68387c0e7287c; 0x6aa54669c108f4eef23a15288f170569f784a51810272ab59485d8eddbefc94ab9; 0x47c2e094bc9c9c6ee38c29a10fb0c9fdcde558eed060cde13fcbcef06884d28d46; 0x25e75e2e1449315f493aab564f2e32e3c5a6d902f4030fcf86c1fd6c2bf83c317d; 0x8011c545079df226f2cb42558c7d37505491252936095a57f338f000e43f01f5b]);
IMul 0%nat 58%nat [0x2f2e2ea54fa4509acfb7856bb9ebd096639a8dff9dc07d4ea031c319b436a482; 0x1b322dd87b18d811c872826dd6e2a697e117aa1456e0ca0d51f7473fda28e30; 0xa604ad286dfeeb5df069cb1a070acf568be8ad4341b9336a62a43fd4b3a5c9f; 0x163a8decc0997571bd8753987d773c61debb30fbdd67bf24a4845e48c3268a2c; 0x28d74a4f81c37f2ab49b3499e9e3449a52a68849cb9393e2c94060257cd7e876; 0x2f1b2a8b499c225a8f6253ffc1cb67b2142a3c14919399d4b101e4e00e79c794; 0x2929312090691334928738de66843f71a2f08b3ec6f8ec133c4faa584d7f091b; 0x2df1bf976b6c7970388079b13ddc3c0cb536595e98c010bad793edd2fab54aec; 0x833716b6369f1a2aad4dbceb3c8863ba28c955743ddbe8025fe723ba17e96cd; 0x85372d9455346dd9d76eda9432ad268b8e998a72de9cbc5514fbbe5a05ff700; 0xa6161049e8490cda3ee7e7f639d339c286bc2d0e5865292f61ef4741cf3d0bf; 0xbb49657ba5f67f4a06160edfe195a42c6987c7eb6d98c14afc5adf4ed026e21] ([0x1a9413b8a48a846e2697e480892ec85b54eba6d7758783de581fbf5d74af0a5663a; 0x1e65b01c19c1e2ae9b3cda69094272bbfb7716e2e49f6927166afbf15a58c1f1cd7; 0x16878fbbf673a5d87162146f1c235fda87a0bc0210d7a9e7f36770a7417f17c1d89; 0x987e13f5083954ebe25745bb7448597009de434ef48543c1674411a3cd6837c146; 0x2b73fcd6ed17cf3301d8a7651652430616a34ce3451b458ad10eb923ffdb4f71d5; 0x162fce4e63923b9c31e1dc6bc93610e03fc478fa098611a4de92ca76ce634ccb9e], [Nil; Nil; Nil; Nil; Nil; Nil; 0x48db1052e2e6f0fac1ba96ac7603d20bcc448fb1f89498962190b53558d661983c; 0x5236948775f377bdd134bee9b02d5b7751be01ef0f76492995e97a16472013f324; 0x3d46e5cde37dd913bd6c9b94af7f2eaaf7ecec8a1729fe08ce7620f97018fc633b; 0x1ba59a00c456d18320bf1601c154ffa6803b3759d71a211d6952f64cb018f6dcc2; 0x9b8b3c53c1fc72817c3e85ace4d4674012ce925dd428a44be4783483bbef65d08; 0x599f68dfacd0a3d728cf2854c3f7e2a37ad947d0ec5e9ac726189bafe3d50fba0]);
ISq 0%nat [0x12b7a14eec98cae7471cd6f7faf11aad23671c686d8d22d7fa7ef2fe7038b094; 0x19feb48ed77466d0c6c4a92e597ab1dc4b7a8a05528c5ff4857f58ae8dcac055; 0x95e08c7961800471a31bf0d6dfadd7b88025189996392d9802032af5482a8b5; 0x22151062928ee57472903cad32b5290790584c633d3ac76521eed0e571e2661; 0x1f35e89b2aca87737b4610b5a69f70a036b63288ac70d557c51e3e30831b3b7a; 0x149f1752646b9223d2d44843ed17a7ce967a95983a91d6692d46ded9e51542a0; 0x265cf7b22c8037917e2f536c5c57d26e560acedf142584abeb6a32f776570968; 0x2d06643da0fc02809b84b30b8b177bfbe635361ecb3ba9c5c5c58afd2561db7b; 0x2e83aea409bf8e87aad6f88d6ddf62830cd938de6efbc43f6c6ebfd98098e53b; 0x1ce73c11c6473f8ba783b0da3490b71b55ab35f6948287d6d7abd75bfa34f87d; 0x189740816882b9f661c6f62566feff41232a7d711ec6b2da4e4af130bfba63b; 0x2b94dd54221e7bbd6b72268944bbe1f34bcde249ac49fe8944e1a57ea704aaa6] ([0xccf47dcd9c0200e8b6effbdceef48a3336f54a75bdd36ccefdc10b146be76b19ea; 0x52c506aa562c9b51e1df03bdef0d06db74425bde58eaf0233cecd87478d3aff1ef; 0x44ac147ea1e5cdfe3e659b90e5a73fd9d10cd72ec95e1c8df7de39fdaaa3d28b67; 0x331bbfd9c10b1ecc3114abd91fa7e107a8c3dd97180dd797afff4b16699be9adb7; 0x2276c8df5a3c69bf031dc48bcbde348dbf6f164f9f560fbb8a8815317d13e83e5d; 0xd304598c417467b19356b2e40cf550174eb526c36ba2ac155bf5f6eeba50a38dc], [Nil; Nil; Nil; Nil; Nil; Nil; 0x24c24cea820aa15a36de044551176e28d7c854ad178f971b9830189785112e208e; 0x1057f2df089d0ebfcc287b7bc01b4415ed8c184331155f19877810eb996488cc7b; 0xd893c66d2e43e1d9bf19ec5d81058023616402169d0eefa7edf9b0578519ca9cb; 0xa3fc54428eaeed71f866817708249ef166dc98c6a5d0f32d69a6b51c9a6a974b1; 0x770baaac905815157b03b4f5803a10dce516ac079f9ddb0a1dc1b2ab2af898c95; 0x3bc5cbcc926a8fc118a28f61ca323954655cb84a4b395e9c038c77bf6d0f5c456]);
ISq 0%nat [0x1f8fac607eb009dbaf9130c942516f0c11d9e97dd091d3a871a9e02888cd9d00; 0x2860786453f22b5abc13d6efec14f0e638819ef8f637eeb9e4ee9fb0035db1ee; 0x17ff6d0f80cba9c4a0c4aa7632050d8cc8393ad0a7a634e7bd932b8f2326069; 0x1fa7aeeae821220cd0281bb513956034849770301c8da1f6fe446595275dbe15; 0xc4d06df10530192f53bfd5c7da00c3565e51240a35c4740ad51f095659c95ab; 0xbd3f9dbc54049a21049d72fb246e7cec6f5f13ebbbd707110c44dc8e614c7a1; 0x13ded5ba9b336aa86f793bfb6f6c74dad20a156fcdaeb4e35527e211a04ea177; 0x29304ff8591a4705439756b5b2bbc6ac721ad7f3cd0951c74943855443a96bd9; 0x12d9bd4a4a3453f3c199ec0b24036adcdd158a2c3dcd018e0f90f05d4ba2d276; 0x27a31efa034b1137f018f969a99c8a86e804f5552f7069c5fe08dfb314973059; 0x8958ac2dfc959fa862145f10f8e124eec4c2f544b772c0c97c54087dd5c034d; 0x271955c5fc0c725492c55448cf97cf00b4d2d1e90d46d26f7a673f81c5ea788f] ([0x2816120a2712f54359572b2e2250f04e8cfe69ac3174077ad2a4f6282ec1b0ae6b4; 0x22283627dfba1a8aa9a496c21ac916092f9b608600dd8f916b930e8aedc17b94216; 0x15b27ab0bdb4fd3bf810d3d92a1cab59365b6e9b66e47e64fdbbb697781185ae122; 0x4cbedb65eb14a09443c27ce9f101c5af6ee7f837cb0ad3d959a903cb514a36b729; 0x10e69e4e740aa16071f6c7417c1da4a93f21ba104d06d0bbc7242798dd2cd82ec8a; 0x28a6994c88e7b665cff76243a697e7c753db05323f2059f7747bf6bb305f763b15], [Nil; Nil; Nil; Nil; Nil; Nil; 0x6c980a8d776cfd16f9dbcadd3b8310d2ef7d67b73e05da47e63c7c0389117b2f04; 0x5ce5f2cbfe4b4c8929197c593deda3d6793a4cae5a805ee5690ddce386d957a0b5; 0x3c014592d9db478aa032f7cf40a91b11d5777d0cf71c689c74d8ba362843f16bd0; 0x107008ee4c4d0867ba1b0260727033b1131cbb59e28bb1ff4df473b28039b14c51; 0x2f402ad937883b4db80157b877d219ffad244dc2effbc6aeb73df2a23811bce651; 0x984d78ca01a7091d43928d47ae433362103d512f6dc0d833d4630d2e18c96c7c5]);
ISq 0%nat [0x271f9a757f73253916d5f33524bad95907f4d286063516c350953472e0950a4; 0x143a5193fb119bb4783fef4f5af77116d8ab04bd78ccb35ee67c4cefab43f58d; 0x18f37ac6cdf680bc4c5907e9173c547300a7b1d518d7dedc5c8eeb7135288b6a; 0x273cb0b61f26a7160f19a29acb2ce2ade7a607da25d2b7ac5ffea011ff14ba25; 0xb01e513770598c5125da0a72c1389ffdb00f28011a56852f8fd8f3254045f64; 0x143e6c9524708c5b72ffc91232a451e053a83c065019e5adcb8927426f3140fa; 0x2c8ade0945b579ee300b5a287a65caaf0dcb61c570219b1a4915d99d413533b8; 0x14d99d61607a46152c17a1cd64fd4bafa3a2124e530c546cc9462d9a1607b642; 0x2944158f1815459763e466572681d06bc02310f0dab3316ed89d4c4ecb7d4735; 0xfb1f93002ebdbcb95c4aeded01b8f5236af12eb0e86d251ca35cea5400ea421; 0x1a756ec27b2fde719dbcaa4d8af2d842ccb0965a05cff32a857ae59e4ee852e8; 0x87733c544fda26731af10e166a88717125f7a48163d7f1961ac5e0afcda435f] ([0x2933acac0eec6c813f45d31cf9477043e937eeb74b5f452d52357dec6caa9743cf2; 0x1191d766dbb933caa7a68ef8a587f85317d37635e78e07e49ae20e0a8dc239ae0d3; 0x1a21c991ca1e6266e60cd9e9077b48e156378360d7bb9df9da61514d0015a7d2bb8; 0x6c38fa5830f814f7d1d5f68af1235b8fb497aff702fe543f1fd81121fc237ed75b; 0xd6374524ab8e9037655f9145c45e512c180b580bf007ef2644df066a248fcfe469; 0x18b57fc92e0a7edb79b5c8f03dad4826e4de0305202d0bf768a3dd9c2161b7efc4], [Nil; Nil; Nil; Nil; Nil; Nil; 0x6f20b9ec649c172febe618bd0116a60ae69fe77427fd161f6235f8ca23d9c45811; 0x2fe5a305a20326933a0eeaa0f9c5d171c53b81b1c7c31f6adaeb2eafcdaeb8bb12; 0x473fc50f091288f8bfba0d4d485f8c30671095050259dc84737e6a74c1f630abd4; 0x13cf75eab1c9eae667316fb21ee46ec0b8e967a2cc6dd510cb267d396f5642fc4b; 0x2587f8fd58663f279d63ef824d355e60506db058039f0070b0de32a5280801faad; 0x5eff2051ed79237e970258204ba2e8dd85588844f32932a6bf1a7dbdb1ed079b9]);
IMul 0%nat 62%nat [0xf9eea4aba4dad4b12dec35fef72c16cbfa7d367c399bdab324aefe268658b7c; 0x2cb3af938f705da9dbfdca795acd7a5621e0cdca00594cea7e932cfc7eb9e64a; 0xabb1e9d24ffc758f09de9ebdca2578c76fd4fb8f96ab36aeebf8f90c0087211; 0x1f3ab821cba75711e7624cc4204c1391c580fd519065e9436ebe53c9a8dca615; 0x1ef8dc0baba12e03b5c4768553820b60843f11ed17b36d73e06a41a767dc9172; 0x16700401a78b9e4cf65dbc0b2f37b2959817acb34a22c823e068c1cc200d929b; 0x2b94c84060c8a8d0bfd1db22a93a4b71a1be7402474e76020af96e5abbe10beb; 0x12cf68616394dfff7ffc68220190613afc9cd2eb28dea5276b8fbb494aa3b271; 0x17fa0cfb0de80c68b67dcf857d1ff75d35fcc01f2dabb71694a67497cbba31ad; 0x15282be15d4a9e8a643ebe860eff9e9754cda5d3760053e55c570a743a20208c; 0x1d38cad06e040be121e7b45f2945d45af4797a9654d54636794b51f47594132; 0xd8ff1e670a8a1622c97363f77165f535d33a9c707e9facd680e751949d0fa80] ([0x18ab3a53e8df7d18ce493cadb072b5902f100875281cce953114523269b17fca3c4; 0x14b98e7fe50d9ad030ea0e7c4e290bc3e5f699c4e39bcd5836c3512d817812dbe8d; 0xeeba5b85da0a568371fd31e1fc8c951c13f714b50f68d333243c4553aa89b7b469; 0x873c35a369f08303cd8483380225ca0f5d3f2f53432b6a3048ca2afa6a5cbdfa8a; 0x316282c409ff986d271cc1d69edf129d1df95140afea6ecb3ee64ea3ccb1f33426; 0x196eb60ec4bc5b4c5c49260fb312cf752d35518e973eeab4804e36265e07ff5a4c], [Nil; Nil; Nil; Nil; Nil; Nil; 0x43e836d89e06af08fd2de15901f4bde8eb2758145b0d5171e6abf1195d40d081f1; 0x394349bbc7ac3a5848af9b8e949bea82a24192bc44e451bab9401d22700c71051e; 0x2975d54b0058060524cf3f6e86021c84f04daa4a49369514c715497f2d94bc5c42; 0x187b7c54c634c6f2dfbe10455838f6099a92f6773b95681d7dbb3ea154391daf1e; 0xa4ffc65f008748cd20eaf5f7617487760f85085304fad2df63d54411fa83de012; 0x643859d31745fadb07c2f6fcbf9395bca8b264d87d305c3d1594d16edce5b0704]);
ISq 0%nat [0xe14d746b54b50251dac368b0528299e1494db65cf56c1c0dcf3fc8100761023; 0x6b8e87738bb363ecdd1306ccdef2ab2738680457dfb4619fe95dbab56bcbb99; 0x27a3ba831b3af9e9e291ccb840053d00d50cca0572059c3a4ee2626edeb35f71; 0x286586aaccb917dd8403890376fe6f73eed6265dd09ce6b885d5773d6239ec67; 0x4c0f26acfc6a648ffdc16cb6efc005facc7697c84894b7e8071ad97f844ee30; 0x2d70615191ddff15d01bb2e35f7980ee437f9c0830ff418cc592c74f2c1572e0; 0xc612809461fdf6b16c8322afb86c68125bc48fe6abaf29f9211592570f6d3c1; 0x19a8d33580ff1a7cff7b275e7c7887c863a876a02faf44d2cb6bb1e74badabfa; 0x2733566bcc9df1e0cbebd06fbcdd0eb483aa1e5e304055b7f732e2ec809d385d; 0x5ebd871f82bd2b86bbd2f20e542a9dd5e81f0613d3353dd04f9c25f12820367; 0x27ef18b6c1e711dcb307c8f57cdd462fc51ff1472723c48570b059b4ba9c2973; 0x1fd7802ac0d017ff84bb01dfd8083b2c27262e53342d70eaee83e919f51cb531] ([0xa98ed130942424e6a1046ec7698495fc2b96bf668f170130412fed781f76128227; 0x73e98fd6ff67de0cc58b00b78a1c57d7f431d2499e1681a803c4d3c810691989df; 0x6165eed96419a14c5e4da34fff97f3a781b1172569a24f0bb3226cebdebad9de75; 0x1e06b98f66be1516cc957bacc3517e8291e716f5bf52e799f94a7e93615a0b6091; 0x23c209d92fa978d7fbc8e526209c86beca7f1ad59a4ef21173e9da8f8a20f23833; 0xea9210d93f49ace49e4b583ed45740bbda7c0abac1d0b1f5501f455f78405df92], [Nil; Nil; Nil; Nil; Nil; Nil; 0x1eb574c683ad258e2ab21933256e5975202b4533b71c01b5265629cbf5a159517a; 0x1535a4b8cfdec4951c3080cc03a98d186da29ecadd9a9681b2470b585320283c2c; 0x12102676b50a776baa6b94080b3c30330bcde82c995e8298fdb2a7d50d4d55a2cb; 0x6e36ea0c5fe6e8749ffd0539d3ecc50f8df0ea3c6e1eb3ac2a00800e1f3776283; 0x740b0526e21d7a297bdb2060776f7be6af0ab11c5a796544f2709f35a0c9fa400; 0x3bf9712ca6cdcbe84e02bc350a1064336ef50af85128043bf92ee2163b0e79829]);
ISq 0%nat [0xfae25c68c095f5b63c3ec40eaaa97fc72202bd9d2dc5c7ef3f2f7e275834222; 0x2343e2f07c2a11eb3988c4297fc3a227e05fa6ea915c0872ad4775629c563a07; 0x156567a28cf267beb1729d8636c42fc2e477a22615498ade3e80d16c575729d1; 0x26ce49fcba1dc6e5678c039586e89b956a00ca7d3a745b4a6ebee769cbd5b661; 0x19f9b3c6e471de1451bdf11d76ace932a30258703502dcdd0e095813e9bc8329; 0x9322671181cf20323b23a2bd59ff445a9e4f664f792cc2df667fd2147f15ee4; 0x23e76177750d02391b658ac989ce8102bf88cac6add033fd512805477878df61; 0x2dfd901709cc9b98c70f4c325e2ae782138a431ce0f90690138b23870a24cdad; 0xc26d1322beb88778dfbcdfa726b4da48d64daea778d1403c612046a63922cc1; 0x2becd544d58e16c0850df49e8c1c675455687b3a5b6c1bc726815d95950bd7b; 0xeabe2b2af34cd2f208397583b1808b2f14fec8d491d55cefb35abc9c7a823a8; 0x18e9002e1e07888a2a9864bde129006d2be7b6717c47434cd7ff890844163ed3] ([0x269c0999435da3f0c5504b75e841cc69a4edaad99dea0778e249dbab2cf494f019d; 0x1a3fd8dbdb27ef5467bf9c7119a213f716ea7258c82516eeec95c8aefb2ffb8e877; 0x10cb8f85239fecbd4440fa4950f9644a8192576c246fa6474b01cd3e949f1d01962; 0x1572da42a0991b252c601815f3c64efa5d0873d45e808de7572f5b0a4315ed90bf7; 0x9e802975eecaa7f781e3c0e36bd264f2a526fa33b95a96088da63f0612b0f8a16c; 0x157d4173e47529880c55d994f0bf9a370eb55c50138e43ac5aba8c3498d3670cd2], [Nil; Nil; Nil; Nil; Nil; Nil; 0x6813466dbf8ee7ae03eeaf73ccd81c2b2c5c17bf27ddb82c83fa8802daf970a0de; 0x48ef746da0cbdc3bb81b66fdf704eabbee29c1821d8b28d316f5a5322f8602942f; 0x2e737c073ad503e6b7853714edba5237cf6b3ecba2f5bbd82c2cfbf710021b06bf; 0x3add2448f27715d0e5bad0a3accdd1a25104068f23123e3e5d5e20184eedbce15d; 0x1cd026c0c3ff80a33de01e03f37ac6b41f9b4fe5d2be35a1c44c420cb6e645cdaa; 0x551475cf94b638ca96c4981c1868b238799e540e152e76a6291644e137adb79a3]);
ISq 0%nat [0x3e6022cb0ceaebe585ea4f8ff3997279fe9b69409b4be7257d50e3c6510e0fd; 0xd34dc9158c394f6b387fda85e96265a3c888347178740e62a4a86da4d26cda3; 0xef20ae3da45b1fcea49f096512cf386e76ced4f50c475d10fe73004ef772399; 0x17707576861d9a27a6b4d7347cdeba8811502600c2de6063e97da4383652c57d; 0x2ef0ee3a981955dc8660ad654437321caa4c089fd992d9944a7d025cca8443fd; 0x258c986a51bced8d2f94941ba05c03020a8972a282bb5a743ffee7256e161d95; 0xed2e2cdc542439136483668bc6635f3f8fe38f5dcc19dee423dabf3f6300342; 0x1bb743534de0852a454d8caab285d6242bdb233774b1c07164d7ee52c805ccb3; 0x12e6d827cfe71affd5bbb7c5854380a41f1253835c1084a27ad851b1abfa7678; 0x1fbed1cfd664784683ab8a357b50fc886f59ed5f3cce4ebbb4d764036f6d2d00; 0x103a090afa729f51c49a786c74a0c9324539c8f0740c5b9fd3f21a58320f056d; 0x28fe9b03e7644ba8a0ba137099bdb81d7e693280c906d8e31f4c9dce16e0c470] ([0x15fdb7e1d2afb4913070dad7ca2ab434404ab01c54ba0c40aa533909de532c8ee8d; 0x78839a1a0423d5e41956a6a4a220143fca860b214623b62f70ef578a3aa480256d; 0x4fbd48d5f5d2a2055566d9e04bc6cea506a6b3485462a8d9d9d65805ca412de462; 0x69ec0d07f2c1a649bd8d3335225e8fee7636853cad18ffe86e44aa98e441a00e11; 0x564323d4749c92a8e0f40572800af1b18e055a082c2a0623bd0445b38b099d8514; 0x14e8a98794fa0418e87b47ac64289620f901d279ee6a09993c69543c4e05402f9b], [Nil; Nil; Nil; Nil; Nil; Nil; 0x3c050816845c55e6db5191993ad255f64da9b6dc920de76cfea77ef2b5720d7747; 0x1672e54563424a9d31315ac78c6597846af0a9350f64210e8a3d607bf714efca27; 0xfbc7ddca8a493b8859314ce75634d9529d2b9063369f9c5516fc386560c136705; 0x12f5b68daf9906dbee57040cd9826ac650b6454d1dd0591d174e035a20173f1a66; 0xf708c21b2261a45837bef1280eac5af4826c6c3262dd6b61bc0a47afa827fac5d; 0x5229669c0a77ebe3c911a110e482ec7a8c9d09081c72dd09d40c922a1fffaabe2]);
ISq 0%nat [0xc6ab5756add1e97aca30ee670b3b7698d13ba8f3c457cca5ae36b5bd86224d; 0x983e836389e34782b9cbf199ea4db9cdf5beb794b9ff013f231ca222b570f52; 0x22545e63301e03c55d453accf4c0c1a1d28d67dc663ee29082dcfff372c3c5e4; 0x1bf55231c5555ddcadd00161e9df232cf4d41085986e338b9198fa60fab99f8c; 0x2f41882890ed36a3f8eab4badd4f2f353bf67686fd6ba3ede94b8b678e1a43b6; 0x13761ce700f33a0c51083c1a3ffb8ed022fc03a45044b120722d3ccbb728f381; 0x6aa48175b7330de07e7ed69c8484bcc62c99e0f5d481a1dc0b6c6a0927288c9; 0x2a781c4fa8170b2cdcb7dd84a4dbf48accedca54e29bcd92991583919a27ff3a; 0x3c57f85356fc8ef768a65c4a6fa2bfaa5b3eac2602699fe66aeacf5ba49888d; 0x1e78e6fed8b64f9ab0a15ab3fdec915923c973a28f1bbe7360584a2e5006528e; 0x1d2c7473c230a2125db201971afbd357815bdfae7c418b2a6eaabbb7c9e4b7e5; 0x223be97c4e31c6286426bfb5afbecfe4b4e5c5c58a6b842332d9feedeccaa097] ([0x1ff1af9f779fed671c8fec3355dea92447a9ba268b6e7573e0b129d4d1169f81ee4; 0x1631737328a2372d3b4f64b1c637aa30619c65d2c2b5fbe7d6a11ddbfedccf0e6e0; 0x184d53bedd95b12bae60a5a8135d17961b752a62aa0e56921886c7ec3fa5081ce6d; 0xcd2bbbbd7a3acc18ff4f372c069fd6305b3398c46e54782be6bca6815d2f66f9d8; 0xedb4c56c2e3d31dc939d0db0817840589f83edf49ffbfa11f4be9bbe56b8fd7e2b; 0x15c308c3137b045bf046b9d9782f56d75be96e7a093a8268b4ab21be95e3819e45], [Nil; Nil; Nil; Nil; Nil; Nil; 0x56ab3a6f9a720a21c8e02c041a638aa26bf7d4d0c5a7172e3878bd4bb922b34a2c; 0x3d3045a3c98addf4ef539fe003722e6f16d34a6767583c00ff8ce73842c9b61078; 0x42d07e787c69d76069c37488080fa1ef1a1300b880542636ad2fc56dbda0697af4; 0x24b597b31eabfa757efd08cb06a14557b3ad999fe3786f9d04809387d171a6483e; 0x2988117d356b536a0ea5902e55611e480c7702916fecac70f654866cdbf99ed720; 0x553323de50f4882dd97146aa0eccad721ef23dfaea80b31ce4ab55f5710b0f0b3]);
ISq 0%nat [0xb7fc71cdd6b9e2ad4333e4afc24075de6d1b05b660a80edf39d02cd800aaa0f; 0x22f2eb13e712775746230be0b040a681ec1627b2a81780487499282f31d19596; 0x5a673ae96742bc7473f2a34cb06c33d3b74b1f7ee392d6573d6717c5bf9bbee; 0x21a215709343969a2f09325c3517c6e4be3e1a72acd8a7f5e5359853dc896470; 0x76d7bc3e1d211baf8025da0b6532d31c76653ca7592d703d416a7b121508cfa; 0x1e5a37e2fb5c3368a9c2c01c2635f7b20907e1b5a459a2481ad786915f1e0fd2; 0xc688ac5e521e5ac568d204a98d92aefd3dfc39fb3b35a15b09095221073166f; 0x19ea8cc8143e4fa5a2acf0cef3502be3a0da07f6f1b021fb46ffed88de4801f6; 0x23f7880ce8cf2ccff2260ac2732a65c5205498feeafbaa383f754c6a8616b4a; 0x17296c21971f3f2471eb82eae74947e59141bc88ff6ae38e8501c817322c670a; 0x2b08945d8750cff376d88d80d51d7806f4a99e7daefd9efb57815909dc9adf53; 0x1f76d76a0db1d7734ffffb8b807b6751122a86577e16e7553e6f7048b3c087ae] ([0x20dbdf428075c5295b594c0c442488f5f117c88932da4bf77fdf8984751cbae2498; 0x124bd37a756468bacd490c1fdf53a271a1cb2e66c3904c48c32467aadf2d4587f1a; 0x1910444acee8bbfba1c89dd30c6510a30be8a98d28f1461cb6d56fc2326702b2b7e; 0x10fac27c619dce7fb0ebe3dfbd3a7c09059a0277e0bc1f22e902a3bc883fad4a5c4; 0xa81c2e6894cf95d8639ae6a13c9829dcabbc77a5198e31991c18b07144e06337bc; 0x14b6cdced9593dcacb8c5b237e8568499bdd280411113a734b6f2a9bd0121dbae4], [Nil; Nil; Nil; Nil; Nil; Nil; 0x58e9a2c4cba0246f27a4502ac7a8655ff322b4de88797830565b09a2dc2eaa093b; 0x331e6ed77b5d17419770919823ec993214b07ee417d673446aee915066352bfd96; 0x44f52f16dba2830761792254103e4c7db4c8f44e35d90039f40b9297a689ca7756; 0x2ed98d3ba4ea778c085bd2a622eaf72b5e60b0fbc6cc097c2a144fc318e309d69e; 0x1d8557e60f94c16521af901ef0b37418751b4a5c11734ef5b6d3e478ba6c677f00; 0x52d6c4e0854a36b486b6fffa2be61960fb0df64a7d91e94201a2a3243aef8bd26]);
IMul 0%nat 68%nat [0xb6773d38d6587913f01dd90a19f66a9a4095ef7f3e81e15ea78d144881f6064; 0x299d4b1bed42952d1f9f5ac8be4d3b22aa8cd1fc34cfb0cc0d8313303e095248; 0x1b291dfb21c6b38166f9ebfe64d00ad424ed1f23530458c328c39cec6ba7fa79; 0x2e740878d2b853a1c0f9443de65bda101cb087e2ded27f7a63efbe82b80d3b7b; 0xe5f6d907195645d1f77876b2a248e7d047ca6ea09382c6e308c0194ecda16b1; 0xfafd68027b092be8e7d8ca9950ebc727e2fec1cd7f610e8f7c33e08bdd79f29; 0x24da06bc7ace65e3819f1b908c5f8b3a28956648ac8d85f634b6b8d2c48b8468; 0x13b4e9f5b03d1d6085b40812aced640f4e53147b51261c25350b47cdb1e5696c; 0x4c5046afd4b09b1f7462f65ee04f6b147ae63146ad220ad82f2fbffa0fc3eaa; 0x5dd182541304631f652dfc40d659d041cb2712f6855bf867c0a2ee78d8dc760; 0x114efbec4ec54dc08e8e9779714e42a3b778b7197a8ebb2da5fdbfc4f4d620b2; 0x270420515829c15aa48d67fe8a063c34b09181e529e2e65f3bed728830ed021] ([0x114e822000324fd5bb25dc9085ae0bd45106a770574b745fa7d2782dac97a28b7f7; 0x15dcb993ee0f630c9539aceb1726bc76a300b2a8be21473b383c74e72da375b8004; 0x1b392947673942972bd1f0f910c02e4fa7b069dc349f6c58cc14a1efe2189e847b9; 0x121508230afb437c66152c944951da48262a7183d67535151ebbc224588621b22a5; 0x68ca962129a77a1e9cce39921a77858e44fa85fe91eb085c87947b56b930a30406; 0x14f13081b00194411dce04cd8516f94716b613fbf7cbedb627bd20ef3572d10fb9], [Nil; Nil; Nil; Nil; Nil; Nil; 0x3091e25859c03baf8d2ac693acad5690ca83336eeb1681763e19e3cbaa8a03bccd; 0x3bf33943b56aa756619155b6c0fd9d4e3e106afefcf76764d7f539dedf0d566f36; 0x4993e0eeb1ebd9cc0d1e6e11cad44f9243cc88a0b0d72686f1a25873f53cf62165; 0x3170e7ab96d39233356ffb18030dc51e0729fb8d2339138c0c9e80adee87081ece; 0x1382704ee96b8b851b6e874ee1d175998432502476af9ccc54dde1c54140109a76; 0x533c0099bf805b578a4735178090cdbc51990e7e8da8929d4309c6cf6da33c688]);
ISq 0%nat [0x244a0cb7b3e864e95eaa6d52640f460c6636b7ddeba6a2743eb360c76ff5a306; 0x20a7a8cc9f2014a706126b2fcea49cd1fbfb213fd2706d1be4146b1a2cd0e58a; 0x16542102f31e46873f8e55c232f00ad7376e0c85ecb5f7b2a1679d69d9539fd2; 0x1a8bc2f5075665b04a9b76376d1841f53d2b7978484b8912492025c298a49a52; 0x1d557788f0c0eaa1ef9e844cf146d9fb71c2650822553dbd5524b9811466f26a; 0x2cf3faf5b15e0bd2021a090fa58ccebe3ee12ec7d39e86092535e9866d9a185b; 0x2511c1069b4cec96b6871acbdcb84965242459c5c7b4ffbd41bc2a71497c5cbe; 0x1eabe7b78549eab6acaaadba9c297838af479ce48a83638176171868b89f0f44; 0x23eab003b222b96eeb4ce288c7af71b74c542d753d7bcf500e2fd90d258afbcc; 0x234c60527d309ebaf38bb93c4c42844e8de093e92e0f835c3cd68f849c47e93; 0x213d76773d80ef311ec1744f91874e937f811647940da63ef544a0810ad54d57; 0x2800732d47a7e6ab5a14a5e42be0d313f76d04346d6981c1c1b9281c0800152a] ([0x3c5ee400fea2fbb56a1cb2a25f49020c24d7ff34b156c4ff188d9c32295b17b05a; 0x321ec04f9526e5a3db7003105d9430903392a06996c4fe07d9e6029d1fc6168e72; 0x31d1c3481c1712d4607fb7e81806453aad22416d4ac39be6aa5fb9ecc8aba06ac2; 0x11f3e8a6dcbe6ad9bde5326078163a36082dde59792e20e636fd4e02cf2ca2f50a; 0xaf0ebbc71e0f60d141d5a24570afd315ae94963463ec6fdde9909c3d81d2efa67; 0x5bf097c405a14d4e50a7548b1a59c1c81a25c5b82b5c0ca446ba4bf12459af31b], [Nil; Nil; Nil; Nil; Nil; Nil; 0xbb54df11f974f16ed495b5a74c27cf993a91487b5c4cf27ef8504dbf0d288c41b; 0x9fb505286ffc0c54f41b56a22eb4df8069cdf5ac628cad48e5b36283e658355a0; 0x93e0f98375c1bdcb33ee0272987674db70d510a4c90dbe72beaea6118427c6cf1; 0x3e209381f4f8c2cea135e2ab106893d871c7fdd3326af1ea8046774b811883ccd; 0x2cb89d05b53593c0af7375efc1bc10411faacdfe9416cee6e77dd9992dac485cc; 0x1a7a965a733801cdc50b5b161a2f18a71aa05726802d7249752665ea55a837e6e]);
ISq 0%nat [0x1c4be756c8fed57fe1da4e0e396c28128a5fe3655965bf17bcff7e60271a5866; 0x1ac04efae2bcb306620f98ea85e9b1b712870c723bed5c0f46c170ec8ee50e00; 0x9723ddf342452d0dba6609aec563c9f1091cbba65fd040c7e1da2d916f76be3; 0x7d8e496693e67dd1d97f357a207b8684c626aab2213b55962cacedfb32fc998; 0xfad25802c116a771abaef4af9e544b5f20796ac306b470bfb3a04305895c06b; 0x16fb1ba86186db7dc8e900d79d26a1d15d26a67ba1abd128d9a344ae3fce1aa8; 0x329ae2f95de8d32136f68c8491d95fd49df4a83f3a73e78dae5f31d64b19d17; 0x2e625d2e86aee6ac64a061b8591127eb63527590f1e43471fc47a5d38704fae3; 0x28db82cb869bf5c4f6fb20c57938d41710173d69b427b58d37cc08bf6595e9ce; 0x16a519e738fde58ecdf4d4604a320c891888235ccd06dbf216329df60fabcd94; 0x2ab32309876f771c4e9d5582d6626cbdf3cf41b1d3c7811da2308a43e9beda79; 0xea1edd5946eb4f3005360110767b28207bc81d787ce550fdd96df2464ecf97e] ([0x28682cffb78d7a9613816a8dcff1dec1c999e08313d031d4ade4da232a4de0215d2; 0x1a46dd396d7bcd60fcb277c0929d94bd4fd4d9ebc8ba1f0260c780fded4ab2c5a60; 0xcc961f85c496b49fd753ee3425ae3f67f90823580a1653b4f1d7138d3a985a6d21; 0x16f8d5dc529099e3dca3ea5d21bfd63e414398391b41dbe4090609412abb014698c; 0xefd90b13c3e40b4dc51ea45719d2c11a4add284ec74f32722c566cadba41914d21; 0x21a98ad60ba9816da58216532237814466f8e2b41897d73a642079491b6869ff1c], [Nil; Nil; Nil; Nil; Nil; Nil; 0x6e7a53386ea289f6d1f912d35ff91630874e443c5eb2cedc1cf66d1ec948675ae5; 0x4900e448c21b18c04f442a7dd83d7fe5a3e9828304067312fd7612eb2a4edaccfb; 0x253e2e0f50989e4c1a1db883254d23b518fca662c8a4a4ea4d2984ade0a888a8b0; 0x3fd30604fbbc9a62506df7301d57c7beb1f1161375d525dc18ea263d38ab71cdb8; 0x2af0f2804cfa6f373c0b74eccb4e513f541b065e0ad4b5caae7f23f015e678c3a0; 0x87ce002087737e2a24895acc5a125cf64306d206ae905db79024bfef5dbfb849a]);
ISq 0%nat [0x173c4ef2984d5111e3ea1115f2b1745aa0843693df275338aa03e4dec391c7f; 0x2ad143ce303d01611ae51aec3ef5f3dd683c1ce1f7395d4d7a629d346e9b3e0c; 0x34005b69c4b07a2169e6c973f2db30f5dfe71a99258dbc73422ecb5b5256a1; 0x2e699e5b6a121850c06f656e96617bdbd2e536e8759b3f02060cb9a37d38912; 0x2a9ceddab1da02ca7556c5f256c9f893e281c847daf02149770c5c88de725daa; 0x3000232573dc852a5f7b5ad4b46f2ae16fbf94af6d811c6a0a509b678d68cc04; 0x83147dfd5a71005126fecae7d6c5c7991c878d728106774be51e2924a8bb835; 0x25c3bcb4f113562d44265344ed67472589ac6925de70104b4d2e70d4c34d8842; 0x8aaf4ce90e7e96dfe4489e0b46a9117259211033f1f4ff580a60f016c109b79; 0x12a898f5c7835360191b4fa5c8bb3ad82a33fe2ad4354b9a334b7836316dd904; 0x122aea2ec64f07a2d894925e2917aef0c218d3373e700839544f9edc92893c8b; 0x2a1fc86a749ff053308f19c40bd95d1b166c9cd29a9f4795144007354fe53ee1] ([0x2a203a98ea3985324e4e38282023604b630a63b788d42bbdb04ddec67f51d36b217; 0x18e15e1abfa75a1a335d6e3f27ba4d724e78f033f3e486f7be00cde29bc1559fb88; 0x1494fe066643484feb20dc50764d2ce011f2a728b40d86d9e5d192418bff955af31; 0xbedf1b9bdeb5dda20f0e952321499fdacc8216012062ce698fd007e097931afe6e; 0x389771588cf4a7890f2f3e60be4eb4a1d3b8cd24b66528cad246c9942bb1ba4d77; 0x26e55e226f18f96ab00791c07ff5742e4aadc147350783aa1d4af3bf70aba24538], [Nil; Nil; Nil; Nil; Nil; Nil; 0x70a2dfa682e5d481945722cef814456edc24dcc63c6ba12c7bb6c47ecf76845ee1; 0x42fa149cf4a16c92aaf71cb88ecf60624dd65d296b2086c10898112a1ae04da522; 0x384bbe9c3f8f6f0e13b02f8f55f3afea585418faec1a57ac27eb512d7146c404f6; 0x220e90e2af8fad8d654d27c6e2436493d4af329e89b1162d5a837b40d04ecf0f7a; 0xb7e9f469448f4b66c168ceade53e39093eb9bd66ebe3e60e2f3a8fc3debf5ac4d; 0x90b9c06982bb4db6b72063c9e06620c08f204b447751db35f2844f4e4df25f653]);
ISq 0%nat [0x5aa3fd59f6567d65b6432ea6a472e67854bd96f2cb2eb3690e063b06144c0b5; 0x1404f2a95b9bbc65384c8539184a65a1db85a25b4bfb618b4d6346b08f815791; 0x134f6fa1fdb9154852b32eca9cafa33c49844c52c54a41c35fe2b8ac6e885a24; 0x298fc73c39aa37a74065c7afd4c318a524cb66887bd1098cff7abfcef37e5834; 0xe6a52abd67ab9e31d85ac1e5c1c1929f99c0bf09eafcee08f1e169c8baf38ac; 0xe069ae61b3250d387c2b3b9568777cfb53029c118c39ce22d99e0a66ba55bdb; 0x13f9c33a7bf1f686825764a45e65d7048eb0b035deacee274d1e1b73eaf1a591; 0x3011b785dc80516325c9da1f63c8a957b8a195a887bff2a40af8b49800a16ee1; 0x5845d1d80bbbd2dc5dfb728287a40a41907e7fbab6df8d630d253df3995c5f4; 0xd46321d85dcdd68722f3d2b3d444c15f1b2518fed046322f1cf13d6bf4c96fd; 0x8fd9f667634ca08d2fbc8f9388180b3b2aff7534e773683c15f21da35d6d5ef; 0x1b3c27a67e390ead807983bde22f5e15430d772d9d32b2b3a554609aa6b067ce] ([0x2000c54b3ea4d6082a7b2fdf5dd73e7ca22fe720a404821492e3226292269c310ee; 0xbcb60fc0da7f72191bad73ef894053f41db738540658ac06ec160056dae85e85f3; 0x10491ed5a63dc1945a165198153112757817f3a095790ba61fb8ffc8653d30cc35a; 0xe00645ae1237972d8d6987935feb9dab76ba8bfb79a539a760f3916898dc98feb8; 0xf9f2e5ed400c902aecdc966f6540552de1856afd223b27272d54a9bf91d3f80c47; 0xf7c829c4bbbbad3ac2b31a98edb7c77177f472df9b0215f4b27997c05e1247c3d], [Nil; Nil; Nil; Nil; Nil; Nil; 0x5749bf76ce09af02e63b53759e903d5705e19a4aae51f498d529315f5baa9159d1; 0x2031455302f2cc71b07f11b2a39f78c8b9cec98157817d108cf35b2c93d92f379d; 0x2d12cf5e8e1bb52a36ee0da6fb3d9a9f85ce1c919b7ca14ca1ccf8f6f1e61abe1a; 0x2771e7b47bff8574d011a4052214dd30f85392653b96a6eba7ce2cab8e257b2d71; 0x2b858b8b94a01d11371d66bf4b88066d2c86f76a332c9b0f7dc766946f98766bdf; 0x3ee15d04fdd2bc10ae04968f2af2abd0b9599176c938aeaf848324116bfec7990]);
ISq 0%nat [0x1c685e15b177014624704d960c5fdba301cfcc1291424ad377b134d478979605; 0x2c7d0ad086f2de7b3771e756c072e7ffb157f95a17b8d677819cbdfe1ca715d9; 0x100e6e9bddef6c7305fdc0c0789d155ee1b3b6e8924798fb1771c260115b2552; 0x27f99ea1559e23b0c1fc9ddcea9b6ea0d8f266af6c2ee0bd1ac25f86c8aab77b; 0x13454f57ac855b9aa74f326701cc0bbca96cbfa8f9b2aa734104d3d90db59c42; 0x17df33adfe22d7234a882a1efac356275f0af9398babb111a610a5c241da2d33; 0x2636cbe2584c7d1163cc900184f620cd9904669771a9332bed4271b1236161df; 0x1a61753e1c13be2c1bee1dbeb9a0dbd6a6df6670eb77b27b4c623b423f4a5148; 0xccf5605fd7c8ffb75f49d8b8352406ab56f0e0f370d403a062be09b6d65ca88; 0x1f76df184693b43b08c3e995889a110ce37a7fd9372d96e0f6bbbf4a383fff7c; 0xfa272376516c6140dcdeeea15789b844b9ed06a11a86c45c5965fad52020eaf; 0x2bb98bb2a625c76306b3783befb174353a3be0104e769f291bf3542d68e3e662] ([0x17635af13b73aa754319c2b05362fa69373586a453f2fee9b192443a59e0a1381fa; 0x5c6721208fc6754ddd1dc8e6525862ae88c27d5b38b6ec0312734f5f4d412ced2d; 0x83a580691c548b01c232d474ac5bc3732ee43d12457b4417b578ad0a77445e447d; 0x4822a5c549cf1d0277a1ba026416900cb64d9276b56bd7b4492449e4bf241215f5; 0x6847bd7e6233f0a205cdd3f6f801868ea187e3c7455b26927770cb1dd91dc77356; 0xdb4328e920e79739e81b7911a5a7b5bf44fd1b376bf550e3616b6a640f57382c7], [Nil; Nil; Nil; Nil; Nil; Nil; 0x3f3cf278cd25179c79ad19b9bba79054dd47172a0f00efde7939f4325183b13047; 0x10f7ad2990878e972f6a2348aa056e094137f5b320cfe69302f7e967f50e028c64; 0x17ebeba79fe89e5cc1995c05dfb9ce2bad621fe86d2a77636f6d232a4b9ac7a686; 0xcf62a1406891b3f6e8f972bdb0a6047ac065c1c3f12fcbd4811e950b897880d6a; 0x12792948da8722c75f74c7c4c61e897cc5d7db5b45c433e57f43fa3199f02f8616; 0x356d0e7551a42e0b52fdeecb87f1d08ca7834ab4959011bc790424c06ccc19aee]);
IMul 0%nat 70%nat [0x193bf5ddeed16efb3860f731554bb874ba3952a06035dd57867ece7f01a632f7; 0x1c9d6c6d849189df897670bfcfbac1182b4c6578bf605da8d56be15ab7f03b2a; 0x1eaa67fe8f4fe8b687381b4693d6f9404aa1e2f801b81916f1305ba1d77433c8; 0x10c8256b6895108ca1f0de127054b939a87a250871b2274da514ffd1aa2578f4; 0x23cbf027b74f6d3f98ddcd87f82c82434138beff36d72e79ce7d067f15433953; 0x241d335aa534a266ae4e232d250fec8fa657ec913459ea5daae56e49ab8891aa; 0x1d2f2ea2261021fbdc0f10f55824bb4903f8f7dad9cc526b3a7e74f881fee57f; 0x23417f5bf976894755dccf316bda078e94bb614f24277381b169bf3fff6bf60; 0x1b88f4b77f81a6de20eaad13f11e886bd880232fd6d76b9e494896278e4ff8e0; 0x2d5b83f6b291876b069ffbde61f78adb80f0da5a0fec921dd7fd0cd11ce96c16; 0x22377086c64da6d4182987e3892fffdf626807188a6c62dd4c791e9c8fc178f1; 0x15ed2fae40c2c9da8ca6a5e645a0ac92e8d96e2501e64f65e7076769ec8aa0e9] ([0x149c4ec399de91a0bf23806a1c80c270b909e73347e40994dca03a5273bed55b096; 0x1260ac84c336b73883862f30c8d30944f5deebd49f024821b88acd88b2fef77a6b0; 0x860bcd7d1154cac95991ff1192139ca2790fe277243e45759c9c31ca30d85677a8; 0x7f9e04380d295d37daf50758b54e33d5fd02874683794eea046de662ef00e12ad1; 0x318e834bfa9329144040e009867def23c1d8ef25ddb0eb1ce74a788caa86a1a631; 0xff63d7cddfce5a94ac6f48db982988defe9ce3f01ae1c91bfc881109d424afc0c], [Nil; Nil; Nil; Nil; Nil; Nil; 0x387488066cd442d97d8c8085bc6fa571dd5c5bb0d12c0991029cf8800fc623143a; 0x3299cedcf5154b351d4bdc882c4e81a239b8b9fc9b0b05d9e761d164e047e37bca; 0x189ce208f9c7a537e72fcc719f5d879d5acf825023d5931d1ed51d6646096140c5; 0x16cff39c8594c3c25cb2612e48d0368b778be34be9491592bda8ea5875babbe102; 0x9cf705062626178d6a8ecde053abd24559d7a62f99904bd071defce6d9de39c24; 0x409c0d28d2453c6d089d7055ea8c9abb47af13a671be69232a5a882478def1408]);
ISq 0%nat [0x17f89080b39a33f772286ae7cdcc61ca39cce44ecc96a804ec512d0087b0985f; 0x40f41b18397166bd55c69866576c9df38db65338fab3de10d3ef634678cfb70; 0x93f6a24f56c7b71b4e9f21a88a7900e86730e2de68f0c00d9b94bc7a5e4c8c; 0x200b6beef5aee25f70fac0a3fa340c232537757fed522683f04fc4a5d7efaa3a; 0xe826223b16a5455a5976d10c0fe253be631b3d8402f933875629b2025606640; 0x17261c9827f00339bfb2f17323acd7e3d665000df771ea8340bb413c06ef0be; 0x21efa387f2d5eb7e43b1859be3fe9a0f0173b2c76cd96211213e09b162d00d58; 0x12cbc2d9d88a04f4dde7691f460c9332801c6c5039d04889236de34fa84b2423; 0xaf2249d65c98f03ab2b605352bb065ed8a5971c5cac32686242c5ad56e5cf98; 0x83beae67a757c77742a16559d65a4dd7f5a54e22152015ae22b22b8f44ef96b; 0xc01f68f283f4653401fca5cbdbb743005d690744be97d8aa5b2c659cc379dcc; 0x2a2836f98df299c9092981d5bc80894cc9c75674bc0e88194838a5973dcb2369] ([0x2151879e4d5c012fa3e314526c3776690ff1bc7c0187a38a9dd69e7f4bfd44736a8; 0x23594ecadd51c1d622092bdd071e3f97aef194378cbe8a469915320484d5ad9e1d4; 0x1adba4074aabb5c6a4d55c5bba48c933d501823e0ef30ba5038af63b07612a8cd68; 0xdfa487b1126e7adfa401f9a200dfdbe4c77c033477006c337e344dd52f6766266a; 0x5706ac271fe76c7b2eeb1654464a515e22aed3a381fe8b7f236c4af7f8dd73e102; 0x199b7d868e6e356715236abd5332bf128f1d61e5287aa465cb8f391858e0cc71fe], [Nil; Nil; Nil; Nil; Nil; Nil; 0x5ac9cce46964ae5891e0426f47f64dc8962899c5a4c08d8fc7e09d48b0651e20dc; 0x600f2547e100d6fd011e7e7b6a63ea16fd30b074b506b9942e636aa453c8582a07; 0x49ecd1cc5eb500918a58ad8b948bb0a2b98a860d1ec2dee9784cb94c62232cf181; 0x27d12a0de4902e1d8ace822edce439219f39d26b36a4e3995b27b12b94cc73b19b; 0x10c0782b6837f3762a5decba8be2c22812305289efd34f0114150f7c06c969d082; 0x66ff9ba9991ab5ba93d9658517e73aacd859550661d6d57ee17ff71d76c8bb2a7]);
ISq 0%nat [0x2f3746be20e3742d3181f18df09a738529219f5c62da1fb16066948b481de08b; 0x250f4bbcd7e8fbab83825436487bbedc773b913122bf8361e07b9435c21faee6; 0xb8496da71b22fc0bccbde626f0ace0b77baf02b7941a9aaf965e03f6545d3d9; 0x482856fcc6ee727cf1d436ce6f0b940b56fa74a667c4810978445ca64d203a6; 0x2d0fb47928e8de91b7547c7d2c020847102b3571e669d109df092e2406051bc9; 0x192b2e8a05b1fce9de911269056b8d70632bb9fae9bdea4e6e8bf113826865ab; 0x22d47b62942f2be8918c6bb3916c267d80447a028c0348b023c434d88d6fd125; 0x166ae5431e86987ebc9810b078b392d14ad1577218529c87256e0dd13b928054; 0x1f0a58bddacb1e13b5f8497e22675754168e7224d46c992f10a8c9233a0943e7; 0x24f478fa7bf245794c37a1feeb649846dd1edbe763a7748b7e3400f5345c267b; 0x2c056ae5f8fc9fc6ae20d8e3bcf5905e0f667836cf7e52771751b79e7afe41a7; 0x2a264bdc7c73b9b2ac1181c074c7983815573beeb3d3c175956f3d06220f8822] ([0xf41a63dba6d7af71ab2a25e9d0ac9912dbb2f226bebbb58afecbc6b59daf2ab52a; 0x952761132b1211fcd502f630e305c4add3a9606d920c9cde1d3e50a63f99ad833a; 0x7f7eaca08e4d7b40a5700526b17e984f86fd226139ed054212745ddc002267982d; 0x873ff7ec34b837c6af131c7842773d94a057a2a083b82308aab11f9c4d0a67e0d6; 0xdcb67ffd61eae23f13321a060a3812b456d974fcf622cd4f281349850b7111541f; 0x171a294c8c1e4c09d4a9fa462824ae2a692d108fb31d4c0cdf35db8167e5a62381], [Nil; Nil; Nil; Nil; Nil; Nil; 0x2921bc4fe97b706656337877380bc09acb5e48eddd3243487002906c10c2860e3b; 0x197f3f44d8ec08cde20700939f95f825abe9af1fb6fd7f270c62a82655f8b5b57a; 0x1685239b746d18bb623cf255e658255ddc2282dcc82e067ce747e6b5c417781ce9; 0x173c16463fed3b64ec78cbc82ae723cf03de8c9cd0b2dffe39fe4d7e76843f6021; 0x24eea60a1c56ffcc67f30b8526ebb42ffe0fc8109c06b27c2a9558d545b61f1059; 0x55b055da75142093d4a08e75af083adf8402b97a5bf9dd3321a5c3cb3bea703fc]);
IMul 0%nat 75%nat [0xb270a1828c343a7a07194cf8acc9e568ba7bf63fb5c2c558b427ab037ebfc46; 0x1124b82209bf050917c698321582c65eba62ef537957527f59156097b413f46; 0x229015e06bdda6fcc3ac72499d65a14fe40fbe9b50bd7a6f6416e4d4669be2ce; 0x179a129b94be145a4463923438fd7535ee95b46f240d16ccdaed3646c0f578a; 0x1a73259b751ae7fdf463e1921cfc0dba84dd8af4fef44c5136a7a527e32fecfc; 0x7bb346438ff362ef88fd4c53c14017f173b43bf75f3150a81ad076b36250c41; 0x2e2ea3e4aa103dad296e8284ab1a1cdd68d3abb26422b78d4eb38b902f2c196f; 0x18563ce128de7f74ad582aaf9ee5dd071ffa24bd2a878e4de62dca335dc8d427; 0x22fa3c06a79acaf865b7adf482531f4d013c6f97c70776c75e8eda6342a56429; 0x133376c57da2368f56bda6430d0e9d460551be22c0b36c8a476276ff7f68b8b1; 0x85dd1855566522867cbdcd16a5ee304c1f7483634e60f6a71d4a2571e6c1585; 0x2639da58ba5beb1a71a38825528bab61454437a97029b958f009f775f17ec818] ([0x122fd2edd6dc2e24964c2b403e0082973e71cb6a0c87dc6c39dfe4f5e3f0fa7bdde; 0xc2049c67ee47b525ebba451dfed16f39ed8f2dc77575a780f6fe3445bf42f1d9bc; 0x8fa12169f455cca2d2480a3b1935a3ba4ffe37e427d0a3bfec0909adc259d2e950; 0x56aff52978b695ccc48b548ce116a4eff64b4656eb7bce89287a9d7208f096ad15; 0x3ed30d24d2ac2652d68e23bb2c33e459039105eae7f0185eec5e2c6d58f6628d44; 0xf4de2f753971c76902c394f8c71f7ed4ab0e07b4a2bbc39d2aef67de1728cdd73], [Nil; Nil; Nil; Nil; Nil; Nil; 0x31e61d9398d8cbd538c448a057603e36709855e0cedf1f8aa3c70f6111cb99e1c8; 0x21fee81acceb6f5a0d75b730f80966f6547a08d14fe96837ae07e80ba8a377d640; 0x198b8862174d786b791c7ece41b5020889a3ae7dc3e139e62873bc449cf7b606e3; 0x102a8b7ede341f99337874822d481536d6022f9dfb5a37869dcc95948b0d72d32e; 0xbef09102d0a12cd5969720c4bb2fafdea6b7be585ffa3da18e2c8e186d8ffece4; 0x3f3113720340ef982f880e3de4d1c5c31a3187bf89e1bdb5959cbee4b4653d1b3]);
ISq 0%nat [0x1f7adda4db84a221a7f3cff941868e96fba88924bdcdd0cac6fcc8f511d1b859; 0xcd36002722ac315fc9b02031b4c27157f7b6d2b289f3198a2a7ac4646b5f4d2; 0x168ea88e1a876e0d3105fa0ce47eb949bf55db9412e68453d2d695426ce99b58; 0x18b724fec4d6de0896cba88a3d6bc7404d8802ecd1adfd47d409060736d305fa; 0x29bc08ae232e7a378860f4e2b196859f119b61eb6c83a2f246d853e16d8a19a; 0xd346d0f58b61aa54af4295c56bedddd0d7dba5287d1bfded855726f8758d617; 0xd621d7baa19c4f2a3fcdd87ec7938fd17f211377d39c6e2c6436f4fe753c7ff; 0x3b14537e8622115c02bbc5600f2c987056de0b1c9dee41ec269633588af003; 0x1fcfbb1cdb17c9d24e020b7de1ad3bc9a09198d9cbb5ae56a5f165adb719c0dc; 0x23cf1eb1f453b85cdedc1f7838261854978ac914751a67b906dba8c71188356d; 0x18b990fe0682feeaa12440a25d630df3f27c41fa6b594fe56828f1fcbcd4aafd; 0x14fa347c4ade737c2154f0149447a38e8b9b99b1ad4e12111c18e50f95952426] ([0x170ee1ca58a5622db72e651f5ad906c56bb99cdc37f523b4d9f0a717e401e96d369; 0x18fb7db0bd19659dfc45682e4a550a0981f73dcb17c30d5b0b0bec47ef8548cf8be; 0xd61f62fb32c2dcc60a3616c8407bed1c3a2b66ebafc6c0cb085de582e31d16cafe; 0x71730c431d2e86401d6516b83e205ba20dc428974a921411d446cde0b95d1299ca; 0xc543b7f30068f0342b01af25bb07d380139fa115a2605d5316614cc677b102f998; 0x22ee14ad0dd937ae90144cce33af69d8661745342c1c81562da522b392f01b2ab5], [Nil; Nil; Nil; Nil; Nil; Nil; 0x3e96d2853b622345bc0315ea3551a722563cbf9318a707b61f8da456a8de0758df; 0x44048d52fba8b9e32359fdb443d4d80a949fd7022c834de19215ab1a09ff462933; 0x25382ddacfd63bd885c1b3dd7b29079bc3b886ae98823382f9abf294ce41069810; 0x14e45bc51f51be6c82cfe57d23383a64f8d119d646f97032875b83aeb1ca7faa89; 0x22153cc536b514ef32b524d41bbcea0f7e93a247ae28cbc33a0d98adfda9a090da; 0x8054ee128c18129e16215e27c547a1cf57f4d1d78ca5af0e278873e84e336dba4]);
ISq 0%nat [0xeca81394b67c35a392822d1c8236970a565f6921e0ea59619ad95f34e1251aa; 0x1df3e211fc21cd851f75ee52f894b57ea34da515cbc809dc2a1eb3cbc7fcb181; 0x2d8db2ee2559b6fbb74e50d66e2a4ea4853dafca54105ff98ebea355ef1df85e; 0x86376066672039ac331192f2087040769996deb85ec9cf711f421e1c738609; 0x233863e2227799be4d8b587983467ef653773b1a0809ac712f8489ed506a04d7; 0x1da0fde51c5a5a3408deebecbace7d00525113387ded7a91faebddb9f67d97ed; 0x2e3c83e86fb2d1b7087688f1ebd89115e13d1998ae84b0e0c4b6105ed843835e; 0x1aa222f1a4506a681702911f60fe2b80b972b3488a33fc2e0a5281cf543fae55; 0x86b990ed2bad25c24a90c66a4d1ec90f5cf34658a2ec72bb20d377c890f9136; 0x26c3e13e0014bc200e459d6b69204a4cabcc07697daf96fea4b6a79ea3bd05a2; 0x277069ac5f34c4764ed19e486f73962a368e320e4ee770f5c4de2add636ba3a6; 0xd24635383fa57c16cf9ea67d5f7c053cab902b1b0f7ec2e1ceaebc2b369db57] ([0x16e4281e3df63b8fee8b30983748aa39ef4b1932034fb787c91440c1a3cb121941d; 0x1871e16fb3d514ffcc7cb798fb790f6be46203525968105bb60a6abf4545caebbbf; 0x10f51ab6ab7aca917eab84a881060fcb161127456053555016e733c4c788760572c; 0x86e84bfedb18ec7458342f5cc310b1464441c6be009991c2f8c77a63f76aaa299b; 0x432dec9f93ca4ed595c1511b0eae4134fb443d3aac97057df9ea41fe2adf2e434d; 0x12b5b8fbc1fb7526395f6e86f5e6b65f302a61687546d2accb864c910f2ded8a2d], [Nil; Nil; Nil; Nil; Nil; Nil; 0x3d9b29e4ef21c9d18bae40223e84955aa84737820204541e884d008446e23b4ed8; 0x4166d81486a310c443b6eb751a8f02043c39fe2bca8897943ed692aa793f0f058b; 0x2ddbfab6ec20dd40bd97e58ae81cbffed60570fe5262bfeefeb3ae70237b3046d2; 0x1717d57f4286e4e9743aedd92f5e4656a10613f100310195b9e38a2544b26dd970; 0xc3181b13306f79d2272813357e1e3c79f7c6ef552fbc8fdc20af17b589bdbddaf; 0x496240b59877b38f68d4f989d817bd0d2bc2432a28b6db5d14770a918726b4f5d]);
ISq 0%nat [0x1791947dadc21fb41b4c40d0869268a3ee5ee6e2decb646d1005782b9c9db903; 0x903f77063251327266760699a3608af4be8c278a15f6725861343452fc1ec0; 0x2c337c89c814e22b4e489be019944f6ff88bb0d3d147307bb78e31c42e221e9a; 0x2b202fc18ca8f0f3b8c7625981afbeda89e3949377575810ca4bbc3763c30a44; 0x10b125b2dd58aa7a5b652e179c559534db53ca1751546c3854d3334b50044aad; 0x191f68be90642968860d8be55dfc31c44073caed38d8215542da68942e109491; 0xd3650463856c60f4079a8a31c48d83c6c1229966ee4ea05866cc3e9d6ecf13b; 0x1ee468b0dd92de8869ba0cfb967c3833be63aa849182eca8ad6b6852d0ee9a02; 0x2f620e28d2c817074134873956fafa8c39fcebcddca6da3a48ae51e3c8411ad3; 0x129cf4547ca5e5079d59e4058dc2cc65f01eb4597a72cddd30ff6bf5894e1f9a; 0x5ee8d199ec62c11a14aad3ac6e67ef2622cee81027b8e3082bd5b362fb579b5; 0x1adae550dbe4b0ff8527a94f6ace2d6e9086600e196c40f66edee2998ec2b9be] ([0x18f59fb29bf32379e22d64cfd7366f619c4e87fb41b362958c27a0ee200c87d92b9; 0x1b47ce0132ef4ac38f6201bda5546a1531aa35c64bd37230f8078e65760e232a1dc; 0x15e12e9d34d008588055e15ca7a0a716dae7a53b1720d6bb47812043da0517a5209; 0xab94b2add12964b3c32bd1e84ef74cd531c970c98b3a7b289d9321d26db2f34498; 0x3fc19b53af9d0d2dd729eb4ba4226a4c21699251c4e8652e91f1670e7947912c4d; 0x1a069fa108b1994de2152625bab020b17cba3bc22ad2990f210f5c4776c5714cf5], [Nil; Nil; Nil; Nil; Nil; Nil; 0x4533cc4622a6e35c68076d2516b85dae14d56b22396b7071994348c6eaa23768a8; 0x4aa2375d0279be6fc3b5697460a1079fa03cc886a5713ba917495f4a3708f35eb8; 0x3c6fd10cbbc3c5a33edc446c3001c5c7c3bf39ca8c754501a156fb22074d4c9730; 0x1f5a47fd3cee6d80d2487f1e31089a72ca31aa81dd9d4e371042d18714079e8a9c; 0xd9660a7b8883f5186af6b08b883333497e68f8fe9eb5043c02cf9978d82f8420c; 0x6a5b2e3c8ed060ca2a044082d64aea9a23051221ca60016bc47b90244222119e0]);
ISq 0%nat [0x88b2266e46e529ecd625800be8a9f6cf1071e9bd30e9696e7a1728f5ba084e9; 0xcf22d9ae68832f486c08f6e2e39b7351571372b01df90f6bdc62a41e55e3c1d; 0x1a41b98cefd2eb5f22752a14a8c9c463dd128136577358be8332a3f7e2bf5a; 0x2080e4c3999dd8d40fa49156a3726edc53e2897e88d398f899c5921af4ae75c1; 0x2f10f8b87de8edd7bcdce31c5ae702a5c45ac12677acbaca7672cb3e98ef1b29; 0x2cdf728213b0d127e13c5337c6d4d39bb0da839660c9085e7bb7150a0cb6393a; 0x5db492a5d2d4219021d6edcd41942cb5bd34c63ca18e1edb66c1b8101beec5; 0x23ac3d2fee165a86742b7ceb5cf0002c01bf9cec318d0eda580824b3e550ab99; 0x2d8f8cf9a687a06aa6b61e7038d507b70f659878cd10069c53ae393e4680a350; 0x252f0b18c1e52a2b2bae9b995f1f7bc560f38e67a755cecd5bce361f9f6e6da1; 0x1e71595a58e458d5c7afc66099f4f8ea9fff5729a7b93a5c4f4c811fb36c6a2c; 0x6edc0484381bcab1d84e57c4cf9f07c8b18c499a597aa4508a039b2f59380a2] ([0x15617f82bfee96723e28a1f938e8d0c2322f3c61e6b7b0789f113497ea8b03b8c1a; 0x175e661ca4182aabeebadaf769e0800bd3c0750b22702fc1020d953ea5f84cf3e2f; 0xa09264ca2091a42b344b92e79cfa551b40782c78e21ff020f9e77ac9b7b9d7ce16; 0x4454ed2f68b14ac1f9678c4e4f7f19bc33021471f8dd07019d2e5b923b53072463; 0x7624aed199793ebbda9a3427f1a1b66f8ae6541db82ba3b9fd593179a4397a692b; 0x1264c33fabfadce0332244ec065f0f7b65bca4e4d96db4e347f6f1ac9813a88354], [Nil; Nil; Nil; Nil; Nil; Nil; 0x3a6dbc90b98d4ca1c46a759a906aa2f9dce3c5eef791dde28573215f033a6a7915; 0x402eeb5c9d80e076c8841cd9e6eb34e886249da50df127c87f8bbafc2ea1a56e5d; 0x1ce8b7240cffcc9c122f775cc2f02ba959e190b11ca81b2e578d136bd6220318bf; 0xd6209bfacbb6240612b175187ab79f7cc9786285f4f22463386d7bc57806c2a4f; 0x15dfa72e31b8bee5178f24f64c3f4d5f07ac33080a06c03c1b55df163c4f4c73dd; 0x4d42a0cabb28914ecee37f3bffc1a9a1ecffc7c188db63f0ac832551ad2dfb6dc]);
IMul 0%nat 82%nat [0x14a28dfc8245fab411617d66a4bde2c6eaccdb4825ec42c05c408bd83e5a0da; 0x1c31356678b5227258a55e09db96f1a68483252d6e87cd945809da4f99333e7c; 0x261d23f2267d3083a0ec2ba0321b5b28fbbae70436629011b6ab4b37609827da; 0x1a4bcd59686a4f40bf8fa157b697ad19b6b8d5c41af4369e685ec97bc1a469f5; 0x22af1632e10b7aa96b6a4726b23daf47464c1cd93d08f00fcb1f2955b5a0990d; 0xb3a90ae7bc8e193d90ad9adb8f5945f6dc07bfe006b207ae8b0fcb9f9233b4c; 0x280a8da90e45932a268b229b80b6216fd5213609a7b37341d50c844646763a9c; 0xeb4954209f27c4d2aa51e9c6511840c2e7233ac48ce80e2b054bcf04076ec6d; 0x138bcdb85ce01f6fdcc5000d2dad43b0f2d15ccb594213e731ec98c113c74a08; 0x9f64c43933582a5baa05e36d228de041def8d04aa5433156f304706158b0e58; 0x1781e00fdbd4a0781dff9dc0191ac2fd8f2b2ef19480e1155da949f94308d2ce; 0x325814980b488481e4ce6aa926a66fd4f56f4821dccd35041c1c0b3d5f9a75e] ([0x21236389d072f679854f20e8bbc7c04ae316518a4ec2e1691ffced17609deb5e177; 0x1d99bc6b556e603a22af1123344233f43fd83d665a0162e4bf843750699776d3cfd; 0x1437417ba9fdfcdfede6fe399f8fddf19b2dc6a6131d6543c218fe7df01ed419866; 0x909c36045e6b2e5091141d660032b83c757c8119a678142325e3061a31dbc0aea4; 0x2a8af745bffa64ec8a4857fe729f14a194c57716bafde9307a452b79ff80dd0099; 0x1929d45c674a43947d7bd7ce20cf79f9a21c04ca74f7b67e506d9d48f08a831473], [Nil; Nil; Nil; Nil; Nil; Nil; 0x59c8034c7c428d6f15cba2f1780544940057c4297f72b064b86f34c0abb6f597b7; 0x50dc9450818247ab6ee646b655a082a4b105ff564298986ccf6e3b460b4b2590eb; 0x3872242d219d42ae33da150f681bdf8e76a8ff8261f7ce8dc66cf5ec4eec8ccaf0; 0x1a77f405f54cb0fd7e4f841ef57e5031109b9edca4293e3d8125d0c513b783f1bc; 0x93f1710e6fa67e2693582ee9a22ea8e9df90e7dfa4d2f3c39b6bfc1db4b9a24b9; 0x63b301920d61bb265f716b86825347df8267d33eb773df42eb45a7ce4458f2c5f]);
IMul 0%nat 84%nat [0x159097fd17a1f8cbdc9d4ef73c293ba600b09587abd4044ddd32318237dcd39; 0x303fc09ee25131e37aefe758018aeef4b171f22e1c1e7c964c9413f7e622f92a; 0x12a920ea1af9c3f7d65d70f2b3aaa2680ba305b3db0478db3899c4bdc4808a05; 0x289099d4328f2ca635bc8dbcd8c81e479a52ebef81d8edbfd2513c1d793f4ff2; 0x1e34c8ba32928909ac79c2fdc283d5057d0d62462de7b1338465e9579d216018; 0x229de063224c2075f6dc570c078230727f0921d757c676a806f535bd9a7a92bb; 0x10007a74ef02329474357e6da531640e99b8a038d9e190b220ef62bcef662944; 0x23529a5ac6a9e215048a39e16a1ed839bf3f3f99ba11d9e3faa877f81077e380; 0xdd081bcd744c70422573e49d27ce0c706baeb40268b4df6df1e00f82f7c4182; 0x1094895f3fc328c6e5857a7f229e891823b5e63e4b0f6ada96e036a1a0c06580; 0x1079177c6214735c3182ad6ad09a836955c1bc4d7b9689735155d8f495490388; 0x2e84c4efc2e087bcf579a585640f0a0504ba23937765c74c827cc73cde53a43d] ([0x144ff70b0eb0a16e75b0001ae9a4aa4a82cdc61f4ae9962463c48223d14802004d3; 0x129e5986307cde48f944609f03d4e10dc661afb9f923834d2c8c66f2a181dd6d50c; 0xab80e6acf0b2a9cee2ec4d4a34e257dc7f3e57cf5ad0a0a37d71bc34505af0d423; 0x860392f474d4729a4db2acbce96dd36c8d35ca7ef84552910de41b81d7e3d7159e; 0x2627c1ca543ea95d107156e48446979e389c8986f9aa4f3817fbaa4806188c4d5c; 0x19de75986bab02e531dfbec4f169419a239444a053aa1c92457a3740e23760fa8d], [Nil; Nil; Nil; Nil; Nil; Nil; 0x383bd28a8c06284e97d3277c32bc8a3954659e2003d953d7313446c913d2e8e579; 0x33d1b112d0df4ca71f8cf48b4cf34d07e1bd0810963f464637d93152907f187e69; 0x1eb86b14c5435add2acef8c3141be04d995369f2f4dd9f41181529e562769499f7; 0x187b7df5c8d05ad3eb635aa4efe4480d18f10edb87b736560486c7964bb8adc50d; 0x85224340270318fbdcbadfa8386e06e3d0219eb3038465563db8ad9d9cbc28034; 0x650d2d032c42aaf8f0410c610fcae3c1a676753565a55cfef25e46d4981ddf829]);
IMul 0%nat 169%nat [0x1356ef5a816c978abeb8a6173d07fec9529aff9a366bded36ce5463481fc0bea; 0x159ad268a7dec80a300f0030f24e92595fbd39bff35d6c6f3250909d8391e2b2; 0x14b5039a2f4fe1eab3bca96da53bced371d8e16e26fec196f090c5f285eb2dea; 0x2648c023df473e11351a017f3d2191e4a20ff2265b818be446b236ec113a5c62; 0xd70b74a6124ff7c0663965c6f19728b3a615e930d017bf51f0c7adbf774f4f1; 0x15d0c165360c1ab62c234beea6289346d98e86fbdf5fe0f2d799d3d4d1785045; 0x19be9a0251ebec954fd1b6eabc73a81b89bb476b045a6fd1b4cf82ac4fabb6eb; 0x194d1f1d6d7131c261f77ef9368f1bd4c345e22ac7bfba76905010a6be03226a; 0xd917c5d33c6d417f8a1699b139d779aded912e080a4d95b8bb1674e2cfe4b3f; 0x24e56f902ae9daa5489be08a5b51968cbfac8ca2874a757d1554a34c917de41; 0xa44beba6dc3483667bc9e7289baa871dceb1f8b1f443765b9fc20cf950509ad; 0x9176be5839ff46bee7ef8895c98b4ba2d7d03e5f5d151fb141f0a6b4576f57a] ([0x17ab6cb0f74c81a0d8bc6a911a39b21de6dd013cdec25ac2aaf04f91145fefe9d98; 0x13daac00e7a2a0cb6ccbce0c2521f3228641dfa5b640b63dc4f1c95bf01fe5b52f5; 0xbddbab962b63ebf511cd72ed905122d524fcd7579e4a41cd23acaadddaee02c66b; 0xd0f14ba0c2a9e4d28226190df5fe691710f25c7eb0734d24456d42ce8623cc35e1; 0x10a193bc29823f7f407943c743b5e468acc92a3d13eaba0e847850430e04547f238; 0xfc2243cfc891872a29f17cbb4bffcc94c35c176d989c5522687bc1d500b9840ab], [Nil; Nil; Nil; Nil; Nil; Nil; 0x419c7610779825a7edfc883851c4957fab78ca87e5a4526f689d614acbc8f43c05; 0x36c3e642bc312fa57095c964f16c31aa6b4d85cb7378e35949544c68187b5fe49e; 0x21e5e566ce15f3ebcbc160784f5ba855a7601a68def145f894620b182ab42c3478; 0x2484ad43a7918fc5c3ececc37bd860d69ae9ce9cccc5cb5072f16090a4a96b5728; 0x2d92430bafd31e9c7586449baf19421595f2b40812cdd1d7a622e0f8969047d438; 0x424b19b5f9834d64f403d54a990cb297fc4b5f66d5d6ed0c2e1a57a13763d1c2c]);
IMul 0%nat 171%nat [0xb6ec1f13566e94ab77f3e24725a497ae5d5d58c2fd0a55cbc8a52090dce39e2; 0x1347eafc93b155e0231b80976d5187b3e53a2937d04ee42ac0475be3b091f908; 0x24f6211f178700e3d3b30db641adae418ca97a45f7c8bc531b9745ad0cf40828; 0x1429a27ababbbedf8ae3655aa0fc8a58088bad054fd236d21df056cb1adde31f; 0x2d0f0447199d3365d52ccde00cfa8c621c3fc388f93d7287294ccc32b46d1718; 0x9f27015020eb371918b8f03ccd73e5e4948baac5e167d1a21e5c91f0a91d554; 0x2d74e0a61f6d8eb18b897fe12ac8fdc365464151f4e65c802280907c362e95c5; 0x1e34cedcb993b416f34ed3622a2cb2761399f52ff47808205912e5c6a206a86c; 0x204add9e64de60cf928378033af5e4235350e578e1527e051342b979845076c7; 0x65c6f6a17e0820655b78fc0ec4d9142bef196d5d4a7e07db4142c2de22880ae; 0x20a684aa42b62177a61fc1e4bbcb05621fe049361b00a019877560e77589c0b2; 0xf9398236de5cdfa41ee1939651587528a19ad0624d697ddf9ff4aa8c31eebd1] ([0x973c2ac04c84bd01748216e2372d2379e86c0fb09b64bf43e6b5a3ec557ff5f55c; 0x7603ddd5fbeaeb5bf4feac7d53033829d8d96def7231b278478b3c9e822342b0ac; 0x446fa60449bceea287074dfcd58dcb9a04db1710f4f7a9e10a1bedb06bc2e2f986; 0x2548695181500e990186aeffc4f9d0f92cf70ff8bf49cc75beff3da60301446019; 0x1243159adb39e290284b5d2d4e0fc6ac926fda88ebbe2b26c9140adfa8c1089e63; 0x87bec5a633847700777f614d8cc1645fffbf18f849d4f37f3d60abaafbfe1e3c9], [Nil; Nil; Nil; Nil; Nil; Nil; 0x1ae5ab2d869d4d51e66dcc8fd6a7e3321247ba45435752391238731c6c29fca5b2; 0x153946eb8a0006ea0daa1a9776c6603a895e8de82f9671596469aa80626197d6a4; 0xce80260eddaea41ed7f691c3846ec388d708e2fdb6800ec821c44db130a15bec2; 0x7b803c392f19c636c784c30af708b6e65845bd342d407dc7ba2b86c7b8bf5a73d; 0x456593469a9455091b86782c217493f7338765d5c24e05d657926330f21065e8b; 0x26180e215f505d0b6dc3e612ac548a13f36bbe0b32d832e7374f7b71d2878c0ae]);
IMul 0%nat 87%nat [0x20058b0360f9399ec0fbbfe14dbdb505243b2c9b2de42611a7abc5d53a4c648a; 0x2535a95fc6e039e45e764b82339e51a28a0538a1073a828980c56d46f636a5e2; 0x20fcdbcfe37561712cd8d94f5b19ccea943c4b2a752fdca9a6449ec3fe586906; 0xf71ef0838cdab2b6b28cceba3d2f177f6b68e937ea68925e9b1b482dcfce7fd; 0xf43662fcfe8b3e0fd56e1276b03bebfbc3454cfb8fc971dcbb770248e068b90; 0x178ea81e298d1c3af5a02b6e112fe66c722bdf385a17f274aa910acc19cde553; 0x129c6c1c834de429dbd60b7d0c7db2f3a8ef8e498aff3fe8e7e464674e3fa729; 0x1ee79ab67da483fd071dc11cb3439ac07a9939d246fd2c56ae81daca7f2e8391; 0x8337bab513077ed12f63e82cf606138f79cdfd71c65b63a69ac77a875160048; 0x29d22ae89c8f691bcbb0d761dcdc0cfa0123554b74ae03b453793b336772b269; 0x1241a75cf03761e02cdf31c38f4bc1e1b190f9e0dfcb850139c86ae35b27f1f0; 0x2f8057cd9a79a3923dbb995bc481ef57d675fdf429e272575c49c0da77a6a6a3] ([0x1f636f8bf03957613d6c72a6e8c1a18676720f729ecab3d24dcccff1a86f3a76452; 0x1b7406b39aa546f2d2d53d0f7bf3d65f3782944a783bab1058eeb4958f08f2b353c; 0x10e239695724a4145e4a50720734b641c7fcf3c1145517849763da10dd812a993fe; 0xdea9e98bbc4ae8b80991eacc5249fcdcb1459f0c0ead515a5c60614b39731ba277; 0x5f6412faad565d7fd2ff18b8218668f371d1ed27c9c072f81429dd00328ad70036; 0x264b7a2c19d14cfe2aad13766c42badf8dd923024abb97edff70b7c013208f6841], [Nil; Nil; Nil; Nil; Nil; Nil; 0x559c34a8a13b73ac716ce44ccc54c22f120270c8b5c594bccf3f6db7afcaeb35e6; 0x4b7e04f395caa2d3ff5ab9892dda63c992333ce1745ce0e39cb8ec97792a99d34b; 0x2f89d6723c4e65adead4d2955b7ad9b742a609aeb0ed4cdda6a262965d7d9bd361; 0x27d428fbf76d548c8aed060ed7d4e39368310de309efa05cce7175afffc2f114e4; 0x125dda85240f0da93f8ddb88ac4f125e2df7df63bf7e42603e975b5f9968530a19; 0x925fba9ff83b000410d032f154689b9d8bf80dbfc4f56c6f0396fa833f524e192]);
IMul 0%nat 257%nat [0x2ea0340b9dc52d41fdbada5ac4a9d2a89b996b410a9ae8707aa1f0c3b9f15fb7; 0x2552c1e909a0ddfc30d54ab87e5956e4f8ec132e666768e9337b96a6d2bbfe58; 0x99467f814aed4383f87e8a3a21ac4194e5719ce833db382d0bf7a7e3a33934e; 0x8a9f65b29e63bde641cb5b65fbcabcc8359bc239319dc57558cd8d00a216b39; 0xe75c78897916911d4590f65ad66e2170f730030a4e859c014c4ce5f326f6dfb; 0x8214d5914df192b151a3b06e167cb83ed021d9d4de198b334fdfe93f48791b4; 0x11390278bff1209bdd127055b8b9c0f0571aed658810987457980d768c717c83; 0x172a7da4c3fac780cdf1807487b03761316259c7769cd3595a8b6cd6200c2146; 0x91e05cd9a871a47b02b6e8565e34436415f42477185a1d629c13d506f484968; 0xd3953a19ea027d849ce09bb7f334e3229f1a5eec4b3be9c081fe89ac4da6c9; 0x228fa09c48a3c5453c8230e72ba0b30d2d355a99a738a8874206b49ff976334e; 0x1c1bb9cedc0414550c6de9f361e36d21a0521297c7a4ab6ef11fc7ee72317ed1] ([0x1e91f42289d8f9c2a7892a51ddad6facc7eafc955c85ad6f63d0d577c624b5b3db3; 0x1535f96e56ce3592805c031b6778a6a4c327f3b7dec9c7509413148ba933f8f3028; 0x10dea6514d5f924d755eb6252e78cbb34d1e8d822ad38ba7c59935a8670436b4c2e; 0x71f4e655a990662b9fe51d0416d2d5529a2e852c6dc2456a285f1ef952e16b594c; 0xcc730815f6669448cd8248f7ea365b1542d25ae4fbb75911ac5d03e64406a4d2c0; 0x15bf037cffcb432aab95ffce635ba932b5c41ba0221c065f06424db0fae1e09c59], [Nil; Nil; Nil; Nil; Nil; Nil; 0x53bc500faab2d5501e61fc3d14274edf0ae18c4ab349ba64033bad93d714e15d46; 0x3a56fd53898be9f383454f3ec9d28f7dcb5b2ca292159ac3cf66ef598404f172ae; 0x2f3b703e5b28c588b17bb5083c07d12db5fc4a4e12ea278832a6c347273f9f589f; 0x14e975d363ec3f1e34b38402ee20aee81ad0d41b17d8394475ac94d4b5988afc15; 0x23e8af765fed78f5e316cfa4d0d7bb1c1ecaedb5f693d1cad74a91ec257fbbc109; 0x5692cbd794f64bb99aea86f0d7f8296ce27c89e29df252b2437b743cc617b802f]);
IFr 3%nat [0x2f37017a59449892e0a50f2def9db56eae394603d8c79c9b065789847faa00f1; 0x145df55459c75702fc17b71e5eecc97acf9ff7074d4b026b4c3dd3061e248b5b; 0x2dafdb2f92b0c26708c93e2d808606e35741bdfe251847a2d3f0452b1d7f84a0; 0x18fa0634c88362c7410995ac7cb15ae5a72538b08e4e1047451dc6fa0c2d7132; 0x299e178879016d4ec6121c1d30b439b04f8f0cf706a39648b973bd8e6900d7b7; 0x26bbc6b9159fddc78c973e6455263898a2af292a7ccb2b50d34424b14f204d0c; 0x16a5b4708f45b394687e8ecbc50db0420dc6232664175abb8751096a88d1465c; 0x2c00172eced0d37e9f79ec357c504a87986a06e88b69b03147849a7d6f0e27fd; 0x1f8cd47b72b66f984811e29ba51d0fd7e972eb0c605647f13133f79bd91cf390; 0x107db7ac2d9d645f6090472fb2a0913694ce0bcbafcf2f88ea027680d1789611; 0x2e24156f600501e025c711863b567d04b1f02d14f6d34eb41676239b3bfe4be7; 0x4a9a0c397dc1dd68d96139313b35d16e3d008cf797113a00ad0eaf0a59936b7] ([], [0x9; 0x1eb4351c290244ccaab4903c4ffb503ab7faed5529a95f48a5a9654f06acd0e5; 0x106a96d47abef94d8e2f8a8bbb15f693ba12d70f258f6908bf8a743f60553a30; 0x1b7bf1704dfd47cd5eaf68bbc659fca3dce12477a9948fe5eaa51b70c0035d7f; 0xef426de543ecb1f19da8c2179a9de16990f1b31e435fd7daea4c34e9df57d63; 0x1270dbd45de7f872a02303846de2b46e4d008e9b149ba3916f00fecb59fcf87e; 0x19be9a0251ebec954fd1b6eabc73a81b89bb476b045a6fd1b4cf82ac4fabb6ea; 0x1a1bbab34415edd80f949686da971970301098c0e91bce75ffbca5fcaf272b39; 0xd2da28ee21b13564a84c65f614461d8441e6ccbcf402210386d11d0fe3125fc; 0x6da579bd936566ea85a15bd1bfe06e538ae448e457d4fba226aec6b320e4759; 0xd108479e75dedf610cece405ec22bd72abd0d73c458a1a306f85c7bc4ad563d; 0xc700e49b98001b3a4005fbaf50f79a2453f1e401ef720ff29077f717a1c268a]);
IMul 0%nat 3%nat [0x1956174135d1d5ecfa704b5a74adcf81f39bf7e1d046bf79706cf0a7370db997; 0x29f6e4a2ce67ff973040ff9322b9a266cb874fc6a9304f474bce103b2862a0ff; 0x29e9a6c501d70de62dbea1e54e4846ac5ebfba00b0243837ea5a02c95dc13dda; 0x136e5c00b76cf0856ccd445bf84e76bc1fa469fabeddac8dd8b3a6f9a7cd82a2; 0x184528713da686d793770a97b3d61aba1df4d1f1047c12afdbeab65feca3d8a9; 0x230625fa45645b265bfdefc436e7a3df0a866e90628ba7e958206f225d371a6; 0x1eddc3c3c100d4ed383f160a62b2fa221b3cf75056b5697c1b40ddd48bd69111; 0x28e1b31e7e28c330970b21d07be7272137bb14b7aae1bb1dbb3bda60207cc644; 0x6fa6fa05e5a73a578be9e5a5ce5125aac40574371adce1d5f2526e9b6c96412; 0x1583e15e31d14555174a04943fe77186cde9b6a5e68facffde41396d3ef719d9; 0x22e45b92121952cf9c3b92b0c793ab5439bdc12cd2f091d7e802dbe6780bd460; 0x1bbd007cdf8a563a9b9ce763e9af7984577d2e0387449edf018a02a092966774] ([0x1da06454acab54abd166a6f47d4a4040b64d9bb2cc4be698c66bd0e2e7477715ad5; 0xe3b91b544182d1edf214496f5c377bb66448dd6e9915e8a64534d05233adbf34db; 0x109382ac0bfb34e234db6ea3fbee76c5e8a6939c58205f227d9b36e4ef72a83ddf8; 0x8e41b39d42369f9ce39f71f40b0b65a646a88f326029fe0eae125201a35392eae7; 0x2b34d761cebce36cc0c5a6132708b5984b8a2f2cc6c3cb36fac989ee200f8f113c; 0x1af6ee22dc5d6b709b172327e054e0ba0e639877c985aa1d9f86603f18151932de], [Nil; Nil; Nil; Nil; Nil; Nil; 0x51d23ad0efd9742b19381fa05da5490a23f40d642bfe458b0178365b42711a1b24; 0x28d415ab968fd8ad91647b710850d05f569a601d9ac58316ad238c3ed7e7d2b4bc; 0x2f233588725bdb78fab0dde21aee893b097193cfa577dc4ee0e11d575c0e4bcae7; 0x1a333b08eefbecb72989b3e3e9084ca4ebce6be23646151d05391f779b1e5fd24a; 0x9e9182ae80cb2b53f821cffb027b519bdc91c3b1c3eda808cb5c0d7b307b895c8; 0x6cc694fc2408daac4fc0235b339900de2a17e50b0ae5ae686f5baa6e060353e99]);
IFr 0%nat [0x3a2da2398d4ca64b1c938753334184c3d45cb703b2ab948975f886e6480d75; 0x111d18e879121a8ef211a536f4ed3cb646cf106455a47726e383bb0382e16978; 0x2b92702aa5774f90fe38a87fa7c5a3cb56a8e93455cee40ef790c15b8ad21422; 0x155e7bf5b14c3c985ed27ea65f1d7299e5376817f1694b139d4d1bc68d887cbc; 0x11936a67ac7df4199f545b8df6f1f79fd90fe6cc673f0488568e524045b1c495; 0x2c89b6bb9a06f8fb8eb670668462824b661437438d6d3032bbdfd97f1f1a092; 0x11868aaf2030cb3c80112fac1ece5e3b7c44734111bc611120dfae424ca66c36; 0x1c63cfd2406425a4cc215f96a51691dc0ff0b47284eac75d7d2395f705a43de3; 0x27f947e76947956441c154017542b88b5a90c86dc80f8f756c29511d348e50f7; 0xd28993932af6559392d5a3e315b4973a96dd328554872be5dd8e37556d0082; 0x132f894a667908f0159cde9850c44dc346b981b3c286a95897f33664769c7290; 0x1ca54a3e892f7d9852d2167bb64be67f35f6d44e9e3eda5f39f7ac7cb863bb26] ([], [0xc; 0x35eb65bbbbb9bea03375bb1ee03f36337778add444a198675085e889ce7b478d; 0x1fcf5ce87954ac3fc5920f7d980665536d5c8e4cab78bb08b42bd89845783420; 0x18423e287d1b4717b266fab3f610877d6c63de0d7c65377d9da40cbb4f649a41; 0x1f2021c234e91bdbf72e4f4f321a67f12552659680a7e9bdcf1cac8c735a6b82; 0x14588d58fa303a2c19138628239a9f71c51019cd8fdc3262cb8c08287577d966; 0x1eddc3c3c100d4ed383f160a62b2fa221b3cf75056b5697c1b40ddd48bd69110; 0x2f7ea064aaf97f399569f63cc76c3b8029b6cc52a0c4d4df5f218b5b3e4636ff; 0x157ffed0f9db2d2ca7af9583510b7808bf56186c3bad7f33ad03740fad19965b; 0x9d6a378db14d7a47f171f7477f3316e7ad93ea68e5a7cbe800ed275b27d1122; 0x18e673b503684ec32847874943fda878f5556707ff1c3205379855bccf6324ca; 0xd1b0a026f44bfe94022295b35756d7550b7fa9976f77a07a7cd0d4955fafa38]);
IMul 0%nat 6%nat [0x26532b0613799767252c70ff47f10876e7e498acc4a0653c45a245e0e4a3a88e; 0x2c75408f401e3346b9a28752a9d4689a2acc3448d8c5b0d6f368391ffee74465; 0x249b142f08e6cfa7df548fd6a0caf35ae31a0aaa31375ad9ca9365796d11d50a; 0x1f732f183ab229dafd72655a86ba75d00ea72d5ed89e5b08fe74d977c91cded8; 0x2e296ce2baa7562431d8480c97d92edc1ce68ec74f9f221118b9a9f1e3dbefd2; 0x2630cb8f9608f589e2a1df779d82b030f38e9383b0b979962abf76c668c560a0; 0x1e1e28278afeeaec805d7f995b044c3987a0f98777b20d40df2571dcac94814a; 0x8c32b8687bfd4a60eadb55806f481b4b57f44e9a3ebf1c19947d1169588e83f; 0xb40e491b926f5894cc15fae714071a9b1ed562961ff9fb305ed6123215bf804; 0x16bcc8f09d5e03ee51276cbe54c8542bc35ffa84b7a83c9e057c4a235c971ef1; 0xf49b3c830e8b17ed064590213fb80589abde3348dcf4bb72c03fedde8f3db56; 0x4cb6e27741cf599918b17402a79c4f67638f59e8983a52a89b3380a609d2710] ([0xdd30a773b87edf13f94b5259a0e94308a6e1b90796cd187aa7c9e88b0309405fae; 0x7adb7d049c9131c24ab5c3819e1a285b60c92d41b219b2f8e5e3fa4f8f2839e1a3; 0x38e22db2ff6ff9ab936065f52363fddaebe533aa1f63c7513e6dac934fc9f45818; 0x47e83bf9d4fb2242051294b381ed31d0b5d8cd01ccc9c3eb2b84c693377aa6c2d4; 0x2bc39643f61c26ab2962b8c1a8e789f22beed212a30227a1a83a06b553b5299f59; 0xb89d840645a19951bd52af28cf47d7447009eb39df8f03e5722abf1925074312f], [Nil; Nil; Nil; Nil; Nil; Nil; 0x25cd142e1747a5ca085008c0c08003b56456e5a2f714d2f68b8304e90c34bf958f; 0x15eadf6f102fc706de39893ec054b206e12edca171499d10458de13f558e5edd79; 0xb0cb825b2b60fe9405846d1f5805d19703b2c3c65df9559d95d12be8d0293f116; 0xd12772f4c4ef0d361d9d7ea817a3a63ff1fb8b22536b5d8c5556e52e44e00dcbf; 0x8440ffdd46ae8892694edacc398c5f1de937d727b78f24f63f7dce0e1aad4b3b8; 0x2ef330e90f63b73a71f23b472248fa09a72d771216703bdb91541832a5f42f16d]);
IFr 0%nat [0x30229ede2c443a3d404c6af01daf987ceea68ff3b2419fba60de4269b9b5ddb5; 0x25dfc27ce053d0b267773d536cd74fb66d517afde7075c5764f6c1c0bb0252a2; 0xfc52023ce322b9d9dd56d97d070f7005053a5564d763b91eef9b92ca702dbd6; 0x9ade102c7b525e45f0c4b123f8e57134504866ee63372e133c31fdbfe256a91; 0xfce7716328a39eda9280cb91e06385c0848bd2f255eff499fc4641b679e1ccf; 0x29a8782d4c470cc6dd01c3db74029c0d19c68441f2b8bee3caf2e1a049ac8cc2; 0x1246264b5632b53d37f2c61d267d0c240fe07109f0bfbd4c5cfb1a3a2be87bfd; 0x26ee5f011c1a5040095a8ed7fde9329ec3351ad25426ed363b5fd6b4aa7be529; 0x2237d996cff3025de839d959d3b05918a6e9847a1e59c16f271a26cafdc88315; 0x1226b3387112475e1dd0d828edd64e7ab4165d56219a9d2678d71bc40432bc7d; 0x2d4a2c6dd9ec65518c417e728ac8ac321ef6b47234b6d700012ffc547c2d41a4; 0x125c5319944b15d1026a5163cfe452ceabf673e3910c66a35e4fcf86a646ae57] ([], [0xb; 0x21362dac209f82f8457751993871e204de3abbfa7203e192a8731434b030e8cb; 0x1c23ad1a74b687ec53b8bcf39c0efd7b5033bb209e7dda0478e228bf07987338; 0x2123bc551428e9d570054ea022711c7fd4a9ef64ed929a3e41d5115f6e0b22f8; 0x2e52616e606c41e5db78815b7b8545e83acc0321c1af8877f99f7cb720b1fe53; 0x189d89cb04002e3518c8247891cb25ef1270daeb5f7e9d45ea592c44b3f6c4e2; 0x1e1e28278afeeaec805d7f995b044c3987a0f98777b20d40df2571dcac948149; 0x24dd468696b75f71195f271536b4909134949b233839419357d53a54d678d137; 0x1414a3aceeb3b82f6b662ff94f89c291ed87512abc2d0bbab9962a1661074bc9; 0xc254688d96ce8bccc7bc2e5696ad942e19a04529319699cb68137d912e8d393; 0x2b459e43a34b234f85d29246badc7633a6b054af15109596cb77d9bf2c4da5d0; 0x10dba6442c6023039cece84f38c2af3d0b9f573a4b8c07e89c449a9c8c8da93f]);
IMul 0%nat 5%nat [0x1b79246269fc7dd6475b963618e6ebcd4551e9917c268d8bf1819fe0f02c76da; 0x4cb15f13ff53edba0be34982ebbcbc76786d038860319f7c73eaa1f73449698; 0x174fdb904798aedce455f6f7e23ef891b33859af3500229b14a30c09303c14c9; 0x1c22782191719c2c284c6aa83fc57b550a2126abb5cff2ebf0fad3f3cf60ad27; 0x2282301830728243e751a2d175a0b56018d81e72899791589ca546eed754ce8f; 0x2509e32d8b1f9c3de905700166b02286764cd7a1178b0d7a7cd9f958580eecf4; 0x1f281eabda6fe044db4e56d1f13076249aeefc77a3f49a343dd43749f7c6d735; 0x1f10bb5c018cc65139b0b005e638d4e48e8d29361970ea7cde71185bc902e06d; 0x21b672ff7f16320ebb7737cd9be26fd7f2919270e6ac92d8d115fa155739f946; 0x10333b2c4b1f6829f0d959268e4162ee6d3ab14904eaac7032d65828a456fa80; 0x28dba79e8d0a7aef14d8e5c172b8366918f36299bbb6f06ea7d9ccf3fba36ee7; 0xdd4bf75e04df19cccabe4d437609648554ff572e8fb69ba5d684aa3ed2d99c] ([0x196b65ba107ae55b305dba01d4e000d763bac27d95efc39d12d0349d2ac7a257385; 0xebc88fe560beae5d4723ebd6929ab020f9db2e0873c25ca9988b6e6af9c2932988; 0x10fdc18ae6839db0e07608c67566359cef7b65145b91ae6c51e9568b485e32ac5ed; 0xfd8fe13e1463d0d8e1559129f23dcfd286258f823490c41946cf1dc10b2d38ccf5; 0x5472e5fdc3428a39d7ba1a8a48a37644dd3a65938074769d2e72ddb6c6fdce022d; 0x1653e1979b6d0fc23737fae5a53aabebc10cf3967632b10d5dd834f706b3ae3296], [Nil; Nil; Nil; Nil; Nil; Nil; 0x44ec29f721a3be9dc91a58b15d2cf6cc785968ebc7e21982c96e0a38a37c771076; 0x285ae70d794e7622e183673895d2994c79c88399208f87b050297265a932d45484; 0x2e53aeabf4aa5d219eeea57fc92007bdcb95523756d227aa4e204d06307802865a; 0x2b69b86a0d74171839830c6f850a1e80936802e5353de6c6d56f28b22affcd2cd4; 0xfad8299fe1dfd8d0b7611f977106f9300c0d81ba80184f887bf33ed44c1ea48ce; 0x59407ece61f2bbabf1ac2335503f62f63d45eb19c2d8b310e66fe45bf6bbdf3d8]);
IFr 264%nat [0x2e45aaf65da40899e6c2b87a72d02a21217ad27b5d78f4d7a10ff03ec294a7d5; 0x2493859d44a382b9e49bee2f15ce736e7b3e4a50286f0b3182d5bd41b1002c70; 0x2cc90d010e446b2c38b900c574a70c6f5d076dc60e548cf1452a2190f931d32c; 0xf875ee75df5de8ae5266be4bebfc8a2eccb43f03b28f8eb0498cd6e89add2ac; 0x22f17c28bb6de72a7f0136fdbae2ba4daf7c0d44252c9d4cfd1fb3e86803523f; 0x69f97d3ded18cda6ad3415ee304e9e64ee3d0bc00c9171ef365bcd1a514ca0a; 0x29099a26495fb1406c21e688e0808fa47c0f1806145c585aa1d4b365787d3281; 0x26c11166b728e701ff2c1f7fbaa4a6fad1b8ab41dd8901ba7b6f044a1db31a9b; 0x154fdfaec6de0683a2f1ff4e4f7a74fa37fdb520ca93bc844a857d579ac1f2ce; 0x2d6faaeb4da35c7f87c42833fe83802e276eecb273e27954407df2a534dd64bf; 0x906f60201eccd44df768fc1a3ed0cc2b0881f0931716de3d690d09e8bb704e8; 0x171cbb37c1b9593da7bc0966f5dc9e08b724567c7c9802559641a57b3a0a51e3] ([], [0x2; 0x30dcedcc1a8547d3bebf288e54bb75b9d11267077939dfaa95e85ce3ce61f6a1; 0x12760359fc18c0ec5abfd50e6e31b2af4610afcd5f7574b12c9558dd7b1e721a; 0x21be9e5b440d08795e6e30b5d49647d255a4d1a21b1065425503930d5f0dd51c; 0x18c98e9c2711df760154005debf4788d9ac2e312a45a98710feccfdcc900869f; 0x2b07e9c0f58de6044e147d3acab84b524e88cdef36be4938f62d8a74fab00653; 0x75ab44c97d1eee94c2e5f2da100c8b91b72528b541572329a4bd8b15fffcac5; 0x2e4b73649901839c9c9a95bccb24f8bf7a39a4ac7abf641658b434d8cb1780f3; 0x140993c99a366fd0315c825d3610b873c46eac7972e96ba7e824ace5b5d12eea; 0xa2ba00992e9872559bb92341951afa1e5c80292458edd5e5332e3ecb1b2ae9c; 0x180319acc88a5c4f141270ff6ba21b7de0b9be425cf2b40c181cf8766cb88efc; 0x1cb1b7210ef28d15cbba0f9a66e8b43bb2377dfeb4dcd1a8bf4e1abdb20c5f1f]);
IFr 0%nat [0xaad9a7973447c85fc2092b223c4bdd86273d9d244da82633ffbcbf3b3926077; 0x11dc4da1a8c84cd5c7249a70b7e460da070690f2378eefdd50405a74e7b6830c; 0x88ec01295f0bde9f865467086c06cdd73a509e7f09e4c09167cde04d42fc700; 0x80b039ee632430fe619f1fe6f4a0c41ca3b78c92b1abc8e4a888112c9f0daf4; 0x4d9d865dc221545f4dc435a85fd4382e90b319bc5e9bb246c29ba324853ae9c; 0x98ff9f3bc12e672ce7b76c334e86b2f9f8c5caaab908f41943311d3e9931e07; 0x75ab44c97d1eee94c2e5f2da100c8b91b72528b541572329a4bd8b15fffcac6; 0x14b8ea3ee3c4fa8d90260872442506d4e04b6271dee086bfa100ef1d4d9a43c2; 0x1716c0e374c8d58ba460c0c90e5af6766fab60b082cfbfea531c8364f2634d07; 0x248821ae0babcbb03b45c13ee5c0b7f3b64c3e5b45b0ea3032746ecd41a4f29e; 0x208ef1aa99710c0204c1aa4f83eb36db03afab2efc5e725298ffd9d4355c73a6; 0x12b5a5cdade1f3016e687a0f15264472b8195e39dbae4b0afa2da1cef7e64b7a] ([], [0x10; 0x31282c1424822bd3c09ac4caa6d8bc269dc46853caea4a939e9a28710074330e; 0x22f304e7e2da67b6bfb7119d3eb01b0473d6c67e69ac18fbc27a882a1036ae98; 0x21b2a4fdcd454515a3791570379b44b67da98363a495d876a7675fa6ccca6731; 0x226c2f36105c4dbebcc1eae75865082de45f76359766680749e9ac55769af9d7; 0x13a177ff7b4728c86b88430237b260a8ee2c2933ee53d9b894b3479dfd531482; 0x29099a26495fb1406c21e688e0808fa47c0f1806145c585aa1d4b365787d3280; 0x2a9ca639072cc644ed957ab50154dff6a564bf4c0c031738b33c387763472adc; 0x1a791578e7d9964231dbd7cabde2d667c3783950be001cd175b4d32278b15467; 0x10b112740c6e99d6f6e71f9399b2860fa202d879af49f608a7d23cf5c114b594; 0x208d508824e9680513184486251640e03c8e6e84cf090c7ea24adbd25d8a064c; 0xcc5aca68853e8d8487d92b13759ff0c9229534d68b53efd3dbcd0cfff65b087]);
IFr 0%nat [0x2e45aaf65da40899e6c2b87a72d02a21217ad27b5d78f4d7a10ff03ec294a7d5; 0x2643d7da206f2342bb3b4e138b4c223a12d530c38cde4512df5ee6256c5275ff; 0x62e84fbbac1d108b96a024a6bbbe7034af2611af2f3597295c82b4dff802790; 0x20dcef8b833bc19ed329d9d1c2c18fbaaab626a12d48d1a23787bea84ecf2a9b; 0x20ca66f9858b777d0e4a84782031c78de30600b22882cba70ad491064708a9f4; 0xd6ed6d0abc8d075491f34401949d4a2d74a9522b905b6c9bd6c1be31b5a8530; 0x29099a26495fb1406c21e688e0808fa47c0f1806145c585aa1d4b365787d3281; 0x1329706ef413d9066c8f96ced347d226d1612d11621af62d0ed3d241bc5e6610; 0x1e269ff5fe0f0208c0e554aef8e3cc3e29ae4dedc999775db0a742aed54250af; 0x2f4a387938e43aa308c1d8282fdd82f70127ddef48f5138fba29971a39f9888; 0x2e9c730f99729a2d75c27e9a31ce4bf0313b54ed3fff8b5d2819e412922a076c; 0xb03b13fdcb16a6e65d9545e071257f7090f06ccc20d49cc2d340c44813eee51] ([], [0x2; 0x193f9a7ffaa3a738709b8c1030b3897fa106ed5b805c63f0ffe771a87e674647; 0x7fe938070fc705871bca34b695b215885d267e439603bc517688beb8d6541c6; 0x180a4946ac5dbf7ce80aef831b9c17bb03f08e50dd369e12975858ddcbc3f841; 0xcac1762d5cee03c239f4a426a60d30ccf0a37f4bd2acf98ba909d2ac7ba1af2; 0x123c343522551534176bd945d1de73ca870c5f1447442ea68a049e4fceb07df2; 0x75ab44c97d1eee94c2e5f2da100c8b91b72528b541572329a4bd8b15fffcac5; 0x15820edc229f33fa5f2bd817251b7b4e6fc0f4f8184df584c420f7fb20aa457c; 0x9dc857f420832d18002c4290abafa79743c4526f7995c5c0eb26712c2898047; 0xcb57ddcfdd410d857c47a0beb0855f5f6109bce448d94b4b09b8895819529a0; 0x70652286fffbc9a9cbb70cde96bafbe02ef56903adc2e2b68a83e3b98d0973c; 0xbf5d882c44f5ef68f9fdc6924e03f70b89473ddfa042c71dd9f2f597e5cf06e])].
Definition rS : poly := [0x1b79246269fc7dd6475b963618e6ebcd4551e9917c268d8bf1819fe0f02c76da; 0x4cb15f13ff53edba0be34982ebbcbc76786d038860319f7c73eaa1f73449698; 0x174fdb904798aedce455f6f7e23ef891b33859af3500229b14a30c09303c14c9; 0x1c22782191719c2c284c6aa83fc57b550a2126abb5cff2ebf0fad3f3cf60ad27; 0x2282301830728243e751a2d175a0b56018d81e72899791589ca546eed754ce8f; 0x2509e32d8b1f9c3de905700166b02286764cd7a1178b0d7a7cd9f958580eecf4; 0x1f281eabda6fe044db4e56d1f13076249aeefc77a3f49a343dd43749f7c6d735; 0x1f10bb5c018cc65139b0b005e638d4e48e8d29361970ea7cde71185bc902e06d; 0x21b672ff7f16320ebb7737cd9be26fd7f2919270e6ac92d8d115fa155739f946; 0x10333b2c4b1f6829f0d959268e4162ee6d3ab14904eaac7032d65828a456fa80; 0x28dba79e8d0a7aef14d8e5c172b8366918f36299bbb6f06ea7d9ccf3fba36ee7; 0xdd4bf75e04df19cccabe4d437609648554ff572e8fb69ba5d684aa3ed2d99c].
Definition rP : poly := [0x2e45aaf65da40899e6c2b87a72d02a21217ad27b5d78f4d7a10ff03ec294a7d5; 0x2643d7da206f2342bb3b4e138b4c223a12d530c38cde4512df5ee6256c5275ff; 0x62e84fbbac1d108b96a024a6bbbe7034af2611af2f3597295c82b4dff802790; 0x20dcef8b833bc19ed329d9d1c2c18fbaaab626a12d48d1a23787bea84ecf2a9b; 0x20ca66f9858b777d0e4a84782031c78de30600b22882cba70ad491064708a9f4; 0xd6ed6d0abc8d075491f34401949d4a2d74a9522b905b6c9bd6c1be31b5a8530; 0x29099a26495fb1406c21e688e0808fa47c0f1806145c585aa1d4b365787d3281; 0x1329706ef413d9066c8f96ced347d226d1612d11621af62d0ed3d241bc5e6610; 0x1e269ff5fe0f0208c0e554aef8e3cc3e29ae4dedc999775db0a742aed54250af; 0x2f4a387938e43aa308c1d8282fdd82f70127ddef48f5138fba29971a39f9888; 0x2e9c730f99729a2d75c27e9a31ce4bf0313b54ed3fff8b5d2819e412922a076c; 0xb03b13fdcb16a6e65d9545e071257f7090f06ccc20d49cc2d340c44813eee51].
Definition eS : N := 15407963525857333373181548937469757897534846081834179843394319213675906240929281758029370402816768887196081993968902043704578439442057239388949361017211489888657833282817698798390239351755265112048014410451304734274270870645641030029666143057070699852987736585915006847294164790540011467%N.
Definition eP : N := 10486551571378427818905133077457505975146652579011797175399169355881771981095690978989761122588000397834221810876296023257824090243867683078475217242544741121301747644787422814444041173890001246409592307627484170869318436766891287%N.
Lemma prog_ok : pick 3%nat 0%nat (irun phis prog [(1%N, g)]) = Some ((eS, rS), (eP, rP)).
Proof. vm_compute. reflexivity. Qed.
