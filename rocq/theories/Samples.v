(** The small sample files of the crate (/repo/files) as data.  Generated by tools/mksamples.py. *)

From Coq Require Import List NArith String Ascii.
From Verif Require Import Base.
Import ListNotations.
Local Open Scope list_scope.

Definition hex_digit (c : ascii) : N := let n := N_of_ascii c in if n <? 58 then n - 48 else n - 87.
Fixpoint unhex (s : string) : bytes :=
  match s with
  | String a (String b r) => n2b (hex_digit a * 16 + hex_digit b) :: unhex r
  | _ => []
  end.
Definition unhex_all (l : list string) : bytes := flat_map unhex l.

(** files/artwork.png, 141 bytes. *)
Definition artwork_png : bytes := unhex_all
  ["89504e470d0a1a0a0000000d494844520000000400000004080200000026930929000000097048597300002e2300002e230178a53f760000003f49444154081d";
   "013400cbff00000000ffffffffffff00000001ffffff00000000000000000000000000ffffffffffff00000000ffffff000000000000ffffff1a5d14ed1e96e4";
   "e80000000049454e44ae426082"]%string.

(** files/sample.m4a, 9107 bytes. *)
Definition sample_m4a : bytes := unhex_all
  ["00000018667479704d3441200000020069736f6d69736f32000000086672656500000c126d6f6f760000006c6d766864000000000000000000000000000003e8";
   "000001e6000100000100000000000000000000000001000000000000000000000000000000010000000000000000000000000000400000000000000000000000";
   "0000000000000000000000000000000000000002000002797472616b0000005c746b68640000000300000000000000000000000100000000000001e600000000";
   "00000000000000010100000000010000000000000000000000000000000100000000000000000000000000004000000000000000000000000000002465647473";
   "0000001c656c73740000000000000001000001ce0000040000010000000001f16d646961000000206d6468640000000000000000000000000000ac4400005397";
   "55c400000000002d68646c720000000000000000736f756e000000000000000000000000536f756e6448616e646c6572000000019c6d696e6600000010736d68";
   "6400000000000000000000002464696e660000001c6472656600000000000000010000000c75726c2000000001000001607374626c0000006a73747364000000";
   "00000000010000005a6d703461000000000000000100000000000000000002001000000000ac4400000000003665736473000000000380808025000100048080";
   "8017401500000000010d880000fd080580808005120856e500068080800102000000207374747300000000000000020000001400000400000000010000039700";
   "00001c737473630000000000000001000000010000001500000001000000687374737a000000000000000000000015000000e2000000dd000000cb000000c500";
   "0000bd000000d4000000d0000000ac000000de000000e9000000cb000000ba000000db000000d4000000e5000000ba000000d6000000bb000000c80000000500";
   "000005000000147374636f00000000000000010000143a0000001a7367706401000000726f6c6c0000000200000001ffff0000001c7362677000000000726f6c";
   "6c00000001000000150000000100000925756474610000091d6d657461000000000000002168646c7200000000000000006d6469726170706c00000000000000";
   "000000000538696c737400000022a96e616d0000001a64617461000000010000000054455354205449544c4500000023a94152540000001b6461746100000001";
   "00000000544553542041525449535400000025a97772740000001d6461746100000001000000005445535420434f4d504f53455200000022a9616c620000001a";
   "6461746100000001000000005445535420414c42554d00000021a967656e000000196461746100000001000000004861726420526f636b0000002074726b6e00";
   "00001864617461000000000000000000000007000d00000000001e6469736b000000166461746100000000000000000000000100020000001ca9646179000000";
   "1464617461000000010000000032303133000000196370696c000000116461746100000015000000000100000019706761700000001164617461000000150000";
   "000001000000197063737400000011646174610000001500000000010000001a746d706f00000012646174610000001500000000008400000025a9746f6f0000";
   "001d6461746100000001000000004c61766635382e32392e3130300000004b2d2d2d2d0000001c6d65616e00000000636f6d2e6170706c652e6954756e657300";
   "0000136e616d65000000007e6c656e67746800000014646174610000000100000000303a30300000004d2d2d2d2d0000001c6d65616e00000000636f6d2e6170";
   "706c652e6954756e6573000000106e616d65000000004953524300000019646174610000000100000000544553542049535243000000552d2d2d2d0000001c6d";
   "65616e00000000636f6d2e6170706c652e6954756e6573000000146e616d65000000004c595249434953540000001d6461746100000001000000005445535420";
   "4c59524943495354000000a5636f76720000009d646174610000000e0000000089504e470d0a1a0a0000000d4948445200000004000000040802000000269309";
   "29000000097048597300002e2300002e230178a53f760000003f49444154081d013400cbff00000000ffffffffffff00000001ffffff00000000000000000000";
   "000000ffffffffffff00000000ffffff000000000000ffffff1a5d14ed1e96e4e80000000049454e44ae42608200000023a96c79720000001b64617461000000";
   "010000000054455354204c5952494353000000197374696b00000011646174610000001500000000010000001972746e67000000116461746100000015000000";
   "00040000001c7476736e00000014646174610000001500000000000000040000001c74766573000000146461746100000015000000000000000900000024a963";
   "6d740000001c6461746100000001000000005445535420434f4d4d454e54000000246b6579770000001c64617461000000010000000054455354204b4559574f";
   "524400000025636174670000001d646174610000000100000000544553542043415445474f525900000025a96772700000001d64617461000000010000000054";
   "4553542047524f5550494e4700000026637072740000001e6461746100000001000000005445535420434f50595249474854000000277476656e0000001f6461";
   "746100000001000000005445535420545620455049534f44450000002774766e6e0000001f64617461000000010000000054455354205456204e4554574f524b";
   "00000028646573630000002064617461000000010000000054455354204445534352495054494f4e000000296141525400000021646174610000000100000000";
   "5445535420414c42554d20415254495354000000297476736800000021646174610000000100000000544553542054562053484f57204e414d45000003b86672";
   "65650000000000000000000000000000000000000000000000000000000000000000000000000000000000000000000000000000000000000000000000000000";
   "00000000000000000000000000000000000000000000000000000000000000000000000000000000000000000000000000000000000000000000000000000000";
   "00000000000000000000000000000000000000000000000000000000000000000000000000000000000000000000000000000000000000000000000000000000";
   "00000000000000000000000000000000000000000000000000000000000000000000000000000000000000000000000000000000000000000000000000000000";
   "00000000000000000000000000000000000000000000000000000000000000000000000000000000000000000000000000000000000000000000000000000000";
   "00000000000000000000000000000000000000000000000000000000000000000000000000000000000000000000000000000000000000000000000000000000";
   "00000000000000000000000000000000000000000000000000000000000000000000000000000000000000000000000000000000000000000000000000000000";
   "00000000000000000000000000000000000000000000000000000000000000000000000000000000000000000000000000000000000000000000000000000000";
   "00000000000000000000000000000000000000000000000000000000000000000000000000000000000000000000000000000000000000000000000000000000";
   "00000000000000000000000000000000000000000000000000000000000000000000000000000000000000000000000000000000000000000000000000000000";
   "00000000000000000000000000000000000000000000000000000000000000000000000000000000000000000000000000000000000000000000000000000000";
   "00000000000000000000000000000000000000000000000000000000000000000000000000000000000000000000000000000000000000000000000000000000";
   "00000000000000000000000000000000000000000000000000000000000000000000000000000000000000000000000000000000000000000000000000000000";
   "00000000000000000000000000000000000000000000000000000000000000000000000000000000000000000000000000000000000000000000000000000000";
   "00000000000000000000000000000000000000000000000000000000000000000000000000000000000000000000000000000000080066726565000000000000";
   "00000000000000000000000000000000000000000000000000000000000000000000000000000000000000000000000000000000000000000000000000000000";
   "00000000000000000000000000000000000000000000000000000000000000000000000000000000000000000000000000000000000000000000000000000000";
   "00000000000000000000000000000000000000000000000000000000000000000000000000000000000000000000000000000000000000000000000000000000";
   "00000000000000000000000000000000000000000000000000000000000000000000000000000000000000000000000000000000000000000000000000000000";
   "00000000000000000000000000000000000000000000000000000000000000000000000000000000000000000000000000000000000000000000000000000000";
   "00000000000000000000000000000000000000000000000000000000000000000000000000000000000000000000000000000000000000000000000000000000";
   "00000000000000000000000000000000000000000000000000000000000000000000000000000000000000000000000000000000000000000000000000000000";
   "00000000000000000000000000000000000000000000000000000000000000000000000000000000000000000000000000000000000000000000000000000000";
   "00000000000000000000000000000000000000000000000000000000000000000000000000000000000000000000000000000000000000000000000000000000";
   "00000000000000000000000000000000000000000000000000000000000000000000000000000000000000000000000000000000000000000000000000000000";
   "00000000000000000000000000000000000000000000000000000000000000000000000000000000000000000000000000000000000000000000000000000000";
   "00000000000000000000000000000000000000000000000000000000000000000000000000000000000000000000000000000000000000000000000000000000";
   "00000000000000000000000000000000000000000000000000000000000000000000000000000000000000000000000000000000000000000000000000000000";
   "00000000000000000000000000000000000000000000000000000000000000000000000000000000000000000000000000000000000000000000000000000000";
   "00000000000000000000000000000000000000000000000000000000000000000000000000000000000000000000000000000000000000000000000000000000";
   "00000000000000000000000000000000000000000000000000000000000000000000000000000000000000000000000000000000000000000000000000000000";
   "00000000000000000000000000000000000000000000000000000000000000000000000000000000000000000000000000000000000000000000000000000000";
   "00000000000000000000000000000000000000000000000000000000000000000000000000000000000000000000000000000000000000000000000000000000";
   "00000000000000000000000000000000000000000000000000000000000000000000000000000000000000000000000000000000000000000000000000000000";
   "00000000000000000000000000000000000000000000000000000000000000000000000000000000000000000000000000000000000000000000000000000000";
   "00000000000000000000000000000000000000000000000000000000000000000000000000000000000000000000000000000000000000000000000000000000";
   "00000000000000000000000000000000000000000000000000000000000000000000000000000000000000000000000000000000000000000000000000000000";
   "00000000000000000000000000000000000000000000000000000000000000000000000000000000000000000000000000000000000000000000000000000000";
   "00000000000000000000000000000000000000000000000000000000000000000000000000000000000000000000000000000000000000000000000000000000";
   "00000000000000000000000000000000000000000000000000000000000000000000000000000000000000000000000000000000000000000000000000000000";
   "00000000000000000000000000000000000000000000000000000000000000000000000000000000000000000000000000000000000000000000000000000000";
   "00000000000000000000000000000000000000000000000000000000000000000000000000000000000000000000000000000000000000000000000000000000";
   "00000000000000000000000000000000000000000000000000000000000000000000000000000000000000000000000000000000000000000000000000000000";
   "00000000000000000000000000000000000000000000000000000000000000000000000000000000000000000000000000000000000000000000000000000000";
   "00000000000000000000000000000000000000000000000000000000000000000000000000000000000000000000000000000000000000000000000000000000";
   "00000000000000000000000000000000000000000000000000000000000000000000000000000000000000000000000000000000000000000000000000000000";
   "000000000000000000000000000000000000000000000000000000000000000000000000000000000000000000000000000000000f616d646174de02004c6176";
   "6335382e35342e313030000244ab5ae12c470aa0d4fe94aa560d4256dc159c37c566b2e932f24c16f03f4ac90bd3da94e6713952c6b9a4981473254dbff4fd29";
   "37b794b5dc6dcbb6b36ac6949954653329994cb48b48b4cb44ca24a24a25f09616d7f9f3bd87980a15df5b1315eed6d2ececececed6ccf3493553553686dfe4e";
   "69ba529575317130035ad75dd5d5d5d63bb97f1e8d2d60d436003af96b7756b6abd7e8f8cc8046e67401553d5084131bd7a7a41286985ff9ffc4740d0fa47c7e";
   "a1a7280781f71d09cfb602d50dc7f3fce27b801111e3fffedc101d8f015698d9d0ddaf079b50d632531e80747beaf9f6f5f8fcfeffb79eb9d54f8fe9ff7fe3f1";
   "f97e3e7d9dff8fff6ffdbfaffa7f4f3fafcf1301fa86522a2d4bfeb7f23fce2286e6f613ae14135d56552155559a512ea2d30add104162f230d4821620513536";
   "600c5c32e066ea9f90424edbbb31d9d16357911576f8c5bb24fad34d2981c7dbd9e55d1cb9f4d4cfb770a6bb8473ea11ba9ad55a01cb4ed46037617be12a660e";
   "370903d95a05ed0ad1db5064e8a1c85fd3efbb47a476d79fa05bb79c771eeff0a7a8e6cd7c1082c887d2d1eac9850e8917d086940f1d58e3e00132f598f6463d";
   "8948e457b2b37d7c835f1bd7ebfdfb79d39efdb7cfb6f9f8f7f8f0f3eff5f3edafb00629a9c71c7ad4b07c1a60b4ee91fcad6b60812179d66a8b7832013bcae6";
   "d8b50ccc833dd64fe64e008c831830c3c0fe3990c30199ce4f396318e702b4bc63bfe20aace5a5ffbfa1d1c7143132d961b400e54005fdbcb21417d7559aad04";
   "8cc7472005fee800774877c0ddaf17ce8019f962718bd86b94c93000bf6001ee8005d14ab0db3947ca400e0cc2245e41da00bf280071eabc006a6706e026f05f";
   "840030e0013235a9ac541c058a453410842fd959aefb0f6d55b7eabe17bf5f15beb37d6f5b6b35df13c0e07700dc146467620eb2189348a01912fc0f7d30e4c8";
   "deefd3eeae4d5327e9b356359c553614db64fc31c1abbe1667e23b53b9cba2cc20a50e92e6bc859efb96816ae9b6c9e59a46712325414929b4e1687673858147";
   "62007dba4c026103be2f97ca7fd51bb9de88a6eae8006f2004fd541b73cf04012f13809fbd8dc2704249442b3da892c90048dadae39d33dc37e19dc73cf451ce";
   "f7ee2cbcd3acc070700122359976154d854961983edd7af6fdffaef9fd7f3515fafcdf3c765cca5e04996c75d89982827cd00de5bc1aef5034e0055d727ae781";
   "102537cf2c03e3ec8b631c72ee957020d1dd249dacffed800003d3741458da242bcf040352ab060d4829876af000002c68156e051640732160df26c051bf2015";
   "e139a023f39ebec0bdd4c409281434c16aedbad802be51d74d81b614059300856f017c9f84802baaeb6120d710082c0946c901cbf97500dfc0801724028b900d";
   "c0197d7f45c0010035802cab0cbde1ff1e7edf79df8f5fe9e3fafdf38f8f7d73edfc73f1ad73f6fbdfe8fabfcfde7e7f7cfcf1faff416f8ae3e514c749fea03c";
   "fd007f001cbbf58d73648562fe3759994aed3ae9bd915c5b7578b91cd36af71d9e26c73b557d05017f61ffa1846652bbce3af0217de9ced324e52fbd820c55ce";
   "00dfe9d4b10e8ea4c08974e4ddae49ac5803a2003e76001d4940bd2354150dfca28c677746880aecb6020f065424d2354b10cfc2281bb8201bb66cbc88393cea";
   "824d235641075c01876a015cd0012689669ec63ceba00023cd2e011a35a8287b4a12c2c4908890301112a9ff600000000000adcfbe0c0f6c0001ed39f19d93c4";
   "51bb5b849867cbb8ce91fa9f79c6f607d73fd04045207463c26c8518ce2eb66302c1c1d3ece20c07b600a0f580774e0068ec65d4a177f53599ca313e48b9ca31";
   "94f07666a08aa499e72a94421aa871f1cf3cd6741f81bfe99be5dbb6692ca81ed80283cffdd38bd5cf6c6e43c710832c677001f38002c1efc6b4adee5f2f100a";
   "56f720015bdca403cfe4adecbd67b402800001b9dc837d7e1b6b5f2f969586ac0800b000b0291ff1d2e001243599b6244c855c647ceb999af1bae438d6fca7a9";
   "5bd67b557aeb8789d4dfafa81f6c1ddc59981de436c5b2c3013a71bbffe9fdfc0bbb012256f089c44c2d1263c97428a3b0b3ab1a05642960acb5eebb9ad54359";
   "0aa7bcb229a1b882fef7f49a3db2ce6001f1c854312ce4bc5330000ebec830566178c4bb7fc64000aeefa000038c000660d4b30001c7fa00007fa78c800bc2b4";
   "5e0001c80003efed901fd9316eb1308f6401719b2c38012c35a5b62215864d6110d86476271589c56271bdbfc07dbf47ebdf3b7c6bf2ff9ff8ff9ff835b00001";
   "b005d5d674bc7fc0f83174295746d6e5272ba792ee3e26250a6e4a28279e750003dcee0cd9b017575741d0652000af11fd9710000000675c8f21e96549778e60";
   "002b5661a440000000023be8000377a673640017f5227191cea000000000000003df7411db458000000000015eeb600008fd0900000000fabe82851f16000000";
   "0000006c935ac1d0e380000002fd250000dddec0000000000000a33e86372c00000000000002fa26057a50001bfbc80001b8001c0128359420122d8d07622158";
   "5cb6230d86476271589c56271bff2de95f3fb3f777eefd67edc7e3fafe3f27e3f200003dae288a2e20f48a7e0b004b2cbe8cbfe5099404759125df8b32ee3384";
   "22f08a28a20009cd766a43440009f3ec80003e34be15e0000000000000ceb94dbbc0fd89cff6a0006cd626bdc0000000039dc90001bbf3ee60000f92d494fb68";
   "a00000000000007bae47ed880000000000000785f7200009fdbd800000009cd76dc18698000000000000012d4a2b5d935000000057cfb0002bd6e48000000000";
   "00013923bd97800000000000006d5ad21fce0001bbf060000696c000e0011a35a020683589852200a8402e2b0c96c4a2b148ec2a37c7fd38ff6adff77fd67fdb";
   "fe7fa663fe7fe35b00bc47c0f34cadf3f976ae52d4b5229229232a887431236d49edb90657436c02fae9ae97671bff77876200fae007afe3500000001bf9b82d";
   "49698ffeed9d0009ff75d20000ae68000ae573000077f451a3c0000000000000004bc98b8000000000000757200013ea800000001b9965403c00000000000000";
   "3d4f80cdc580000002f900001bb4c0006efdd64000000000000006e7cef90000e3da0002ff0c0007010235802c30131ec4c2942cbfa44dfe9d7ddcffabfeafe9";
   "fe27af6f5e3dffe7fbfefce7cf1f0fd1fbcf5ebf5bd0cb29d556ecaffe9756c4435528c901573047698894b5458600e99aad99e728726b8be3fbbe9e617afc7c";
   "c728ae83a4e261142b0e2618f5a0005ebfcc7d4a76a9adef7b363dd7002f5017ddbdef6005eba3c40016fb3ff3400038fcc0003cb72bd005eb51e1200056fda0";
   "001efd8000af2bd6a00350adf800007ddc80005fd5f6a0001e7d5a8001bdcf28000e012635a9105b0caac2c198aade6fdfbd695bfd1fab99c737b9f3fbfedf5c";
   "ef5df9787b4f5edbd74020819bc31cb8e24a34b51965f93260b67c261c3e61368e584289b70d436085f81f9870618dc73a79dab8863d0ff6df25b7214e4e7e17";
   "8591355a5eb5df3644899f8bf91d14938f11a92000002b96b41bb8ded91dcefb4ff2462539fd300b9beb80cb2f40801afc08b052806efd5395a520b5c82a7bb4";
   "002416c7ac50118f419482b35815e73bac00005776f41004b3805e3d2654060ea32640b005743605ca417abc1fcc360084025c8d3014dd7881d4cdc838011235";
   "a1b6274d8664f5f3edd71e3f6ff1f1fa77f5fd5f157f3f5cef3cf8f3e2ea8e331abee571d08d6432789d44f20e2adc292389611ab7feb942de8aa85d10e90478";
   "f658091e4e0a15f34008bae86ee1cc299f17b9f3e616e24e8f9f220796ee0117e974c42abaf694000001b91ad3832282967373e8960e4fd4220173bf50057320";
   "0b6fefa00d68a0197e75f38802984811f71cec0862a06eecd2046ee84056d4815f90f9fc809b017f2ffc2802dbe0074db280b74fb010c94033f8d00b84015f35";
   "f2dc404200ae76d480e74205b436dc8870011435a1483b14a6c324b0c86c2e2b1492c2a27e997e75f39aff9ffc3ebe52af00000004619c53dd0384653cb360f8";
   "d10cfed5fca2ed74c78ba8137471e23c5b4b52b5b200a6e86d4ad77e93ea59c0328d4e6d04381b6e0135f30e1504388de000001bc0e76a9ab8605e0e282abc47";
   "edb8c8b5cbad8814ddd6c482f3e5fa080000075c616000002b7eb747ebba212cdb80021bcb4880000000d04c006bf8480527be902f6b000000cd2d2d85e40000";
   "00c2cd28000001ee530649280000c1be4075368053a1901c5480d9f3900866065eed2b81e40000000a30700002bcf800b71901c48070010435a5b6274d864961";
   "9258a4effc1abecfd7f45e000000007a97a7af90b0846bfc5aaab706d40b049c6241e0a4f698999c8ae002a2f201b3f0a6016ddb520eca2c089f7dcc03361200";
   "0006e64c164dc2681b19013d57d6e6016dd603770520a6bf7d100000660616000000a36887e4f98109805e5f9bf14064d5011df2414dfd200bc96000003df393";
   "c9600000616694000006bdf7caf00000258c80e2480b73a80692c065f530156a033f17fdfb480424073a401ba004c00e012035a14a3b14a6c2e4b14b15e3db5c";
   "78f7fbfebfd39f8fb3db9d7879f0bcbc0001c03acc851730785c7bd0266f443251e12a3cbb33d0ee4c15cc448f40975f1cad2741009b6b6cdfa0c59b5b7761ea";
   "590113cee6a50b747a37209bf45c5026f8939400000099ec91665f462c8acda2b0cfbbffcb29059ce037706e014d7f6a0000014b30b00000041f21ce4bc00000";
   "0606600000ac7fb270a8086b00ddd3b10277742037e09037fd87fb96d0288037ff5befd205b0901d345814e3c00d8a01abf68c804ac0bfa0ff318008bc8073a5";
   "002a0073c9070106559596474585c96195989ff400000000000ff8f49f0aa99071fd13553bdb137af935c1e9fcc7cc7fdf9f7104b3d87fd5610b050e3a73f9e7";
   "8818771ede9e79e79e6a9d600e4ca4111d66d019ae0410448c0d1980891b4aa7d3cf31932033ec7d84600b5d00cb15a573379f04000018598580000188bd4b4a";
   "40c512065e0f8186180a2c05eb5500ae100b81779e79ebfc0f618402880561dc3d4b4f3cf390a901ab0021a320240556a75788028063fa2e201700ef630e60b4";
   "470114999af39a6eaf2618a4d050f4000003e2efaf39ee1ccc029f3078cadd669f2839279d90dadcf41267c87842583bd9cdb4b70b73349a9944d35718a6bba6";
   "a877ab197dcaca5933a2f3169775c8bd377abf2e880011663ca47b9b8251ea3fc87e44140acb42c0051262506e84443946e32e6e1a2438a40ede4e079f246e4e";
   "6f5627e54382bef32ac0e5dff769b0a611dd7e1cee96e8ddeca72a52267235a2b231e0f9841d505440bec1b2758a9af9ed134ee8893bc54ba6c2c1acd67a4fb7";
   "e41ff27ff461b3b21c011881b470011881b470"]%string.

(** files/sample-multi-data.m4a, 9107 bytes. *)
Definition sample_multi_data_m4a : bytes := unhex_all
  ["00000018667479704d3441200000020069736f6d69736f32000000086672656500000c126d6f6f760000006c6d766864000000000000000000000000000003e8";
   "000001e6000100000100000000000000000000000001000000000000000000000000000000010000000000000000000000000000400000000000000000000000";
   "0000000000000000000000000000000000000002000002797472616b0000005c746b68640000000300000000000000000000000100000000000001e600000000";
   "00000000000000010100000000010000000000000000000000000000000100000000000000000000000000004000000000000000000000000000002465647473";
   "0000001c656c73740000000000000001000001ce0000040000010000000001f16d646961000000206d6468640000000000000000000000000000ac4400005397";
   "55c400000000002d68646c720000000000000000736f756e000000000000000000000000536f756e6448616e646c6572000000019c6d696e6600000010736d68";
   "6400000000000000000000002464696e660000001c6472656600000000000000010000000c75726c2000000001000001607374626c0000006a73747364000000";
   "00000000010000005a6d703461000000000000000100000000000000000002001000000000ac4400000000003665736473000000000380808025000100048080";
   "8017401500000000010d880000fd080580808005120856e500068080800102000000207374747300000000000000020000001400000400000000010000039700";
   "00001c737473630000000000000001000000010000001500000001000000687374737a000000000000000000000015000000e2000000dd000000cb000000c500";
   "0000bd000000d4000000d0000000ac000000de000000e9000000cb000000ba000000db000000d4000000e5000000ba000000d6000000bb000000c80000000500";
   "000005000000147374636f00000000000000010000143a0000001a7367706401000000726f6c6c0000000200000001ffff0000001c7362677000000000726f6c";
   "6c00000001000000150000000100000925756474610000091d6d657461000000000000002168646c7200000000000000006d6469726170706c00000000000000";
   "00000000060d696c737400000022a96e616d0000001a64617461000000010000000054455354205449544c4500000050a9415254000000186461746100000001";
   "00000000415254495354203100000018646174610000000100000000415254495354203200000018646174610000000100000000415254495354203300000025";
   "a97772740000001d6461746100000001000000005445535420434f4d504f53455200000022a9616c620000001a6461746100000001000000005445535420414c";
   "42554d00000064a967656e0000001764617461000000010000000047454e524520310000001764617461000000010000000047454e5245203200000017646174";
   "61000000010000000047454e524520330000001764617461000000010000000047454e524520340000002074726b6e0000001864617461000000000000000000";
   "000007000d00000000001e6469736b000000166461746100000000000000000000000100020000001ca964617900000014646174610000000100000000323031";
   "33000000196370696c00000011646174610000001500000000010000001970676170000000116461746100000015000000000100000019706373740000001164";
   "6174610000001500000000010000001a746d706f00000012646174610000001500000000008400000025a9746f6f0000001d6461746100000001000000004c61";
   "766635382e32392e3130300000004b2d2d2d2d0000001c6d65616e00000000636f6d2e6170706c652e6954756e6573000000136e616d65000000007e6c656e67";
   "746800000014646174610000000100000000303a30300000004d2d2d2d2d0000001c6d65616e00000000636f6d2e6170706c652e6954756e6573000000106e61";
   "6d65000000004953524300000019646174610000000100000000544553542049535243000000ba2d2d2d2d0000001c6d65616e00000000636f6d2e6170706c65";
   "2e6954756e6573000000146e616d65000000004c595249434953540000001a6461746100000001000000004c5952494349535420310000001a64617461000000";
   "01000000004c5952494349535420320000001a6461746100000001000000004c5952494349535420330000001a6461746100000001000000004c595249434953";
   "5420340000001a6461746100000001000000004c595249434953542035000000a5636f76720000009d646174610000000e0000000089504e470d0a1a0a000000";
   "0d494844520000000400000004080200000026930929000000097048597300002e2300002e230178a53f760000003f49444154081d013400cbff00000000ffff";
   "ffffffff00000001ffffff00000000000000000000000000ffffffffffff00000000ffffff000000000000ffffff1a5d14ed1e96e4e80000000049454e44ae42";
   "608200000023a96c79720000001b64617461000000010000000054455354204c5952494353000000197374696b00000011646174610000001500000000010000";
   "001972746e6700000011646174610000001500000000040000001c7476736e00000014646174610000001500000000000000040000001c747665730000001464";
   "61746100000015000000000000000900000024a9636d740000001c6461746100000001000000005445535420434f4d4d454e54000000246b6579770000001c64";
   "617461000000010000000054455354204b4559574f524400000025636174670000001d646174610000000100000000544553542043415445474f525900000025";
   "a96772700000001d646174610000000100000000544553542047524f5550494e4700000026637072740000001e6461746100000001000000005445535420434f";
   "50595249474854000000277476656e0000001f6461746100000001000000005445535420545620455049534f44450000002774766e6e0000001f646174610000";
   "00010000000054455354205456204e4554574f524b00000028646573630000002064617461000000010000000054455354204445534352495054494f4e000000";
   "2961415254000000216461746100000001000000005445535420414c42554d204152544953540000002974767368000000216461746100000001000000005445";
   "53542054562053484f57204e414d45000002e3667265650000000000000000000000000000000000000000000000000000000000000000000000000000000000";
   "00000000000000000000000000000000000000000000000000000000000000000000000000000000000000000000000000000000000000000000000000000000";
   "00000000000000000000000000000000000000000000000000000000000000000000000000000000000000000000000000000000000000000000000000000000";
   "00000000000000000000000000000000000000000000000000000000000000000000000000000000000000000000000000000000000000000000000000000000";
   "00000000000000000000000000000000000000000000000000000000000000000000000000000000000000000000000000000000000000000000000000000000";
   "00000000000000000000000000000000000000000000000000000000000000000000000000000000000000000000000000000000000000000000000000000000";
   "00000000000000000000000000000000000000000000000000000000000000000000000000000000000000000000000000000000000000000000000000000000";
   "00000000000000000000000000000000000000000000000000000000000000000000000000000000000000000000000000000000000000000000000000000000";
   "00000000000000000000000000000000000000000000000000000000000000000000000000000000000000000000000000000000000000000000000000000000";
   "00000000000000000000000000000000000000000000000000000000000000000000000000000000000000000000000000000000000000000000000000000000";
   "00000000000000000000000000000000000000000000000000000000000000000000000000000000000000000000000000000000000000000000000000000000";
   "00000000000000000000000000000000000000000000000000000000000000000000000000000000000000000000000000000000080066726565000000000000";
   "00000000000000000000000000000000000000000000000000000000000000000000000000000000000000000000000000000000000000000000000000000000";
   "00000000000000000000000000000000000000000000000000000000000000000000000000000000000000000000000000000000000000000000000000000000";
   "00000000000000000000000000000000000000000000000000000000000000000000000000000000000000000000000000000000000000000000000000000000";
   "00000000000000000000000000000000000000000000000000000000000000000000000000000000000000000000000000000000000000000000000000000000";
   "00000000000000000000000000000000000000000000000000000000000000000000000000000000000000000000000000000000000000000000000000000000";
   "00000000000000000000000000000000000000000000000000000000000000000000000000000000000000000000000000000000000000000000000000000000";
   "00000000000000000000000000000000000000000000000000000000000000000000000000000000000000000000000000000000000000000000000000000000";
   "00000000000000000000000000000000000000000000000000000000000000000000000000000000000000000000000000000000000000000000000000000000";
   "00000000000000000000000000000000000000000000000000000000000000000000000000000000000000000000000000000000000000000000000000000000";
   "00000000000000000000000000000000000000000000000000000000000000000000000000000000000000000000000000000000000000000000000000000000";
   "00000000000000000000000000000000000000000000000000000000000000000000000000000000000000000000000000000000000000000000000000000000";
   "00000000000000000000000000000000000000000000000000000000000000000000000000000000000000000000000000000000000000000000000000000000";
   "00000000000000000000000000000000000000000000000000000000000000000000000000000000000000000000000000000000000000000000000000000000";
   "00000000000000000000000000000000000000000000000000000000000000000000000000000000000000000000000000000000000000000000000000000000";
   "00000000000000000000000000000000000000000000000000000000000000000000000000000000000000000000000000000000000000000000000000000000";
   "00000000000000000000000000000000000000000000000000000000000000000000000000000000000000000000000000000000000000000000000000000000";
   "00000000000000000000000000000000000000000000000000000000000000000000000000000000000000000000000000000000000000000000000000000000";
   "00000000000000000000000000000000000000000000000000000000000000000000000000000000000000000000000000000000000000000000000000000000";
   "00000000000000000000000000000000000000000000000000000000000000000000000000000000000000000000000000000000000000000000000000000000";
   "00000000000000000000000000000000000000000000000000000000000000000000000000000000000000000000000000000000000000000000000000000000";
   "00000000000000000000000000000000000000000000000000000000000000000000000000000000000000000000000000000000000000000000000000000000";
   "00000000000000000000000000000000000000000000000000000000000000000000000000000000000000000000000000000000000000000000000000000000";
   "00000000000000000000000000000000000000000000000000000000000000000000000000000000000000000000000000000000000000000000000000000000";
   "00000000000000000000000000000000000000000000000000000000000000000000000000000000000000000000000000000000000000000000000000000000";
   "00000000000000000000000000000000000000000000000000000000000000000000000000000000000000000000000000000000000000000000000000000000";
   "00000000000000000000000000000000000000000000000000000000000000000000000000000000000000000000000000000000000000000000000000000000";
   "00000000000000000000000000000000000000000000000000000000000000000000000000000000000000000000000000000000000000000000000000000000";
   "00000000000000000000000000000000000000000000000000000000000000000000000000000000000000000000000000000000000000000000000000000000";
   "00000000000000000000000000000000000000000000000000000000000000000000000000000000000000000000000000000000000000000000000000000000";
   "00000000000000000000000000000000000000000000000000000000000000000000000000000000000000000000000000000000000000000000000000000000";
   "00000000000000000000000000000000000000000000000000000000000000000000000000000000000000000000000000000000000000000000000000000000";
   "000000000000000000000000000000000000000000000000000000000000000000000000000000000000000000000000000000000f616d646174de02004c6176";
   "6335382e35342e313030000244ab5ae12c470aa0d4fe94aa560d4256dc159c37c566b2e932f24c16f03f4ac90bd3da94e6713952c6b9a4981473254dbff4fd29";
   "37b794b5dc6dcbb6b36ac6949954653329994cb48b48b4cb44ca24a24a25f09616d7f9f3bd87980a15df5b1315eed6d2ececececed6ccf3493553553686dfe4e";
   "69ba529575317130035ad75dd5d5d5d63bb97f1e8d2d60d436003af96b7756b6abd7e8f8cc8046e67401553d5084131bd7a7a41286985ff9ffc4740d0fa47c7e";
   "a1a7280781f71d09cfb602d50dc7f3fce27b801111e3fffedc101d8f015698d9d0ddaf079b50d632531e80747beaf9f6f5f8fcfeffb79eb9d54f8fe9ff7fe3f1";
   "f97e3e7d9dff8fff6ffdbfaffa7f4f3fafcf1301fa86522a2d4bfeb7f23fce2286e6f613ae14135d56552155559a512ea2d30add104162f230d4821620513536";
   "600c5c32e066ea9f90424edbbb31d9d16357911576f8c5bb24fad34d2981c7dbd9e55d1cb9f4d4cfb770a6bb8473ea11ba9ad55a01cb4ed46037617be12a660e";
   "370903d95a05ed0ad1db5064e8a1c85fd3efbb47a476d79fa05bb79c771eeff0a7a8e6cd7c1082c887d2d1eac9850e8917d086940f1d58e3e00132f598f6463d";
   "8948e457b2b37d7c835f1bd7ebfdfb79d39efdb7cfb6f9f8f7f8f0f3eff5f3edafb00629a9c71c7ad4b07c1a60b4ee91fcad6b60812179d66a8b7832013bcae6";
   "d8b50ccc833dd64fe64e008c831830c3c0fe3990c30199ce4f396318e702b4bc63bfe20aace5a5ffbfa1d1c7143132d961b400e54005fdbcb21417d7559aad04";
   "8cc7472005fee800774877c0ddaf17ce8019f962718bd86b94c93000bf6001ee8005d14ab0db3947ca400e0cc2245e41da00bf280071eabc006a6706e026f05f";
   "840030e0013235a9ac541c058a453410842fd959aefb0f6d55b7eabe17bf5f15beb37d6f5b6b35df13c0e07700dc146467620eb2189348a01912fc0f7d30e4c8";
   "deefd3eeae4d5327e9b356359c553614db64fc31c1abbe1667e23b53b9cba2cc20a50e92e6bc859efb96816ae9b6c9e59a46712325414929b4e1687673858147";
   "62007dba4c026103be2f97ca7fd51bb9de88a6eae8006f2004fd541b73cf04012f13809fbd8dc2704249442b3da892c90048dadae39d33dc37e19dc73cf451ce";
   "f7ee2cbcd3acc070700122359976154d854961983edd7af6fdffaef9fd7f3515fafcdf3c765cca5e04996c75d89982827cd00de5bc1aef5034e0055d727ae781";
   "102537cf2c03e3ec8b631c72ee957020d1dd249dacffed800003d3741458da242bcf040352ab060d4829876af000002c68156e051640732160df26c051bf2015";
   "e139a023f39ebec0bdd4c409281434c16aedbad802be51d74d81b614059300856f017c9f84802baaeb6120d710082c0946c901cbf97500dfc0801724028b900d";
   "c0197d7f45c0010035802cab0cbde1ff1e7edf79df8f5fe9e3fafdf38f8f7d73edfc73f1ad73f6fbdfe8fabfcfde7e7f7cfcf1faff416f8ae3e514c749fea03c";
   "fd007f001cbbf58d73648562fe3759994aed3ae9bd915c5b7578b91cd36af71d9e26c73b557d05017f61ffa1846652bbce3af0217de9ced324e52fbd820c55ce";
   "00dfe9d4b10e8ea4c08974e4ddae49ac5803a2003e76001d4940bd2354150dfca28c677746880aecb6020f065424d2354b10cfc2281bb8201bb66cbc88393cea";
   "824d235641075c01876a015cd0012689669ec63ceba00023cd2e011a35a8287b4a12c2c4908890301112a9ff600000000000adcfbe0c0f6c0001ed39f19d93c4";
   "51bb5b849867cbb8ce91fa9f79c6f607d73fd04045207463c26c8518ce2eb66302c1c1d3ece20c07b600a0f580774e0068ec65d4a177f53599ca313e48b9ca31";
   "94f07666a08aa499e72a94421aa871f1cf3cd6741f81bfe99be5dbb6692ca81ed80283cffdd38bd5cf6c6e43c710832c677001f38002c1efc6b4adee5f2f100a";
   "56f720015bdca403cfe4adecbd67b402800001b9dc837d7e1b6b5f2f969586ac0800b000b0291ff1d2e001243599b6244c855c647ceb999af1bae438d6fca7a9";
   "5bd67b557aeb8789d4dfafa81f6c1ddc59981de436c5b2c3013a71bbffe9fdfc0bbb012256f089c44c2d1263c97428a3b0b3ab1a05642960acb5eebb9ad54359";
   "0aa7bcb229a1b882fef7f49a3db2ce6001f1c854312ce4bc5330000ebec830566178c4bb7fc64000aeefa000038c000660d4b30001c7fa00007fa78c800bc2b4";
   "5e0001c80003efed901fd9316eb1308f6401719b2c38012c35a5b62215864d6110d86476271589c56271bdbfc07dbf47ebdf3b7c6bf2ff9ff8ff9ff835b00001";
   "b005d5d674bc7fc0f83174295746d6e5272ba792ee3e26250a6e4a28279e750003dcee0cd9b017575741d0652000af11fd9710000000675c8f21e96549778e60";
   "002b5661a440000000023be8000377a673640017f5227191cea000000000000003df7411db458000000000015eeb600008fd0900000000fabe82851f16000000";
   "0000006c935ac1d0e380000002fd250000dddec0000000000000a33e86372c00000000000002fa26057a50001bfbc80001b8001c0128359420122d8d07622158";
   "5cb6230d86476271589c56271bff2de95f3fb3f777eefd67edc7e3fafe3f27e3f200003dae288a2e20f48a7e0b004b2cbe8cbfe5099404759125df8b32ee3384";
   "22f08a28a20009cd766a43440009f3ec80003e34be15e0000000000000ceb94dbbc0fd89cff6a0006cd626bdc0000000039dc90001bbf3ee60000f92d494fb68";
   "a00000000000007bae47ed880000000000000785f7200009fdbd800000009cd76dc18698000000000000012d4a2b5d935000000057cfb0002bd6e48000000000";
   "00013923bd97800000000000006d5ad21fce0001bbf060000696c000e0011a35a020683589852200a8402e2b0c96c4a2b148ec2a37c7fd38ff6adff77fd67fdb";
   "fe7fa663fe7fe35b00bc47c0f34cadf3f976ae52d4b5229229232a887431236d49edb90657436c02fae9ae97671bff77876200fae007afe3500000001bf9b82d";
   "49698ffeed9d0009ff75d20000ae68000ae573000077f451a3c0000000000000004bc98b8000000000000757200013ea800000001b9965403c00000000000000";
   "3d4f80cdc580000002f900001bb4c0006efdd64000000000000006e7cef90000e3da0002ff0c0007010235802c30131ec4c2942cbfa44dfe9d7ddcffabfeafe9";
   "fe27af6f5e3dffe7fbfefce7cf1f0fd1fbcf5ebf5bd0cb29d556ecaffe9756c4435528c901573047698894b5458600e99aad99e728726b8be3fbbe9e617afc7c";
   "c728ae83a4e261142b0e2618f5a0005ebfcc7d4a76a9adef7b363dd7002f5017ddbdef6005eba3c40016fb3ff3400038fcc0003cb72bd005eb51e1200056fda0";
   "001efd8000af2bd6a00350adf800007ddc80005fd5f6a0001e7d5a8001bdcf28000e012635a9105b0caac2c198aade6fdfbd695bfd1fab99c737b9f3fbfedf5c";
   "ef5df9787b4f5edbd74020819bc31cb8e24a34b51965f93260b67c261c3e61368e584289b70d436085f81f9870618dc73a79dab8863d0ff6df25b7214e4e7e17";
   "8591355a5eb5df3644899f8bf91d14938f11a92000002b96b41bb8ded91dcefb4ff2462539fd300b9beb80cb2f40801afc08b052806efd5395a520b5c82a7bb4";
   "002416c7ac50118f419482b35815e73bac00005776f41004b3805e3d2654060ea32640b005743605ca417abc1fcc360084025c8d3014dd7881d4cdc838011235";
   "a1b6274d8664f5f3edd71e3f6ff1f1fa77f5fd5f157f3f5cef3cf8f3e2ea8e331abee571d08d6432789d44f20e2adc292389611ab7feb942de8aa85d10e90478";
   "f658091e4e0a15f34008bae86ee1cc299f17b9f3e616e24e8f9f220796ee0117e974c42abaf694000001b91ad3832282967373e8960e4fd4220173bf50057320";
   "0b6fefa00d68a0197e75f38802984811f71cec0862a06eecd2046ee84056d4815f90f9fc809b017f2ffc2802dbe0074db280b74fb010c94033f8d00b84015f35";
   "f2dc404200ae76d480e74205b436dc8870011435a1483b14a6c324b0c86c2e2b1492c2a27e997e75f39aff9ffc3ebe52af00000004619c53dd0384653cb360f8";
   "d10cfed5fca2ed74c78ba8137471e23c5b4b52b5b200a6e86d4ad77e93ea59c0328d4e6d04381b6e0135f30e1504388de000001bc0e76a9ab8605e0e282abc47";
   "edb8c8b5cbad8814ddd6c482f3e5fa080000075c616000002b7eb747ebba212cdb80021bcb4880000000d04c006bf8480527be902f6b000000cd2d2d85e40000";
   "00c2cd28000001ee530649280000c1be4075368053a1901c5480d9f3900866065eed2b81e40000000a30700002bcf800b71901c48070010435a5b6274d864961";
   "9258a4effc1abecfd7f45e000000007a97a7af90b0846bfc5aaab706d40b049c6241e0a4f698999c8ae002a2f201b3f0a6016ddb520eca2c089f7dcc03361200";
   "0006e64c164dc2681b19013d57d6e6016dd603770520a6bf7d100000660616000000a36887e4f98109805e5f9bf14064d5011df2414dfd200bc96000003df393";
   "c9600000616694000006bdf7caf00000258c80e2480b73a80692c065f530156a033f17fdfb480424073a401ba004c00e012035a14a3b14a6c2e4b14b15e3db5c";
   "78f7fbfebfd39f8fb3db9d7879f0bcbc0001c03acc851730785c7bd0266f443251e12a3cbb33d0ee4c15cc448f40975f1cad2741009b6b6cdfa0c59b5b7761ea";
   "590113cee6a50b747a37209bf45c5026f8939400000099ec91665f462c8acda2b0cfbbffcb29059ce037706e014d7f6a0000014b30b00000041f21ce4bc00000";
   "0606600000ac7fb270a8086b00ddd3b10277742037e09037fd87fb96d0288037ff5befd205b0901d345814e3c00d8a01abf68c804ac0bfa0ff318008bc8073a5";
   "002a0073c9070106559596474585c96195989ff400000000000ff8f49f0aa99071fd13553bdb137af935c1e9fcc7cc7fdf9f7104b3d87fd5610b050e3a73f9e7";
   "8818771ede9e79e79e6a9d600e4ca4111d66d019ae0410448c0d1980891b4aa7d3cf31932033ec7d84600b5d00cb15a573379f04000018598580000188bd4b4a";
   "40c512065e0f8186180a2c05eb5500ae100b81779e79ebfc0f618402880561dc3d4b4f3cf390a901ab0021a320240556a75788028063fa2e201700ef630e60b4";
   "470114999af39a6eaf2618a4d050f4000003e2efaf39ee1ccc029f3078cadd669f2839279d90dadcf41267c87842583bd9cdb4b70b73349a9944d35718a6bba6";
   "a877ab197dcaca5933a2f3169775c8bd377abf2e880011663ca47b9b8251ea3fc87e44140acb42c0051262506e84443946e32e6e1a2438a40ede4e079f246e4e";
   "6f5627e54382bef32ac0e5dff769b0a611dd7e1cee96e8ddeca72a52267235a2b231e0f9841d505440bec1b2758a9af9ed134ee8893bc54ba6c2c1acd67a4fb7";
   "e41ff27ff461b3b21c011881b470011881b470"]%string.
