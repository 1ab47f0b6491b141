-Q theories Verif
theories/Base/Words.v
theories/Base/Bytes.v
theories/Spec/MD.v
theories/Base/BlockBuffer.v
theories/Base/BlockBufferFacts.v
theories/Base/Digest.v
theories/Base/DigestFacts.v
theories/Base/Agree.v
theories/Base/Codec.v
theories/Base/MDFacts.v
theories/Base/Sched.v
theories/Spec/Roots.v
theories/Spec/SHA2.v
theories/Model/Sha2Consts.v
theories/Model/Sha256Soft.v
theories/Model/Sha512Soft.v
theories/Model/Sha2.v
theories/Proof/Sha2Spec.v
theories/Proof/Sha256Soft.v
theories/Proof/Sha512Soft.v
theories/Proof/Sha2.v
theories/Props/C09.v
theories/Props/C10.v
theories/Spec/SHA1.v
theories/Spec/MD5.v
theories/Spec/MD4.v
theories/Spec/MD2.v
theories/Spec/SM3.v
theories/Spec/RIPEMD.v
theories/Model/Sha1.v
theories/Proof/Sha1.v
theories/Base/Unroll.v
theories/Model/Md5.v
theories/Model/Md4.v
theories/Model/Md2.v
theories/Model/Sm3.v
theories/Proof/Md5.v
theories/Proof/Md4.v
theories/Proof/Sm3.v
theories/Proof/Md2.v
theories/Model/Ripemd.v
theories/Proof/Ripemd.v
theories/Props/C11.v
theories/Props/C12.v
theories/Props/C13.v
theories/Props/C14.v
theories/Props/C15.v
theories/Props/C16.v
theories/Base/Xof.v
theories/Base/XofFacts.v
theories/Spec/Keccak.v
theories/Model/Sha3.v
theories/Proof/Sha3.v
theories/Props/C17.v
theories/Props/C18.v
theories/Props/C19.v
theories/Spec/K12.v
theories/Model/K12.v
theories/Proof/K12.v
theories/Props/C20.v
theories/Spec/BLAKE2.v
theories/Model/Blake2.v
theories/Proof/Blake2.v
theories/Spec/Target.v
theories/Model/Blake2Target.v
theories/Proof/Blake2Target.v
theories/Props/C21.v
theories/Props/C22.v
theories/Props/C23.v
theories/Props/C24.v
theories/Base/ByteFacts.v
theories/Model/TigerTables.v
theories/Spec/Tiger.v
theories/Model/Tiger.v
theories/Proof/TigerSboxes.v
theories/Proof/Tiger.v
theories/Props/C25.v
theories/Spec/GF.v
theories/Proof/GF.v
theories/Spec/Whirlpool.v
theories/Model/WhirlpoolTables.v
theories/Model/Whirlpool.v
theories/Proof/Whirlpool.v
theories/Base/Limit.v
theories/Props/C26.v
theories/Spec/Groestl.v
theories/Model/GroestlTable.v
theories/Model/Groestl.v
theories/Proof/ColMatrix.v
theories/Proof/Groestl.v
theories/Props/C27.v
theories/Spec/KupynaTables.v
theories/Spec/Kupyna.v
theories/Model/KupynaTables.v
theories/Model/Kupyna.v
theories/Proof/Kupyna.v
theories/Props/C29.v
theories/Spec/StreebogTables.v
theories/Spec/Streebog.v
theories/Model/StreebogTables.v
theories/Model/Streebog.v
theories/Proof/Streebog.v
theories/Props/C30.v
theories/Spec/JH.v
theories/Model/JhTables.v
theories/Model/Jh.v
theories/Proof/Jh.v
theories/Props/C28.v
theories/Spec/GOST94.v
theories/Model/Gost94.v
theories/Proof/Gost94.v
theories/Props/C31.v
theories/Spec/Threefish.v
theories/Spec/Skein.v
theories/Model/Skein.v
theories/Proof/Skein.v
theories/Props/C32.v
theories/Model/ShabalTables.v
theories/Spec/Shabal.v
theories/Model/Shabal.v
theories/Proof/Shabal.v
theories/Props/C33.v
theories/Spec/FSB.v
theories/Model/Fsb.v
theories/Proof/Fsb.v
theories/Props/C34.v
theories/Spec/Ascon.v
theories/Model/Ascon.v
theories/Proof/Ascon.v
theories/Props/C36.v
theories/Spec/Belt.v
theories/Model/Belt.v
theories/Proof/Belt.v
theories/Props/C35.v
theories/Base/ResetFacts.v
theories/Spec/SHA1C.v
theories/Model/Sha1CheckedTables.v
theories/Model/Sha1Checked.v
theories/Proof/Sha1Checked.v
theories/Proof/Sha1CheckedProps.v
theories/Spec/Options.v
theories/Model/Sha1CheckedBuilder.v
theories/Proof/Sha1CheckedBuilder.v
theories/Props/C41.v
theories/Props/C42.v
theories/Props/C43.v
theories/Base/SplitFacts.v
theories/Base/HistoryFacts.v
theories/Spec/Sizes.v
theories/Model/VarSizes.v
theories/Model/Hashers.v
theories/Proof/VarSizes.v
theories/Proof/Hashers.v
theories/Proof/XofReads.v
theories/Props/C01.v
theories/Props/C02.v
theories/Props/C03.v
theories/Props/C04.v
theories/Props/C05.v
theories/Props/C06.v
theories/Props/C07.v
theories/Spec/Memory.v
theories/Model/Sha2Riscv.v
theories/Model/LoongLines.v
theories/Model/Loong.v
theories/Model/LoongCompress.v
theories/Model/Simd.v
theories/Model/Sha2Simd.v
theories/Model/Sha1Simd.v
theories/Model/Backends.v
theories/Proof/Loads.v
theories/Proof/Sha2Roll.v
theories/Proof/Sha2Riscv.v
theories/Proof/Sha2Loong.v
theories/Proof/Sha1Loong.v
theories/Proof/Md5Loong.v
theories/Proof/SimdFacts.v
theories/Proof/Sha256Simd.v
theories/Proof/Sha256Simd2.v
theories/Proof/Sha512Simd.v
theories/Proof/Sha512Arm.v
theories/Proof/Sha1Simd.v
theories/Proof/Backends.v
theories/Model/BackendHashers.v
theories/Proof/BackendHashers.v
theories/Props/C37.v
theories/Props/C38.v
theories/Props/C39.v
theories/Props/C40.v
theories/Proof/Encodings.v
theories/Props/C45.v
theories/Spec/Oids.v
theories/Model/Oids.v
theories/Proof/Oids.v
theories/Props/C48.v
theories/Spec/Collision.v
theories/Spec/Blocks.v
theories/Proof/Collision.v
theories/Proof/Padding.v
theories/Proof/HashCollisions.v
theories/Proof/PaddedHashers.v
theories/Props/C44.v
theories/Spec/Domains.v
theories/Proof/Domains.v
theories/Props/C46.v
theories/Spec/Overflow.v
theories/Spec/Overflow2.v
theories/Base/Overflow.v
theories/Proof/Overflow.v
theories/Proof/Overflow2.v
theories/Props/C08.v
theories/Spec/Erase.v
theories/Model/Drop.v
theories/Proof/Drop.v
theories/Props/C49.v
theories/Props/C50.v
theories/Props/C51.v
theories/Props/C52.v
theories/Spec/Constants.v
theories/Proof/Constants.v
theories/Props/C47.v
theories/Spec/FlatMemory.v
theories/Model/LoongCpu.v
theories/Proof/LoongCpu.v
theories/Proof/LoongProgs.v
theories/Props/C53.v
theories/Proof/LoongTrace.v
theories/Props/C54.v
theories/Model/Pointers.v
theories/Proof/Pointers.v
theories/Proof/PointersRiscv.v
theories/Proof/PointersWhole.v
theories/Proof/PointersAccess.v
theories/Props/C55.v
theories/Spec/Resume.v
theories/Proof/Resume.v
theories/Props/C57.v
theories/Model/Names.v
theories/Proof/Names.v
theories/Props/C56.v
