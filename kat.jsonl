{"build": "PureGo64", "test": "TestPointDerive test", "agrees": true}
{"build": "PureGo64", "test": "TestPointDerive pep", "agrees": true}
{"build": "PureGo64", "test": "TestPointDerive ristretto", "agrees": true}
{"build": "PureGo64", "test": "TestPointDerive elligator", "agrees": true}
{"build": "PureGo64", "test": "TestRistretto255TestVectors multiple 0", "agrees": true}
{"build": "PureGo64", "test": "TestRistretto255TestVectors multiple 1", "agrees": true}
{"build": "PureGo64", "test": "TestRistretto255TestVectors multiple 2", "agrees": true}
{"build": "PureGo64", "test": "TestRistretto255TestVectors multiple 3", "agrees": true}
{"build": "PureGo64", "test": "TestRistretto255TestVectors multiple 4", "agrees": true}
{"build": "PureGo64", "test": "TestRistretto255TestVectors multiple 5", "agrees": true}
{"build": "PureGo64", "test": "TestRistretto255TestVectors multiple 6", "agrees": true}
{"build": "PureGo64", "test": "TestRistretto255TestVectors multiple 7", "agrees": true}
{"build": "PureGo64", "test": "TestRistretto255TestVectors multiple 8", "agrees": true}
{"build": "PureGo64", "test": "TestRistretto255TestVectors multiple 9", "agrees": true}
{"build": "PureGo64", "test": "TestRistretto255TestVectors multiple 10", "agrees": true}
{"build": "PureGo64", "test": "TestRistretto255TestVectors multiple 11", "agrees": true}
{"build": "PureGo64", "test": "TestRistretto255TestVectors multiple 12", "agrees": true}
{"build": "PureGo64", "test": "TestRistretto255TestVectors multiple 13", "agrees": true}
{"build": "PureGo64", "test": "TestRistretto255TestVectors multiple 14", "agrees": true}
{"build": "PureGo64", "test": "TestRistretto255TestVectors multiple 15", "agrees": true}
{"build": "PureGo64", "test": "TestRistretto255TestVectors bad 00ffffffffffffffffffffffffffffffffffffffffffffffffffffffffffffff", "agrees": true}
{"build": "PureGo64", "test": "TestRistretto255TestVectors bad ffffffffffffffffffffffffffffffffffffffffffffffffffffffffffffff7f", "agrees": true}
{"build": "PureGo64", "test": "TestRistretto255TestVectors bad f3ffffffffffffffffffffffffffffffffffffffffffffffffffffffffffff7f", "agrees": true}
{"build": "PureGo64", "test": "TestRistretto255TestVectors bad edffffffffffffffffffffffffffffffffffffffffffffffffffffffffffff7f", "agrees": true}
{"build": "PureGo64", "test": "TestRistretto255TestVectors bad 0100000000000000000000000000000000000000000000000000000000000000", "agrees": true}
{"build": "PureGo64", "test": "TestRistretto255TestVectors bad 01ffffffffffffffffffffffffffffffffffffffffffffffffffffffffffff7f", "agrees": true}
{"build": "PureGo64", "test": "TestRistretto255TestVectors bad ed57ffd8c914fb201471d1c3d245ce3c746fcbe63a3679d51b6a516ebebe0e20", "agrees": true}
{"build": "PureGo64", "test": "TestRistretto255TestVectors bad c34c4e1826e5d403b78e246e88aa051c36ccf0aafebffe137d148a2bf9104562", "agrees": true}
{"build": "PureGo64", "test": "TestRistretto255TestVectors bad c940e5a4404157cfb1628b108db051a8d439e1a421394ec4ebccb9ec92a8ac78", "agrees": true}
{"build": "PureGo64", "test": "TestRistretto255TestVectors bad 47cfc5497c53dc8e61c91d17fd626ffb1c49e2bca94eed052281b510b1117a24", "agrees": true}
{"build": "PureGo64", "test": "TestRistretto255TestVectors bad f1c6165d33367351b0da8f6e4511010c68174a03b6581212c71c0e1d026c3c72", "agrees": true}
{"build": "PureGo64", "test": "TestRistretto255TestVectors bad 87260f7a2f12495118360f02c26a470f450dadf34a413d21042b43b9d93e1309", "agrees": true}
{"build": "PureGo64", "test": "TestRistretto255TestVectors bad 26948d35ca62e643e26a83177332e6b6afeb9d08e4268b650f1f5bbd8d81d371", "agrees": true}
{"build": "PureGo64", "test": "TestRistretto255TestVectors bad 4eac077a713c57b4f4397629a4145982c661f48044dd3f96427d40b147d9742f", "agrees": true}
{"build": "PureGo64", "test": "TestRistretto255TestVectors bad de6a7b00deadc788eb6b6c8d20c0ae96c2f2019078fa604fee5b87d6e989ad7b", "agrees": true}
{"build": "PureGo64", "test": "TestRistretto255TestVectors bad bcab477be20861e01e4a0e295284146a510150d9817763caf1a6f4b422d67042", "agrees": true}
{"build": "PureGo64", "test": "TestRistretto255TestVectors bad 2a292df7e32cababbd9de088d1d1abec9fc0440f637ed2fba145094dc14bea08", "agrees": true}
{"build": "PureGo64", "test": "TestRistretto255TestVectors bad f4a9e534fc0d216c44b218fa0c42d99635a0127ee2e53c712f70609649fdff22", "agrees": true}
{"build": "PureGo64", "test": "TestRistretto255TestVectors bad 8268436f8c4126196cf64b3c7ddbda90746a378625f9813dd9b8457077256731", "agrees": true}
{"build": "PureGo64", "test": "TestRistretto255TestVectors bad 2810e5cbc2cc4d4eece54f61c6f69758e289aa7ab440b3cbeaa21995c2f4232b", "agrees": true}
{"build": "PureGo64", "test": "TestRistretto255TestVectors bad 3eb858e78f5a7254d8c9731174a94f76755fd3941c0ac93735c07ba14579630e", "agrees": true}
{"build": "PureGo64", "test": "TestRistretto255TestVectors bad a45fdc55c76448c049a1ab33f17023edfb2be3581e9c7aade8a6125215e04220", "agrees": true}
{"build": "PureGo64", "test": "TestRistretto255TestVectors bad d483fe813c6ba647ebbfd3ec41adca1c6130c2beeee9d9bf065c8d151c5f396e", "agrees": true}
{"build": "PureGo64", "test": "TestRistretto255TestVectors bad 8a2e1d30050198c65a54483123960ccc38aef6848e1ec8f5f780e8523769ba32", "agrees": true}
{"build": "PureGo64", "test": "TestRistretto255TestVectors bad 32888462f8b486c68ad7dd9610be5192bbeaf3b443951ac1a8118419d9fa097b", "agrees": true}
{"build": "PureGo64", "test": "TestRistretto255TestVectors bad 227142501b9d4355ccba290404bde41575b037693cef1f438c47f8fbf35d1165", "agrees": true}
{"build": "PureGo64", "test": "TestRistretto255TestVectors bad 5c37cc491da847cfeb9281d407efc41e15144c876e0170b499a96a22ed31e01e", "agrees": true}
{"build": "PureGo64", "test": "TestRistretto255TestVectors bad 445425117cb8c90edcbc7c1cc0e74f747f2c1efa5630a967c64f287792a48a4b", "agrees": true}
{"build": "PureGo64", "test": "TestRistretto255TestVectors bad ecffffffffffffffffffffffffffffffffffffffffffffffffffffffffffff7f", "agrees": true}
{"build": "PureGo64", "test": "TestRistretto255TestVectors hash Ristretto is traditionally a short shot of espresso coffee", "agrees": true}
{"build": "PureGo64", "test": "TestRistretto255TestVectors hash made with the normal amount of ground coffee but extracted with", "agrees": true}
{"build": "PureGo64", "test": "TestRistretto255TestVectors hash about half the amount of water in the same amount of time", "agrees": true}
{"build": "PureGo64", "test": "TestRistretto255TestVectors hash by using a finer grind.", "agrees": true}
{"build": "PureGo64", "test": "TestRistretto255TestVectors hash This produces a concentrated shot of coffee per volume.", "agrees": true}
{"build": "PureGo64", "test": "TestRistretto255TestVectors hash Just pulling a normal shot short will produce a weaker shot", "agrees": true}
{"build": "PureGo64", "test": "TestRistretto255TestVectors hash and is not a Ristretto as some believe.", "agrees": true}
{"build": "PureGo64", "test": "TestLizardVectors 00000000000000000000000000000000", "agrees": true}
{"build": "PureGo64", "test": "TestLizardInjective on 00000000000000000000000000000000", "agrees": true}
{"build": "PureGo64", "test": "TestLizardVectors 01010101010101010101010101010101", "agrees": true}
{"build": "PureGo64", "test": "TestLizardInjective on 01010101010101010101010101010101", "agrees": true}
{"build": "PureGo64", "test": "TestScDeriveShort test1", "agrees": true}
{"build": "PureGo64", "test": "TestScDeriveShort ristretto", "agrees": true}
{"build": "PureGo64", "test": "TestScDeriveShort decaf", "agrees": true}
{"build": "PureGo64", "test": "TestScDerive test1", "agrees": true}
{"build": "PureGo64", "test": "TestScDerive ristretto", "agrees": true}
{"build": "PureGo64", "test": "TestScDerive decaf", "agrees": true}
{"build": "PureGo64", "test": "TestIssue14", "agrees": true}
{"build": "Amd64", "test": "TestPointDerive test", "agrees": true}
{"build": "Amd64", "test": "TestPointDerive pep", "agrees": true}
{"build": "Amd64", "test": "TestPointDerive ristretto", "agrees": true}
{"build": "Amd64", "test": "TestPointDerive elligator", "agrees": true}
{"build": "Amd64", "test": "TestRistretto255TestVectors multiple 0", "agrees": true}
{"build": "Amd64", "test": "TestRistretto255TestVectors multiple 1", "agrees": true}
{"build": "Amd64", "test": "TestRistretto255TestVectors multiple 2", "agrees": true}
{"build": "Amd64", "test": "TestRistretto255TestVectors multiple 3", "agrees": true}
{"build": "Amd64", "test": "TestRistretto255TestVectors multiple 4", "agrees": true}
{"build": "Amd64", "test": "TestRistretto255TestVectors multiple 5", "agrees": true}
{"build": "Amd64", "test": "TestRistretto255TestVectors multiple 6", "agrees": true}
{"build": "Amd64", "test": "TestRistretto255TestVectors multiple 7", "agrees": true}
{"build": "Amd64", "test": "TestRistretto255TestVectors multiple 8", "agrees": true}
{"build": "Amd64", "test": "TestRistretto255TestVectors multiple 9", "agrees": true}
{"build": "Amd64", "test": "TestRistretto255TestVectors multiple 10", "agrees": true}
{"build": "Amd64", "test": "TestRistretto255TestVectors multiple 11", "agrees": true}
{"build": "Amd64", "test": "TestRistretto255TestVectors multiple 12", "agrees": true}
{"build": "Amd64", "test": "TestRistretto255TestVectors multiple 13", "agrees": true}
{"build": "Amd64", "test": "TestRistretto255TestVectors multiple 14", "agrees": true}
{"build": "Amd64", "test": "TestRistretto255TestVectors multiple 15", "agrees": true}
{"build": "Amd64", "test": "TestRistretto255TestVectors bad 00ffffffffffffffffffffffffffffffffffffffffffffffffffffffffffffff", "agrees": true}
{"build": "Amd64", "test": "TestRistretto255TestVectors bad ffffffffffffffffffffffffffffffffffffffffffffffffffffffffffffff7f", "agrees": true}
{"build": "Amd64", "test": "TestRistretto255TestVectors bad f3ffffffffffffffffffffffffffffffffffffffffffffffffffffffffffff7f", "agrees": true}
{"build": "Amd64", "test": "TestRistretto255TestVectors bad edffffffffffffffffffffffffffffffffffffffffffffffffffffffffffff7f", "agrees": true}
{"build": "Amd64", "test": "TestRistretto255TestVectors bad 0100000000000000000000000000000000000000000000000000000000000000", "agrees": true}
{"build": "Amd64", "test": "TestRistretto255TestVectors bad 01ffffffffffffffffffffffffffffffffffffffffffffffffffffffffffff7f", "agrees": true}
{"build": "Amd64", "test": "TestRistretto255TestVectors bad ed57ffd8c914fb201471d1c3d245ce3c746fcbe63a3679d51b6a516ebebe0e20", "agrees": true}
{"build": "Amd64", "test": "TestRistretto255TestVectors bad c34c4e1826e5d403b78e246e88aa051c36ccf0aafebffe137d148a2bf9104562", "agrees": true}
{"build": "Amd64", "test": "TestRistretto255TestVectors bad c940e5a4404157cfb1628b108db051a8d439e1a421394ec4ebccb9ec92a8ac78", "agrees": true}
{"build": "Amd64", "test": "TestRistretto255TestVectors bad 47cfc5497c53dc8e61c91d17fd626ffb1c49e2bca94eed052281b510b1117a24", "agrees": true}
{"build": "Amd64", "test": "TestRistretto255TestVectors bad f1c6165d33367351b0da8f6e4511010c68174a03b6581212c71c0e1d026c3c72", "agrees": true}
{"build": "Amd64", "test": "TestRistretto255TestVectors bad 87260f7a2f12495118360f02c26a470f450dadf34a413d21042b43b9d93e1309", "agrees": true}
{"build": "Amd64", "test": "TestRistretto255TestVectors bad 26948d35ca62e643e26a83177332e6b6afeb9d08e4268b650f1f5bbd8d81d371", "agrees": true}
{"build": "Amd64", "test": "TestRistretto255TestVectors bad 4eac077a713c57b4f4397629a4145982c661f48044dd3f96427d40b147d9742f", "agrees": true}
{"build": "Amd64", "test": "TestRistretto255TestVectors bad de6a7b00deadc788eb6b6c8d20c0ae96c2f2019078fa604fee5b87d6e989ad7b", "agrees": true}
{"build": "Amd64", "test": "TestRistretto255TestVectors bad bcab477be20861e01e4a0e295284146a510150d9817763caf1a6f4b422d67042", "agrees": true}
{"build": "Amd64", "test": "TestRistretto255TestVectors bad 2a292df7e32cababbd9de088d1d1abec9fc0440f637ed2fba145094dc14bea08", "agrees": true}
{"build": "Amd64", "test": "TestRistretto255TestVectors bad f4a9e534fc0d216c44b218fa0c42d99635a0127ee2e53c712f70609649fdff22", "agrees": true}
{"build": "Amd64", "test": "TestRistretto255TestVectors bad 8268436f8c4126196cf64b3c7ddbda90746a378625f9813dd9b8457077256731", "agrees": true}
{"build": "Amd64", "test": "TestRistretto255TestVectors bad 2810e5cbc2cc4d4eece54f61c6f69758e289aa7ab440b3cbeaa21995c2f4232b", "agrees": true}
{"build": "Amd64", "test": "TestRistretto255TestVectors bad 3eb858e78f5a7254d8c9731174a94f76755fd3941c0ac93735c07ba14579630e", "agrees": true}
{"build": "Amd64", "test": "TestRistretto255TestVectors bad a45fdc55c76448c049a1ab33f17023edfb2be3581e9c7aade8a6125215e04220", "agrees": true}
{"build": "Amd64", "test": "TestRistretto255TestVectors bad d483fe813c6ba647ebbfd3ec41adca1c6130c2beeee9d9bf065c8d151c5f396e", "agrees": true}
{"build": "Amd64", "test": "TestRistretto255TestVectors bad 8a2e1d30050198c65a54483123960ccc38aef6848e1ec8f5f780e8523769ba32", "agrees": true}
{"build": "Amd64", "test": "TestRistretto255TestVectors bad 32888462f8b486c68ad7dd9610be5192bbeaf3b443951ac1a8118419d9fa097b", "agrees": true}
{"build": "Amd64", "test": "TestRistretto255TestVectors bad 227142501b9d4355ccba290404bde41575b037693cef1f438c47f8fbf35d1165", "agrees": true}
{"build": "Amd64", "test": "TestRistretto255TestVectors bad 5c37cc491da847cfeb9281d407efc41e15144c876e0170b499a96a22ed31e01e", "agrees": true}
{"build": "Amd64", "test": "TestRistretto255TestVectors bad 445425117cb8c90edcbc7c1cc0e74f747f2c1efa5630a967c64f287792a48a4b", "agrees": true}
{"build": "Amd64", "test": "TestRistretto255TestVectors bad ecffffffffffffffffffffffffffffffffffffffffffffffffffffffffffff7f", "agrees": true}
{"build": "Amd64", "test": "TestRistretto255TestVectors hash Ristretto is traditionally a short shot of espresso coffee", "agrees": true}
{"build": "Amd64", "test": "TestRistretto255TestVectors hash made with the normal amount of ground coffee but extracted with", "agrees": true}
{"build": "Amd64", "test": "TestRistretto255TestVectors hash about half the amount of water in the same amount of time", "agrees": true}
{"build": "Amd64", "test": "TestRistretto255TestVectors hash by using a finer grind.", "agrees": true}
{"build": "Amd64", "test": "TestRistretto255TestVectors hash This produces a concentrated shot of coffee per volume.", "agrees": true}
{"build": "Amd64", "test": "TestRistretto255TestVectors hash Just pulling a normal shot short will produce a weaker shot", "agrees": true}
{"build": "Amd64", "test": "TestRistretto255TestVectors hash and is not a Ristretto as some believe.", "agrees": true}
{"build": "Amd64", "test": "TestLizardVectors 00000000000000000000000000000000", "agrees": true}
{"build": "Amd64", "test": "TestLizardInjective on 00000000000000000000000000000000", "agrees": true}
{"build": "Amd64", "test": "TestLizardVectors 01010101010101010101010101010101", "agrees": true}
{"build": "Amd64", "test": "TestLizardInjective on 01010101010101010101010101010101", "agrees": true}
{"build": "Amd64", "test": "TestScDeriveShort test1", "agrees": true}
{"build": "Amd64", "test": "TestScDeriveShort ristretto", "agrees": true}
{"build": "Amd64", "test": "TestScDeriveShort decaf", "agrees": true}
{"build": "Amd64", "test": "TestScDerive test1", "agrees": true}
{"build": "Amd64", "test": "TestScDerive ristretto", "agrees": true}
{"build": "Amd64", "test": "TestScDerive decaf", "agrees": true}
{"build": "Amd64", "test": "TestIssue14", "agrees": true}
{"build": "Generic", "test": "TestPointDerive test", "agrees": true}
{"build": "Generic", "test": "TestPointDerive pep", "agrees": true}
{"build": "Generic", "test": "TestPointDerive ristretto", "agrees": true}
{"build": "Generic", "test": "TestPointDerive elligator", "agrees": true}
{"build": "Generic", "test": "TestRistretto255TestVectors multiple 0", "agrees": true}
{"build": "Generic", "test": "TestRistretto255TestVectors multiple 1", "agrees": true}
{"build": "Generic", "test": "TestRistretto255TestVectors multiple 2", "agrees": true}
{"build": "Generic", "test": "TestRistretto255TestVectors multiple 3", "agrees": true}
{"build": "Generic", "test": "TestRistretto255TestVectors multiple 4", "agrees": true}
{"build": "Generic", "test": "TestRistretto255TestVectors multiple 5", "agrees": true}
{"build": "Generic", "test": "TestRistretto255TestVectors multiple 6", "agrees": true}
{"build": "Generic", "test": "TestRistretto255TestVectors multiple 7", "agrees": true}
{"build": "Generic", "test": "TestRistretto255TestVectors multiple 8", "agrees": true}
{"build": "Generic", "test": "TestRistretto255TestVectors multiple 9", "agrees": true}
{"build": "Generic", "test": "TestRistretto255TestVectors multiple 10", "agrees": true}
{"build": "Generic", "test": "TestRistretto255TestVectors multiple 11", "agrees": true}
{"build": "Generic", "test": "TestRistretto255TestVectors multiple 12", "agrees": true}
{"build": "Generic", "test": "TestRistretto255TestVectors multiple 13", "agrees": true}
{"build": "Generic", "test": "TestRistretto255TestVectors multiple 14", "agrees": true}
{"build": "Generic", "test": "TestRistretto255TestVectors multiple 15", "agrees": true}
{"build": "Generic", "test": "TestRistretto255TestVectors bad 00ffffffffffffffffffffffffffffffffffffffffffffffffffffffffffffff", "agrees": true}
{"build": "Generic", "test": "TestRistretto255TestVectors bad ffffffffffffffffffffffffffffffffffffffffffffffffffffffffffffff7f", "agrees": true}
{"build": "Generic", "test": "TestRistretto255TestVectors bad f3ffffffffffffffffffffffffffffffffffffffffffffffffffffffffffff7f", "agrees": true}
{"build": "Generic", "test": "TestRistretto255TestVectors bad edffffffffffffffffffffffffffffffffffffffffffffffffffffffffffff7f", "agrees": true}
{"build": "Generic", "test": "TestRistretto255TestVectors bad 0100000000000000000000000000000000000000000000000000000000000000", "agrees": true}
{"build": "Generic", "test": "TestRistretto255TestVectors bad 01ffffffffffffffffffffffffffffffffffffffffffffffffffffffffffff7f", "agrees": true}
{"build": "Generic", "test": "TestRistretto255TestVectors bad ed57ffd8c914fb201471d1c3d245ce3c746fcbe63a3679d51b6a516ebebe0e20", "agrees": true}
{"build": "Generic", "test": "TestRistretto255TestVectors bad c34c4e1826e5d403b78e246e88aa051c36ccf0aafebffe137d148a2bf9104562", "agrees": true}
{"build": "Generic", "test": "TestRistretto255TestVectors bad c940e5a4404157cfb1628b108db051a8d439e1a421394ec4ebccb9ec92a8ac78", "agrees": true}
{"build": "Generic", "test": "TestRistretto255TestVectors bad 47cfc5497c53dc8e61c91d17fd626ffb1c49e2bca94eed052281b510b1117a24", "agrees": true}
{"build": "Generic", "test": "TestRistretto255TestVectors bad f1c6165d33367351b0da8f6e4511010c68174a03b6581212c71c0e1d026c3c72", "agrees": true}
{"build": "Generic", "test": "TestRistretto255TestVectors bad 87260f7a2f12495118360f02c26a470f450dadf34a413d21042b43b9d93e1309", "agrees": true}
{"build": "Generic", "test": "TestRistretto255TestVectors bad 26948d35ca62e643e26a83177332e6b6afeb9d08e4268b650f1f5bbd8d81d371", "agrees": true}
{"build": "Generic", "test": "TestRistretto255TestVectors bad 4eac077a713c57b4f4397629a4145982c661f48044dd3f96427d40b147d9742f", "agrees": true}
{"build": "Generic", "test": "TestRistretto255TestVectors bad de6a7b00deadc788eb6b6c8d20c0ae96c2f2019078fa604fee5b87d6e989ad7b", "agrees": true}
{"build": "Generic", "test": "TestRistretto255TestVectors bad bcab477be20861e01e4a0e295284146a510150d9817763caf1a6f4b422d67042", "agrees": true}
{"build": "Generic", "test": "TestRistretto255TestVectors bad 2a292df7e32cababbd9de088d1d1abec9fc0440f637ed2fba145094dc14bea08", "agrees": true}
{"build": "Generic", "test": "TestRistretto255TestVectors bad f4a9e534fc0d216c44b218fa0c42d99635a0127ee2e53c712f70609649fdff22", "agrees": true}
{"build": "Generic", "test": "TestRistretto255TestVectors bad 8268436f8c4126196cf64b3c7ddbda90746a378625f9813dd9b8457077256731", "agrees": true}
{"build": "Generic", "test": "TestRistretto255TestVectors bad 2810e5cbc2cc4d4eece54f61c6f69758e289aa7ab440b3cbeaa21995c2f4232b", "agrees": true}
{"build": "Generic", "test": "TestRistretto255TestVectors bad 3eb858e78f5a7254d8c9731174a94f76755fd3941c0ac93735c07ba14579630e", "agrees": true}
{"build": "Generic", "test": "TestRistretto255TestVectors bad a45fdc55c76448c049a1ab33f17023edfb2be3581e9c7aade8a6125215e04220", "agrees": true}
{"build": "Generic", "test": "TestRistretto255TestVectors bad d483fe813c6ba647ebbfd3ec41adca1c6130c2beeee9d9bf065c8d151c5f396e", "agrees": true}
{"build": "Generic", "test": "TestRistretto255TestVectors bad 8a2e1d30050198c65a54483123960ccc38aef6848e1ec8f5f780e8523769ba32", "agrees": true}
{"build": "Generic", "test": "TestRistretto255TestVectors bad 32888462f8b486c68ad7dd9610be5192bbeaf3b443951ac1a8118419d9fa097b", "agrees": true}
{"build": "Generic", "test": "TestRistretto255TestVectors bad 227142501b9d4355ccba290404bde41575b037693cef1f438c47f8fbf35d1165", "agrees": true}
{"build": "Generic", "test": "TestRistretto255TestVectors bad 5c37cc491da847cfeb9281d407efc41e15144c876e0170b499a96a22ed31e01e", "agrees": true}
{"build": "Generic", "test": "TestRistretto255TestVectors bad 445425117cb8c90edcbc7c1cc0e74f747f2c1efa5630a967c64f287792a48a4b", "agrees": true}
{"build": "Generic", "test": "TestRistretto255TestVectors bad ecffffffffffffffffffffffffffffffffffffffffffffffffffffffffffff7f", "agrees": true}
{"build": "Generic", "test": "TestRistretto255TestVectors hash Ristretto is traditionally a short shot of espresso coffee", "agrees": true}
{"build": "Generic", "test": "TestRistretto255TestVectors hash made with the normal amount of ground coffee but extracted with", "agrees": true}
{"build": "Generic", "test": "TestRistretto255TestVectors hash about half the amount of water in the same amount of time", "agrees": true}
{"build": "Generic", "test": "TestRistretto255TestVectors hash by using a finer grind.", "agrees": true}
{"build": "Generic", "test": "TestRistretto255TestVectors hash This produces a concentrated shot of coffee per volume.", "agrees": true}
{"build": "Generic", "test": "TestRistretto255TestVectors hash Just pulling a normal shot short will produce a weaker shot", "agrees": true}
{"build": "Generic", "test": "TestRistretto255TestVectors hash and is not a Ristretto as some believe.", "agrees": true}
{"build": "Generic", "test": "TestLizardVectors 00000000000000000000000000000000", "agrees": true}
{"build": "Generic", "test": "TestLizardInjective on 00000000000000000000000000000000", "agrees": true}
{"build": "Generic", "test": "TestLizardVectors 01010101010101010101010101010101", "agrees": true}
{"build": "Generic", "test": "TestLizardInjective on 01010101010101010101010101010101", "agrees": true}
{"build": "Generic", "test": "TestScDeriveShort test1", "agrees": true}
{"build": "Generic", "test": "TestScDeriveShort ristretto", "agrees": true}
{"build": "Generic", "test": "TestScDeriveShort decaf", "agrees": true}
{"build": "Generic", "test": "TestScDerive test1", "agrees": true}
{"build": "Generic", "test": "TestScDerive ristretto", "agrees": true}
{"build": "Generic", "test": "TestScDerive decaf", "agrees": true}
{"build": "Generic", "test": "TestIssue14", "agrees": true}
{"build": "PureGo64", "test": "TestBaseScalarMultTable", "agrees": true}
{"build": "Generic", "test": "TestBaseScalarMultTable", "agrees": true}
