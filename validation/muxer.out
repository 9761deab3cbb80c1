opus identical 41a234ed94b4403dcc328e7c48980fb8da1e6dfa2c318646c80edc3e
opusvp9 identical 233d9aede74aa7ab2a7dc1d19f13a32e48c3224a16c3ed72c4263ffe
opusvp9_faststart identical 1a950258de1e06b57fbd3f309b4f592db1d327e0f0c3947b4b278d69
mp3vp8 identical 2bca2680fbd1eb560cde59f959b531e42aad8d282f26fdfe11cf865c
aacvp9 identical 57c737e67224eb5472ecc419443ac813f0009534212f8c227c5087cb
aacvp9_faststart identical 3723f9c8fbd325c694d738436f62e3e498de656c01f9049042cd6a2d
opusav1 identical ca71a3b2264a1d08fe0a2cbe0d8acb2be25e5a3908d3c05de0539d13
aach264 identical dea43f01d19b32c8a58477092fc84e40ccf63769b24d79ec2521d16d
aach264_faststart identical 9833c1de3880ba1beb3ea4ad1ebf6ddfd39ae3b80b267f60ba27d61b
