rocq/.nia.cache
rocq/theories/.nia.cache
.nra.cache
.lia.cache
.nia.cache
