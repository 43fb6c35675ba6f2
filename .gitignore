.nra.cache
.lia.cache
.nia.cache
rocq/.lia.cache
rocq/.nra.cache
