*.nra.cache
.nra.cache
.lia.cache
